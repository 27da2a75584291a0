(** Embree-backed scenes: the geometry id, the double branch, dangling user pointers. *)

From Coq Require Import ZArith List Bool Arith Lia.
From Verif Require Import Num Vec Ray Bvh Traverse Sphere Plane Trimesh Cylinder Scene Embree EmbreeScene.
From Verif Require Import SpecBvh SpecScene SpecEmbScene PfBuild PfScene PfScene2.
Import ListNotations.

Section S.
Context {T : Type} {N : num T}.
Variable part : (nat -> bool) -> list nat -> list nat * list nat.
Variable tri : nat -> list (vec T) -> list (vec nat) -> rtc_rayhit T -> rtc_rayhit T.
Variable calls : escene T -> ray T -> list nat.

(** ** The geometry id is not written *)
Lemma single_geom ids s r rh hit rh' :
  e_intersect1 true tri ids s r rh = Ok (hit, rh') -> h_geom rh' = h_geom rh.
Proof.
  unfold e_intersect1. intros H. apply bind_ok in H as (q & _ & H).
  destruct (e_geom (rh_hit q)); injection H as <- <-; reflexivity.
Qed.
(** A miss leaves the record alone, a hit copies Embree's. *)
Lemma single_answer ids s r rh hit rh' :
  e_intersect1 true tri ids s r rh = Ok (hit, rh') ->
  exists q, intersect_calls tri s ids (rtc_start r) = Ok q /\
    (hit = true <-> e_geom (rh_hit q) <> None) /\ (hit = false -> rh' = rh) /\
    (hit = true -> h_distance rh' = r_tfar (rh_ray q) /\ h_prim rh' = e_prim (rh_hit q) /\
       h_normal rh' = e_ng (rh_hit q) /\ h_uv rh' = (e_u (rh_hit q), e_v (rh_hit q))).
Proof.
  unfold e_intersect1. intros H. apply bind_ok in H as (q & E & H). exists q. split; [exact E|].
  destruct (e_geom (rh_hit q)) eqn:Eg; injection H as <- <-.
  - split; [split; congruence|]. split; [discriminate|]. intros _. repeat split; reflexivity.
  - split; [split; congruence|]. split; [reflexivity|discriminate].
Qed.

(** ** Double precision *)
Notation run := (@run T N part).
Notation step := (@step T N part).
Notation drun := (@e_run T N part false tri calls).
Notation dstep := (@e_step T N part false tri calls).

Lemma e_run_app b cs1 : forall s cs2, e_run part b tri calls s (cs1 ++ cs2) =
  (do (s1, l1) <- e_run part b tri calls s cs1; do (s2, l2) <- e_run part b tri calls s1 cs2; Ok (s2, l1 ++ l2)).
Proof.
  induction cs1 as [|c cs1 IH]; intros s cs2.
  - cbn. destruct (e_run part b tri calls s cs2) as [[? ?]| |]; reflexivity.
  - cbn [app e_run]. destruct (e_step part b tri calls s c) as [[s1 a]| |]; [|reflexivity..]. cbn [bind]. rewrite IH.
    destruct (e_run part b tri calls s1 cs1) as [[s2 l2]| |]; [|reflexivity..]. cbn [bind].
    destruct (e_run part b tri calls s2 cs2) as [[s3 l3]| |]; reflexivity.
Qed.

Lemma dstep_same q c s a : c <> Commit \/ q_committed q = false -> step (q_blazert q) c = Ok (s, a) ->
  exists q', dstep q c = Ok (q', a) /\ q_blazert q' = s /\ (q_committed q' = true <-> q_committed q = true \/ c = Commit).
Proof.
  intros Hc H. destruct c; cbn in *; try (apply bind_ok in H as ([s1 a1] & E & H); injection H as <- <-; cbn; rewrite E; cbn).
  1-4: eexists; split; [reflexivity|]; split; [reflexivity|]; cbn; split; [auto|intros [|]; [assumption|discriminate]].
  - injection H as <- <-. eexists. split; [reflexivity|]. split; [reflexivity|]. cbn. split; [auto|intros [|]; [assumption|discriminate]].
  - apply bind_ok in H as (s1 & E & H). injection H as <- <-. destruct Hc as [[]|Hc]; [reflexivity|].
    unfold e_commit. rewrite Hc. rewrite E. cbn. eexists. split; [reflexivity|]. split; [reflexivity|]. cbn. tauto.
  - exists q. split; [reflexivity|]. split; [reflexivity|]. split; [auto|intros [|]; [assumption|discriminate]].
Qed.

Lemma double_same (Hpart : partition_ok part) opt cs : forall s l, run (new_scene opt) cs = Ok (s, l) ->
  exists q, drun (new_escene opt) cs = Ok (q, l) /\ (q_committed q = true <-> In Commit cs) /\
    forall more, mapr snd (run (q_blazert q) more) = mapr snd (run s more).
Proof.
  induction cs as [|c cs IH] using rev_ind; intros s l H.
  - cbn in H. injection H as <- <-. eexists. split; [reflexivity|]. cbn. split; [split; [discriminate|tauto]|reflexivity].
  - apply run_snoc in H as (s1 & l1 & a & E1 & E2 & ->).
    destruct (IH _ _ E1) as (q & Eq & Hq & Hm).
    assert (Hin : forall b : Prop, (b <-> q_committed q = true \/ c = Commit) -> (b <-> In Commit (cs ++ [c]))).
    { intros b ->. rewrite in_app_iff, Hq. cbn. intuition congruence. }
    rewrite e_run_app, Eq. cbn [bind].
    destruct (q_committed q) eqn:Ec.
    + assert (Hdec : c = Commit \/ c <> Commit) by (destruct c; auto; right; discriminate).
      destruct Hdec as [->|Hne].
      * cbn in E2. apply bind_ok in E2 as (s2 & E2 & X). injection X as <- <-.
        destruct (recommit part Hpart opt cs s1 l1 s2 E1 (proj1 Hq eq_refl) E2) as [_ B].
        exists q. cbn. unfold e_commit. rewrite Ec. cbn [bind app]. split; [reflexivity|].
        split; [apply Hin; tauto|]. intros more. rewrite B. apply Hm.
      * pose proof (Hm [c]) as H1. cbn [SpecScene.run] in H1. rewrite E2 in H1. cbn [bind mapr snd] in H1.
        destruct (step (q_blazert q) c) as [[b a']| |] eqn:Es; cbn in H1; try discriminate. injection H1 as ->.
        destruct (dstep_same q c b a (or_introl Hne) Es) as (q' & E' & <- & Hc').
        exists q'. cbn [e_run]. rewrite E'. cbn. split; [reflexivity|]. split; [apply Hin; rewrite Hc'; intuition congruence|].
        intros more. pose proof (Hm (c :: more)) as H2. cbn [SpecScene.run] in H2. rewrite E2, Es in H2. cbn [bind mapr] in H2.
        unfold mapr. destruct (run (q_blazert q') more) as [[? ?]| |], (run s more) as [[? ?]| |]; cbn in H2 |- *; congruence.
    + pose proof (Hm [c]) as H1. cbn [SpecScene.run] in H1. rewrite E2 in H1. cbn [bind mapr snd] in H1.
      destruct (step (q_blazert q) c) as [[b a']| |] eqn:Es; cbn in H1; try discriminate. injection H1 as ->.
      destruct (dstep_same q c b a (or_intror Ec) Es) as (q' & E' & <- & Hc').
      exists q'. cbn [e_run]. rewrite E'. cbn. split; [reflexivity|]. split; [apply Hin; rewrite Hc'; intuition congruence|].
      intros more. pose proof (Hm (c :: more)) as H2. cbn [SpecScene.run] in H2. rewrite E2, Es in H2. cbn [bind mapr] in H2.
      unfold mapr. destruct (run (q_blazert q') more) as [[? ?]| |], (run s more) as [[? ?]| |]; cbn in H2 |- *; congruence.
Qed.
Lemma double_replies (Hpart : partition_ok part) opt cs s l : run (new_scene opt) cs = Ok (s, l) ->
  exists q, drun (new_escene opt) cs = Ok (q, l).
Proof. intros H. destruct (double_same Hpart opt cs s l H) as (q & E & _). exists q. exact E. Qed.

(** ** Float: what is attached *)
Notation frun := (@e_run T N part true tri calls).

Definition owner (q : escene T) (k : kind) : option nat :=
  match k with KMesh => None | KSpheres => q_sphere q | KPlanes => q_plane q | KCylinders => q_cyl q end.
(** [k] is the last call of its kind. *)
Definition last_of (cs : list (call T)) (K : kind) (m : option nat) : Prop :=
  match m with
  | None => forall j c, nth_error cs j = Some c -> adds c <> Some K
  | Some k => (exists c, nth_error cs k = Some c /\ adds c = Some K) /\
      forall j c, nth_error cs j = Some c -> adds c = Some K -> (j <= k)%nat
  end.
Definition attached (cs : list (call T)) (q : escene T) : Prop :=
  length (q_geoms q) = length cs /\ q_built q = 0%nat /\ q_committed q = false /\
  (forall i c, nth_error cs i = Some c -> exists o, nth_error (q_geoms q) i = Some o /\ attaches i c o) /\
  forall K, K <> KMesh -> last_of cs K (owner q K).

Lemma snoc_nth {A} (l : list A) x i y : nth_error (l ++ [x]) i = Some y ->
  nth_error l i = Some y \/ i = length l /\ y = x.
Proof.
  intros H. destruct (Nat.lt_ge_cases i (length l)) as [Hi|Hi].
  - rewrite nth_error_app1 in H by exact Hi. auto.
  - rewrite nth_error_app2 in H by exact Hi. destruct (i - length l)%nat as [|[|n]] eqn:E; cbn in H; try discriminate.
    injection H as <-. right. split; [lia|reflexivity].
Qed.

Lemma last_of_snoc cs c K m m' : last_of cs K m ->
  (adds c = Some K -> m' = Some (length cs)) -> (adds c <> Some K -> m' = m) -> last_of (cs ++ [c]) K m'.
Proof.
  intros H H1 H2. assert (D : adds c = Some K \/ adds c <> Some K).
  { destruct (adds c) as [k|]; [|right; discriminate]. destruct k, K; (left; reflexivity) || (right; discriminate). }
  destruct D as [D|D].
  - rewrite (H1 D). split.
    + exists c. split; [|exact D]. rewrite nth_error_app2, Nat.sub_diag by lia. reflexivity.
    + intros j c' Hj _. assert (j < length (cs ++ [c]))%nat by (apply nth_error_Some; congruence).
      rewrite app_length in H0. cbn in H0. lia.
  - rewrite (H2 D). destruct m as [k|].
    + destruct H as [(c0 & E & A) L]. split.
      * exists c0. split; [|exact A]. rewrite nth_error_app1; [exact E|]. apply nth_error_Some. congruence.
      * intros j c' Hj Ha. apply snoc_nth in Hj as [Hj|[-> ->]]; [eauto|contradiction].
    + intros j c' Hj. apply snoc_nth in Hj as [Hj|[-> ->]]; [eauto|assumption].
Qed.

Lemma attached_snoc cs c q q' o : attached cs q -> attaches (length cs) c o ->
  q_geoms q' = q_geoms q ++ [o] -> q_built q' = 0%nat -> q_committed q' = false ->
  (forall K, K <> KMesh -> adds c = Some K -> owner q' K = Some (length cs)) ->
  (forall K, K <> KMesh -> adds c <> Some K -> owner q' K = owner q K) ->
  attached (cs ++ [c]) q'.
Proof.
  intros (L & _ & _ & G & O) Ha Eg Eb Ec H1 H2. repeat split; try assumption.
  - rewrite Eg, !app_length, L. reflexivity.
  - intros i c' Hi. rewrite Eg. apply snoc_nth in Hi as [Hi|[-> ->]].
    + destruct (G _ _ Hi) as (o' & E & A). exists o'. split; [|exact A].
      rewrite nth_error_app1; [exact E|]. apply nth_error_Some. congruence.
    + exists o. split; [|exact Ha]. rewrite <- L, nth_error_app2, Nat.sub_diag by lia. reflexivity.
  - intros K HK. apply last_of_snoc with (owner q K); auto.
Qed.

Lemma float_adds opt cs : (forall c, In c cs -> first_given c) ->
  exists q, frun (new_escene opt) cs = Ok (q, map (fun i => Id (Some i)) (seq 0 (length cs))) /\ attached cs q.
Proof.
  induction cs as [|c cs IH] using rev_ind; intros Hg.
  - eexists. split; [reflexivity|]. repeat split; try (intros [|?] ?; discriminate).
    intros K _. destruct K; cbn; intros [|?] ?; discriminate.
  - destruct IH as (q & E & A); [intros c' Hc'; apply Hg, in_app_iff; auto|].
    specialize (Hg c ltac:(apply in_app_iff; right; left; reflexivity)).
    rewrite e_run_app, E. cbn [bind]. rewrite app_length. cbn [length].
    rewrite seq_app, map_app. cbn [seq map plus].
    pose proof (proj1 A) as L. pose proof (proj1 (proj2 A)) as Eb. pose proof (proj1 (proj2 (proj2 A))) as Ec.
    destruct c as [vs fs|cs' rs|cs' xs ys ms|cs' sa sb hs ms|opt'| |r rh]; cbn in Hg; try contradiction.
    + cbn. rewrite L. eexists. split; [reflexivity|].
      eapply attached_snoc; [exact A| |cbn; reflexivity|exact Eb|exact Ec| |]; [repeat split; reflexivity| |].
      * intros [] HK X; cbn in X; congruence.
      * intros [] HK X; reflexivity.
    + destruct Hg as (H1 & H2). destruct cs' as [|c1 cs'], rs as [|r1 rs]; try congruence.
      cbn. rewrite L. eexists. split; [reflexivity|].
      eapply attached_snoc; [exact A| |cbn; reflexivity|exact Eb|exact Ec| |]; [repeat split; reflexivity| |].
      * intros [] HK X; cbn in X; try congruence. reflexivity.
      * intros [] HK X; cbn in X; try reflexivity. congruence.
    + destruct Hg as (H1 & H2 & H3 & H4).
      destruct cs' as [|c1 cs'], xs as [|x1 xs], ys as [|y1 ys], ms as [|m1 ms]; try congruence.
      cbn. rewrite L. eexists. split; [reflexivity|].
      eapply attached_snoc; [exact A| |cbn; reflexivity|exact Eb|exact Ec| |]; [repeat split; reflexivity| |].
      * intros [] HK X; cbn in X; try congruence. reflexivity.
      * intros [] HK X; cbn in X; try reflexivity. congruence.
    + destruct Hg as (H1 & H2 & H3 & H4 & H5).
      destruct cs' as [|c1 cs'], sa as [|a1 sa], sb as [|b1 sb], hs as [|h1 hs], ms as [|m1 ms]; try congruence.
      cbn. rewrite L. eexists. split; [reflexivity|].
      eapply attached_snoc; [exact A| |cbn; reflexivity|exact Eb|exact Ec| |]; [repeat split; reflexivity| |].
      * intros [] HK X; cbn in X; try congruence. reflexivity.
      * intros [] HK X; cbn in X; try reflexivity. congruence.
Qed.

(** A user pointer is live exactly if no later call added the same kind. *)
Lemma live_iff cs q i c o : attached cs q -> nth_error cs i = Some c -> attaches i c o ->
  live q i o = true <-> (adds c <> Some KMesh -> forall j c', nth_error cs j = Some c' -> adds c' = adds c -> (j <= i)%nat).
Proof.
  intros (_ & _ & _ & _ & O) Hi Ha.
  assert (Own : forall K, K <> KMesh -> adds c = Some K ->
    (match owner q K with Some k => Nat.eqb k i | None => false end = true <->
     forall j c', nth_error cs j = Some c' -> adds c' = Some K -> (j <= i)%nat)).
  { intros K HK Hc. specialize (O K HK). destruct (owner q K) as [k|]; cbn in O.
    - destruct O as [(c0 & E0 & A0) L]. split.
      + intros E. apply Nat.eqb_eq in E as ->. exact L.
      + intros H. apply Nat.eqb_eq. pose proof (L _ _ Hi Hc). pose proof (H _ _ E0 A0). lia.
    - split; [discriminate|]. destruct (O _ _ Hi Hc). }
  destruct c, o; cbn in Ha; try destruct Ha; cbn [adds live] in *.
  - split; [intros _ X; destruct X; reflexivity|reflexivity].
  - rewrite (Own KSpheres) by (reflexivity || discriminate). split; [auto|intros X; apply X; discriminate].
  - rewrite (Own KPlanes) by (reflexivity || discriminate). split; [auto|intros X; apply X; discriminate].
  - rewrite (Own KCylinders) by (reflexivity || discriminate). split; [auto|intros X; apply X; discriminate].
Qed.

Lemma bounds_calls_ok (q : escene T) l : forall g,
  (exists bs, bounds_calls q g l = Ok bs) <-> forall i o, nth_error l i = Some o -> live q (g + i) o = true.
Proof.
  induction l as [|o l IH]; intros g; cbn [bounds_calls].
  - split; [intros _ [|?] ? E; discriminate E|]. intros _. eexists; reflexivity.
  - split.
    + intros (bs & H). apply bind_ok in H as (b & Eb & H). apply bind_ok in H as (bs' & Eb' & _).
      intros [|i] o' E; cbn in E.
      * injection E as <-. rewrite Nat.add_0_r. unfold bounds_call in Eb. destruct (live q g o); [reflexivity|discriminate].
      * replace (g + S i)%nat with (S g + i)%nat by lia. apply (proj1 (IH (S g))); [eauto|exact E].
    + intros H. pose proof (H 0%nat o eq_refl) as H0. rewrite Nat.add_0_r in H0.
      destruct (proj2 (IH (S g))) as (bs & Eb).
      { intros i o' E. replace (S g + i)%nat with (g + S i)%nat by lia. apply H. exact E. }
      assert (exists b, bounds_call q g o = Ok b) as (b & E).
      { unfold bounds_call. rewrite H0. destruct o; eexists; reflexivity. }
      rewrite E, Eb. cbn. eexists; reflexivity.
Qed.

Lemma commit_iff cs q : attached cs q -> (forall c, In c cs -> first_given c) ->
  (exists q', e_commit part true q = Ok (q', true)) <-> each_once cs.
Proof.
  intros A Hg. pose proof A as (L & _ & Ec & G & _).
  assert (Ka : forall c, In c cs -> adds c <> None) by (intros c Hc; specialize (Hg c Hc); destruct c; cbn in *; try tauto; discriminate).
  assert (Hlive : each_once cs <-> forall i o, nth_error (q_geoms q) i = Some o -> live q (0 + i) o = true).
  { split.
    - intros H i o Ho. cbn. assert (Hi : (i < length cs)%nat) by (rewrite <- L; apply nth_error_Some; congruence).
      destruct (nth_error cs i) as [c|] eqn:Hc; [|apply nth_error_None in Hc; lia].
      destruct (G _ _ Hc) as (o' & E & At). assert (o' = o) by congruence. subst o'.
      apply (live_iff cs q i c o A Hc At). intros HK j c' Hj E'. rewrite (H i j c c' Hc Hj (eq_sym E') HK). lia.
    - intros H i j c c' Hi Hj E HK.
      destruct (G _ _ Hi) as (o & Eo & At). destruct (G _ _ Hj) as (o' & Eo' & At').
      pose proof (proj1 (live_iff cs q i c o A Hi At) (H _ _ Eo) HK j c' Hj (eq_sym E)).
      pose proof (proj1 (live_iff cs q j c' o' A Hj At') (H _ _ Eo') ltac:(congruence) i c Hi E). lia. }
  rewrite Hlive, <- bounds_calls_ok. unfold e_commit. rewrite Ec. split.
  - intros (q' & H). apply bind_ok in H as (bs & E & _). eauto.
  - intros (bs & E). rewrite E. cbn. eexists; reflexivity.
Qed.

(** Queries of a committed scene whose user pointers are all live. *)
Lemma call_ok_single q : (forall i o, nth_error (firstn (q_built q) (q_geoms q)) i = Some o -> live q i o = true) ->
  forall ids rh, (forall g, In g ids -> (g < length (firstn (q_built q) (q_geoms q)))%nat) ->
  exists rh', intersect_calls tri q ids rh = Ok rh'.
Proof.
  intros Hl ids. induction ids as [|g ids IH]; intros rh Hin; [eexists; reflexivity|]. cbn.
  assert (exists rh', intersect_call tri q g rh = Ok rh') as (rh' & E).
  { unfold intersect_call, at_. destruct (nth_error (firstn (q_built q) (q_geoms q)) g) as [o|] eqn:Eo.
    - cbn [bind]. rewrite (Hl _ _ Eo). destruct o; [eexists; reflexivity| | |].
      + unfold esphere_intersect, user, at_. cbn [nth_error bind negb]. cbv zeta.
        match goal with |- context [(if ?b then Ok rh else Ok ?y) = _] => destruct b end; eexists; reflexivity.
      + unfold eplane_intersect, user, at_. cbn [nth_error bind negb]. cbv zeta.
        repeat match goal with |- context [if ?b then Ok _ else _] => destruct b; [eexists; reflexivity|] end;
          try (eexists; reflexivity).
      + unfold ecyl_intersect, user, at_. cbn [nth_error bind negb]. cbv zeta.
        destruct (ecyl_local _ _ _ _ _ _) as [[? ?]|]; eexists; reflexivity.
    - exfalso. apply nth_error_None in Eo. pose proof (Hin g (or_introl eq_refl)). lia. }
  rewrite E. cbn. apply IH. intros g' Hg'. apply Hin. right. exact Hg'.
Qed.

Theorem float_defined opt cs : (forall c, In c cs -> first_given c) ->
  exists q, frun (new_escene opt) cs = Ok (q, map (fun i => Id (Some i)) (seq 0 (length cs))) /\
    (forall i c, nth_error cs i = Some c -> exists o, nth_error (q_geoms q) i = Some o /\ attaches i c o) /\
    (each_once cs -> exists q', e_commit part true q = Ok (q', true) /\ q_geoms q' = q_geoms q /\ q_built q' = length cs /\
       forall ids r rh, (forall g, In g ids -> (g < length cs)%nat) ->
         exists hit rh', e_intersect1 true tri ids q' r rh = Ok (hit, rh')) /\
    (~ each_once cs -> e_commit part true q = UB UBprim).
Proof.
  intros Hg. destruct (float_adds opt cs Hg) as (q & E & A). exists q. split; [exact E|].
  pose proof A as (L & _ & Ec & G & _). split; [exact G|]. split.
  - intros Ho. pose proof (proj2 (commit_iff cs q A Hg) Ho) as (q' & Eq).
    exists q'. split; [exact Eq|]. unfold e_commit in Eq. rewrite Ec in Eq. apply bind_ok in Eq as (bs & Eb & Eq).
    injection Eq as <-. split; [reflexivity|]. split; [exact L|]. intros ids r rh Hin. cbn [e_intersect1].
    set (q' := EScene _ _ _ _ _ _ _).
    assert (Hall : firstn (q_built q') (q_geoms q') = q_geoms q) by (cbn; apply firstn_all).
    destruct (call_ok_single q') with (ids := ids) (rh := rtc_start r) as (w & Ew).
    + rewrite Hall. intros i o Ei. apply (proj1 (bounds_calls_ok q (q_geoms q) 0) (ex_intro _ bs Eb) i o Ei).
    + rewrite Hall, L. exact Hin.
    + unfold e_intersect1. rewrite Ew. cbn. destruct (e_geom (rh_hit w)); do 2 eexists; reflexivity.
  - intros Hn. unfold e_commit. rewrite Ec.
    assert (Hub : forall l g, (exists bs, bounds_calls q g l = Ok bs) \/ bounds_calls q g l = UB UBprim).
    { induction l as [|o l IH]; intros g; cbn; [left; eexists; reflexivity|].
      unfold bounds_call. destruct (live q g o); [|right; reflexivity].
      destruct (IH (S g)) as [(bs & ->)| ->]; destruct o; cbn; eauto. }
    destruct (Hub (q_geoms q) 0%nat) as [(bs & Eb)| ->]; [|reflexivity].
    destruct Hn. apply (commit_iff cs q A Hg). unfold e_commit. rewrite Ec, Eb. cbn. eexists; reflexivity.
Qed.

(** Without a first primitive the add is undefined. *)
Lemma empty_spheres s : e_add_spheres true s [] [] = UB UBprim.
Proof. reflexivity. Qed.
End S.

(** The stride is never the size of an element. *)
Lemma stride_short size : (0 < size)%nat -> (buffer_stride size < size)%nat.
Proof.
  intros H. unfold buffer_stride. pose proof (Nat.div_mod size 8 ltac:(lia)).
  pose proof (Nat.mod_upper_bound size 8 ltac:(lia)). lia.
Qed.
