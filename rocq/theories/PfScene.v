(** Scenes: ids, refused adds, commits. *)

From Coq Require Import ZArith List Bool Arith Lia.
From Verif Require Import Num Vec Datatypes Ray Bvh Traverse Sphere Plane Trimesh Cylinder Scene.
From Verif Require Import SpecBvh SpecTrav SpecScene PfBuild PfTree PfBuild2 PfStack PfTrav PfTrav2.
Import ListNotations.

Section S.
Context {T : Type} {N : num T}.
Variable part : (nat -> bool) -> list nat -> list nat * list nat.
Notation step := (@step T N part).
Notation run := (@run T N part).

(** ** Running *)
Lemma run_app cs1 : forall s cs2, run s (cs1 ++ cs2) =
  (do (s1, l1) <- run s cs1; do (s2, l2) <- run s1 cs2; Ok (s2, l1 ++ l2)).
Proof.
  induction cs1 as [|c cs1 IH]; intros s cs2.
  - cbn. destruct (run s cs2) as [[? ?]| |]; reflexivity.
  - cbn [app run]. destruct (step s c) as [[s1 a]| |]; [|reflexivity..]. cbn [bind]. rewrite IH.
    destruct (run s1 cs1) as [[s2 l2]| |]; [|reflexivity..]. cbn [bind].
    destruct (run s2 cs2) as [[s3 l3]| |]; reflexivity.
Qed.
Lemma run_length cs : forall s s' l, run s cs = Ok (s', l) -> length l = length cs.
Proof.
  induction cs as [|c cs IH]; cbn; intros s s' l H; [injection H as <- <-; reflexivity|].
  apply bind_ok in H as ([s1 a] & _ & H). apply bind_ok in H as ([s2 l2] & E & H). injection H as <- <-.
  cbn. f_equal. eauto.
Qed.
Lemma run_snoc cs c s s' l : run s (cs ++ [c]) = Ok (s', l) ->
  exists s1 l1 a, run s cs = Ok (s1, l1) /\ step s1 c = Ok (s', a) /\ l = l1 ++ [a].
Proof.
  rewrite run_app. intros H. apply bind_ok in H as ([s1 l1] & E & H).
  apply bind_ok in H as ([s2 l2] & E2 & H). injection H as <- <-.
  cbn in E2. apply bind_ok in E2 as ([s3 a] & E3 & E2). injection E2 as <- <-. eauto 7.
Qed.

(** ** Ids *)
Definition has (s : scene T) (k : kind) : bool :=
  match k with
  | KMesh => match sc_mesh s with Some _ => true | None => false end
  | KSpheres => match sc_spheres s with Some _ => true | None => false end
  | KPlanes => match sc_planes s with Some _ => true | None => false end
  | KCylinders => match sc_cylinders s with Some _ => true | None => false end
  end.
Definition keq (a b : kind) : bool :=
  match a, b with KMesh, KMesh | KSpheres, KSpheres | KPlanes, KPlanes | KCylinders, KCylinders => true | _, _ => false end.
Lemma keq_spec a b : keq a b = true <-> a = b.
Proof. destruct a, b; cbn; split; congruence. Qed.

(** One add. *)
Lemma step_add s c k s' a : adds c = Some k -> step s c = Ok (s', a) ->
  (has s k = false /\ sc_committed s = false /\ a = Id (Some (sc_count s)) /\
     sc_count s' = S (sc_count s) /\ sc_committed s' = false /\ forall k', has s' k' = keq k k' || has s k') \/
  ((has s k = true \/ sc_committed s = true) /\ a = Id None /\ s' = s).
Proof.
  destruct c; cbn [adds]; intros H E; try discriminate; injection H as <-; cbn [SpecScene.step] in E;
    apply bind_ok in E as ([s1 id] & E & E2); injection E2 as <- <-.
  - unfold add_mesh in E. cbn [has]. destruct (sc_mesh s) eqn:Em.
    + injection E as <- <-. right. auto.
    + destruct (sc_committed s) eqn:Ec; [injection E as <- <-; right; auto|].
      apply bind_ok in E as (m & _ & E). injection E as <- <-. left. cbn.
      repeat split; auto. intros []; reflexivity.
  - unfold add_spheres in E. cbn [has]. destruct (sc_spheres s) eqn:Em.
    + injection E as <- <-. right. auto.
    + destruct (sc_committed s) eqn:Ec; [injection E as <- <-; right; auto|].
      apply bind_ok in E as (m & _ & E). injection E as <- <-. left. cbn.
      repeat split; auto. intros []; reflexivity.
  - unfold add_planes in E. cbn [has]. destruct (sc_planes s) eqn:Em.
    + injection E as <- <-. right. auto.
    + destruct (sc_committed s) eqn:Ec; [injection E as <- <-; right; auto|].
      apply bind_ok in E as (m & _ & E). injection E as <- <-. left. cbn.
      repeat split; auto. intros []; reflexivity.
  - unfold add_cylinders in E. cbn [has]. destruct (sc_cylinders s) eqn:Em.
    + injection E as <- <-. right. auto.
    + destruct (sc_committed s) eqn:Ec; [injection E as <- <-; right; auto|].
      apply bind_ok in E as (m & _ & E). injection E as <- <-. left. cbn.
      repeat split; auto. intros []; reflexivity.
Qed.

Lemma build_geometry_some {C P} (f : C -> coll T P) opt g g' : build_geometry part f opt g = Ok g' ->
  match g with None => g' = None
  | Some x => exists n st, build part (g_nodes x) (f (g_coll x)) opt = Ok (n, st) /\ g' = Some (Geometry (g_coll x) n (g_id x)) end.
Proof.
  destruct g as [x|]; cbn; intros H; [|injection H as <-; reflexivity].
  apply bind_ok in H as ([n st] & E & H). injection H as <-. eauto.
Qed.

Lemma commit_inv s s' : commit part s = Ok s' ->
  sc_options s' = sc_options s /\ sc_committed s' = true /\ sc_count s' = sc_count s /\
  build_geometry part mesh_coll (sc_options s) (sc_mesh s) = Ok (sc_mesh s') /\
  build_geometry part sphere_coll (sc_options s) (sc_spheres s) = Ok (sc_spheres s') /\
  build_geometry part plane_coll (sc_options s) (sc_planes s) = Ok (sc_planes s') /\
  build_geometry part cylinder_coll (sc_options s) (sc_cylinders s) = Ok (sc_cylinders s').
Proof.
  unfold commit. intros H. apply bind_ok in H as (m & E1 & H). apply bind_ok in H as (sp & E2 & H).
  apply bind_ok in H as (pl & E3 & H). apply bind_ok in H as (cy & E4 & H). injection H as <-. cbn. auto 10.
Qed.

(** Any other call. *)
Lemma step_other s c s' a : adds c = None -> step s c = Ok (s', a) ->
  ids [a] = [] /\ (forall b, a <> Id b) /\ sc_count s' = sc_count s /\ (forall k, has s' k = has s k) /\
  sc_committed s' = match c with Commit => true | _ => sc_committed s end.
Proof.
  destruct c; cbn [adds]; intros H E; try discriminate; cbn [SpecScene.step] in E.
  - injection E as <- <-. cbn. repeat split; try discriminate. 
  - apply bind_ok in E as (s1 & E & E2). injection E2 as <- <-. apply commit_inv in E as (_ & H2 & H3 & H4 & H5 & H6 & H7).
    repeat split; auto; try discriminate.
    intros []; cbn [has].
    + apply build_geometry_some in H4. destruct (sc_mesh s); [destruct H4 as (n & st & _ & ->)|rewrite H4]; reflexivity.
    + apply build_geometry_some in H5. destruct (sc_spheres s); [destruct H5 as (n & st & _ & ->)|rewrite H5]; reflexivity.
    + apply build_geometry_some in H6. destruct (sc_planes s); [destruct H6 as (n & st & _ & ->)|rewrite H6]; reflexivity.
    + apply build_geometry_some in H7. destruct (sc_cylinders s); [destruct H7 as (n & st & _ & ->)|rewrite H7]; reflexivity.
  - apply bind_ok in E as ([b rh'] & E & E2). injection E2 as <- <-. repeat split; try discriminate.
Qed.

Lemma ids_app (l1 l2 : list (reply T)) : ids (l1 ++ l2) = ids l1 ++ ids l2.
Proof. induction l1 as [|[[n|]| |] l1 IH]; cbn; rewrite ?IH; reflexivity. Qed.

Lemma added_app (cs1 cs2 : list (call T)) l1 l2 i k a : length l1 = length cs1 -> i < length cs1 ->
  (added (cs1 ++ cs2) (l1 ++ l2) i k a <-> added cs1 l1 i k a).
Proof.
  intros Hl Hi. unfold added. rewrite !nth_error_app1 by lia. reflexivity.
Qed.

(** What a history leaves behind. *)
Lemma run_inv opt cs : forall s l, run (new_scene opt) cs = Ok (s, l) ->
  ids_in_order cs l /\ sc_count s = length (ids l) /\
  (sc_committed s = true <-> exists j, nth_error cs j = Some Commit) /\
  (forall k, has s k = true <-> exists j b, added cs l j k b /\ accepted b).
Proof.
  induction cs as [|c cs IH] using rev_ind; intros s l H.
  - cbn in H. injection H as <- <-. split; [split; [reflexivity|split; [reflexivity|]]|].
    + intros i k a [(c & Hc & _) _]. destruct i; discriminate.
    + split; [reflexivity|]. split; [split; [discriminate|intros ([|] & ?); discriminate]|].
      intros k. split; [destruct k; discriminate|]. intros (j & b & [(c & Hc & _) _] & _). destruct j; discriminate.
  - apply run_snoc in H as (s1 & l1 & a & E1 & E2 & ->). pose proof (run_length _ _ _ _ E1) as Hl.
    destruct (IH _ _ E1) as ((_ & O2 & O3) & Hc & Hcm & Hh). clear IH.
    assert (Hnth : forall j, nth_error (cs ++ [c]) j = Some Commit <->
      nth_error cs j = Some Commit \/ (j = length cs /\ c = Commit)).
    { intros j. destruct (Nat.lt_ge_cases j (length cs)) as [Hj|Hj].
      - rewrite nth_error_app1 by exact Hj. split; [auto|]. intros [?|[-> _]]; [assumption|lia].
      - rewrite nth_error_app2 by exact Hj. split.
        + destruct (j - length cs) as [|n] eqn:En; cbn; [|destruct n; discriminate]. intros [= ->]. right. split; [lia|reflexivity].
        + intros [E|[-> ->]]; [|rewrite Nat.sub_diag; reflexivity].
          apply nth_error_None in Hj. congruence. }
    assert (Hadd : forall j k b, added (cs ++ [c]) (l1 ++ [a]) j k b <->
      added cs l1 j k b \/ (j = length cs /\ adds c = Some k /\ b = a)).
    { intros j k b. destruct (Nat.lt_ge_cases j (length cs)) as [Hj|Hj].
      - rewrite added_app by auto. split; [auto|]. intros [?|[-> _]]; [assumption|lia].
      - unfold added. rewrite !nth_error_app2 by lia. rewrite Hl.
        assert (HN : nth_error cs j = None) by (apply nth_error_None; exact Hj).
        split.
        + intros [(x & Hx & Hk) Hb]. destruct (j - length cs) as [|n] eqn:En; [|destruct n; discriminate].
          injection Hx as <-. injection Hb as <-. right. split; [lia|]. auto.
        + intros [[(x & Hx & _) _]|(-> & Hk & ->)]; [congruence|]. rewrite Nat.sub_diag. cbn. split; [exists c; auto|reflexivity]. }
    assert (Hprev : forall i k, i < length cs -> (forall j b, j < i -> added (cs ++ [c]) (l1 ++ [a]) j k b -> ~ accepted b) <->
       (forall j b, j < i -> added cs l1 j k b -> ~ accepted b)).
    { intros i k Hi. split; intros H j b Hj Hb; apply (H j b Hj).
      - apply Hadd. auto.
      - apply Hadd in Hb as [Hb|(-> & _)]; [exact Hb|lia]. }
    assert (Hcmt : forall i, i <= length cs -> (forall j, j < i -> nth_error (cs ++ [c]) j <> Some Commit) <->
       (forall j, j < i -> nth_error cs j <> Some Commit)).
    { intros i Hi. split; intros H j Hj E; apply (H j Hj); [apply Hnth; auto|].
      apply Hnth in E as [E|(-> & _)]; [exact E|lia]. }
    destruct (adds c) as [k|] eqn:Ek.
    + destruct (step_add _ _ _ _ _ Ek E2) as [(A1 & A2 & -> & A4 & A5 & A6)|(A1 & -> & ->)].
      * split; [split; [rewrite !app_length, Hl; reflexivity|split]|].
        -- rewrite ids_app, app_length. cbn [ids length]. rewrite seq_app. cbn. rewrite <- O2, Hc. reflexivity.
        -- intros i k' b Hb. apply Hadd in Hb as [Hb|(-> & Ek' & ->)].
           ++ assert (Hi : i < length cs) by (destruct Hb as [(x & Hx & _) _]; apply nth_error_Some; congruence).
              rewrite Hprev by exact Hi. rewrite Hcmt by lia. apply O3, Hb.
           ++ injection Ek' as <-. split; [left; eexists; reflexivity|]. split; [intros _|intros _; eexists; reflexivity].
              rewrite Hcmt by lia. split.
              ** intros j _ E. assert (sc_committed s1 = true) by (apply Hcm; eauto). congruence.
              ** intros j b Hj Hb Hacc. apply Hadd in Hb as [Hb|(-> & _)]; [|lia].
                 assert (has s1 k = true) by (apply Hh; eauto). congruence.
        -- rewrite ids_app, app_length. cbn [ids length]. split; [lia|]. split.
           ++ rewrite A5. split; [discriminate|]. intros (j & E). apply Hnth in E as [E|(_ & ->)]; [|discriminate].
              assert (sc_committed s1 = true) by (apply Hcm; eauto). congruence.
           ++ intros k'. rewrite A6, orb_true_iff, keq_spec, Hh. split.
              ** intros [<-|(j & b & Hb & Hacc)].
                 --- exists (length cs), (Id (Some (sc_count s1))). split; [apply Hadd; auto|eexists; reflexivity].
                 --- exists j, b. split; [apply Hadd; auto|exact Hacc].
              ** intros (j & b & Hb & Hacc). apply Hadd in Hb as [Hb|(_ & Ek' & _)]; [right; eauto|]. left. congruence.
      * split; [split; [rewrite !app_length, Hl; reflexivity|split]|].
        -- rewrite ids_app. cbn [ids]. rewrite app_nil_r. exact O2.
        -- intros i k' b Hb. apply Hadd in Hb as [Hb|(-> & Ek' & ->)].
           ++ assert (Hi : i < length cs) by (destruct Hb as [(x & Hx & _) _]; apply nth_error_Some; congruence).
              rewrite Hprev by exact Hi. rewrite Hcmt by lia. apply O3, Hb.
           ++ injection Ek' as <-. split; [right; reflexivity|]. split; [intros [n Hn]; discriminate|].
              rewrite Hcmt by lia. intros [H1 H2]. exfalso. destruct A1 as [A1|A1].
              ** apply Hh in A1 as (j & b & Hb & Hacc).
                 assert (Hj : j < length cs) by (destruct Hb as [(x & Hx & _) _]; apply nth_error_Some; congruence).
                 apply (H2 j b Hj); [apply Hadd; auto|exact Hacc].
              ** apply Hcm in A1 as (j & E). apply (H1 j); [apply nth_error_Some; congruence|exact E].
        -- rewrite ids_app. cbn [ids]. rewrite app_nil_r. split; [exact Hc|]. split.
           ++ rewrite Hcm. split; intros (j & E); exists j; [apply Hnth; auto|].
              apply Hnth in E as [E|(_ & ->)]; [exact E|discriminate].
           ++ intros k'. rewrite Hh. split; intros (j & b & Hb & Hacc); exists j, b; (split; [|exact Hacc]); [apply Hadd; auto|].
              apply Hadd in Hb as [Hb|(_ & _ & ->)]; [exact Hb|]. destruct Hacc; discriminate.
    + destruct (step_other _ _ _ _ Ek E2) as (B1 & B2 & B3 & B4 & B5).
      split; [split; [rewrite !app_length, Hl; reflexivity|split]|].
      * rewrite ids_app, B1, app_nil_r. exact O2.
      * intros i k' b Hb. apply Hadd in Hb as [Hb|(_ & Ek' & _)]; [|congruence].
        assert (Hi : i < length cs) by (destruct Hb as [(x & Hx & _) _]; apply nth_error_Some; congruence).
        rewrite Hprev by exact Hi. rewrite Hcmt by lia. apply O3, Hb.
      * rewrite ids_app, B1, app_nil_r, B3. split; [exact Hc|]. split.
        -- rewrite B5. split.
           ++ intros H. destruct c; try (apply Hcm in H as (j & E); exists j; apply Hnth; auto).
              exists (length cs). apply Hnth. auto.
           ++ intros (j & E). apply Hnth in E as [E|(_ & ->)]; [|reflexivity].
              destruct c; try reflexivity; apply Hcm; eauto.
        -- intros k'. rewrite B4, Hh. split; intros (j & b & Hb & Hacc); exists j, b; (split; [|exact Hacc]); [apply Hadd; auto|].
           apply Hadd in Hb as [Hb|(_ & Ek' & _)]; [exact Hb|congruence].
Qed.

(** ** Refused adds *)
Lemma refused_same s c s' : step s c = Ok (s', Id None) -> s' = s.
Proof.
  intros E. destruct (adds c) as [k|] eqn:Ek.
  - destruct (step_add _ _ _ _ _ Ek E) as [(_ & _ & H & _)|(_ & _ & ->)]; [discriminate|reflexivity].
  - destruct (step_other _ _ _ _ Ek E) as (_ & H & _). destruct (H None eq_refl).
Qed.
Lemma refused_history s cs c s1 l1 : run s (cs ++ [c]) = Ok (s1, l1 ++ [Id None]) ->
  run s cs = Ok (s1, l1) /\
  forall more, run s (cs ++ c :: more) = (do (s2, l2) <- run s1 more; Ok (s2, l1 ++ Id None :: l2)) /\
               run s (cs ++ more) = (do (s2, l2) <- run s1 more; Ok (s2, l1 ++ l2)).
Proof.
  intros H. apply run_snoc in H as (s0 & l0 & a & E1 & E2 & El). apply app_inj_tail in El as [<- <-].
  pose proof (refused_same _ _ _ E2) as ->. split; [exact E1|]. intros more. split.
  - change (c :: more) with ([c] ++ more). rewrite app_assoc, run_app, run_app, E1. cbn [bind SpecScene.run].
    rewrite E2. cbn [bind]. destruct (run s0 more) as [[s2 l2]| |]; [|reflexivity..]. cbn [bind]. rewrite <- app_assoc. reflexivity.
  - rewrite run_app, E1. reflexivity.
Qed.

(** ** Empty scenes *)
Lemma empty_misses s r rh : (forall k, has s k = false) -> intersect1 s r rh = Ok (false, rh).
Proof.
  intros H. pose proof (H KMesh) as H1. pose proof (H KSpheres) as H2. pose proof (H KPlanes) as H3. pose proof (H KCylinders) as H4.
  cbn in *. unfold intersect1. destruct (sc_mesh s), (sc_spheres s), (sc_planes s), (sc_cylinders s); try discriminate. reflexivity.
Qed.
Lemma empty_query opt cs s l r rh : run (new_scene opt) cs = Ok (s, l) -> (forall a, In a l -> ~ accepted a) ->
  intersect1 s r rh = Ok (false, rh).
Proof.
  intros H Hn. apply empty_misses. intros k. destruct (has s k) eqn:E; [|reflexivity].
  destruct (run_inv _ _ _ _ H) as (_ & _ & _ & Hh). apply Hh in E as (j & b & [_ Hb] & Hacc).
  destruct (Hn b); [eapply nth_error_In, Hb|exact Hacc].
Qed.
End S.
