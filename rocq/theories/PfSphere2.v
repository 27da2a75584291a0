(** Sphere queries through a built tree. *)

From Coq Require Import Reals ZArith List Bool Arith Lra Lia.
From Verif Require Import Num NumR NumX Vec Ray Bvh Traverse Sphere SpecBvh SpecReal SpecNearest SpecSphere.
From Verif Require Import PfBuild PfX PfNumbered PfSphere PfNearest2 PfDefined2 PfNearest3.
Import ListNotations.
Local Open Scope R_scope.

Lemma mapM_nth {A B} (f : A -> res B) : forall l bs, mapM f l = Ok bs ->
  forall i a, nth_error l i = Some a -> exists b, nth_error bs i = Some b /\ f a = Ok b.
Proof.
  induction l as [|x l IH]; intros bs H i a Ha; [destruct i; discriminate|].
  cbn in H. destruct (f x) as [b| |] eqn:Ex; try discriminate. cbn in H.
  destruct (mapM f l) as [bs'| |] eqn:El; try discriminate. cbn in H. injection H as <-.
  destruct i as [|i]; cbn in Ha.
  - injection Ha as <-. exists b. auto.
  - apply (IH bs' eq_refl i a Ha).
Qed.
Lemma nth_error_seq0 n i : (i < n)%nat -> nth_error (seq 0 n) i = Some i.
Proof.
  intros H. rewrite (nth_error_nth' (seq 0 n) 0%nat) by (rewrite seq_length; exact H).
  rewrite seq_nth by exact H. reflexivity.
Qed.
Lemma at_ok {A} w (l : list A) i a : nth_error l i = Some a -> at_ w l i = Ok a.
Proof. unfold at_. intros ->. reflexivity. Qed.
Lemma at_inv {A} w (l : list A) i a : at_ w l i = Ok a -> nth_error l i = Some a.
Proof. unfold at_. destruct (nth_error l i); congruence. Qed.

Lemma unit_visR_wide big tiny eps o d tmin tmax any O D m : wide o d tmin O D m ->
  visR (direction (@make_ray _ (Xnum big tiny eps) o d tmin tmax any)) (unit_of D) /\
  rv_dot (unit_of D) (unit_of D) = 1.
Proof.
  intros Had. assert (Hn : rv_norm D <> 0) by (pose proof (wd_len _ _ _ _ _ _ Had); lra).
  split; [|apply unit_of_unit, Hn]. cbn [direction make_ray]. apply visR_normalize; [apply Had|exact Hn].
Qed.
Lemma unit_visR big tiny eps o d tmin tmax any O D m : admissible o d tmin O D m ->
  visR (direction (@make_ray _ (Xnum big tiny eps) o d tmin tmax any)) (unit_of D) /\
  rv_dot (unit_of D) (unit_of D) = 1.
Proof. intros H. apply (unit_visR_wide big tiny eps o d tmin tmax any O D m), admissible_wide, H. Qed.

Section S.
Variables big tiny eps : R.
Notation XN := (Xnum big tiny eps).
Hypothesis Heps : 0 <= eps.
Variables (centers : list (vec xr)) (radii : list xr) (s : spheres xr).
Hypothesis Hmake : @make_spheres _ XN centers radii = Ok s.
Variables (C : nat -> vec R) (rad : nat -> R).
Hypothesis Hdata : spheres_are s C rad.
Hypothesis Hrad : forall i, (i < length (ss_centers s))%nat -> 0 <= rad i.
Hypothesis Hbd : forall i, (i < length (ss_centers s))%nat ->
  in_bounds big (lower (C i) (rad i)) /\ in_bounds big (upper (C i) (rad i)).

Lemma sphere_boxes : boxes_are (sphere_coll s) (fun i => lower (C i) (rad i)) (fun i => upper (C i) (rad i)).
Proof.
  unfold make_spheres in Hmake. unbind Hmake. rename a into box. injection Hmake as Es.
  intros i Hi. cbn [c_size sphere_coll] in Hi. cbn [c_box sphere_coll].
  destruct (Hdata i Hi) as [(c0 & Ec & Vc) (x & Ex & Vx)].
  rewrite <- Es in Hi, Ec, Ex |- *. cbn [ss_centers ss_radii ss_box] in *.
  destruct (mapM_nth _ _ _ E i i (nth_error_seq0 _ _ Hi)) as (b & Eb & Ef).
  rewrite (at_ok _ _ _ _ Ec) in Ef. cbn [bind] in Ef. rewrite (at_ok _ _ _ _ Ex) in Ef. cbn [bind] in Ef.
  injection Ef as <-. exists (@sphere_box _ XN c0 x). split; [apply at_ok, Eb|].
  destruct Vc as (V1 & V2 & V3).
  split; repeat split; cbn; first [apply isR_sub|apply isR_add]; assumption.
Qed.

Lemma sphere_prims i : (i < length (ss_centers s))%nat ->
  exists p, sphere_prim s i = Ok p /\ visR (sp_center p) (C i) /\ isR (sp_radius p) (rad i) /\ sp_id p = i.
Proof.
  intros Hi. destruct (Hdata i Hi) as [(c0 & Ec & Vc) (x & Ex & Vx)].
  unfold sphere_prim. rewrite (at_ok _ _ _ _ Ec). cbn [bind]. rewrite (at_ok _ _ _ _ Ex). cbn [bind].
  eexists. split; [reflexivity|]. auto.
Qed.

Variable part : (nat -> bool) -> list nat -> list nat * list nat.
Hypothesis Hpart : partition_ok part.
Variable opt : options.
Variables (nodes : list (node xr (sphere xr))) (st : stats).
Hypothesis Hbuild : @build _ XN _ part [] (sphere_coll s) opt = Ok (nodes, st).
Hypothesis Hdepth : forall k d, node_depth nodes k d -> (d <= 26)%nat.
Variables (o d : vec xr) (tmin tmax : xr) (any : bool) (O D : vec R) (m : R).
Hypothesis Had : admissible o d tmin O D m.
Hypothesis Hz : vz D = 0 -> forall i, (i < length (ss_centers s))%nat ->
  vz O <> vz (C i) - rad i /\ vz O <> vz (C i) + rad i.
Notation r := (@make_ray _ XN o d tmin tmax any).
Notation U := (unit_of D).

Let best (p : sphere xr) : option R := sphere_best (C (sp_id p)) (rad (sp_id p)) O U m.
Let inv (i : sphere_isect xr) : Prop := si_org i = o /\ si_dir i = direction r /\ si_min i = tmin.
Let won (p : sphere xr) (i : sphere_isect xr) : Prop := inv i /\ si_prim i = Some (sp_id p).

Lemma sphere_contract :
  contract (@sphere_isector _ XN s) r
    (fun p => exists i, (i < c_size (sphere_coll s))%nat /\ c_prim (sphere_coll s) i = Ok p) best inv won.
Proof.
  destruct (unit_visR big tiny eps o d tmin tmax any O D m Had) as [HU HU1].
  constructor.
  - repeat split.
  - reflexivity.
  - intros i p (k & Hk & Ek) (I1 & I2 & I3). cbn [c_size c_prim sphere_coll] in Hk, Ek.
    destruct (sphere_prims k Hk) as (p' & Ep & P1 & P2 & P3). rewrite Ek in Ep. injection Ep as <-.
    cbn [is_prim is_hd sphere_isector].
    pose proof (sphere_step big tiny eps i p r O U m (C k) (rad k)) as Hs.
    rewrite I1, I2, I3 in Hs.
    specialize (Hs (ad_o _ _ _ _ _ _ Had) HU (ad_min _ _ _ _ _ _ Had) P1 P2 HU1 (ad_m _ _ _ _ _ _ Had)).
    unfold best. rewrite P3. destruct (sphere_best (C k) (rad k) O U m) as [t|]; [|exact Hs].
    destruct (xltb (Fin t) (si_hd i)); [|exact Hs].
    destruct Hs as (hd & Hhd & E). eexists. split; [exact E|].
    unfold won, inv. cbn [si_org si_dir si_min si_hd si_prim]. rewrite P3. repeat split; auto.
Qed.

Lemma sphere_query rh :
  hit_answer (sphere_hit s C rad O U m tmax) (sphere_about C rad O U) any rh
    (@traverse _ XN _ _ (@sphere_isector _ XN s) nodes r rh).
Proof.
  destruct (unit_visR big tiny eps o d tmin tmax any O D m Had) as [HU HU1].
  assert (Hgood : forall p, (exists i, (i < c_size (sphere_coll s))%nat /\ c_prim (sphere_coll s) i = Ok p) ->
    (sp_id p < length (ss_centers s))%nat /\ visR (sp_center p) (C (sp_id p)) /\
    exists c0, nth_error (ss_centers s) (sp_id p) = Some c0 /\ visR c0 (C (sp_id p))).
  { intros p (k & Hk & Ek). cbn in Hk, Ek. destruct (sphere_prims k Hk) as (p' & Ep & P1 & P2 & P3).
    rewrite Ek in Ep. injection Ep as <-. rewrite P3. split; [exact Hk|]. split; [exact P1|].
    apply (Hdata k Hk). }
  apply (hit_theorem big tiny eps Heps (sphere_coll s) _ _ sphere_boxes Hbd part Hpart opt nodes st Hbuild
    Hdepth sp_id (spheres_numbered s) o d tmin tmax any O D m Had Hz (@sphere_isector _ XN s)
    best inv won sphere_contract
    (fun i t => on_sphere (C i) (rad i) (at_t O U t) /\ m < t) (sphere_about C rad O U)).
  - intros p t Hp Eb. destruct (sphere_best_some _ _ _ _ _ _ HU1 Eb) as (S1 & S2 & S3).
    split; [auto|]. intros u [U1 U2]. auto.
  - intros p u Hp Eb [U1 U2]. exact (sphere_best_none _ _ _ _ _ HU1 Eb u U1 U2).
  - intros i Hi. destruct (sphere_prims i Hi) as (p & Ep & _). exists p. exact Ep.
  - intros i t Hi [Hs Hm]. split; [lra|]. cbn [c_size sphere_coll] in Hi.
    destruct (sphere_box_ok big tiny eps (vfin (C i)) (Fin (rad i)) (C i) (rad i)) as (a & A & B1 & B2 & B3 & _).
    + repeat split.
    + reflexivity.
    + apply Hrad, Hi.
    + specialize (B3 (at_t O U t)). unfold on_sphere in Hs. rewrite Hs in B3. specialize (B3 (Rle_refl _)).
      destruct B1 as (X1 & X2 & X3), B2 as (Y1 & Y2 & Y3). cbn in X1, X2, X3, Y1, Y2, Y3.
      unfold in_box, lower, upper in *. cbn [vx vy vz]. lra.
  - intros p i t rh0 Hp Eb [(I1 & I2 & I3) I4] Hhd.
    destruct (Hgood p Hp) as (Hi & _ & c0 & Ec & Vc).
    destruct (sphere_best_some _ _ _ _ _ _ HU1 Eb) as (S1 & S2 & S3).
    cbn [is_post is_hd sphere_isector] in *.
    destruct (Req_EM_T (rad (sp_id p)) 0) as [Hr|Hr].
    + unfold sphere_post. rewrite I4. cbn [bind]. rewrite (at_ok _ _ _ _ Ec). cbn [bind].
      eexists. split; [reflexivity|]. cbn [h_prim h_distance h_geom].
      split; [reflexivity|]. split; [exact Hhd|]. split; [reflexivity|]. intros H. destruct (H Hr).
    + destruct (sphere_normal big tiny eps s i rh0 O U (C (sp_id p)) (rad (sp_id p)) t (sp_id p) c0)
        as (rh' & E & N1 & N2 & N3 & N4 & N5); auto.
      * rewrite I1. apply Had.
      * rewrite I2. exact HU.
      * exists rh'. split; [exact E|]. split; [exact N4|]. split; [rewrite N3; exact Hhd|].
        split; [exact N5|]. intros _. exact N1.
Qed.
End S.

(** Building over spheres is defined. *)
Lemma sphere_build_ok big tiny eps centers radii s C rad part opt :
  @make_spheres _ (Xnum big tiny eps) centers radii = Ok s -> spheres_are s C rad ->
  (forall i, (i < length (ss_centers s))%nat -> 0 <= rad i) ->
  (forall i, (i < length (ss_centers s))%nat ->
     in_bounds big (lower (C i) (rad i)) /\ in_bounds big (upper (C i) (rad i))) ->
  partition_ok part -> (1 <= bin_size opt)%nat -> (3 * Z.of_nat (bin_size opt) < 4294967296)%Z ->
  exists nodes st, @build _ (Xnum big tiny eps) _ part [] (sphere_coll s) opt = Ok (nodes, st).
Proof.
  intros Hm Hd Hr Hb Hp H1 H2.
  apply (build_ok big tiny eps (sphere_coll s) (fun i => lower (C i) (rad i)) (fun i => upper (C i) (rad i)) C); auto.
  - apply (sphere_boxes big tiny eps centers radii s Hm C rad Hd).
  - intros i Hi. destruct (Hd i Hi) as [(c0 & Ec & Vc) _]. exists c0. cbn [c_center sphere_coll].
    split; [apply at_ok, Ec|]. split; [exact Vc|]. pose proof (Hr i Hi).
    unfold in_box, lower, upper; cbn. lra.
  - intros i Hi. destruct (sphere_prims s C rad Hd i Hi) as (p & Ep & _). eauto.
Qed.

Lemma unit_of_scale k D : 0 < k -> rv_norm D <> 0 -> unit_of (rv_scale k D) = unit_of D.
Proof.
  intros Hk Hn. unfold unit_of. rewrite rv_norm_scale, Rabs_pos_eq by lra.
  apply vec_eq; cbn; field; split; lra || exact Hn.
Qed.

Lemma sphere_scaling big tiny eps centers radii s C rad part opt nodes st o d d' k tmin tmax O D m rh :
  0 <= eps -> @make_spheres _ (Xnum big tiny eps) centers radii = Ok s -> spheres_are s C rad ->
  (forall i, (i < length (ss_centers s))%nat -> 0 <= rad i) ->
  (forall i, (i < length (ss_centers s))%nat ->
     in_bounds big (lower (C i) (rad i)) /\ in_bounds big (upper (C i) (rad i))) ->
  partition_ok part -> @build _ (Xnum big tiny eps) _ part [] (sphere_coll s) opt = Ok (nodes, st) ->
  (forall k d, node_depth nodes k d -> (d <= 26)%nat) ->
  admissible o d tmin O D m -> 0 < k -> admissible o d' tmin O (rv_scale k D) m ->
  (vz D = 0 -> forall i, (i < length (ss_centers s))%nat ->
     vz O <> vz (C i) - rad i /\ vz O <> vz (C i) + rad i) ->
  same_answer
    (@traverse _ (Xnum big tiny eps) _ _ (@sphere_isector _ (Xnum big tiny eps) s) nodes
       (@make_ray _ (Xnum big tiny eps) o d tmin tmax false) rh)
    (@traverse _ (Xnum big tiny eps) _ _ (@sphere_isector _ (Xnum big tiny eps) s) nodes
       (@make_ray _ (Xnum big tiny eps) o d' tmin tmax false) rh).
Proof.
  intros H1 H2 H3 H4 H5 H6 H7 H8 A1 Hk A2 Hz.
  assert (Hn : rv_norm D <> 0) by (destruct (ad_len _ _ _ _ _ _ A1) as [H|[H _]]; lra).
  assert (Hz' : vz (rv_scale k D) = 0 -> forall i, (i < length (ss_centers s))%nat ->
     vz O <> vz (C i) - rad i /\ vz O <> vz (C i) + rad i).
  { cbn. intros E. apply Hz. apply Rmult_integral in E as [E|E]; lra. }
  pose proof (sphere_query big tiny eps H1 centers radii s H2 C rad H3 H4 H5 part H6 opt nodes st H7 H8
    o d tmin tmax false O D m A1 Hz rh) as Q1.
  pose proof (sphere_query big tiny eps H1 centers radii s H2 C rad H3 H4 H5 part H6 opt nodes st H7 H8
    o d' tmin tmax false O _ m A2 Hz' rh) as Q2.
  rewrite (unit_of_scale k D Hk Hn) in Q2. apply (hit_answers_agree _ _ _ _ _ _ _ Q1 Q2).
Qed.
