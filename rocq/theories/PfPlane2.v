(** Plane queries through a built tree. *)

From Coq Require Import Reals ZArith List Bool Arith Lra Lia.
From Verif Require Import Num NumR NumX Vec Ray Bvh Traverse Plane SpecBvh SpecReal SpecNearest SpecPlane.
From Verif Require Import PfBuild PfX PfNumbered PfPlane PfNearest2 PfDefined2 PfNearest3 PfSphere2.
Import ListNotations.
Local Open Scope R_scope.

Section S.
Variables big tiny eps : R.
Notation XN := (Xnum big tiny eps).
Hypothesis Heps : 0 <= eps.
Hypothesis Htiny : 0 <= tiny.
Variables (centers : list (vec xr)) (dxs dys : list xr) (rots : list (mat xr)) (s : planes xr).
Hypothesis Hmake : @make_planes _ XN centers dxs dys rots = Ok s.
Variables (C : nat -> vec R) (dx dy : nat -> R) (Rm : nat -> mat R).
Hypothesis Hdata : planes_are s C dx dy Rm.
Hypothesis Hok : forall i, (i < length (ps_centers s))%nat -> 0 < dx i /\ 0 < dy i /\ orthogonal (Rm i).
Notation bmin := (fun i => plane_lower (C i) (dx i) (dy i) (Rm i) tiny).
Notation bmax := (fun i => plane_upper (C i) (dx i) (dy i) (Rm i) tiny).
Hypothesis Hbd : forall i, (i < length (ps_centers s))%nat -> in_bounds big (bmin i) /\ in_bounds big (bmax i).

Lemma plane_boxes : boxes_are (plane_coll s) bmin bmax.
Proof.
  unfold make_planes in Hmake. unbind Hmake. rename a into box. injection Hmake as Es.
  intros i Hi. cbn [c_size plane_coll] in Hi. cbn [c_box plane_coll].
  destruct (Hdata i Hi) as [(c0 & Ec & Vc) [(x & Ex & Vx) [(y & Ey & Vy) (r & Er & Vr)]]].
  destruct (Hok i Hi) as (Px & Py & _).
  rewrite <- Es in Hi, Ec, Ex, Ey, Er |- *. cbn [ps_centers ps_dxs ps_dys ps_rots ps_box] in *.
  destruct (mapM_nth _ _ _ E i i (nth_error_seq0 _ _ Hi)) as (b & Eb & Ef).
  rewrite (at_ok _ _ _ _ Ec) in Ef. cbn [bind] in Ef. rewrite (at_ok _ _ _ _ Ex) in Ef. cbn [bind] in Ef.
  rewrite (at_ok _ _ _ _ Ey) in Ef. cbn [bind] in Ef. rewrite (at_ok _ _ _ _ Er) in Ef. cbn [bind] in Ef.
  injection Ef as <-. exists (@plane_box _ XN c0 x y r). split; [apply at_ok, Eb|].
  apply plane_box_is; auto; lra.
Qed.

Lemma plane_prims i : (i < length (ps_centers s))%nat ->
  exists p, plane_prim s i = Ok p /\ visR (pl_center p) (C i) /\ isR (pl_dx p) (dx i) /\
    isR (pl_dy p) (dy i) /\ misR (pl_rot p) (Rm i) /\ pl_id p = i.
Proof.
  intros Hi. destruct (Hdata i Hi) as [(c0 & Ec & Vc) [(x & Ex & Vx) [(y & Ey & Vy) (r & Er & Vr)]]].
  unfold plane_prim. rewrite (at_ok _ _ _ _ Ec). cbn [bind]. rewrite (at_ok _ _ _ _ Ex). cbn [bind].
  rewrite (at_ok _ _ _ _ Ey). cbn [bind]. rewrite (at_ok _ _ _ _ Er). cbn [bind].
  eexists. split; [reflexivity|]. cbn. auto 10.
Qed.

Variable part : (nat -> bool) -> list nat -> list nat * list nat.
Hypothesis Hpart : partition_ok part.
Variable opt : options.
Variables (nodes : list (node xr (plane xr))) (st : stats).
Hypothesis Hbuild : @build _ XN _ part [] (plane_coll s) opt = Ok (nodes, st).
Hypothesis Hdepth : forall k d, node_depth nodes k d -> (d <= 26)%nat.
Variables (o d : vec xr) (tmin tmax : xr) (any : bool) (O D : vec R) (m : R).
Hypothesis Had : admissible o d tmin O D m.
Hypothesis Hz : vz D = 0 -> forall i, (i < length (ps_centers s))%nat ->
  vz O <> vz (bmin i) /\ vz O <> vz (bmax i).
Notation r := (@make_ray _ XN o d tmin tmax any).
Notation U := (unit_of D).

Let best (p : plane xr) : option R :=
  let k := pl_id p in plane_best (C k) (dx k) (dy k) (Rm k) O U m.
Let inv (i : plane_isect xr) : Prop := pi_org i = o /\ pi_dir i = direction r /\ pi_min i = tmin.
Let won (p : plane xr) (i : plane_isect xr) : Prop :=
  pi_prim i = Some (pl_id p) /\
  forall t, best p = Some t ->
    visR (pi_normal i) (plane_n (C (pl_id p)) (dx (pl_id p)) (dy (pl_id p)) (Rm (pl_id p)) O U t).

Lemma plane_contract :
  contract (@plane_isector _ XN) r
    (fun p => exists i, (i < c_size (plane_coll s))%nat /\ c_prim (plane_coll s) i = Ok p) best inv won.
Proof.
  destruct (unit_visR big tiny eps o d tmin tmax any O D m Had) as [HU HU1].
  constructor.
  - repeat split.
  - reflexivity.
  - intros i p (k & Hk & Ek) (I1 & I2 & I3). cbn [c_size c_prim plane_coll] in Hk, Ek.
    destruct (plane_prims k Hk) as (p' & Ep & P1 & P2 & P3 & P4 & P5). rewrite Ek in Ep. injection Ep as <-.
    destruct (Hok k Hk) as (Px & Py & Ho).
    cbn [is_prim is_hd plane_isector].
    pose proof (plane_step big tiny eps i p r O U m (C k) (dx k) (dy k) (Rm k)) as Hs.
    rewrite I1, I2, I3 in Hs.
    specialize (Hs (ad_o _ _ _ _ _ _ Had) HU (ad_min _ _ _ _ _ _ Had) P1 P2 P3 P4 Px Py Ho HU1 (ad_m _ _ _ _ _ _ Had)).
    unfold won, best. cbv zeta. rewrite P5.
    destruct (plane_best (C k) (dx k) (dy k) (Rm k) O U m) as [t|]; [|exact Hs].
    destruct (xltb (Fin t) (pi_hd i)); [|exact Hs].
    destruct Hs as (hd & n & Hhd & Hn & E). eexists. split; [exact E|].
    unfold inv. cbn [pi_org pi_dir pi_min pi_hd pi_prim pi_normal]. rewrite P5.
    split; [auto|]. split; [exact Hhd|]. split; [reflexivity|]. intros t' Et. injection Et as <-. exact Hn.
Qed.

Lemma plane_query rh :
  hit_answer (plane_hit s C dx dy Rm O U m tmax) (plane_about C dx dy Rm O U) any rh
    (@traverse _ XN _ _ (@plane_isector _ XN) nodes r rh).
Proof.
  assert (Hgood : forall p, (exists i, (i < c_size (plane_coll s))%nat /\ c_prim (plane_coll s) i = Ok p) ->
    (pl_id p < length (ps_centers s))%nat).
  { intros p (k & Hk & Ek). cbn in Hk, Ek. destruct (plane_prims k Hk) as (p' & Ep & _ & _ & _ & _ & P3).
    rewrite Ek in Ep. injection Ep as <-. rewrite P3. exact Hk. }
  apply (hit_theorem big tiny eps Heps (plane_coll s) _ _ plane_boxes Hbd part Hpart opt nodes st Hbuild
    Hdepth pl_id (planes_numbered s) o d tmin tmax any O D m Had Hz (@plane_isector _ XN)
    best inv won plane_contract
    (fun i t => crosses (C i) (dx i) (dy i) (Rm i) O U m t) (plane_about C dx dy Rm O U)).
  - intros p t Hp Eb. destruct (Hok _ (Hgood p Hp)) as (Px & Py & Ho).
    destruct (plane_best_some _ _ _ _ _ _ _ _ Ho Eb) as (S1 & S2).
    split; [exact S1|]. intros u Hu. right. symmetry. apply S2, Hu.
  - intros p u Hp Eb. destruct (Hok _ (Hgood p Hp)) as (Px & Py & Ho).
    exact (plane_best_none _ _ _ _ _ _ _ Ho Eb u).
  - intros i Hi. destruct (plane_prims i Hi) as (p & Ep & _). exists p. exact Ep.
  - intros i t Hi (_ & Hp & Hm). split; [lra|]. apply patch_in_box, Hp.
  - intros p i t rh0 Hp Eb [W1 W2] Hhd. destruct (Hok _ (Hgood p Hp)) as (Px & Py & Ho).
    destruct (plane_best_some _ _ _ _ _ _ _ _ Ho Eb) as (S1 & _).
    destruct (plane_n_ok _ _ _ _ _ _ _ _ Ho Px Py (ad_m _ _ _ _ _ _ Had) S1) as (N0 & N1 & N2 & N3).
    specialize (W2 t Eb). cbn [is_post is_hd plane_isector] in *.
    eexists. split; [reflexivity|]. cbn [h_prim h_distance h_geom].
    split; [exact W1|]. split; [exact Hhd|]. split; [reflexivity|].
    eexists. split; [|split; [exact N1|split; [exact N2|exact N3]]].
    cbn [h_normal]. apply visR_normalize; [exact W2|exact N0].
Qed.
End S.

Lemma plane_build_ok big tiny eps centers dxs dys rots s C dx dy Rm part opt : 0 <= tiny ->
  @make_planes _ (Xnum big tiny eps) centers dxs dys rots = Ok s -> planes_are s C dx dy Rm ->
  (forall i, (i < length (ps_centers s))%nat -> 0 < dx i /\ 0 < dy i /\ orthogonal (Rm i)) ->
  (forall i, (i < length (ps_centers s))%nat ->
     in_bounds big (plane_lower (C i) (dx i) (dy i) (Rm i) tiny) /\
     in_bounds big (plane_upper (C i) (dx i) (dy i) (Rm i) tiny)) ->
  partition_ok part -> (1 <= bin_size opt)%nat -> (3 * Z.of_nat (bin_size opt) < 4294967296)%Z ->
  exists nodes st, @build _ (Xnum big tiny eps) _ part [] (plane_coll s) opt = Ok (nodes, st).
Proof.
  intros Ht Hm Hd Hok Hb Hp H1 H2.
  apply (build_ok big tiny eps (plane_coll s) (fun i => plane_lower (C i) (dx i) (dy i) (Rm i) tiny)
    (fun i => plane_upper (C i) (dx i) (dy i) (Rm i) tiny) C); auto.
  - apply (plane_boxes big tiny eps Ht centers dxs dys rots s Hm C dx dy Rm Hd Hok).
  - intros i Hi. destruct (Hd i Hi) as [(c0 & Ec & Vc) _]. exists c0. cbn [c_center plane_coll].
    split; [apply at_ok, Ec|]. split; [exact Vc|]. destruct (Hok i Hi) as (Px & Py & _).
    apply patch_in_box, center_on_patch; lra.
  - intros i Hi. destruct (plane_prims s C dx dy Rm Hd i Hi) as (p & Ep & _). eauto.
Qed.

Lemma plane_agree big tiny eps centers dxs dys rots s C dx dy Rm part1 part2 opt1 opt2 nodes1 nodes2 st1 st2
    o d d' k tmin tmax O D m rh1 rh2 :
  0 <= eps -> 0 <= tiny -> @make_planes _ (Xnum big tiny eps) centers dxs dys rots = Ok s -> planes_are s C dx dy Rm ->
  (forall i, (i < length (ps_centers s))%nat -> 0 < dx i /\ 0 < dy i /\ orthogonal (Rm i)) ->
  (forall i, (i < length (ps_centers s))%nat ->
     in_bounds big (plane_lower (C i) (dx i) (dy i) (Rm i) tiny) /\
     in_bounds big (plane_upper (C i) (dx i) (dy i) (Rm i) tiny)) ->
  partition_ok part1 -> @build _ (Xnum big tiny eps) _ part1 [] (plane_coll s) opt1 = Ok (nodes1, st1) ->
  partition_ok part2 -> @build _ (Xnum big tiny eps) _ part2 [] (plane_coll s) opt2 = Ok (nodes2, st2) ->
  (forall k d, node_depth nodes1 k d -> (d <= 26)%nat) -> (forall k d, node_depth nodes2 k d -> (d <= 26)%nat) ->
  admissible o d tmin O D m -> 0 < k -> admissible o d' tmin O (rv_scale k D) m ->
  (vz D = 0 -> forall i, (i < length (ps_centers s))%nat ->
     vz O <> vz (plane_lower (C i) (dx i) (dy i) (Rm i) tiny) /\
     vz O <> vz (plane_upper (C i) (dx i) (dy i) (Rm i) tiny)) ->
  same_answer
    (@traverse _ (Xnum big tiny eps) _ _ (@plane_isector _ (Xnum big tiny eps)) nodes1
       (@make_ray _ (Xnum big tiny eps) o d tmin tmax false) rh1)
    (@traverse _ (Xnum big tiny eps) _ _ (@plane_isector _ (Xnum big tiny eps)) nodes2
       (@make_ray _ (Xnum big tiny eps) o d' tmin tmax false) rh2).
Proof.
  intros H1 H2 H3 H4 H5 H6 H7 B1 H8 B2 D1 D2 A1 Hk A2 Hz.
  assert (Hn : rv_norm D <> 0) by (destruct (ad_len _ _ _ _ _ _ A1) as [H|[H _]]; lra).
  assert (Hz' : vz (rv_scale k D) = 0 -> forall i, (i < length (ps_centers s))%nat ->
     vz O <> vz (plane_lower (C i) (dx i) (dy i) (Rm i) tiny) /\
     vz O <> vz (plane_upper (C i) (dx i) (dy i) (Rm i) tiny)).
  { cbn [vz rv_scale]. intros E. apply Hz. apply Rmult_integral in E as [E|E]; lra. }
  pose proof (plane_query big tiny eps H1 H2 centers dxs dys rots s H3 C dx dy Rm H4 H5 H6 part1 H7 opt1 nodes1 st1 B1 D1
    o d tmin tmax false O D m A1 Hz rh1) as Q1.
  pose proof (plane_query big tiny eps H1 H2 centers dxs dys rots s H3 C dx dy Rm H4 H5 H6 part2 H8 opt2 nodes2 st2 B2 D2
    o d' tmin tmax false O _ m A2 Hz' rh2) as Q2.
  rewrite (unit_of_scale k D Hk Hn) in Q2. apply (hit_answers_agree _ _ _ _ _ _ _ Q1 Q2).
Qed.
