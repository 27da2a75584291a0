(** Cylinder intersection in world coordinates; the reported normal; the box. *)

From Coq Require Import Reals ZArith List Bool Arith Lra Lia.
From Verif Require Import Num NumR NumX Vec Ray Bvh Traverse Cylinder SpecBvh SpecReal SpecNearest SpecPlane SpecCyl.
From Verif Require Import PfBuild PfX PfPlane PfClosest PfCyl PfCyl2.
Import ListNotations.
Local Open Scope R_scope.

Lemma world_local S C Rm p : orthogonal Rm -> world S C Rm p <-> S (to_local C Rm p).
Proof.
  intros Ho. split.
  - intros (q & Hq & HS). unfold placed in Hq. subst p. rewrite to_local_of by exact Ho. exact HS.
  - intros H. exists (to_local C Rm p). split; [apply from_local, Ho|exact H].
Qed.
Lemma unit_of_pos c v : 0 < c -> unit_of (rv_scale c v) = unit_of v.
Proof.
  intros Hc. unfold unit_of. rewrite rv_norm_scale, Rabs_pos_eq by lra.
  destruct (Req_dec (rv_norm v) 0) as [E|E].
  - rewrite (rv_norm_zero v E). apply vec_eq; cbn; ring.
  - apply vec_eq; cbn; field; lra.
Qed.
Lemma unit_of_one v : rv_dot v v = 1 -> unit_of v = v.
Proof. intros H. unfold unit_of. rewrite (rv_norm_unit v H). apply vec_eq; cbn; field. Qed.
Lemma at_unit O U t : rv_norm U <> 0 -> at_t O (unit_of U) (t * rv_norm U) = at_t O U t.
Proof. intros H. unfold unit_of. apply vec_eq; cbn; field; exact H. Qed.
Lemma at_unit' O U t : rv_norm U <> 0 -> at_t O (unit_of U) t = at_t O U (t / rv_norm U).
Proof. intros H. unfold unit_of. apply vec_eq; cbn; field; exact H. Qed.
Lemma orth_norm M v : orthogonal M -> rv_norm (rv_mul M v) = rv_norm v.
Proof. intros H. unfold rv_norm. rewrite orth_dot by exact H. reflexivity. Qed.
Lemma orth_norm' M v : orthogonal M -> rv_norm (rv_mul (rv_trans M) v) = rv_norm v.
Proof. intros H. unfold rv_norm. rewrite orth_dot' by exact H. reflexivity. Qed.
Lemma outward_nonzero a b h q g : 0 < a -> 0 < b -> outward a b h q g -> rv_norm g <> 0.
Proof.
  intros Ha Hb [[H ->]|[[_ ->]|[_ ->]]].
  - apply (side_g_nonzero a b q Ha Hb (proj1 H)).
  - intros E. apply rv_norm_zero in E. injection E as E. lra.
  - intros E. apply rv_norm_zero in E. injection E as E. lra.
Qed.

Section World.
Variables big tiny eps : R.
Notation XN := (Xnum big tiny eps).
Variables (i : cyl_isect xr) (cy : cylinder xr) (r : ray xr) (O U C : vec R) (a b h : R) (Rm : mat R).
Hypothesis HO : visR (ci_org i) O.
Hypothesis HU : visR (ci_dir i) U.
Hypothesis HC : visR (cy_center cy) C.
Hypothesis Xa : isR (cy_a cy) a.
Hypothesis Xb : isR (cy_b cy) b.
Hypothesis Xh : isR (cy_h cy) h.
Hypothesis Xr : misR (cy_rot cy) Rm.
Hypothesis Ha : 0 < a.
Hypothesis Hb : 0 < b.
Hypothesis Hh : 0 < h.
Hypothesis Ho : orthogonal Rm.
Hypothesis Hu : rv_norm U <> 0.
Notation surf := (world (on_surface a b h) C Rm).
Notation o := (to_local C Rm O).
Notation d := (rv_mul (rv_trans Rm) U).

(** What the code finds. *)
Definition answer (q : bool * cyl_isect xr) : Prop :=
  match q with
  | (false, i') => i' = i /\ (~ world (beside_cap a b h) C Rm O ->
      forall t, 0 < t -> surf (at_t O (unit_of U) t) -> touches a b h C Rm U (at_t O (unit_of U) t))
  | (true, i') => exists t g c, isR (ci_hd i') t /\ 0 < t /\ surf (at_t O (unit_of U) t) /\
      (forall u, 0 < u < t -> ~ surf (at_t O (unit_of U) u)) /\
      i' = CylIsect (ci_normal i') (ci_org i) (ci_dir i) (ci_min i) (ci_uv i) (ci_hd i') (Some (cy_id cy)) /\
      outward a b h (to_local C Rm (at_t O (unit_of U) t)) g /\ 0 < c /\
      ((~ slanted a b h C Rm O U (at_t O (unit_of U) t) /\ visR (ci_normal i') (rv_scale c (rv_mul Rm g))) \/
       (slanted a b h C Rm O U (at_t O (unit_of U) t) /\ visR (ci_normal i') (rv_scale c g)))
  end.

Lemma intersect_answer : ~ surf O -> answer (@cylinder_intersect _ XN i cy r).
Proof.
  intros Hoff. unfold cylinder_intersect. cbv zeta.
  set (org := mulmv (trans (cy_rot cy)) (vsub (ci_org i) (cy_center cy))).
  assert (Horg : visR org o).
  { apply visR_mul; [apply misR_trans, Xr|]. apply visR_sub; assumption. }
  set (dir := mulmv (trans (cy_rot cy)) (ci_dir i)).
  assert (Hdir : visR dir d) by (apply visR_mul; [apply misR_trans, Xr|assumption]).
  assert (Hd : rv_norm d <> 0) by (rewrite orth_norm' by exact Ho; exact Hu).
  assert (Hd' : vx d <> 0 \/ vy d <> 0 \/ vz d <> 0).
  { destruct (Req_dec (vx d) 0) as [E1|]; [|auto]. destruct (Req_dec (vy d) 0) as [E2|]; [|auto].
    destruct (Req_dec (vz d) 0) as [E3|]; [|auto]. exfalso. apply Hd. unfold rv_norm.
    replace (rv_dot d d) with 0; [apply sqrt_0|]. unfold rv_dot at 1. rewrite E1, E2, E3. ring. }
  rewrite (world_local _ C Rm O Ho) in Hoff.
  assert (Hn : 0 < rv_norm U) by (pose proof (rv_norm_nonneg U); lra).
  destruct o as [ox oy oz] eqn:Eo. destruct d as [dx dy dz] eqn:Ed. cbn [vx vy vz] in Hd'.
  pose proof (local_good big tiny eps (cy_a cy) (cy_b cy) (cy_h cy) a b h (cy_rot cy) Rm Xa Xb Xh Xr Ha Hb Hh
    org dir ox oy oz dx dy dz Horg Hdir Hd' Hoff) as G.
  destruct (cyl_local _ _ _ _ org dir) as [[n t]|].
  - destruct G as (s & g & c & Ht & Hs & Hsurf & Hfirst & Hout & Hc & Hnorm); [left; discriminate|].
    rewrite <- Eo, <- Ed, <- to_local_at in Hsurf, Hout.
    cbn [answer ci_hd ci_normal]. exists (s * rv_norm U), g, c. rewrite (at_unit O U s Hu).
    split.
    { eapply isR_to; [apply isR_norm, visR_scale; [exact Ht|exact Hdir]|].
      rewrite rv_norm_scale, <- Ed, orth_norm', Rabs_pos_eq by (exact Ho || lra). reflexivity. }
    split; [apply Rmult_lt_0_compat; assumption|].
    split; [apply world_local; assumption|].
    split.
    { intros u Hu0 Hw. rewrite (at_unit' O U u Hu) in Hw. apply (world_local _ C Rm _ Ho) in Hw.
      rewrite to_local_at, Eo, Ed in Hw. apply (Hfirst (u / rv_norm U)); [|exact Hw]. split.
      - apply Rmult_lt_0_compat; [lra|apply Rinv_0_lt_compat, Hn].
      - apply (Rmult_lt_reg_r (rv_norm U)); [exact Hn|]. unfold Rdiv. rewrite Rmult_assoc, Rinv_l, Rmult_1_r; lra. }
    split; [reflexivity|]. split; [exact Hout|]. split; [exact Hc|].
    assert (HS : slanted a b h C Rm O U (at_t O U s) <-> inside a b h (V ox oy oz) /\ dz <> 0 /\ on_side a b h (at_t (V ox oy oz) (V dx dy dz) s)).
    { unfold slanted. rewrite !(world_local _ C Rm _ Ho), normal_local, to_local_at, Eo, Ed. reflexivity. }
    rewrite <- !HS in Hnorm. exact Hnorm.
  - cbn [answer]. split; [reflexivity|]. intros Hbeside t Ht Hs.
    rewrite (world_local _ C Rm O Ho), Eo in Hbeside. specialize (G (or_intror Hbeside)).
    rewrite (at_unit' O U t Hu) in *. apply (world_local _ C Rm _ Ho) in Hs. rewrite to_local_at, Eo, Ed in Hs.
    assert (Ht' : 0 < t / rv_norm U) by (apply Rmult_lt_0_compat; [lra|apply Rinv_0_lt_compat, Hn]).
    destruct (G _ Ht' Hs) as [G1 G2].
    rewrite <- Eo, <- Ed, <- to_local_at in G1, G2.
    exists (to_local C Rm (at_t O U (t / rv_norm U))). split; [apply from_local, Ho|]. split; [exact G1|].
    rewrite <- rv_adjoint'. exact G2.
Qed.
End World.

(** C30. *)
Lemma cylinder_first big tiny eps i cy r O U C a b h Rm hit i' :
  visR (ci_org i) O -> visR (ci_dir i) U -> visR (cy_center cy) C ->
  isR (cy_a cy) a -> isR (cy_b cy) b -> isR (cy_h cy) h -> misR (cy_rot cy) Rm ->
  0 < a -> 0 < b -> 0 < h -> orthogonal Rm -> rv_norm U <> 0 ->
  ~ world (on_surface a b h) C Rm O ->
  @cylinder_intersect _ (Xnum big tiny eps) i cy r = (hit, i') ->
  (hit = true -> exists t, isR (ci_hd i') t /\ 0 < t /\ ci_prim i' = Some (cy_id cy) /\
     world (on_surface a b h) C Rm (at_t O (unit_of U) t) /\
     forall u, 0 < u < t -> ~ world (on_surface a b h) C Rm (at_t O (unit_of U) u)) /\
  (hit = false -> i' = i /\ (~ world (beside_cap a b h) C Rm O ->
     forall t, 0 < t -> world (on_surface a b h) C Rm (at_t O (unit_of U) t) ->
       touches a b h C Rm U (at_t O (unit_of U) t))).
Proof.
  intros HO HU HC Xa Xb Xh Xr Ha Hb Hh Ho Hu Hoff E.
  pose proof (intersect_answer big tiny eps i cy r O U C a b h Rm HO HU HC Xa Xb Xh Xr Ha Hb Hh Ho Hu Hoff) as H.
  rewrite E in H. destruct hit; cbn [answer] in H; split; try discriminate; intros _.
  - destruct H as (t & g & c & H1 & H2 & H3 & H4 & H5 & _). exists t.
    split; [exact H1|]. split; [exact H2|]. split; [rewrite H5; reflexivity|]. split; assumption.
  - exact H.
Qed.

(** C33. *)
Lemma cylinder_normal big tiny eps i cy r O U C a b h Rm i' rh :
  visR (ci_org i) O -> visR (ci_dir i) U -> visR (cy_center cy) C ->
  isR (cy_a cy) a -> isR (cy_b cy) b -> isR (cy_h cy) h -> misR (cy_rot cy) Rm ->
  0 < a -> 0 < b -> 0 < h -> orthogonal Rm -> rv_norm U <> 0 ->
  ~ world (on_surface a b h) C Rm O ->
  @cylinder_intersect _ (Xnum big tiny eps) i cy r = (true, i') ->
  exists t n rh', isR (ci_hd i') t /\ @cylinder_post _ (Xnum big tiny eps) i' rh = Ok rh' /\
    isR (h_distance rh') t /\ visR (h_normal rh') n /\ rv_norm n = 1 /\
    ((~ slanted a b h C Rm O U (at_t O (unit_of U) t) /\ unit_normal a b h C Rm (at_t O (unit_of U) t) n) \/
     (slanted a b h C Rm O U (at_t O (unit_of U) t) /\ local_normal a b h C Rm (at_t O (unit_of U) t) n)).
Proof.
  intros HO HU HC Xa Xb Xh Xr Ha Hb Hh Ho Hu Hoff E.
  pose proof (intersect_answer big tiny eps i cy r O U C a b h Rm HO HU HC Xa Xb Xh Xr Ha Hb Hh Ho Hu Hoff) as H.
  rewrite E in H. destruct H as (t & g & c & H1 & H2 & H3 & H4 & H5 & Hg & Hc & Hn).
  pose proof (outward_nonzero a b h _ g Ha Hb Hg) as Hg0.
  exists t. unfold cylinder_post.
  assert (Post : forall w, visR (ci_normal i') (rv_scale c w) -> rv_norm w <> 0 ->
    exists rh', Ok (RayHit (@normalize _ (Xnum big tiny eps) (ci_normal i')) (ci_uv i') (ci_hd i') (ci_prim i') (h_geom rh)) = Ok rh' /\
      isR (h_distance rh') t /\ visR (h_normal rh') (unit_of w) /\ rv_norm (unit_of w) = 1).
  { intros w Hw Hw0. eexists. split; [reflexivity|]. split; [exact H1|]. split.
    - rewrite <- (unit_of_pos c w Hc). apply visR_normalize; [exact Hw|]. rewrite rv_norm_scale.
      rewrite Rabs_pos_eq by lra. intros Z. apply Rmult_integral in Z as [Z|Z]; [lra|contradiction].
    - apply rv_norm_unit, unit_of_unit, Hw0. }
  destruct Hn as [[HS Hv]|[HS Hv]].
  - destruct (Post (rv_mul Rm g) Hv) as (rh' & P1 & P2 & P3 & P4).
    { rewrite orth_norm by exact Ho. exact Hg0. }
    exists (unit_of (rv_mul Rm g)), rh'. split; [exact H1|]. split; [exact P1|]. split; [exact P2|]. split; [exact P3|].
    split; [exact P4|]. left. split; [exact HS|]. exists (to_local C Rm (at_t O (unit_of U) t)), g.
    split; [apply from_local, Ho|]. split; [exact Hg|reflexivity].
  - destruct (Post g Hv Hg0) as (rh' & P1 & P2 & P3 & P4).
    exists (unit_of g), rh'. split; [exact H1|]. split; [exact P1|]. split; [exact P2|]. split; [exact P3|].
    split; [exact P4|]. right. split; [exact HS|].
    exists (to_local C Rm (at_t O (unit_of U) t)), g. split; [apply from_local, Ho|]. split; [exact Hg|reflexivity].
Qed.

(** From beside a cap the cylinder is always missed. *)
Lemma cylinder_beside big tiny eps i cy r O C a b h Rm :
  visR (ci_org i) O -> visR (cy_center cy) C ->
  isR (cy_a cy) a -> isR (cy_b cy) b -> isR (cy_h cy) h -> misR (cy_rot cy) Rm ->
  0 < a -> 0 < b -> 0 < h -> orthogonal Rm -> world (beside_cap a b h) C Rm O ->
  @cylinder_intersect _ (Xnum big tiny eps) i cy r = (false, i).
Proof.
  intros HO HC Xa Xb Xh Xr Ha Hb Hh Ho Hbs. unfold cylinder_intersect. cbv zeta.
  apply (world_local _ C Rm O Ho) in Hbs.
  destruct (to_local C Rm O) as [ox oy oz] eqn:Eo.
  rewrite (local_beside big tiny eps (cy_a cy) (cy_b cy) (cy_h cy) a b h (cy_rot cy) Xa Xb Xh Ha Hb Hh _ _ ox oy oz 0 0).
  - reflexivity.
  - rewrite <- Eo. apply visR_mul; [apply misR_trans, Xr|]. apply visR_sub; assumption.
  - exact Hbs.
Qed.
