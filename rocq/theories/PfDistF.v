(** Distances to spheres and plane patches in IEEE arithmetic. *)

From Coq Require Import Reals ZArith Bool Lra Lia Psatz Floats.SpecFloat.
From Flocq Require Import Core IEEE754.BinarySingleNaN.
From Verif Require Import Num NumR NumX NumF Vec Ray Sphere Plane Embree SpecReal SpecIEEE SpecTriF SpecSphere SpecSphF SpecPlane SpecPlaneF SpecDistF.
From Verif Require Import PfIEEE PfIEEE2 PfIEEE3 PfTriF PfTriF2 PfDirF PfX PfSphere PfSphF PfSphF2 PfSphN PfPlane PfPlaneF PfPlaneF2 PfPlaneF3 PfPlaneF4.
Local Open Scope R_scope.

Lemma sphere_distance_is C r P : 0 <= r -> distance_is (on_sphere C r) P (Rabs (rv_norm (rv_sub C P) - r)).
Proof.
  intros H0. set (s := Sphere (vfin C) (Fin r) 0%nat).
  assert (HC : visR (sp_center s) C) by (repeat split). assert (HP : visR (vfin P) P) by (repeat split).
  destruct (sphere_distance_ok 1 0 0 s (vfin P) C r P HC eq_refl H0 HP) as (d & Hd & K).
  assert (E : isR (@sphere_distance _ (Xnum 1 0 0) s (vfin P)) (Rabs (rv_norm (rv_sub C P) - r))).
  { unfold sphere_distance. cbn [nabs nsub Xnum]. apply isR_abs, isR_sub; [|reflexivity]. apply isR_norm, visR_sub; assumption. }
  replace (Rabs (rv_norm (rv_sub C P) - r)) with d; [exact K|]. clear - Hd E.
  destruct (sphere_distance s (vfin P)); cbn in *; try contradiction. lra.
Qed.
Lemma patch_distance_is C dx dy Q P : orthogonal Q -> on_patch C dx dy Q (foot C Q P) ->
  distance_is (on_patch C dx dy Q) P (Rabs (vz (local C Q P))).
Proof.
  intros Ho Hf. split.
  - intros q Hq. apply (proj1 (on_patch_local C dx dy Q q Ho)) in Hq as (Hz & _).
    rewrite <- (orth_norm' Q (rv_sub q P) Ho).
    replace (rv_mul (rv_trans Q) (rv_sub q P)) with (rv_sub (local C Q q) (local C Q P))
      by (unfold local; rewrite <- rv_mul_sub; f_equal; apply vec_eq; cbn; ring).
    eapply Rle_trans; [|apply comp_norm]. cbn [rv_sub vz]. change (vz (local C Q q)) with (vz (to_local C Q q)). rewrite Hz.
    replace (0 - vz (local C Q P)) with (- vz (local C Q P)) by ring. rewrite Rabs_Ropp. lra.
  - exists (foot C Q P). split; [exact Hf|]. rewrite norm_sub_sym. apply (foot_distance C Q P Ho).
Qed.

Section F.
Variables prec emax : Z.
Context {Hprec : Prec_gt_0 prec} {Hmax : Prec_lt_emax prec emax}.
Hypothesis Hfmt : usual_format prec emax.
Notation FN := (Fnum prec emax).
Notation isf := (isF prec emax).
Notation rd := (rnd prec emax).
Notation u := (ulpf prec).
Notation low0 := (least emax).
Notation hi0 := (top emax).
Notation q := (/ 1000000).
Variable M : R.
Hypothesis HM : scale_ok prec emax M.

Lemma sphere_distance_F p P : visF prec emax p P -> forall c fr C r k, sphere_isF prec emax M P c fr C r ->
  exists d x, isf (@sphere_distance _ FN (Sphere c fr k) p) x /\ distance_is (on_sphere C r) P d /\ Rabs (x - d) <= 5 * (u * M).
Proof.
  intros Hp c fr C r k (Hc & Hr & Hb & Hn).
  destruct (uM_facts prec emax Hfmt M HM) as (U0 & U1 & V1 & UM & UM1 & UM2 & LP & LS & T1 & T2).
  exists (Rabs (rv_norm (rv_sub C P) - r)).
  rewrite norm_sub_sym in Hn. destruct (vn_sub prec emax Hfmt M HM _ _ _ _ Hc Hp Hn) as (_ & a & Ha & Ea). rewrite pow_1 in Ea.
  set (n := rv_norm (rv_sub C P)) in *. pose proof (rv_norm_nonneg (rv_sub C P)) as n0. fold n in n0.
  pose proof (rv_norm_nonneg a) as a0. pose proof (rv_norm_reverse a (rv_sub C P)) as Na. fold n in Na.
  assert (Na' : Rabs (rv_norm a - n) <= u * M) by lra. apply Rabs_le_inv in Na'.
  assert (An : rv_norm a <= 1.01 * M) by lra.
  assert (Am : rv_norm a * rv_norm a <= 2 * M ^ 2).
  { pose proof (Rmult_le_compat _ _ _ _ a0 a0 An An) as K. replace (M ^ 2) with (M * M) by ring.
    assert (0 <= M * M) by (apply Rmult_le_pos; lra). lra. }
  assert (M2 : 1 <= M ^ 2) by (apply (Mk_pos prec emax M HM)).
  destruct (norm_F prec emax Hfmt _ _ (2 * M ^ 2) Ha Am ltac:(lra) ltac:(lra)) as (h & Hh & h0 & Eh).
  assert (ua : u * rv_norm a <= u * (1.01 * M)) by (apply Rmult_le_compat_l; lra).
  assert (Eh' : Rabs (h - rv_norm a) <= 2.6 * (u * M)) by lra. apply Rabs_le_inv in Eh'.
  assert (B : Rabs (h - r) <= 1.02 * M) by (apply Rabs_le; lra).
  pose proof (rd_sub_rel prec emax _ _ _ _ Hh Hr) as E.
  assert (ub : u * Rabs (h - r) <= u * (1.02 * M)) by (apply Rmult_le_compat_l; lra).
  assert (I := isF_sub prec emax _ _ _ _ Hh Hr ltac:(apply (rd_half_top prec emax (p6 prec emax Hfmt)); lra)).
  apply (isF_abs prec emax) in I. eexists. split; [exact I|]. split; [apply sphere_distance_is; lra|].
  eapply Rle_trans; [apply Rabs_triang_inv2|]. apply Rabs_le_inv in E. apply Rabs_le. lra.
Qed.
Lemma esphere_distance_F p P : visF prec emax p P -> forall c fr C r g, sphere_isF prec emax M P c fr C r ->
  exists d x, isf (@esphere_distance _ FN (ESphere c fr g) p) x /\ distance_is (on_sphere C r) P d /\ Rabs (x - d) <= 5 * (u * M).
Proof. intros Hp c fr C r g H. exact (sphere_distance_F p P Hp c fr C r 0%nat H). Qed.

Lemma around x h : isf x 0 -> Rabs h < hi0 -> forall y, isf y h -> isf (@nsub _ FN x y) (- h) /\ isf (@nadd _ FN x y) h.
Proof.
  intros Hx T y Hy. pose proof (isF_opp prec emax _ _ Hy) as Hy'.
  split.
  - assert (I := isF_sub prec emax _ _ _ _ Hx Hy). replace (0 - h) with (- h) in I by ring.
    rewrite (rd_id prec emax _ _ Hy') in I. apply I. rewrite Rabs_Ropp. exact T.
  - assert (I := isF_add prec emax _ _ _ _ Hx Hy). replace (0 + h) with h in I by ring.
    rewrite (rd_id prec emax _ _ Hy) in I. apply I. exact T.
Qed.
Lemma plane_distance_F p P : visF prec emax p P -> forall c fdx fdy m C dx dy Q k, plane_isF prec emax M P c fdx fdy m C dx dy Q ->
  vx C = 0 -> vy C = 0 ->
  let L := local C Q P in
  (Rabs (vx L) + 13 * (u * M) <= dx / 2 -> Rabs (vy L) + 13 * (u * M) <= dy / 2 ->
   exists d x, isf (@plane_distance _ FN (Plane c fdx fdy m k) p) x /\ distance_is (on_patch C dx dy Q) P d /\ Rabs (x - d) <= 11 * (u * M)) /\
  (dx / 2 + 13 * (u * M) <= Rabs (vx L) \/ dy / 2 + 13 * (u * M) <= Rabs (vy L) ->
   @plane_distance _ FN (Plane c fdx fdy m k) p = @nmaxv _ FN).
Proof.
  intros Hp c fdx fdy m C dx dy Q k HP X0 Y0 L.
  destruct (uM_facts prec emax Hfmt M HM) as (U0 & U1 & V1 & UM & UM1 & UM2 & LP & LS & T1 & T2).
  destruct (org_F prec emax Hfmt M HM p c fdx fdy m P C dx dy Q Hp HP) as (A & (A1 & A2 & A3) & O1 & O2 & O3). fold L in O1, O2, O3.
  pose proof HP as ((C1 & C2 & C3) & Hx & Hy & (Ho & _) & Bx & By & _). rewrite X0 in C1. rewrite Y0 in C2.
  destruct (half_F prec emax Hfmt M HM _ _ Hx Bx) as (hx & Ix & _ & Ex & hx0). destruct (half_F prec emax Hfmt M HM _ _ Hy By) as (hy & Iy & _ & Ey & hy0).
  destruct (around _ hx C1 ltac:(rewrite Rabs_pos_eq; lra) _ Ix) as [Lx Rx]. destruct (around _ hy C2 ltac:(rewrite Rabs_pos_eq; lra) _ Iy) as [Ly Ry].
  unfold plane_distance. cbn [pl_rot pl_center pl_dx pl_dy]. fold (forg prec emax p c m).
  rewrite (isF_leb prec emax _ _ _ _ Lx A1), (isF_leb prec emax _ _ _ _ A1 Rx), (isF_leb prec emax _ _ _ _ Ly A2), (isF_leb prec emax _ _ _ _ A2 Ry).
  assert (q * u <= 0.5 * (u * M)) by lra.
  assert (Ex' : Rabs (hx - dx / 2) <= 1.5 * (u * M)) by lra. assert (Ey' : Rabs (hy - dy / 2) <= 1.5 * (u * M)) by lra.
  apply Rabs_le_inv in Ex', Ey'. apply Rabs_le_inv in O1, O2.
  split.
  - intros Kx Ky. assert (Kx' : Rabs (vx L) <= dx / 2 - 13 * (u * M)) by lra. assert (Ky' : Rabs (vy L) <= dy / 2 - 13 * (u * M)) by lra.
    apply Rabs_le_inv in Kx', Ky'.
    rewrite (proj2 (Rleb_spec (- hx) (vx A))) by lra. rewrite (proj2 (Rleb_spec (vx A) hx)) by lra.
    rewrite (proj2 (Rleb_spec (- hy) (vy A))) by lra. rewrite (proj2 (Rleb_spec (vy A) hy)) by lra. cbn [andb].
    exists (Rabs (vz L)), (Rabs (vz A)). split; [apply (isF_abs prec emax), A3|]. split.
    + apply (patch_distance_is C dx dy Q P Ho). apply (on_patch_local C dx dy Q _ Ho). rewrite (foot_local C Q P Ho).
      change (to_local C Q P) with L. cbn [vx vy vz]. repeat split; lra.
    + eapply Rle_trans; [apply Rabs_triang_inv2|exact O3].
  - intros K. destruct (Rleb (- hx) (vx A)) eqn:E1; [|reflexivity]. destruct (Rleb (vx A) hx) eqn:E2; [|reflexivity].
    destruct (Rleb (- hy) (vy A)) eqn:E3; [|reflexivity]. destruct (Rleb (vy A) hy) eqn:E4; [|reflexivity]. exfalso.
    apply Rleb_spec in E1. apply Rleb_spec in E2. apply Rleb_spec in E3. apply Rleb_spec in E4.
    destruct K as [K|K]; [assert (Rabs (vx L) <= dx / 2 + 12.6 * (u * M))|assert (Rabs (vy L) <= dy / 2 + 12.6 * (u * M))]; try (apply Rabs_le; lra); lra.
Qed.
End F.
