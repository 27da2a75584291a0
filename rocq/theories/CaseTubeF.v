(** Concrete cylinders in binary64. *)

From Coq Require Import Reals ZArith List Bool Arith Lra Lia Psatz Floats.SpecFloat.
From Flocq Require Import Core IEEE754.BinarySingleNaN.
From Verif Require Import Num NumR NumF Vec Ray Cylinder SpecReal SpecIEEE SpecTriF SpecSphF SpecPlane SpecPlaneF SpecTubeF.
From Verif Require Import PfIEEE PfX PfDirF PfTubeG CaseIEEE CaseTriF CaseSphF CasePlaneF.
Import ListNotations.
Local Open Scope R_scope.

(** A cylinder around (0, 1, 0), semi-axes 2 and 1, height 4, turned about the x-axis; rays downwards from
    (0, 0, 3), above a cap, and from the center. *)
Definition can : cylinder spec_float := Cylinder (p64 0 1 0) (f64 2 0) (f64 1 0) (f64 4 0) slope_m 7.
Definition can_r1 : ray spec_float := @make_ray _ F64 (p64 0 1 0) down_d (f64 0 0) (S754_infinity false) false.
Definition can_B : vec R := V 0 (- (5404319552844595 * / 9007199254740992)) (- (7205759403792794 * / 9007199254740992)).
Definition can_U : vec R := unit_of (pR 0 0 (-2)).
Lemma pow_low64 : least 1024 <= (/ 1024) ^ 4.
Proof. replace ((/ 1024) ^ 4) with (bpow radix2 (-40)) by (cbn; field). apply bpow_le. lia. Qed.
Lemma top64_48 : 2 ^ 70 <= top 1024.
Proof. rewrite <- (bpow_powerRZ radix2 70 : bpow radix2 70 = 2 ^ 70) || replace (2 ^ 70) with (bpow radix2 70) by (cbn; ring). apply bpow_le. lia. Qed.
Lemma can_dir : visF 53 1024 (@mulmv _ F64 (trans slope_m) (direction row_r0)) can_B.
Proof. set (w := @mulmv _ F64 (trans slope_m) (direction row_r0)). vm_compute in w. unfold w, can_B. split; [|split]; cbn [vx vy vz]; lit. Qed.
Lemma can_tame o O : visF 53 1024 o O -> rv_norm (rv_sub O (pR 0 1 0)) <= 8 ->
  tube_ray 53 1024 8 1 (/ 1024) o (direction row_r0) (p64 0 1 0) (f64 2 0) (f64 1 0) (f64 4 0) slope_m O can_U (pR 0 1 0) 2 1 2 slope_Q can_B.
Proof.
  intros Ho Hn. destruct row_one as (_ & A1 & A2 & A3 & A4 & _). constructor; try assumption.
  - apply p64_is; reflexivity.
  - apply int64; reflexivity.
  - apply int64; reflexivity.
  - apply int64; [reflexivity|lra].
  - exact slope_near.
  - lra.
  - rewrite ulp64_is. lra.
  - split; [lra|]. split; [lra|exact pow_low64].
  - eapply Rle_trans; [|exact top64_48]. cbn [pow]. lra.
  - exact can_dir.
  - right. right. cbn [can_B vy]. rewrite Rabs_left; lra.
  - right. cbn [can_B vz]. rewrite Rabs_left; lra.
Qed.
Lemma can_U_is : can_U = V 0 0 (-1).
Proof. unfold can_U. destruct (unit_down 2 ltac:(lra)) as [EU _]. rewrite down_eq. exact EU. Qed.
Lemma can_local t y z : local (pR 0 1 0) slope_Q (at_t (V 0 y z) can_U t) = V 0 (4 / 5 * (y - 1) + 3 / 5 * (z - t)) (- (3 / 5) * (y - 1) + 4 / 5 * (z - t)).
Proof. rewrite can_U_is. unfold local, at_t, rv_add, rv_scale, rv_sub, rv_mul, rv_trans, rv_dot, slope_Q, pR. cbn [vx vy vz]. f_equal; lra. Qed.
Lemma can_errs : tube_err 53 8 1 = 131072 / 9007199254740992 /\ cap_err 53 8 = 2048 / 9007199254740992.
Proof. unfold tube_err, cap_err. rewrite ulp64_is. split; field. Qed.
Lemma at_zero (o d : vec R) : o = at_t o d 0. Proof. symmetry. apply at_0. Qed.
Lemma can_outside :
  tube_ray 53 1024 8 1 (/ 1024) (origin row_r0) (direction row_r0) (p64 0 1 0) (f64 2 0) (f64 1 0) (f64 4 0) slope_m (pR 0 0 3) can_U (pR 0 1 0) 2 1 2 slope_Q can_B /\
  clear_outside (tube_err 53 8 1) (cap_err 53 8) 2 1 2 (local (pR 0 1 0) slope_Q (pR 0 0 3)) /\
  deep_in (tube_err 53 8 1) (cap_err 53 8) 2 1 2 (local (pR 0 1 0) slope_Q (at_t (pR 0 0 3) can_U 2)) /\
  (forall t, 0 <= t <= 2 -> ~ near_rim (tube_err 53 8 1) (cap_err 53 8) 2 1 2 (local (pR 0 1 0) slope_Q (at_t (pR 0 0 3) can_U t))) /\
  exists st' x, @cylinder_intersect _ F64 (@cylinder_prepare _ F64 row_r0) can row_r0 = (true, st') /\ isF 53 1024 (ci_hd st') x /\ Rabs (x - 5 / 4) <= / 1000000000000.
Proof.
  destruct can_errs as [E1 E2]. rewrite E1, E2. change (pR 0 0 3) with (V 0 0 3). split; [|split; [|split; [|split]]].
  - apply can_tame; [apply (p64_is 0 0 3); reflexivity|]. unfold rv_sub, pR. cbn [vx vy vz]. apply norm_below; lra.
  - left. rewrite (at_zero (V 0 0 3) can_U), can_local. cbn [vz]. rewrite Rabs_pos_eq; lra.
  - rewrite can_local. split; unfold radial; cbn [vx vy vz]; [lra|]. rewrite Rabs_pos_eq; lra.
  - intros t Ht. rewrite can_local. intros [N1 N2]. unfold radial in N1. cbn [vx vy vz] in N1, N2. rewrite (Rabs_pos_eq (- (3 / 5) * (0 - 1) + 4 / 5 * (3 - t))) in N2 by lra.
    apply Rabs_le_inv in N1, N2. nra.
  - eexists _, _. split; [vm_compute; reflexivity|]. cbn [ci_hd]. split; [split; [reflexivity|split; [reflexivity|reflexivity]]|]. apply Rabs_le. cbn. unfold F2R. cbn. lra.
Qed.
Lemma can_inside :
  tube_ray 53 1024 8 1 (/ 1024) (origin can_r1) (direction can_r1) (p64 0 1 0) (f64 2 0) (f64 1 0) (f64 4 0) slope_m (pR 0 1 0) can_U (pR 0 1 0) 2 1 2 slope_Q can_B /\
  deep_in (tube_err 53 8 1) (cap_err 53 8) 2 1 2 (local (pR 0 1 0) slope_Q (pR 0 1 0)) /\
  exists st' x, @cylinder_intersect _ F64 (@cylinder_prepare _ F64 can_r1) can can_r1 = (true, st') /\ isF 53 1024 (ci_hd st') x /\ Rabs (x - 5 / 3) <= / 1000000000000.
Proof.
  destruct can_errs as [E1 E2]. rewrite E1, E2. split; [|split].
  - apply (can_tame (p64 0 1 0)); [apply p64_is; reflexivity|]. unfold rv_sub, pR. cbn [vx vy vz]. apply norm_below; lra.
  - change (pR 0 1 0) with (V 0 1 0) at 2. rewrite (at_zero (V 0 1 0) can_U), can_local. split; unfold radial; cbn [vx vy vz]; [lra|]. replace (- (3 / 5) * (1 - 1) + 4 / 5 * (0 - 0)) with 0 by lra. rewrite Rabs_R0. lra.
  - eexists _, _. split; [vm_compute; reflexivity|]. cbn [ci_hd]. split; [split; [reflexivity|split; [reflexivity|reflexivity]]|].
    apply Rabs_le. cbn. unfold F2R. cbn. lra.
Qed.

(** A cylinder around the z-axis, radius 5, height 2, and a ray that goes into it close to a rim: the cap's
    test and the tube's test both fail. *)
Definition rim_o : vec spec_float := V (f64 (-6685030696878081) (-47)) (f64 0 0) (f64 103 0).
Definition rim_O : vec R := V (- (6685030696878081 * / 140737488355328)) 0 103.
Definition rim_r : ray spec_float := @make_ray _ F64 rim_o (p64 5 0 (-12)) (f64 0 0) (S754_infinity false) false.
Definition rim_U : vec R := unit_of (pR 5 0 (-12)).
Lemma rim_U_is : rim_U = V (5 / 13) 0 (-12 / 13) /\ rv_norm (pR 5 0 (-12)) = 13.
Proof.
  assert (N : rv_norm (pR 5 0 (-12)) = 13).
  { unfold rv_norm, rv_dot, pR. cbn [vx vy vz]. replace (5 * 5 + 0 * 0 + -12 * -12) with (13 * 13) by ring. apply sqrt_square. lra. }
  split; [|exact N]. unfold rim_U, unit_of, rv_scale. rewrite N. unfold pR. cbn [vx vy vz]. f_equal; field.
Qed.
Definition rim_B : vec R := V (6928614811339225 * / 18014398509481984) 0 (- (8314337773607070 * / 9007199254740992)).
Lemma rim_dir : visF 53 1024 (@mulmv _ F64 (trans flat_m) (direction rim_r)) rim_B.
Proof. set (w := @mulmv _ F64 (trans flat_m) (direction rim_r)). vm_compute in w. unfold w, rim_B. split; [|split]; cbn [vx vy vz]; lit. Qed.
Lemma rim_missed : exists B,
  tube_ray 53 1024 128 1 (/ 1024) (origin rim_r) (direction rim_r) (p64 0 0 0) (f64 5 0) (f64 5 0) (f64 2 0) flat_m rim_O rim_U (pR 0 0 0) 5 5 1 flat_Q B /\
  clear_outside (tube_err 53 128 1) (cap_err 53 128) 5 5 1 (local (pR 0 0 0) flat_Q rim_O) /\
  deep_in (tube_err 53 128 1) (cap_err 53 128) 5 5 1 (local (pR 0 0 0) flat_Q (at_t rim_O rim_U 111)) /\
  @cylinder_intersect _ F64 (@cylinder_prepare _ F64 rim_r) (Cylinder (p64 0 0 0) (f64 5 0) (f64 5 0) (f64 2 0) flat_m 7) rim_r = (false, @cylinder_prepare _ F64 rim_r).
Proof.
  destruct rim_U_is as [EU EN]. destruct row_one as (_ & A1 & _).
  assert (E : tube_err 53 128 1 = 33554432 / 9007199254740992 /\ cap_err 53 128 = 32768 / 9007199254740992) by (unfold tube_err, cap_err; rewrite ulp64_is; split; field).
  destruct E as [-> ->].
  exists rim_B. split; [|split; [|split]].
  - constructor.
    + exact A1.
    + apply scale64. lra.
    + split; [|split]; [lit|lit|lit].
    + split.
      * rewrite EU. unfold rv_norm, rv_dot. cbn [vx vy vz]. replace (5 / 13 * (5 / 13) + 0 * 0 + -12 / 13 * (-12 / 13)) with 1 by field. apply sqrt_1.
      * apply (@normalize_near 53 1024 prec53 emax1024 usual64 (p64 5 0 (-12))); [apply p64_is; reflexivity|]. rewrite EN, ulp64_is, Rinv_inv. lra.
    + apply p64_is; reflexivity.
    + apply int64; reflexivity.
    + apply int64; reflexivity.
    + apply int64; [reflexivity|lra].
    + exact flat_near.
    + unfold rv_sub, rim_O, pR. cbn [vx vy vz]. apply norm_below; lra.
    + lra.
    + rewrite ulp64_is. lra.
    + split; [lra|]. split; [lra|exact pow_low64].
    + eapply Rle_trans; [|exact top64_48]. cbn [pow]. lra.
    + exact rim_dir.
    + right. left. cbn [rim_B vx]. rewrite Rabs_pos_eq; lra.
    + right. cbn [rim_B vz]. rewrite Rabs_left; lra.
  - left. unfold local, rim_O, rv_sub, rv_mul, rv_trans, rv_dot, flat_Q, pR. cbn [vx vy vz]. rewrite Rabs_pos_eq; lra.
  - rewrite EU. unfold deep_in, radial, local, rim_O, at_t, rv_add, rv_scale, rv_sub, rv_mul, rv_trans, rv_dot, flat_Q, pR. cbn [vx vy vz]. split; [lra|]. rewrite Rabs_pos_eq; lra.
  - vm_compute. reflexivity.
Qed.
