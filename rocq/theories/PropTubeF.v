(** Cylinders in IEEE arithmetic ([Fnum prec emax]; binary32 is [Fnum 24 128], binary64 is
    [Fnum 53 1024]): the routine, with hits on the tube and on the caps. *)

From Coq Require Import Reals ZArith List Bool Arith Floats.SpecFloat.
From Flocq Require Import Core IEEE754.BinarySingleNaN.
From Verif Require Import Num NumR NumF Vec Ray Cylinder SpecReal SpecIEEE SpecTriF SpecSphF SpecPlane SpecPlaneF SpecTubeF.
From Verif Require Import PfTubeG CaseIEEE CaseTriF CaseSphF CasePlaneF CaseTubeF.
Import ListNotations.
Local Open Scope R_scope.

(** C101: seen from outside, an accepted cylinder is at the reported distance up to the error, and the
    ray does not go through the cylinder's interior before. *)
Theorem C101_from_outside : forall prec emax, Prec_gt_0 prec -> Prec_lt_emax prec emax ->
  forall M r v o d c fa fb fh m O U C a b h Q B, tube_ray prec emax M r v o d c fa fb fh m O U C a b h Q B ->
  forall st ray id st', ci_org st = o -> ci_dir st = d ->
  @cylinder_intersect _ (Fnum prec emax) st (Cylinder c fa fb fh m id) ray = (true, st') ->
  outside (tube_err prec M r) (cap_err prec M) a b h (local C Q O) ->
  ci_prim st' = Some id /\
  exists x, isF prec emax (ci_hd st') x /\ 0 <= x <= 3 * M /\
    on_tube (tube_err prec M r) (cap_err prec M) a b h (local C Q (at_t O U x)) /\
    forall t, 0 <= t <= x -> ~ deep_in (tube_err prec M r) (cap_err prec M) a b h (local C Q (at_t O U t)).
Proof. exact @tube_from_outside. Qed.
Print Assumptions C101_from_outside.
(** C101: a ray that enters the cylinder's interior away from the rims is not missed. *)
Theorem C101_not_missed : forall prec emax, Prec_gt_0 prec -> Prec_lt_emax prec emax ->
  forall M r v o d c fa fb fh m O U C a b h Q B, tube_ray prec emax M r v o d c fa fb fh m O U C a b h Q B ->
  forall st ray id t', ci_org st = o -> ci_dir st = d ->
  clear_outside (tube_err prec M r) (cap_err prec M) a b h (local C Q O) -> 0 <= t' ->
  deep_in (tube_err prec M r) (cap_err prec M) a b h (local C Q (at_t O U t')) ->
  (forall t, 0 <= t <= t' -> ~ near_rim (tube_err prec M r) (cap_err prec M) a b h (local C Q (at_t O U t))) ->
  exists st' x, @cylinder_intersect _ (Fnum prec emax) st (Cylinder c fa fb fh m id) ray = (true, st') /\
    isF prec emax (ci_hd st') x /\ x < t'.
Proof. exact @tube_not_missed. Qed.
Print Assumptions C101_not_missed.
Example C101_outside_case :
  tube_ray 53 1024 8 1 (/ 1024) (origin row_r0) (direction row_r0) (p64 0 1 0) (f64 2 0) (f64 1 0) (f64 4 0) slope_m (pR 0 0 3) can_U (pR 0 1 0) 2 1 2 slope_Q can_B /\
  clear_outside (tube_err 53 8 1) (cap_err 53 8) 2 1 2 (local (pR 0 1 0) slope_Q (pR 0 0 3)) /\
  deep_in (tube_err 53 8 1) (cap_err 53 8) 2 1 2 (local (pR 0 1 0) slope_Q (at_t (pR 0 0 3) can_U 2)) /\
  (forall t, 0 <= t <= 2 -> ~ near_rim (tube_err 53 8 1) (cap_err 53 8) 2 1 2 (local (pR 0 1 0) slope_Q (at_t (pR 0 0 3) can_U t))) /\
  exists st' x, @cylinder_intersect _ F64 (@cylinder_prepare _ F64 row_r0) can row_r0 = (true, st') /\ isF 53 1024 (ci_hd st') x /\ Rabs (x - 5 / 4) <= / 1000000000000.
Proof. exact can_outside. Qed.

(** C101: a ray from the interior meets the cylinder, at the reported distance up to the error, and does
    not leave it before. *)
Theorem C101_from_inside : forall prec emax, Prec_gt_0 prec -> Prec_lt_emax prec emax ->
  forall M r v o d c fa fb fh m O U C a b h Q B, tube_ray prec emax M r v o d c fa fb fh m O U C a b h Q B ->
  forall st ray id, ci_org st = o -> ci_dir st = d ->
  deep_in (tube_err prec M r) (cap_err prec M) a b h (local C Q O) ->
  exists st' x, @cylinder_intersect _ (Fnum prec emax) st (Cylinder c fa fb fh m id) ray = (true, st') /\
    ci_prim st' = Some id /\ isF prec emax (ci_hd st') x /\ 0 <= x <= 3 * M /\
    on_tube (tube_err prec M r) (cap_err prec M) a b h (local C Q (at_t O U x)) /\
    forall t, 0 <= t <= x -> in_tube (tube_err prec M r) (cap_err prec M) a b h (local C Q (at_t O U t)).
Proof. exact @tube_from_inside. Qed.
Print Assumptions C101_from_inside.
Example C101_inside_case :
  tube_ray 53 1024 8 1 (/ 1024) (origin can_r1) (direction can_r1) (p64 0 1 0) (f64 2 0) (f64 1 0) (f64 4 0) slope_m (pR 0 1 0) can_U (pR 0 1 0) 2 1 2 slope_Q can_B /\
  deep_in (tube_err 53 8 1) (cap_err 53 8) 2 1 2 (local (pR 0 1 0) slope_Q (pR 0 1 0)) /\
  exists st' x, @cylinder_intersect _ F64 (@cylinder_prepare _ F64 can_r1) can can_r1 = (true, st') /\ isF 53 1024 (ci_hd st') x /\ Rabs (x - 5 / 3) <= / 1000000000000.
Proof. exact can_inside. Qed.

(** C101: near a rim this is false: a ray that enters the interior beside a rim can be missed. *)
Theorem C101_rim_refuted : exists B,
  tube_ray 53 1024 128 1 (/ 1024) (origin rim_r) (direction rim_r) (p64 0 0 0) (f64 5 0) (f64 5 0) (f64 2 0) flat_m rim_O rim_U (pR 0 0 0) 5 5 1 flat_Q B /\
  clear_outside (tube_err 53 128 1) (cap_err 53 128) 5 5 1 (local (pR 0 0 0) flat_Q rim_O) /\
  deep_in (tube_err 53 128 1) (cap_err 53 128) 5 5 1 (local (pR 0 0 0) flat_Q (at_t rim_O rim_U 111)) /\
  @cylinder_intersect _ F64 (@cylinder_prepare _ F64 rim_r) (Cylinder (p64 0 0 0) (f64 5 0) (f64 5 0) (f64 2 0) flat_m 7) rim_r = (false, @cylinder_prepare _ F64 rim_r).
Proof. exact rim_missed. Qed.
Print Assumptions C101_rim_refuted.
