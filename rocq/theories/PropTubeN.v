(** Normals of cylinders in IEEE arithmetic ([Fnum prec emax]; binary32 is [Fnum 24 128], binary64 is
    [Fnum 53 1024]). *)

From Coq Require Import Reals ZArith List Bool Arith Floats.SpecFloat.
From Flocq Require Import Core IEEE754.BinarySingleNaN.
From Verif Require Import Num NumR NumF Vec Ray Cylinder SpecReal SpecIEEE SpecTriF SpecSphF SpecPlane SpecPlaneF SpecTubeF SpecTubeN.
From Verif Require Import PfTubeN2 CaseIEEE CaseTriF CaseSphF CasePlaneF CaseTubeF CaseTubeN.
Import ListNotations.
Local Open Scope R_scope.

(** C103: seen from outside, the stored normal is the one of the cap or of the tube at the stored distance. *)
Theorem C103_from_outside : forall prec emax, Prec_gt_0 prec -> Prec_lt_emax prec emax ->
  forall M r v o d c fa fb fh m O U C a b h Q B, tube_ray prec emax M r v o d c fa fb fh m O U C a b h Q B ->
  M <= / (4096 * ulpf prec) ->
  forall st ray id st' rh out, ci_org st = o -> ci_dir st = d ->
  @cylinder_intersect _ (Fnum prec emax) st (Cylinder c fa fb fh m id) ray = (true, st') ->
  outside (tube_err prec M r) (cap_err prec M) a b h (local C Q O) ->
  @cylinder_post _ (Fnum prec emax) st' rh = Ok out ->
  exists x, isF prec emax (h_distance out) x /\
    (cap_normal prec emax (tube_err prec M r) (cap_err prec M) h Q (h_normal out) (local C Q (at_t O U x)) \/
     side_normal prec emax (tube_err prec M r) a b Q (h_normal out) (local C Q (at_t O U x))).
Proof. exact @normal_outside. Qed.
Print Assumptions C103_from_outside.
Example C103_side_case : exists st' out N,
  tube_ray 53 1024 8 1 (/ 1024) (origin can_r2) (direction can_r2) (p64 0 1 0) (f64 2 0) (f64 1 0) (f64 4 0) slope_m (pR 0 1 3) can_U (pR 0 1 0) 2 1 2 slope_Q can_B /\
  8 <= / (4096 * ulpf 53) /\
  outside (tube_err 53 8 1) (cap_err 53 8) 2 1 2 (local (pR 0 1 0) slope_Q (pR 0 1 3)) /\
  @cylinder_intersect _ F64 (@cylinder_prepare _ F64 can_r2) can can_r2 = (true, st') /\ @cylinder_post _ F64 st' blank = Ok out /\
  visF 53 1024 (h_normal out) N /\ coords (/ 1000000000000) (rv_sub N (V 0 (4 / 5) (3 / 5))).
Proof. exact can_side. Qed.
Example C103_cap_case : exists st' out N,
  tube_ray 53 1024 8 1 (/ 1024) (origin row_r0) (direction row_r0) (p64 0 1 0) (f64 2 0) (f64 1 0) (f64 4 0) slope_m (pR 0 0 3) can_U (pR 0 1 0) 2 1 2 slope_Q can_B /\
  8 <= / (4096 * ulpf 53) /\
  outside (tube_err 53 8 1) (cap_err 53 8) 2 1 2 (local (pR 0 1 0) slope_Q (pR 0 0 3)) /\
  @cylinder_intersect _ F64 (@cylinder_prepare _ F64 row_r0) can row_r0 = (true, st') /\ @cylinder_post _ F64 st' blank = Ok out /\
  visF 53 1024 (h_normal out) N /\ coords (/ 1000000000000) (rv_sub N (V 0 (- (3 / 5)) (4 / 5))).
Proof. exact can_cap. Qed.

(** C103: from inside, the normal of a cap is turned; the normal of the tube is turned only if the ray runs
    exactly across the axis. *)
Theorem C103_from_inside : forall prec emax, Prec_gt_0 prec -> Prec_lt_emax prec emax ->
  forall M r v o d c fa fb fh m O U C a b h Q B, tube_ray prec emax M r v o d c fa fb fh m O U C a b h Q B ->
  M <= / (4096 * ulpf prec) ->
  forall st ray id, ci_org st = o -> ci_dir st = d ->
  deep_in (tube_err prec M r) (cap_err prec M) a b h (local C Q O) ->
  exists st', @cylinder_intersect _ (Fnum prec emax) st (Cylinder c fa fb fh m id) ray = (true, st') /\
  forall rh out, @cylinder_post _ (Fnum prec emax) st' rh = Ok out ->
  exists x, isF prec emax (h_distance out) x /\
    (cap_normal prec emax (tube_err prec M r) (cap_err prec M) h Q (h_normal out) (local C Q (at_t O U x)) \/
     (vz B = 0 /\ side_normal prec emax (tube_err prec M r) a b Q (h_normal out) (local C Q (at_t O U x))) \/
     (vz B <> 0 /\ local_normal prec emax (tube_err prec M r) a b (h_normal out) (local C Q (at_t O U x)))).
Proof. exact @normal_inside. Qed.
Print Assumptions C103_from_inside.
(** C103: so from inside, away from the caps, the stored normal can miss the tube's by 3/5 in one component;
    this is also a case of the theorem above. *)
Theorem C103_inside_refuted : exists st' out N x,
  tube_ray 53 1024 8 1 (/ 1024) (origin can_r1) (direction can_r1) (p64 0 1 0) (f64 2 0) (f64 1 0) (f64 4 0) slope_m (pR 0 1 0) can_U (pR 0 1 0) 2 1 2 slope_Q can_B /\
  8 <= / (4096 * ulpf 53) /\
  deep_in (tube_err 53 8 1) (cap_err 53 8) 2 1 2 (local (pR 0 1 0) slope_Q (pR 0 1 0)) /\
  @cylinder_intersect _ F64 (@cylinder_prepare _ F64 can_r1) can can_r1 = (true, st') /\ @cylinder_post _ F64 st' blank = Ok out /\
  isF 53 1024 (h_distance out) x /\ visF 53 1024 (h_normal out) N /\
  Rabs (vz (local (pR 0 1 0) slope_Q (at_t (pR 0 1 0) can_U x))) < 3 / 2 /\
  vz N - vz (rv_mul slope_Q (unit_of (uphill 2 1 (local (pR 0 1 0) slope_Q (at_t (pR 0 1 0) can_U x))))) = 3 / 5.
Proof. exact can_unturned. Qed.
Print Assumptions C103_inside_refuted.
