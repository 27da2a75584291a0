(** Embree's cylinder callback in IEEE arithmetic. *)

From Coq Require Import Reals ZArith Floats.SpecFloat.
From Flocq Require Import Core IEEE754.BinarySingleNaN.
From Verif Require Import Num NumF Vec Ray Embree SpecReal SpecIEEE SpecTriF SpecSphF SpecPlane SpecPlaneF SpecTubeF SpecTubeN SpecEmbF.
From Verif Require Import CaseTriF CaseSphF CasePlaneF CaseTubeF PfECylF CaseECylF.
Local Open Scope R_scope.

(** C108: from outside, the intersection callback leaves the record or writes a point close to the surface,
    with the surface's normal, and the ray is not deep inside before it. *)
Theorem C108_from_outside : forall prec emax, Prec_gt_0 prec -> Prec_lt_emax prec emax ->
  forall M r v c fa fb fh m O U C a b h Q B rh,
  tube_ray prec emax M r v (r_org (rh_ray rh)) (r_dir (rh_ray rh)) c fa fb fh m O U C a b h Q B ->
  forall g inst, outside (tube_err prec M r) (cap_err prec M) a b h (local C Q O) ->
  exists rh', @ecyl_intersect _ (Fnum prec emax) (ECyl c fa fb fh m (Some g)) 0 true inst rh = Ok rh' /\ same_ray rh rh' /\
  (rh' = rh \/ exists x, records prec emax g rh' x /\ 0 <= x <= 3 * M /\
     on_tube (tube_err prec M r) (cap_err prec M) a b h (local C Q (at_t O U x)) /\
     (M <= / (4096 * ulpf prec) ->
        cap_normal prec emax (tube_err prec M r) (cap_err prec M) h Q (e_ng (rh_hit rh')) (local C Q (at_t O U x)) \/
        side_normal prec emax (tube_err prec M r) a b Q (e_ng (rh_hit rh')) (local C Q (at_t O U x))) /\
     forall t, 0 <= t <= x -> ~ deep_in (tube_err prec M r) (cap_err prec M) a b h (local C Q (at_t O U t))).
Proof. exact @ecyl_from_outside. Qed.
Print Assumptions C108_from_outside.

(** C108: a ray that gets deep inside and keeps away from the rims is not missed. *)
Theorem C108_not_missed : forall prec emax, Prec_gt_0 prec -> Prec_lt_emax prec emax ->
  forall M r v c fa fb fh m O U C a b h Q B rh,
  tube_ray prec emax M r v (r_org (rh_ray rh)) (r_dir (rh_ray rh)) c fa fb fh m O U C a b h Q B ->
  forall g inst t', clear_outside (tube_err prec M r) (cap_err prec M) a b h (local C Q O) -> 0 <= t' ->
  deep_in (tube_err prec M r) (cap_err prec M) a b h (local C Q (at_t O U t')) ->
  (forall t, 0 <= t <= t' -> ~ near_rim (tube_err prec M r) (cap_err prec M) a b h (local C Q (at_t O U t))) ->
  exists rh' x, @ecyl_intersect _ (Fnum prec emax) (ECyl c fa fb fh m (Some g)) 0 true inst rh = Ok rh' /\ records prec emax g rh' x /\ x < t'.
Proof. exact @ecyl_not_missed. Qed.
Print Assumptions C108_not_missed.
Example C108_outside_case : exists rh' x N,
  tube_ray 53 1024 8 1 (/ 1024) (r_org (rh_ray cap_rh)) (r_dir (rh_ray cap_rh)) (p64 0 1 0) (f64 2 0) (f64 1 0) (f64 4 0) slope_m (pR 0 0 3) can_U (pR 0 1 0) 2 1 2 slope_Q can_B /\
  8 <= / (4096 * ulpf 53) /\
  clear_outside (tube_err 53 8 1) (cap_err 53 8) 2 1 2 (local (pR 0 1 0) slope_Q (pR 0 0 3)) /\
  deep_in (tube_err 53 8 1) (cap_err 53 8) 2 1 2 (local (pR 0 1 0) slope_Q (at_t (pR 0 0 3) can_U 2)) /\
  (forall t, 0 <= t <= 2 -> ~ near_rim (tube_err 53 8 1) (cap_err 53 8) 2 1 2 (local (pR 0 1 0) slope_Q (at_t (pR 0 0 3) can_U t))) /\
  @ecyl_intersect _ F64 ecan 0 true None cap_rh = Ok rh' /\ records 53 1024 3 rh' x /\ Rabs (x - 5 / 4) <= / 1000000000000 /\
  visF 53 1024 (e_ng (rh_hit rh')) N /\ coords (/ 1000000000000) (rv_sub N (V 0 (- (3 / 5)) (4 / 5))).
Proof. exact ecan_outside. Qed.

(** C108: from deep inside it always writes a hit; unlike the native routine (C103) it turns every normal. *)
Theorem C108_from_inside : forall prec emax, Prec_gt_0 prec -> Prec_lt_emax prec emax ->
  forall M r v c fa fb fh m O U C a b h Q B rh,
  tube_ray prec emax M r v (r_org (rh_ray rh)) (r_dir (rh_ray rh)) c fa fb fh m O U C a b h Q B ->
  forall g inst, deep_in (tube_err prec M r) (cap_err prec M) a b h (local C Q O) ->
  exists rh' x, @ecyl_intersect _ (Fnum prec emax) (ECyl c fa fb fh m (Some g)) 0 true inst rh = Ok rh' /\ same_ray rh rh' /\
    records prec emax g rh' x /\ 0 <= x <= 3 * M /\
    on_tube (tube_err prec M r) (cap_err prec M) a b h (local C Q (at_t O U x)) /\
    (M <= / (4096 * ulpf prec) ->
       cap_normal prec emax (tube_err prec M r) (cap_err prec M) h Q (e_ng (rh_hit rh')) (local C Q (at_t O U x)) \/
       side_normal prec emax (tube_err prec M r) a b Q (e_ng (rh_hit rh')) (local C Q (at_t O U x))) /\
    forall t, 0 <= t <= x -> in_tube (tube_err prec M r) (cap_err prec M) a b h (local C Q (at_t O U t)).
Proof. exact @ecyl_from_inside. Qed.
Print Assumptions C108_from_inside.
Example C108_inside_case : exists rh' x N,
  tube_ray 53 1024 8 1 (/ 1024) (r_org (rh_ray axis_rh)) (r_dir (rh_ray axis_rh)) (p64 0 1 0) (f64 2 0) (f64 1 0) (f64 4 0) slope_m (pR 0 1 0) can_U (pR 0 1 0) 2 1 2 slope_Q can_B /\
  8 <= / (4096 * ulpf 53) /\
  deep_in (tube_err 53 8 1) (cap_err 53 8) 2 1 2 (local (pR 0 1 0) slope_Q (pR 0 1 0)) /\
  @ecyl_intersect _ F64 ecan 0 true None axis_rh = Ok rh' /\ records 53 1024 3 rh' x /\ Rabs (x - 5 / 3) <= / 1000000000000 /\
  visF 53 1024 (e_ng (rh_hit rh')) N /\ coords (/ 1000000000000) (rv_sub N (V 0 (- (4 / 5)) (- (3 / 5)))).
Proof. exact ecan_inside. Qed.
