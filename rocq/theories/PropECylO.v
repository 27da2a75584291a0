(** Embree's cylinder occlusion callback in IEEE arithmetic. *)

From Coq Require Import Reals ZArith Floats.SpecFloat.
From Flocq Require Import Core IEEE754.BinarySingleNaN.
From Verif Require Import Num NumF Vec Ray Embree SpecReal SpecIEEE SpecTriF SpecSphF SpecPlane SpecPlaneF SpecTubeF SpecTubeN SpecEmbF.
From Verif Require Import CaseTriF CaseSphF CasePlaneF CaseTubeF PfECylO CaseECylF CaseECylO.
Local Open Scope R_scope.

(** C109: from deep inside, the occlusion callback marks every ray. *)
Theorem C109_from_inside : forall prec emax, Prec_gt_0 prec -> Prec_lt_emax prec emax ->
  forall M r v c fa fb fh m O U C a b h Q B rh,
  tube_ray prec emax M r v (r_org (rh_ray rh)) (r_dir (rh_ray rh)) c fa fb fh m O U C a b h Q B ->
  forall g, deep_in (tube_err prec M r) (cap_err prec M) a b h (local C Q O) ->
  @ecyl_occluded _ (Fnum prec emax) (ECyl c fa fb fh m g) 0 true (rh_ray rh) = Ok (set_tfar (rh_ray rh) (@ninf_neg _ (Fnum prec emax))).
Proof. exact @eocc_inside. Qed.
Print Assumptions C109_from_inside.
Example C109_inside_case :
  tube_ray 53 1024 8 1 (/ 1024) (r_org (rh_ray axis_rh)) (r_dir (rh_ray axis_rh)) (p64 0 1 0) (f64 2 0) (f64 1 0) (f64 4 0) slope_m (pR 0 1 0) can_U (pR 0 1 0) 2 1 2 slope_Q can_B /\
  deep_in (tube_err 53 8 1) (cap_err 53 8) 2 1 2 (local (pR 0 1 0) slope_Q (pR 0 1 0)) /\
  @ecyl_occluded _ F64 ecan 0 true (rh_ray axis_rh) = Ok (set_tfar (rh_ray axis_rh) (@ninf_neg _ F64)).
Proof. exact ecan_shadow_inside. Qed.

(** C109: from clearly outside or deep inside, a ray for which the intersection callback writes a hit is marked. *)
Theorem C109_hits_marked : forall prec emax, Prec_gt_0 prec -> Prec_lt_emax prec emax ->
  forall M r v c fa fb fh m O U C a b h Q B rh,
  tube_ray prec emax M r v (r_org (rh_ray rh)) (r_dir (rh_ray rh)) c fa fb fh m O U C a b h Q B ->
  forall g inst rh', outside (tube_err prec M r) (cap_err prec M) a b h (local C Q O) \/ deep_in (tube_err prec M r) (cap_err prec M) a b h (local C Q O) ->
  @ecyl_intersect _ (Fnum prec emax) (ECyl c fa fb fh m (Some g)) 0 true inst rh = Ok rh' -> rh' = rh \/
  @ecyl_occluded _ (Fnum prec emax) (ECyl c fa fb fh m (Some g)) 0 true (rh_ray rh) = Ok (set_tfar (rh_ray rh) (@ninf_neg _ (Fnum prec emax))).
Proof. exact @eocc_hits. Qed.
Print Assumptions C109_hits_marked.

(** C109: a ray that gets deep inside and keeps away from the rims is marked. *)
Theorem C109_not_missed : forall prec emax, Prec_gt_0 prec -> Prec_lt_emax prec emax ->
  forall M r v c fa fb fh m O U C a b h Q B rh,
  tube_ray prec emax M r v (r_org (rh_ray rh)) (r_dir (rh_ray rh)) c fa fb fh m O U C a b h Q B ->
  forall g t', clear_outside (tube_err prec M r) (cap_err prec M) a b h (local C Q O) -> 0 <= t' ->
  deep_in (tube_err prec M r) (cap_err prec M) a b h (local C Q (at_t O U t')) ->
  (forall t, 0 <= t <= t' -> ~ near_rim (tube_err prec M r) (cap_err prec M) a b h (local C Q (at_t O U t))) ->
  @ecyl_occluded _ (Fnum prec emax) (ECyl c fa fb fh m g) 0 true (rh_ray rh) = Ok (set_tfar (rh_ray rh) (@ninf_neg _ (Fnum prec emax))).
Proof. exact @eocc_not_missed. Qed.
Print Assumptions C109_not_missed.

(** C109: from beyond a cap, a ray is marked only if it comes close to the surface.  Beside the cylinder this is
    false (C45_cylinder_occlusion_refuted). *)
Theorem C109_beyond_caps : forall prec emax, Prec_gt_0 prec -> Prec_lt_emax prec emax ->
  forall M r v c fa fb fh m O U C a b h Q B rh,
  tube_ray prec emax M r v (r_org (rh_ray rh)) (r_dir (rh_ray rh)) c fa fb fh m O U C a b h Q B ->
  forall g, h + cap_err prec M < Rabs (vz (local C Q O)) ->
  @ecyl_occluded _ (Fnum prec emax) (ECyl c fa fb fh m g) 0 true (rh_ray rh) = Ok (rh_ray rh) \/
  (@ecyl_occluded _ (Fnum prec emax) (ECyl c fa fb fh m g) 0 true (rh_ray rh) = Ok (set_tfar (rh_ray rh) (@ninf_neg _ (Fnum prec emax))) /\
   exists x, 0 <= x <= 3 * M /\ on_tube (tube_err prec M r) (cap_err prec M) a b h (local C Q (at_t O U x)) /\
     forall t, 0 <= t <= x -> ~ deep_in (tube_err prec M r) (cap_err prec M) a b h (local C Q (at_t O U t))).
Proof. exact @eocc_beyond. Qed.
Print Assumptions C109_beyond_caps.
Example C109_outside_case :
  tube_ray 53 1024 8 1 (/ 1024) (r_org (rh_ray cap_rh)) (r_dir (rh_ray cap_rh)) (p64 0 1 0) (f64 2 0) (f64 1 0) (f64 4 0) slope_m (pR 0 0 3) can_U (pR 0 1 0) 2 1 2 slope_Q can_B /\
  2 + cap_err 53 8 < Rabs (vz (local (pR 0 1 0) slope_Q (pR 0 0 3))) /\
  clear_outside (tube_err 53 8 1) (cap_err 53 8) 2 1 2 (local (pR 0 1 0) slope_Q (pR 0 0 3)) /\
  deep_in (tube_err 53 8 1) (cap_err 53 8) 2 1 2 (local (pR 0 1 0) slope_Q (at_t (pR 0 0 3) can_U 2)) /\
  (forall t, 0 <= t <= 2 -> ~ near_rim (tube_err 53 8 1) (cap_err 53 8) 2 1 2 (local (pR 0 1 0) slope_Q (at_t (pR 0 0 3) can_U t))) /\
  @ecyl_occluded _ F64 ecan 0 true (rh_ray cap_rh) = Ok (set_tfar (rh_ray cap_rh) (@ninf_neg _ F64)).
Proof. exact ecan_shadow. Qed.
