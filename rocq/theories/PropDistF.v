(** Distances to spheres and plane patches in IEEE arithmetic, native and Embree. *)

From Coq Require Import Reals ZArith Floats.SpecFloat.
From Flocq Require Import Core IEEE754.BinarySingleNaN.
From Verif Require Import Num NumF Vec Sphere Plane Embree SpecReal SpecIEEE SpecTriF SpecSphere SpecSphF SpecPlane SpecPlaneF SpecDistF.
From Verif Require Import PfEmbree PfDistF CaseTriF CasePlaneF CaseEmbF CaseDistF.
Local Open Scope R_scope.

(** C107: the distance to a sphere is right up to five units of roundoff of the scene's size. *)
Theorem C107_sphere : forall prec emax, Prec_gt_0 prec -> Prec_lt_emax prec emax -> usual_format prec emax ->
  forall M, scale_ok prec emax M -> forall p P, visF prec emax p P ->
  forall c fr C r k, sphere_isF prec emax M P c fr C r ->
  exists d x, isF prec emax (@sphere_distance _ (Fnum prec emax) (Sphere c fr k) p) x /\
    distance_is (on_sphere C r) P d /\ Rabs (x - d) <= 5 * (ulpf prec * M).
Proof. exact sphere_distance_F. Qed.
Print Assumptions C107_sphere.
(** Embree's sphere computes the same number, in every arithmetic, and so is as close. *)
Theorem C107_embree_sphere_same : forall T (N : num T) c r g k p, esphere_distance (ESphere c r g) p = sphere_distance (Sphere c r k) p.
Proof. exact @esphere_distance_eq. Qed.
Print Assumptions C107_embree_sphere_same.
Theorem C107_embree_sphere : forall prec emax, Prec_gt_0 prec -> Prec_lt_emax prec emax -> usual_format prec emax ->
  forall M, scale_ok prec emax M -> forall p P, visF prec emax p P ->
  forall c fr C r g, sphere_isF prec emax M P c fr C r ->
  exists d x, isF prec emax (@esphere_distance _ (Fnum prec emax) (ESphere c fr g) p) x /\
    distance_is (on_sphere C r) P d /\ Rabs (x - d) <= 5 * (ulpf prec * M).
Proof. exact esphere_distance_F. Qed.
Print Assumptions C107_embree_sphere.
Example C107_sphere_case : visF 24 128 (p32 0 0 3) (pR 0 0 3) /\ sphere_isF 24 128 8 (pR 0 0 3) (p32 0 0 0) (f32 1 0) (pR 0 0 0) 1 /\
  @sphere_distance _ F32 (Sphere (p32 0 0 0) (f32 1 0) 0) (p32 0 0 3) = f32 2 0.
Proof. exact ball_dist. Qed.

(** A patch centered on the z axis: the distance is right up to eleven units if the foot point is clearly on the
    patch, and max() if it is clearly beside it.  Missing: other centers, for which it is false (C23). *)
Theorem C107_plane_partial : forall prec emax, Prec_gt_0 prec -> Prec_lt_emax prec emax -> usual_format prec emax ->
  forall M, scale_ok prec emax M -> forall p P, visF prec emax p P ->
  forall c fdx fdy m C dx dy Q k, plane_isF prec emax M P c fdx fdy m C dx dy Q -> vx C = 0 -> vy C = 0 ->
  let L := local C Q P in
  (Rabs (vx L) + 13 * (ulpf prec * M) <= dx / 2 -> Rabs (vy L) + 13 * (ulpf prec * M) <= dy / 2 ->
   exists d x, isF prec emax (@plane_distance _ (Fnum prec emax) (Plane c fdx fdy m k) p) x /\
     distance_is (on_patch C dx dy Q) P d /\ Rabs (x - d) <= 11 * (ulpf prec * M)) /\
  (dx / 2 + 13 * (ulpf prec * M) <= Rabs (vx L) \/ dy / 2 + 13 * (ulpf prec * M) <= Rabs (vy L) ->
   @plane_distance _ (Fnum prec emax) (Plane c fdx fdy m k) p = @nmaxv _ (Fnum prec emax)).
Proof. exact plane_distance_F. Qed.
Print Assumptions C107_plane_partial.
Example C107_plane_case : visF 24 128 (p32 0 0 3) (pR 0 0 3) /\
  plane_isF 24 128 8 (pR 0 0 3) (p32 0 0 (-4)) (f32 4 0) (f32 4 0) card_m (pR 0 0 (-4)) 4 4 flat_Q /\
  Rabs (vx (local (pR 0 0 (-4)) flat_Q (pR 0 0 3))) + 13 * (ulpf 24 * 8) <= 4 / 2 /\
  Rabs (vy (local (pR 0 0 (-4)) flat_Q (pR 0 0 3))) + 13 * (ulpf 24 * 8) <= 4 / 2 /\
  @plane_distance _ F32 (Plane (p32 0 0 (-4)) (f32 4 0) (f32 4 0) card_m 0) (p32 0 0 3) = f32 7 0.
Proof. exact card_dist. Qed.

(** Embree's plane says 0 for a point at distance 7. *)
Theorem C107_embree_plane_refuted : exists e p C dx dy Q P d, visF 24 128 p P /\
  plane_isF 24 128 8 P (ep_center e) (ep_d1 e) (ep_d2 e) (ep_rot e) C dx dy Q /\ distance_is (on_patch C dx dy Q) P d /\ d = 7 /\
  isF 24 128 (@eplane_distance _ F32 e p) 0.
Proof. exact embree_zero. Qed.
Print Assumptions C107_embree_plane_refuted.
