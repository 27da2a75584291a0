(** The Embree callbacks and Embree-backed scenes in IEEE arithmetic. *)

From Coq Require Import Reals ZArith List Floats.SpecFloat.
From Flocq Require Import Core IEEE754.BinarySingleNaN.
From Verif Require Import Num NumF Vec Ray Bvh Scene Embree EmbreeScene SpecReal SpecIEEE SpecTriF SpecSphF SpecPlane SpecPlaneF SpecScene SpecEmbScene SpecEmbF.
From Verif Require Import PfPart CaseTriF CasePlaneF CaseEmbNear PfEmbreeF PfEmbreeF2 CaseEmbF.
Import ListNotations.
Local Open Scope R_scope.

(** C105: in IEEE arithmetic the sphere's intersection callback either leaves the record, and then no surface
    is crossed with the margin before the ray's end, or it records a hit close to the surface, with its normal,
    that is not behind such a crossing. *)
Theorem C105_sphere : forall prec emax, Prec_gt_0 prec -> Prec_lt_emax prec emax -> usual_format prec emax ->
  forall M, scale_ok prec emax M -> forall rh O U lo,
  visF prec emax (r_org (rh_ray rh)) O -> unit_near prec emax (r_dir (rh_ray rh)) U -> isF prec emax (r_tnear (rh_ray rh)) lo -> 0 <= lo ->
  forall c fr C r g inst, sphere_isF prec emax M O c fr C r -> limit prec emax (r_tfar (rh_ray rh)) ->
  exists rh', @esphere_intersect _ (Fnum prec emax) (ESphere c fr (Some g)) 0 true inst rh = Ok rh' /\ same_ray rh rh' /\
  ((rh' = rh /\ forall y0 y, lo <= y0 -> crosses (power_err prec M) C r O U y0 y -> ~ at_least prec emax (r_tfar (rh_ray rh)) y) \/
   (exists t x, records prec emax g rh' x /\ lo < t /\ ball_near prec emax M C r O U t x (e_ng (rh_hit rh')) /\
      (forall h, isF prec emax (r_tfar (rh_ray rh)) h -> t < h + 28 * (ulpf prec * M)) /\
      (forall y0 y, lo <= y0 -> crosses (power_err prec M) C r O U y0 y -> x <= y + 56 * (ulpf prec * M)))).
Proof. exact esphere_F. Qed.
Print Assumptions C105_sphere.

(** The occlusion callback marks a ray only if the surface is close to it, and marks every ray that
    enters the ball with the margin. *)
Theorem C105_occlusion : forall prec emax, Prec_gt_0 prec -> Prec_lt_emax prec emax -> usual_format prec emax ->
  forall M, scale_ok prec emax M -> forall rh O U lo,
  visF prec emax (r_org (rh_ray rh)) O -> unit_near prec emax (r_dir (rh_ray rh)) U -> isF prec emax (r_tnear (rh_ray rh)) lo ->
  forall c fr C r g, sphere_isF prec emax M O c fr C r -> limit prec emax (r_tfar (rh_ray rh)) ->
  exists ry', @esphere_occluded _ (Fnum prec emax) (ESphere c fr (Some g)) 0 true (rh_ray rh) = Ok ry' /\
  ((ry' = rh_ray rh /\ forall y0 y, lo <= y0 -> crosses (power_err prec M) C r O U y0 y -> power C r (at_t O U y) <= - power_err prec M ->
      ~ at_least prec emax (r_tfar (rh_ray rh)) y) \/
   (ry' = set_tfar (rh_ray rh) (@ninf_neg _ (Fnum prec emax)) /\
    exists t, lo < t <= 2.1 * M /\ Rabs (power C r (at_t O U t)) <= power_err prec M /\ forall h, isF prec emax (r_tfar (rh_ray rh)) h -> t < h)).
Proof. exact esphere_occ_F. Qed.
Print Assumptions C105_occlusion.

Example C105_sphere_case : exists rh', usual_format 24 128 /\ scale_ok 24 128 8 /\ visF 24 128 (r_org (rh_ray drop_rh)) (pR 0 0 3) /\
  unit_near 24 128 (r_dir (rh_ray drop_rh)) down_U /\ isF 24 128 (r_tnear (rh_ray drop_rh)) 0 /\ limit 24 128 (r_tfar (rh_ray drop_rh)) /\
  sphere_isF 24 128 8 (pR 0 0 3) (p32 0 0 0) (f32 1 0) (pR 0 0 0) 1 /\
  crosses (power_err 24 8) (pR 0 0 0) 1 (pR 0 0 3) down_U 1 3 /\ large 24 8 1 /\
  power (pR 0 0 0) 1 (at_t (pR 0 0 3) down_U 3) <= - power_err 24 8 /\
  @esphere_intersect _ F32 (ESphere (p32 0 0 0) (f32 1 0) (Some 0%nat)) 0 true None drop_rh = Ok rh' /\
  r_tfar (rh_ray rh') = f32 2 0 /\ e_ng (rh_hit rh') = p32 0 0 1 /\
  @esphere_occluded _ F32 (ESphere (p32 0 0 0) (f32 1 0) (Some 0%nat)) 0 true (rh_ray drop_rh) = Ok (set_tfar (rh_ray drop_rh) (@ninf_neg _ F32)).
Proof. exact ball_case. Qed.

(** The same for planes. *)
Theorem C105_plane : forall prec emax, Prec_gt_0 prec -> Prec_lt_emax prec emax -> usual_format prec emax ->
  forall M, scale_ok prec emax M -> forall rh O U lo,
  visF prec emax (r_org (rh_ray rh)) O -> unit_near prec emax (r_dir (rh_ray rh)) U -> isF prec emax (r_tnear (rh_ray rh)) lo -> 0 <= lo ->
  forall c fx fy m C dx dy Q g inst, plane_isF prec emax M O c fx fy m C dx dy Q ->
  exists rh', @eplane_intersect _ (Fnum prec emax) (EPlane c fx fy m (Some g)) 0 true inst rh = Ok rh' /\ same_ray rh rh' /\
  ((rh' = rh /\ forall l t, lo <= l -> pierces (patch_err prec M) C dx dy Q O U l t ->
      ~ at_least prec emax (r_tfar (rh_ray rh)) (t + patch_err prec M / steepness Q U)) \/
   (exists t x, records prec emax g rh' x /\ lo < t /\ patch_near prec emax M C dx dy Q O U t x (e_ng (rh_hit rh')) /\
      (forall h, isF prec emax (r_tfar (rh_ray rh)) h -> t < h) /\
      (forall l t, lo <= l -> pierces (patch_err prec M) C dx dy Q O U l t -> x <= t + patch_err prec M / steepness Q U))).
Proof. exact eplane_F. Qed.
Print Assumptions C105_plane.
Example C105_plane_case : exists rh',
  plane_isF 24 128 8 (pR 0 0 3) (p32 0 0 (-4)) (f32 4 0) (f32 4 0) card_m (pR 0 0 (-4)) 4 4 flat_Q /\
  pierces (patch_err 24 8) (pR 0 0 (-4)) 4 4 flat_Q (pR 0 0 3) down_U 0 7 /\ steepness flat_Q down_U = 1 /\
  @eplane_intersect _ F32 (EPlane (p32 0 0 (-4)) (f32 4 0) (f32 4 0) card_m (Some 1%nat)) 0 true None drop_rh = Ok rh' /\
  r_tfar (rh_ray rh') = f32 7 0 /\ e_ng (rh_hit rh') = p32 0 0 1.
Proof. exact card_case. Qed.

(** C106: queries on Embree-backed float scenes of spheres, planes and meshes, whatever callbacks Embree runs
    and in whatever order: each may move the answer by two error terms. *)
Theorem C106_embree_nearest : forall prec emax, Prec_gt_0 prec -> Prec_lt_emax prec emax ->
  forall M part tri calls opt cs q l O U lo mesh e sh ids r rh,
  usual_format prec emax -> scale_ok prec emax M ->
  (forall c, In c cs -> first_given c) ->
  @e_run _ (Fnum prec emax) part true tri calls (@new_escene _ opt) (cs ++ [Commit]) = Ok (q, l) ->
  (forall g o, nth_error (q_geoms q) g = Some o -> shape_isF prec emax M O o (sh g)) ->
  visF prec emax (origin r) O -> unit_near prec emax (direction r) U -> isF prec emax (min_hit_distance r) lo -> 0 <= lo ->
  limit prec emax (max_hit_distance r) ->
  0 <= e -> finds_near prec emax mesh e tri O U lo ->
  (forall g, In g ids -> (g < length cs)%nat) ->
  (forall w, @intersect_calls _ (Fnum prec emax) tri q ids (@rtc_start _ (Fnum prec emax) r) = Ok w ->
     covers_near prec emax mesh q ids O U lo w) ->
  let err := 125 * (ulpf prec * M) + e in
  let k := INR (length ids) in
  exists b rh', @e_intersect1 _ (Fnum prec emax) true tri ids q r rh = Ok (b, rh') /\
    (b = false -> rh' = rh /\ forall g y, (g < length cs)%nat -> meets_by prec M mesh O U lo g (sh g) y ->
       ~ at_least prec emax (max_hit_distance r) (y + err)) /\
    (b = true -> exists g t x, (g < length cs)%nat /\ isF prec emax (h_distance rh') x /\ lo < t /\
       shape_near prec emax M mesh e O U g (sh g) t x (h_normal rh') /\ Rabs (x - t) <= err /\
       (sh g <> Triangles -> h_prim rh' = Some 0%nat) /\
       (forall h, isF prec emax (max_hit_distance r) h -> x < h + 2 * k * err) /\
       forall g' y, (g' < length cs)%nat -> meets_by prec M mesh O U lo g' (sh g') y ->
         at_least prec emax (max_hit_distance r) y -> x <= y + (1 + 2 * k) * err).
Proof. exact @embree_near_F. Qed.
Print Assumptions C106_embree_nearest.
Example C106_embree_nearest_case : exists q l rh',
  (forall c, In c drop_calls -> first_given c) /\
  @e_run _ F32 libstdcxx_partition true id_tri (fun _ _ => drop_ids) (@new_escene _ (Options 1 26 64)) (drop_calls ++ [Commit]) = Ok (q, l) /\
  (forall g o, nth_error (q_geoms q) g = Some o -> shape_isF 24 128 8 (pR 0 0 3) o (drop_shape g)) /\
  finds_near 24 128 nothing 0 id_tri (pR 0 0 3) down_U 0 /\
  (forall w, covers_near 24 128 nothing q drop_ids (pR 0 0 3) down_U 0 w) /\
  meets_by 24 8 nothing (pR 0 0 3) down_U 0 0 (drop_shape 0) 3 /\
  meets_by 24 8 nothing (pR 0 0 3) down_U 0 1 (drop_shape 1) (7 + patch_err 24 8) /\
  @e_intersect1 _ F32 true id_tri drop_ids q drop_ray (@new_rayhit _ F32) = Ok (true, rh') /\ isF 24 128 (h_distance rh') 2 /\ h_normal rh' = p32 0 0 1.
Proof. exact drop_case. Qed.
