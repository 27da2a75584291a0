(** C42-C46, C50-C56: the Embree callbacks and the Embree-backed scene. *)

From Coq Require Import Reals ZArith List Bool Floats.SpecFloat.
From Verif Require Import Num NumX NumF Vec Ray Bvh Traverse Sphere Plane Cylinder Scene Embree EmbreeScene.
From Verif Require Import SpecBvh SpecReal SpecSphere SpecPlane SpecCyl SpecScene SpecEmbree SpecEmbScene SpecEmbNear.
From Verif Require Import PfPart PfEmbree PfEmbree2 PfEmbree3 PfEmbree4 PfEmbScene PfEmbNear CasePlane CaseEmbree CaseEmbNear.
Import ListNotations.
Local Open Scope R_scope.

(** C42.  In every arithmetic: the same verdict and the same box. *)
Theorem C42_sphere_verdict : forall T (N : num T) c r g inst rh uv pr k ray_, e_geom (rh_hit rh) = None ->
  exists rh', esphere_intersect (ESphere c r (Some g)) 0 true inst rh = Ok rh' /\
    (e_geom (rh_hit rh') = Some g <->
     fst (sphere_intersect (SphereIsect (r_org (rh_ray rh)) (r_dir (rh_ray rh)) (r_tnear (rh_ray rh)) uv
                              (r_tfar (rh_ray rh)) pr) (Sphere c r k) ray_) = true).
Proof. exact @esphere_verdict. Qed.
Print Assumptions C42_sphere_verdict.
Theorem C42_sphere_bounds : forall T (N : num T) c r g, esphere_bounds (ESphere c r g) 0 = Ok (sphere_box c r).
Proof. exact @esphere_bounds_eq. Qed.
Print Assumptions C42_sphere_bounds.
(** In exact arithmetic also the same distance, texture coordinates and normal. *)
Theorem C42_sphere_agrees : forall big tiny eps c r g inst rh k ray_ O U m C rad,
  visR (r_org (rh_ray rh)) O -> visR (r_dir (rh_ray rh)) U -> isR (r_tnear (rh_ray rh)) m ->
  visR c C -> isR r rad -> rv_dot U U = 1 -> 0 <= m -> e_geom (rh_hit rh) = None ->
  exists rh' h i',
    @esphere_intersect _ (Xnum big tiny eps) (ESphere c r (Some g)) 0 true inst rh = Ok rh' /\
    @sphere_intersect _ (Xnum big tiny eps) (SphereIsect (r_org (rh_ray rh)) (r_dir (rh_ray rh)) (r_tnear (rh_ray rh)) (Fin 0, Fin 0)
        (r_tfar (rh_ray rh)) None) (Sphere c r k) ray_ = (h, i') /\
    (e_geom (rh_hit rh') = Some g <-> h = true) /\
    (h = false -> rh' = rh) /\
    (h = true -> exists t, isR (r_tfar (rh_ray rh')) t /\ isR (si_hd i') t /\ m < t /\
       e_prim (rh_hit rh') = Some 0%nat /\ (e_u (rh_hit rh'), e_v (rh_hit rh')) = si_uv i' /\
       (forall s rhn, nth_error (ss_centers s) k = Some c -> rad <> 0 ->
          exists rn n, @sphere_post _ (Xnum big tiny eps) s i' rhn = Ok rn /\ visR (h_normal rn) n /\
            visR (e_ng (rh_hit rh')) n /\ rv_norm n = 1)).
Proof. exact esphere_agrees. Qed.
Print Assumptions C42_sphere_agrees.
Example C42_sphere_agrees_case : exists rh',
  @esphere_intersect _ (Xnum 1000 0 0) (ESphere (vfin (V 10 0 0)) (Fin 2) (Some 5%nat)) 0 true None (xrh (V 0 0 0) (V 1 0 0) 1 100) = Ok rh' /\
  e_geom (rh_hit rh') = Some 5%nat /\
  2 * 2 < rv_dot (rv_sub (at_t (V 0 0 0) (V 1 0 0) 1) (V 10 0 0)) (rv_sub (at_t (V 0 0 0) (V 1 0 0) 1) (V 10 0 0)).
Proof. exact sphere_case. Qed.

(** C43.  True if the ray's segment starts outside the sphere (the case above meets the
    hypotheses); a marked ray has a hit from anywhere. *)
Theorem C43_sphere_occlusion_partial : forall big tiny eps c r g inst rh O U m C rad,
  visR (r_org (rh_ray rh)) O -> visR (r_dir (rh_ray rh)) U -> isR (r_tnear (rh_ray rh)) m ->
  visR c C -> isR r rad -> 0 < rv_dot U U ->
  rad * rad < rv_dot (rv_sub (at_t O U m) C) (rv_sub (at_t O U m) C) ->
  @same_verdict _ (Xnum big tiny eps) rh g (@esphere_occluded _ (Xnum big tiny eps) (ESphere c r (Some g)) 0 true (rh_ray rh))
    (@esphere_intersect _ (Xnum big tiny eps) (ESphere c r (Some g)) 0 true inst rh).
Proof. exact esphere_same_verdict. Qed.
Print Assumptions C43_sphere_occlusion_partial.
Theorem C43_occluded_hits_partial : forall big tiny eps c r g inst rh O U m C rad r',
  visR (r_org (rh_ray rh)) O -> visR (r_dir (rh_ray rh)) U -> isR (r_tnear (rh_ray rh)) m ->
  visR c C -> isR r rad -> 0 < rv_dot U U ->
  r_tfar (rh_ray rh) <> @ninf_neg _ (Xnum big tiny eps) -> e_geom (rh_hit rh) = None ->
  @esphere_occluded _ (Xnum big tiny eps) (ESphere c r (Some g)) 0 true (rh_ray rh) = Ok r' -> r_tfar r' = @ninf_neg _ (Xnum big tiny eps) ->
  exists rh', @esphere_intersect _ (Xnum big tiny eps) (ESphere c r (Some g)) 0 true inst rh = Ok rh' /\ e_geom (rh_hit rh') = Some g.
Proof. exact esphere_occ_sound. Qed.
Print Assumptions C43_occluded_hits_partial.
(** From inside it is false, in binary32: the ray from the center. *)
Theorem C43_sphere_occlusion_refuted : exists e g rh, es_geom e = Some g /\
  ~ @same_verdict _ F32 rh g (@esphere_occluded _ F32 e 0 true (rh_ray rh)) (@esphere_intersect _ F32 e 0 true None rh).
Proof. exact sphere_refutes. Qed.
Print Assumptions C43_sphere_occlusion_refuted.

(** C44.  In every arithmetic whose comparisons are those of a partial order (such as
    every binary floating-point format), if half of each extent is positive. *)
Theorem C44_plane_occlusion : forall T (N : num T) c x y m g valid inst rh, comparisons N ->
  nltb (ndiv (nopp x) n2) (ndiv x n2) = true -> nltb (ndiv (nopp y) n2) (ndiv y n2) = true ->
  same_verdict rh g (eplane_occluded (EPlane c x y m (Some g)) 0 valid (rh_ray rh))
    (eplane_intersect (EPlane c x y m (Some g)) 0 valid inst rh).
Proof. exact @eplane_same_verdict. Qed.
Print Assumptions C44_plane_occlusion.
Theorem C44_float_comparisons : forall prec emax, comparisons (Fnum prec emax).
Proof. exact f_comparisons. Qed.
Print Assumptions C44_float_comparisons.
Theorem C44_plane_occlusion_exact : forall big tiny eps c x y m g valid inst rh dx dy, isR x dx -> isR y dy -> 0 < dx -> 0 < dy ->
  @same_verdict _ (Xnum big tiny eps) rh g (@eplane_occluded _ (Xnum big tiny eps) (EPlane c x y m (Some g)) 0 valid (rh_ray rh))
    (@eplane_intersect _ (Xnum big tiny eps) (EPlane c x y m (Some g)) 0 valid inst rh).
Proof. exact eplane_same_verdict_exact. Qed.
Print Assumptions C44_plane_occlusion_exact.
Example C44_plane_occlusion_case : @comparisons _ F32 /\
  @nltb _ F32 (@ndiv _ F32 (@nopp _ F32 (f32 2 0)) (@n2 _ F32)) (@ndiv _ F32 (f32 2 0) (@n2 _ F32)) = true /\
  exists r' rh', @eplane_occluded _ F32 square 0 true (rh_ray down) = Ok r' /\ r_tfar r' = @ninf_neg _ F32 /\
    @eplane_intersect _ F32 square 0 true None down = Ok rh' /\ e_geom (rh_hit rh') = Some 3%nat /\ r_tfar (rh_ray rh') = f32 5 0.
Proof. exact square_case. Qed.
(** In binary32 half of the smallest positive extent is 0, and the two callbacks differ. *)
Theorem C44_smallest_extent_refuted : exists e g rh, ep_geom e = Some g /\
  @nltb _ F32 (@n0 _ F32) (ep_d1 e) = true /\ @nltb _ F32 (@n0 _ F32) (ep_d2 e) = true /\
  ~ @same_verdict _ F32 rh g (@eplane_occluded _ F32 e 0 true (rh_ray rh)) (@eplane_intersect _ F32 e 0 true None rh).
Proof. exact plane_refutes. Qed.
Print Assumptions C44_smallest_extent_refuted.

(** C45.  In every arithmetic, for rays that start beyond the planes of the caps. *)
Theorem C45_cylinder_occlusion_beyond_partial : forall T (N : num T) c a b h m g valid inst rh, comparisons N ->
  (let z := vz (mulmv (trans m) (vsub (r_org (rh_ray rh)) c)) in
   nltb (ndiv h n2) z = true \/ nltb z (ndiv (nopp h) n2) = true) ->
  same_verdict rh g (ecyl_occluded (ECyl c a b h m (Some g)) 0 valid (rh_ray rh))
    (ecyl_intersect (ECyl c a b h m (Some g)) 0 valid inst rh).
Proof. exact @ecyl_same_verdict_beyond. Qed.
Print Assumptions C45_cylinder_occlusion_beyond_partial.
Example C45_cylinder_occlusion_beyond_case : @nltb _ F32 (@ndiv _ F32 (f32 2 0) (@n2 _ F32)) (f32 5 0) = true /\
  exists r' rh', @ecyl_occluded _ F32 tube 0 true (rh_ray down) = Ok r' /\ r_tfar r' = @ninf_neg _ F32 /\
    @ecyl_intersect _ F32 tube 0 true None down = Ok rh' /\ e_geom (rh_hit rh') = Some 0%nat /\ r_tfar (rh_ray rh') = f32 4 0.
Proof. exact tube_case. Qed.
(** In exact arithmetic: beyond the caps, inside, and beside the cylinder if the ray
    meets the infinite cylinder only where it meets the finite one. *)
Theorem C45_cylinder_occlusion_partial : forall big tiny eps c xa xb xh m g valid inst rh O U C a b h Rm,
  visR (r_org (rh_ray rh)) O -> visR (r_dir (rh_ray rh)) U -> visR c C ->
  isR xa a -> isR xb b -> isR xh h -> misR m Rm -> 0 < a -> 0 < b -> orthogonal Rm ->
  world (beside a b h) C Rm O -> clear_view a b h C Rm O U ->
  @same_verdict _ (Xnum big tiny eps) rh g (@ecyl_occluded _ (Xnum big tiny eps) (ECyl c xa xb xh m (Some g)) 0 valid (rh_ray rh))
    (@ecyl_intersect _ (Xnum big tiny eps) (ECyl c xa xb xh m (Some g)) 0 valid inst rh).
Proof. exact w_beside_verdict. Qed.
Print Assumptions C45_cylinder_occlusion_partial.
Example C45_cylinder_occlusion_case :
  world (beside 1 1 2) (V 0 0 0) ident (V (-3) 0 0) /\ clear_view 1 1 2 (V 0 0 0) ident (V (-3) 0 0) (V 1 0 0) /\
  world (on_surface 1 1 2) (V 0 0 0) ident (at_t (V (-3) 0 0) (V 1 0 0) 2).
Proof. exact clear_case. Qed.
Theorem C45_cylinder_occlusion_past_partial : forall big tiny eps c xa xb xh m g valid inst rh O C h Rm,
  visR (r_org (rh_ray rh)) O -> visR c C -> isR xh h -> misR m Rm -> orthogonal Rm ->
  world (past_caps h) C Rm O -> 0 < h ->
  @same_verdict _ (Xnum big tiny eps) rh g (@ecyl_occluded _ (Xnum big tiny eps) (ECyl c xa xb xh m (Some g)) 0 valid (rh_ray rh))
    (@ecyl_intersect _ (Xnum big tiny eps) (ECyl c xa xb xh m (Some g)) 0 valid inst rh).
Proof. exact w_past. Qed.
Print Assumptions C45_cylinder_occlusion_past_partial.
Example C45_cylinder_occlusion_past_case : world (past_caps 2) (V 0 0 0) ident (V 0 0 5).
Proof. exact past_case. Qed.
Theorem C45_cylinder_occlusion_inside_partial : forall big tiny eps c xa xb xh m g valid inst rh O U C a b h Rm,
  visR (r_org (rh_ray rh)) O -> visR (r_dir (rh_ray rh)) U -> visR c C ->
  isR xa a -> isR xb b -> isR xh h -> misR m Rm -> 0 < a -> 0 < b -> orthogonal Rm -> rv_norm U <> 0 ->
  world (inside a b h) C Rm O ->
  @same_verdict _ (Xnum big tiny eps) rh g (@ecyl_occluded _ (Xnum big tiny eps) (ECyl c xa xb xh m (Some g)) 0 valid (rh_ray rh))
    (@ecyl_intersect _ (Xnum big tiny eps) (ECyl c xa xb xh m (Some g)) 0 valid inst rh).
Proof. exact w_inside_verdict. Qed.
Print Assumptions C45_cylinder_occlusion_inside_partial.
Example C45_cylinder_occlusion_inside_case : world (inside 1 1 2) (V 0 0 0) ident (V (1 / 2) 0 0).
Proof. exact within_case. Qed.
(** Off the surface, whatever the intersection callback hits is marked. *)
Theorem C45_hits_occluded_partial : forall big tiny eps c xa xb xh m g valid inst rh O U C a b h Rm,
  visR (r_org (rh_ray rh)) O -> visR (r_dir (rh_ray rh)) U -> visR c C ->
  isR xa a -> isR xb b -> isR xh h -> misR m Rm -> 0 < a -> 0 < b -> orthogonal Rm -> rv_norm U <> 0 ->
  0 < h -> ~ world (on_surface a b h) C Rm O ->
  r_tfar (rh_ray rh) <> @ninf_neg _ (Xnum big tiny eps) -> e_geom (rh_hit rh) = None ->
  exists r' rh', @ecyl_occluded _ (Xnum big tiny eps) (ECyl c xa xb xh m (Some g)) 0 valid (rh_ray rh) = Ok r' /\
    @ecyl_intersect _ (Xnum big tiny eps) (ECyl c xa xb xh m (Some g)) 0 valid inst rh = Ok rh' /\
    (e_geom (rh_hit rh') = Some g -> r_tfar r' = @ninf_neg _ (Xnum big tiny eps)).
Proof. exact w_sound. Qed.
Print Assumptions C45_hits_occluded_partial.
(** Not in general, in binary32: a ray that passes above is marked. *)
Theorem C45_cylinder_occlusion_refuted : exists e g rh, ec_geom e = Some g /\
  ~ @same_verdict _ F32 rh g (@ecyl_occluded _ F32 e 0 true (rh_ray rh)) (@ecyl_intersect _ F32 e 0 true None rh).
Proof. exact cyl_refutes. Qed.
Print Assumptions C45_cylinder_occlusion_refuted.
(** And a ray that leaves from a cap is hit at distance 0 without being marked. *)
Theorem C45_hits_occluded_refuted : exists e g rh rh' r', ec_geom e = Some g /\
  @ecyl_intersect _ F32 e 0 true None rh = Ok rh' /\ e_geom (rh_hit rh') = Some g /\
  @ecyl_occluded _ F32 e 0 true (rh_ray rh) = Ok r' /\ r_tfar r' <> @ninf_neg _ F32.
Proof. exact cyl_refutes_cap. Qed.
Print Assumptions C45_hits_occluded_refuted.

(** C46.  With float no query ever writes the geometry id, whatever Embree does. *)
Theorem C46_geom_id_refuted : exists q l rh,
  @e_run _ F32 libstdcxx_partition true (fun _ _ _ rh => rh) (fun _ _ => [0%nat]) (new_escene (Options 1 26 64)) one_ball = Ok (q, l) /\
  l = [Id (Some 0%nat); Done] /\
  @e_intersect1 _ F32 true (fun _ _ _ rh => rh) [0%nat] q x_ray (@new_rayhit _ F32) = Ok (true, rh) /\
  h_distance rh = f32 8 0 /\ h_geom rh = None.
Proof. exact geom_id_refutes. Qed.
Print Assumptions C46_geom_id_refuted.
Theorem C46_geom_id_never_written : forall T (N : num T) tri ids s r rh hit rh',
  e_intersect1 true tri ids s r rh = Ok (hit, rh') -> h_geom rh' = h_geom rh.
Proof. exact @single_geom. Qed.
Print Assumptions C46_geom_id_never_written.
(** The other fields come from the structure that Embree filled. *)
Theorem C46_other_fields_partial : forall T (N : num T) tri ids s r rh hit rh',
  e_intersect1 true tri ids s r rh = Ok (hit, rh') ->
  exists q, intersect_calls tri s ids (rtc_start r) = Ok q /\
    (hit = true <-> e_geom (rh_hit q) <> None) /\ (hit = false -> rh' = rh) /\
    (hit = true -> h_distance rh' = r_tfar (rh_ray q) /\ h_prim rh' = e_prim (rh_hit q) /\
       h_normal rh' = e_ng (rh_hit q) /\ h_uv rh' = (e_u (rh_hit q), e_v (rh_hit q))).
Proof. exact @single_answer. Qed.
Print Assumptions C46_other_fields_partial.

(** C55 (and C46 for double).  With double every history of calls gets the same replies as
    from BlazertScene, so that C37-C41 carry over. *)
Theorem C55_double_scene : forall T (N : num T) part tri calls, partition_ok part -> forall opt cs s l,
  run part (new_scene opt) cs = Ok (s, l) ->
  exists q, e_run part false tri calls (new_escene opt) cs = Ok (q, l).
Proof. exact @double_replies. Qed.
Print Assumptions C55_double_scene.
Example C55_double_scene_case : exists s rh,
  @run _ F64 libstdcxx_partition (new_scene (Options 1 26 64)) one_ball64 = Ok (s, [Id (Some 0%nat); Done; Answer true rh]) /\
  h_geom rh = Some 0%nat.
Proof. exact one_ball64_case. Qed.

(** C50. *)
Theorem C50_plane_agrees : forall big tiny eps c x y mt g inst rh k ray_ O U m C dx dy Rm,
  visR (r_org (rh_ray rh)) O -> visR (r_dir (rh_ray rh)) U -> isR (r_tnear (rh_ray rh)) m ->
  visR c C -> isR x dx -> isR y dy -> misR mt Rm ->
  0 < dx -> 0 < dy -> orthogonal Rm -> rv_dot U U = 1 -> 0 <= m -> e_geom (rh_hit rh) = None ->
  exists rh' h i', @eplane_intersect _ (Xnum big tiny eps) (EPlane c x y mt (Some g)) 0 true inst rh = Ok rh' /\
    @plane_intersect _ (Xnum big tiny eps) (PlaneIsect (vconst (Fin 0)) (r_org (rh_ray rh)) (r_dir (rh_ray rh)) (r_tnear (rh_ray rh)) (Fin 0, Fin 0)
        (r_tfar (rh_ray rh)) None) (Plane c x y mt k) ray_ = (h, i') /\
    (e_geom (rh_hit rh') = Some g <-> h = true) /\
    (h = false -> rh' = rh) /\
    (h = true -> r_tfar (rh_ray rh') = pi_hd i' /\ e_prim (rh_hit rh') = Some 0%nat /\
       forall rhn, exists rn n, @plane_post _ (Xnum big tiny eps) i' rhn = Ok rn /\ visR (h_normal rn) n /\
         visR (e_ng (rh_hit rh')) n /\ rv_norm n = 1).
Proof. exact eplane_agrees_exact. Qed.
Print Assumptions C50_plane_agrees.
Example C50_plane_agrees_case : exists rh',
  @eplane_intersect _ (Xnum 1000 0 0) (EPlane (vfin (V 10 0 0)) (Fin 2) (Fin 2) (mfin turn) (Some 5%nat)) 0 true None
    (xrh_inf (V 0 0 0) (V 1 0 0)) = Ok rh' /\ e_geom (rh_hit rh') = Some 5%nat /\ isR (r_tfar (rh_ray rh')) 10.
Proof. exact tilted_square_case. Qed.
Theorem C50_plane_bounds : forall T (N : num T) c x y m g, eplane_bounds (EPlane c x y m g) 0 = Ok (plane_box c x y m).
Proof. exact @eplane_bounds_eq. Qed.
Print Assumptions C50_plane_bounds.

(** C51.  The normals are equal unless the native routine leaves its own unrotated (C31). *)
Theorem C51_cylinder_agrees : forall big tiny eps c xa xb xh m g valid inst rh O U C a b h Rm,
  visR (r_org (rh_ray rh)) O -> visR (r_dir (rh_ray rh)) U -> visR c C ->
  isR xa a -> isR xb b -> isR xh h -> misR m Rm -> 0 < a -> 0 < b ->
  forall k i ray_, valid = true -> e_geom (rh_hit rh) = None ->
  ci_org i = r_org (rh_ray rh) -> ci_dir i = r_dir (rh_ray rh) ->
  exists rh' hit i', @ecyl_intersect _ (Xnum big tiny eps) (ECyl c xa xb xh m (Some g)) 0 valid inst rh = Ok rh' /\
    @cylinder_intersect _ (Xnum big tiny eps) i (Cylinder c xa xb xh m k) ray_ = (hit, i') /\
    (e_geom (rh_hit rh') = Some g <-> hit = true) /\
    (hit = false -> rh' = rh) /\
    (hit = true -> r_tfar (rh_ray rh') = ci_hd i' /\ e_prim (rh_hit rh') = Some 0%nat /\
       (e_ng (rh_hit rh') = ci_normal i' \/ e_ng (rh_hit rh') = @cyl_rot_normal _ (Xnum big tiny eps) m (ci_normal i'))).
Proof. exact w_agrees. Qed.
Print Assumptions C51_cylinder_agrees.
Example C51_cylinder_agrees_case : exists rh',
  @ecyl_intersect _ (Xnum 1000 0 0) (ECyl (vfin (V 10 0 0)) (Fin 1) (Fin 1) (Fin 2) (mfin turn) (Some 5%nat)) 0 true None
    (xrh_inf (V 0 0 0) (V 1 0 0)) = Ok rh' /\ e_geom (rh_hit rh') = Some 5%nat /\ isR (r_tfar (rh_ray rh')) (35 / 4).
Proof. exact tilted_cylinder_case. Qed.
Theorem C51_cylinder_bounds : forall T (N : num T) c a b h m g, ecyl_bounds (ECyl c a b h m g) 0 = Ok (cylinder_box c a b h m).
Proof. exact @ecyl_bounds_eq. Qed.
Print Assumptions C51_cylinder_bounds.

(** C52, C53.  With float, after any additions of non-empty collections: the ids are
    consecutive, only the first primitive of each call is attached, and the commit is
    defined exactly if spheres, planes and cylinders were added at most once each;
    every query afterwards is then defined. *)
Theorem C52_float_scene : forall T (N : num T) part tri calls opt cs, (forall c, In c cs -> first_given c) ->
  exists q, e_run part true tri calls (new_escene opt) cs = Ok (q, map (fun i => Id (Some i)) (seq 0 (length cs))) /\
    (forall i c, nth_error cs i = Some c -> exists o, nth_error (q_geoms q) i = Some o /\ attaches i c o) /\
    (each_once cs -> exists q', e_commit part true q = Ok (q', true) /\ q_geoms q' = q_geoms q /\ q_built q' = length cs /\
       forall ids r rh, (forall g, In g ids -> (g < length cs)%nat) ->
         exists hit rh', e_intersect1 true tri ids q' r rh = Ok (hit, rh')) /\
    (~ each_once cs -> e_commit part true q = UB UBprim).
Proof. exact @float_defined. Qed.
Print Assumptions C52_float_scene.
Example C52_float_scene_once_case : (forall c, In c ball_and_tube -> first_given c) /\ each_once ball_and_tube.
Proof. exact ball_and_tube_case. Qed.
Example C52_float_scene_twice_case : (forall c, In c two_balls -> first_given c) /\ ~ each_once two_balls.
Proof. exact two_balls_case. Qed.
(** An empty collection is read at index 0. *)
Theorem C53_empty_collection : forall T (N : num T) s, e_add_spheres true s [] [] = UB UBprim.
Proof. exact @empty_spheres. Qed.
Print Assumptions C53_empty_collection.

(** C54.  A float scene of meshes, one sphere and one plane, in exact arithmetic: whatever
    callbacks Embree runs, and in whatever order, if it leaves out only geometries whose
    bounds the ray does not meet, the answer is the nearest hit. *)
Theorem C54_embree_nearest : forall big tiny eps part tri calls opt cs q l O U m mesh ids r rh,
  (forall c, In c cs -> first_given c) ->
  @e_run _ (Xnum big tiny eps) part true tri calls (@new_escene _ opt) (cs ++ [Commit]) = Ok (q, l) ->
  (forall o, In o (q_geoms q) -> fine o) -> 0 <= tiny ->
  visR (origin r) O -> visR (direction r) U -> isR (min_hit_distance r) m -> rv_dot U U = 1 -> 0 <= m ->
  finds mesh tri O U m ->
  (forall g, In g ids -> (g < length cs)%nat) ->
  (forall w, @intersect_calls _ (Xnum big tiny eps) tri q ids (@rtc_start _ (Xnum big tiny eps) r) = Ok w ->
     covers (Xnum big tiny eps) mesh q ids O U m w) ->
  let hit g o t := nth_error (q_geoms q) g = Some o /\ geom_hit mesh O U m g o t /\ xltb (Fin t) (max_hit_distance r) = true in
  exists b rh', @e_intersect1 _ (Xnum big tiny eps) true tri ids q r rh = Ok (b, rh') /\
    (b = true <-> exists g o t, hit g o t) /\ (b = false -> rh' = rh) /\
    (b = true -> exists g o t, hit g o t /\ isR (h_distance rh') t /\ geom_normal O U o t (h_normal rh') /\
       ((forall v f, o <> GMesh v f) -> h_prim rh' = Some 0%nat) /\
       forall g' o' t', hit g' o' t' -> t <= t').
Proof. exact embree_nearest. Qed.
Print Assumptions C54_embree_nearest.
Example C54_embree_nearest_case : exists q l,
  (forall c, In c ball_and_square -> first_given c) /\
  @e_run _ (Xnum 1000 0 0) libstdcxx_partition true no_tri (fun _ _ => [0%nat]) (@new_escene _ (Options 1 26 64))
    (ball_and_square ++ [Commit]) = Ok (q, l) /\
  (forall o, In o (q_geoms q) -> fine o) /\
  finds no_mesh no_tri (V 0 0 0) (V 1 0 0) 1 /\
  (forall w, covers (Xnum 1000 0 0) no_mesh q [0%nat] (V 0 0 0) (V 1 0 0) 1 w) /\
  exists o, nth_error (q_geoms q) 0 = Some o /\ geom_hit no_mesh (V 0 0 0) (V 1 0 0) 1 0 o 8.
Proof. exact near_case. Qed.
(** With a cylinder the answer depends on the order: the cylinder's callback overwrites a
    nearer hit. *)
Theorem C54_cylinder_order_refuted : exists q l ids1 ids2 rh1 rh2,
  @e_run _ F32 libstdcxx_partition true id_tri (fun _ _ => []) (@new_escene _ (Options 1 26 64)) (tube_and_ball ++ [Commit]) = Ok (q, l) /\
  (forall g, (g < length (q_geoms q))%nat -> In g ids1 /\ In g ids2) /\
  @e_intersect1 _ F32 true id_tri ids1 q past_ball (@new_rayhit _ F32) = Ok (true, rh1) /\
  @e_intersect1 _ F32 true id_tri ids2 q past_ball (@new_rayhit _ F32) = Ok (true, rh2) /\
  @nltb _ F32 (h_distance rh1) (h_distance rh2) = true.
Proof. exact near_refutes. Qed.
Print Assumptions C54_cylinder_order_refuted.

(** C56.  The stride given for the vertex and index buffers is smaller than their
    elements, whatever their size. *)
Theorem C56_mesh_stride_short : forall size, (0 < size)%nat -> (buffer_stride size < size)%nat.
Proof. exact stride_short. Qed.
Print Assumptions C56_mesh_stride_short.
Theorem C56_mesh_stride_refuted : exists size, (0 < size)%nat /\ buffer_stride size <> size.
Proof. exact stride_refutes. Qed.
Print Assumptions C56_mesh_stride_refuted.
