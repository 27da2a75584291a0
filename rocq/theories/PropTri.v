(** C24-C29: triangles, in exact arithmetic; C11, C12, C14, C15 for meshes. *)

From Coq Require Import Reals ZArith List Bool Floats.SpecFloat.
From Verif Require Import Num NumX NumF Vec Ray Bvh Traverse TriDist Trimesh SpecBvh SpecReal SpecNearest SpecTri.
From Verif Require Import PfPart PfTri PfTri2 PfTri3 PfClosest CaseSphere CaseTri.
Import ListNotations.
Local Open Scope R_scope.

(** C24 and C25.  The current best distance [ti_hd i] is any scalar, also infinite; the
    triangle may be degenerate; [U] need not be a unit vector. *)
Theorem C24_triangle_exact : forall big tiny eps i a b c id r O U m A B C h i',
  visR (origin r) O -> visR (direction r) U -> isR (ti_min i) m ->
  visR a A -> visR b B -> visR c C ->
  @tri_intersect _ (Xnum big tiny eps) i (@make_triangle _ (Xnum big tiny eps) a b c id) r = (h, i') ->
  (h = true <-> exists t u v, tri_det A B C U <> 0 /\ near_tri (4 * eps) A B C U (at_t O U t) u v /\
     m <= t /\ xltb (Fin t) (ti_hd i) = true) /\
  (h = true -> exists t u v, isR (ti_hd i') t /\ isR (fst (ti_uv i')) u /\ isR (snd (ti_uv i')) v /\
     ti_prim i' = Some id /\ near_tri (4 * eps) A B C U (at_t O U t) u v /\
     m <= t /\ xltb (Fin t) (ti_hd i) = true) /\
  (h = false -> i' = i).
Proof. exact tri_exact. Qed.
Print Assumptions C24_triangle_exact.
(** Each crossing of the closed triangle is reported. *)
Theorem C24_triangle_complete : forall big tiny eps i a b c id r O U m A B C t,
  visR (origin r) O -> visR (direction r) U -> isR (ti_min i) m ->
  visR a A -> visR b B -> visR c C -> 0 <= eps ->
  tri_det A B C U <> 0 -> on_tri A B C (at_t O U t) -> m <= t -> xltb (Fin t) (ti_hd i) = true ->
  exists i', @tri_intersect _ (Xnum big tiny eps) i (@make_triangle _ (Xnum big tiny eps) a b c id) r = (true, i') /\
    isR (ti_hd i') t.
Proof. exact tri_complete. Qed.
Print Assumptions C24_triangle_complete.
(** Without tolerance nothing else is. *)
Theorem C24_triangle_zero : forall big tiny i a b c id r O U m A B C h i',
  visR (origin r) O -> visR (direction r) U -> isR (ti_min i) m ->
  visR a A -> visR b B -> visR c C ->
  @tri_intersect _ (Xnum big tiny 0) i (@make_triangle _ (Xnum big tiny 0) a b c id) r = (h, i') ->
  (h = true <-> exists t, tri_det A B C U <> 0 /\ on_tri A B C (at_t O U t) /\ m <= t /\
     xltb (Fin t) (ti_hd i) = true).
Proof. exact tri_exact_zero. Qed.
Print Assumptions C24_triangle_zero.
(** A hit on an edge. *)
Example C24_case : forall big tiny eps, 0 <= eps -> exists i',
  @tri_intersect _ (Xnum big tiny eps) edge_isect
    (@make_triangle _ (Xnum big tiny eps) (vfin (V 10 0 0)) (vfin (V 10 3 0)) (vfin (V 10 0 3)) 5)
    (@make_ray _ (Xnum big tiny eps) (vfin (V 0 1 2)) (vfin (V 1 0 0)) (Fin 0) (Xinf false) false) = (true, i') /\
  isR (ti_hd i') 10.
Proof. exact edge_hit. Qed.

(** C25. *)
Theorem C25_triangle_uv : forall big tiny eps i a b c id r O U m A B C i',
  visR (origin r) O -> visR (direction r) U -> isR (ti_min i) m ->
  visR a A -> visR b B -> visR c C ->
  @tri_intersect _ (Xnum big tiny eps) i (@make_triangle _ (Xnum big tiny eps) a b c id) r = (true, i') ->
  exists t u v, isR (ti_hd i') t /\ isR (fst (ti_uv i')) u /\ isR (snd (ti_uv i')) v /\
    rv_add (rv_add (rv_scale (1 - u - v) A) (rv_scale u B)) (rv_scale v C) = rv_add O (rv_scale t U).
Proof. exact tri_uv. Qed.
Print Assumptions C25_triangle_uv.

(** C26. *)
Theorem C26_triangle_box : forall big tiny eps vertices faces P ms i,
  mesh_are vertices faces P -> @make_mesh _ (Xnum big tiny eps) vertices faces = Ok ms -> (i < length faces)%nat ->
  exists b g m M c, nth_error (m_box ms) i = Some b /\ nth_error (m_centers ms) i = Some g /\
    visR (fst b) m /\ visR (snd b) M /\ visR g c /\
    (forall p, on_tri (fa faces P i) (fb faces P i) (fc faces P i) p -> in_box m M p) /\
    (forall m' M', (forall p, on_tri (fa faces P i) (fb faces P i) (fc faces P i) p -> in_box m' M' p) ->
       in_box m' M' m /\ in_box m' M' M) /\
    in_box m M c.
Proof. exact mesh_box_ok. Qed.
Print Assumptions C26_triangle_box.
(** Such meshes are built. *)
Theorem C26_mesh_built : forall big tiny eps vertices P,
  (forall j, (j < length vertices)%nat -> exists x, nth_error vertices j = Some x /\ visR x (P j)) ->
  forall faces, (forall f, In f faces -> face_in (length vertices) f) ->
  exists ms, @make_mesh _ (Xnum big tiny eps) vertices faces = Ok ms.
Proof. exact make_mesh_ok. Qed.
Print Assumptions C26_mesh_built.
Example C26_case : mesh_are quad_vertices quad_faces quad_p.
Proof. exact quad_are. Qed.

(** C27: the stored normals. *)
Theorem C27_mesh_normals : forall big tiny eps vertices faces P ms,
  mesh_are vertices faces P -> @make_mesh _ (Xnum big tiny eps) vertices faces = Ok ms -> proper P faces ->
  (forall i, (i < length faces)%nat -> exists n, nth_error (m_fnormals ms) i = Some n /\
     visR n (face_normal P (face faces i))) /\
  (forall j, (j < length vertices)%nat -> exists n, nth_error (m_vnormals ms) j = Some n /\
     visR n (vertex_normal P faces j)) /\
  length (m_vnormals ms) = length vertices.
Proof. exact mesh_normals. Qed.
Print Assumptions C27_mesh_normals.
(** The normal of a hit; with several faces meeting, the interpolated normal may be zero. *)
Theorem C27_hit_normal : forall big tiny eps vertices P,
  (forall j, (j < length vertices)%nat -> exists x, nth_error vertices j = Some x /\ visR x (P j)) ->
  forall faces, (forall f, In f faces -> face_in (length vertices) f) ->
  forall ms i rh k u v, @make_mesh _ (Xnum big tiny eps) vertices faces = Ok ms ->
  ti_prim i = Some k -> (k < length faces)%nat -> isR (fst (ti_uv i)) u -> isR (snd (ti_uv i)) v ->
  exists rh', @tri_post _ (Xnum big tiny eps) ms i rh = Ok rh' /\ h_prim rh' = Some k /\
    h_distance rh' = ti_hd i /\ h_uv rh' = ti_uv i /\ h_geom rh' = h_geom rh /\
    (proper P faces -> mixed_normal P faces k u v <> rv_zero ->
     visR (h_normal rh') (unit_of (mixed_normal P faces k u v))).
Proof. exact tri_post_ok. Qed.
Print Assumptions C27_hit_normal.
Theorem C27_flat_mesh : forall P faces N i u v,
  (forall f, In f faces -> face_normal P f = N) -> rv_norm N = 1 -> (i < length faces)%nat ->
  0 <= u -> 0 <= v -> u + v <= 1 ->
  mixed_normal P faces i u v <> rv_zero /\ unit_of (mixed_normal P faces i u v) = N.
Proof. exact flat_mixed. Qed.
Print Assumptions C27_flat_mesh.
Theorem C27_face_normal_unit : forall P f,
  tri_cross (P (vx f)) (P (vy f)) (P (vz f)) <> rv_zero -> rv_norm (face_normal P f) = 1.
Proof. exact face_normal_unit. Qed.
Print Assumptions C27_face_normal_unit.
Example C27_case : proper quad_p quad_faces /\ forall f, In f quad_faces -> face_normal quad_p f = V 1 0 0.
Proof. exact (conj quad_proper quad_normal). Qed.

(** C28. *)
Theorem C28_closest_point : forall big tiny eps a b c p A B C P,
  visR a A -> visR b B -> visR c C -> visR p P -> tri_cross A B C <> rv_zero ->
  exists q, visR (@closest_point_on_triangle _ (Xnum big tiny eps) a b c p) q /\ on_tri A B C q /\
    forall q', on_tri A B C q' -> rv_norm (rv_sub P q) <= rv_norm (rv_sub P q').
Proof. exact closest_ok. Qed.
Print Assumptions C28_closest_point.
Example C28_case : forall big tiny eps, exists q,
  visR (@closest_point_on_triangle _ (Xnum big tiny eps) (vfin (V 0 0 0)) (vfin (V 4 0 0)) (vfin (V 0 4 0)) (vfin (V 6 (-1) 7))) q /\
  q = V 4 0 0.
Proof. exact closest_case. Qed.

(** C29.  The routine returns a point, where a distance is declared, and the point is the
    nearest of the triangle A, C, -B. *)
Theorem C29_triangle_distance_refuted : forall big tiny eps, exists a b c p A B C P q,
  visR a A /\ visR b B /\ visR c C /\ visR p P /\ tri_cross A B C <> rv_zero /\ on_tri A B C P /\
  visR (@triangle_distance _ (Xnum big tiny eps) (@make_triangle _ (Xnum big tiny eps) a b c 0) p) q /\
  1 <= rv_norm (rv_sub P q).
Proof. exact distance_refutes. Qed.
Print Assumptions C29_triangle_distance_refuted.
(** What holds: the nearest point if the second vertex is the origin. *)
Theorem C29_triangle_distance_partial : forall big tiny eps a b c id p A C P,
  visR a A -> visR b rv_zero -> visR c C -> visR p P -> tri_cross A rv_zero C <> rv_zero ->
  exists q, visR (@triangle_distance _ (Xnum big tiny eps) (@make_triangle _ (Xnum big tiny eps) a b c id) p) q /\
    on_tri A rv_zero C q /\
    forall q', on_tri A rv_zero C q' -> rv_norm (rv_sub P q) <= rv_norm (rv_sub P q').
Proof. exact distance_origin. Qed.
Print Assumptions C29_triangle_distance_partial.

(** C11 and C12 for meshes, for any tolerance: no crossing of a closed face is missed or
    overtaken, and what is reported is a hit within the tolerance. *)
Theorem C11_mesh : forall big tiny eps, 0 <= eps -> forall vertices faces P ms,
  mesh_are vertices faces P -> @make_mesh _ (Xnum big tiny eps) vertices faces = Ok ms ->
  (forall i, (i < length faces)%nat ->
     in_bounds big (tri_lower (fa faces P i) (fb faces P i) (fc faces P i)) /\
     in_bounds big (tri_upper (fa faces P i) (fb faces P i) (fc faces P i))) ->
  forall part, partition_ok part -> forall opt nodes st,
  @build _ (Xnum big tiny eps) _ part [] (@mesh_coll _ (Xnum big tiny eps) ms) opt = Ok (nodes, st) ->
  (forall k d, node_depth nodes k d -> (d <= 26)%nat) ->
  forall o d tmin tmax any O D m, admissible o d tmin O D m ->
  (vz D = 0 -> forall i, (i < length faces)%nat ->
     vz O <> vz (tri_lower (fa faces P i) (fb faces P i) (fc faces P i)) /\
     vz O <> vz (tri_upper (fa faces P i) (fb faces P i) (fc faces P i))) ->
  forall rh, loose_answer (mesh_cross faces P O (unit_of D) m tmax) (mesh_hit (4 * eps) faces P O (unit_of D) m tmax)
    (mesh_about faces P O (unit_of D)) any rh
    (@traverse _ (Xnum big tiny eps) _ _ (@tri_isector _ (Xnum big tiny eps) ms) nodes
       (@make_ray _ (Xnum big tiny eps) o d tmin tmax any) rh).
Proof. exact mesh_query. Qed.
Print Assumptions C11_mesh.
(** With a direction of any length from 1 on: crossings from [m] times its length on are
    not missed. *)
Theorem C11_mesh_wide : forall big tiny eps, 0 <= eps -> forall vertices faces P ms,
  mesh_are vertices faces P -> @make_mesh _ (Xnum big tiny eps) vertices faces = Ok ms ->
  (forall i, (i < length faces)%nat ->
     in_bounds big (tri_lower (fa faces P i) (fb faces P i) (fc faces P i)) /\
     in_bounds big (tri_upper (fa faces P i) (fb faces P i) (fc faces P i))) ->
  forall part, partition_ok part -> forall opt nodes st,
  @build _ (Xnum big tiny eps) _ part [] (@mesh_coll _ (Xnum big tiny eps) ms) opt = Ok (nodes, st) ->
  (forall k d, node_depth nodes k d -> (d <= 26)%nat) ->
  forall o d tmin tmax any O D m, wide o d tmin O D m ->
  (vz D = 0 -> forall i, (i < length faces)%nat ->
     vz O <> vz (tri_lower (fa faces P i) (fb faces P i) (fc faces P i)) /\
     vz O <> vz (tri_upper (fa faces P i) (fb faces P i) (fc faces P i))) ->
  forall rh, loose_answer (mesh_cross faces P O (unit_of D) (m * rv_norm D) tmax) (mesh_hit (4 * eps) faces P O (unit_of D) m tmax)
    (mesh_about faces P O (unit_of D)) any rh
    (@traverse _ (Xnum big tiny eps) _ _ (@tri_isector _ (Xnum big tiny eps) ms) nodes
       (@make_ray _ (Xnum big tiny eps) o d tmin tmax any) rh).
Proof. exact mesh_query_wide. Qed.
Print Assumptions C11_mesh_wide.
Example C11_mesh_wide_case : exists ms nodes st rh,
  @make_mesh _ (Xnum 1000 0 0) quad_vertices quad_faces = Ok ms /\
  @build _ (Xnum 1000 0 0) _ libstdcxx_partition [] (@mesh_coll _ (Xnum 1000 0 0) ms) five_opt = Ok (nodes, st) /\
  @traverse _ (Xnum 1000 0 0) _ _ (@tri_isector _ (Xnum 1000 0 0) ms) nodes
    (@make_ray _ (Xnum 1000 0 0) (vfin (V 0 0 0)) (vfin (V 4 0 0)) (Fin 1) (Fin 1000) false)
    (@new_rayhit _ (Xnum 1000 0 0)) = Ok (true, rh).
Proof. exact quad_query_long. Qed.
(** Without tolerance the answer is the nearest crossing. *)
Theorem C11_mesh_exact : forall big tiny vertices faces P ms part opt nodes st o d tmin tmax any O D m rh,
  mesh_are vertices faces P -> @make_mesh _ (Xnum big tiny 0) vertices faces = Ok ms ->
  (forall i, (i < length faces)%nat ->
     in_bounds big (tri_lower (fa faces P i) (fb faces P i) (fc faces P i)) /\
     in_bounds big (tri_upper (fa faces P i) (fb faces P i) (fc faces P i))) ->
  partition_ok part ->
  @build _ (Xnum big tiny 0) _ part [] (@mesh_coll _ (Xnum big tiny 0) ms) opt = Ok (nodes, st) ->
  (forall k d, node_depth nodes k d -> (d <= 26)%nat) -> admissible o d tmin O D m ->
  (vz D = 0 -> forall i, (i < length faces)%nat ->
     vz O <> vz (tri_lower (fa faces P i) (fb faces P i) (fc faces P i)) /\
     vz O <> vz (tri_upper (fa faces P i) (fb faces P i) (fc faces P i))) ->
  hit_answer (mesh_cross faces P O (unit_of D) m tmax) (mesh_about faces P O (unit_of D)) any rh
    (@traverse _ (Xnum big tiny 0) _ _ (@tri_isector _ (Xnum big tiny 0) ms) nodes
       (@make_ray _ (Xnum big tiny 0) o d tmin tmax any) rh).
Proof. exact mesh_exact_query. Qed.
Print Assumptions C11_mesh_exact.
(** The tree exists. *)
Theorem C11_mesh_built : forall big tiny eps vertices faces P ms part opt,
  mesh_are vertices faces P -> @make_mesh _ (Xnum big tiny eps) vertices faces = Ok ms ->
  (forall i, (i < length faces)%nat ->
     in_bounds big (tri_lower (fa faces P i) (fb faces P i) (fc faces P i)) /\
     in_bounds big (tri_upper (fa faces P i) (fb faces P i) (fc faces P i))) ->
  partition_ok part -> (1 <= bin_size opt)%nat -> (3 * Z.of_nat (bin_size opt) < 4294967296)%Z ->
  exists nodes st, @build _ (Xnum big tiny eps) _ part [] (@mesh_coll _ (Xnum big tiny eps) ms) opt = Ok (nodes, st).
Proof. exact mesh_build_ok. Qed.
Print Assumptions C11_mesh_built.
(** Three faces, two of them under the ray. *)
Example C11_mesh_case : exists ms nodes st rh,
  @make_mesh _ (Xnum 1000 0 0) quad_vertices quad_faces = Ok ms /\
  @build _ (Xnum 1000 0 0) _ libstdcxx_partition [] (@mesh_coll _ (Xnum 1000 0 0) ms) five_opt = Ok (nodes, st) /\
  @traverse _ (Xnum 1000 0 0) _ _ (@tri_isector _ (Xnum 1000 0 0) ms) nodes
    (@make_ray _ (Xnum 1000 0 0) (vfin (V 0 0 0)) (vfin (V 1 0 0)) (Fin 0) (Fin 1000) false)
    (@new_rayhit _ (Xnum 1000 0 0)) = Ok (true, rh) /\
  h_prim rh = Some 2%nat /\ isR (h_distance rh) 10 /\ visR (h_normal rh) (V 1 0 0).
Proof. exact quad_query. Qed.

(** C14 and C15 for meshes without tolerance ([k = 1] for C14). *)
Theorem C14_mesh : forall big tiny vertices faces P ms part1 part2 opt1 opt2 nodes1 nodes2 st1 st2 o d d' k tmin tmax O D m rh1 rh2,
  mesh_are vertices faces P -> @make_mesh _ (Xnum big tiny 0) vertices faces = Ok ms ->
  (forall i, (i < length faces)%nat ->
     in_bounds big (tri_lower (fa faces P i) (fb faces P i) (fc faces P i)) /\
     in_bounds big (tri_upper (fa faces P i) (fb faces P i) (fc faces P i))) ->
  partition_ok part1 -> @build _ (Xnum big tiny 0) _ part1 [] (@mesh_coll _ (Xnum big tiny 0) ms) opt1 = Ok (nodes1, st1) ->
  partition_ok part2 -> @build _ (Xnum big tiny 0) _ part2 [] (@mesh_coll _ (Xnum big tiny 0) ms) opt2 = Ok (nodes2, st2) ->
  (forall k d, node_depth nodes1 k d -> (d <= 26)%nat) ->
  (forall k d, node_depth nodes2 k d -> (d <= 26)%nat) ->
  admissible o d tmin O D m -> 0 < k -> admissible o d' tmin O (rv_scale k D) m ->
  (vz D = 0 -> forall i, (i < length faces)%nat ->
     vz O <> vz (tri_lower (fa faces P i) (fb faces P i) (fc faces P i)) /\
     vz O <> vz (tri_upper (fa faces P i) (fb faces P i) (fc faces P i))) ->
  same_answer
    (@traverse _ (Xnum big tiny 0) _ _ (@tri_isector _ (Xnum big tiny 0) ms) nodes1
       (@make_ray _ (Xnum big tiny 0) o d tmin tmax false) rh1)
    (@traverse _ (Xnum big tiny 0) _ _ (@tri_isector _ (Xnum big tiny 0) ms) nodes2
       (@make_ray _ (Xnum big tiny 0) o d' tmin tmax false) rh2).
Proof. exact mesh_agree. Qed.
Print Assumptions C14_mesh.
(** With the tolerance C14 fails (binary64): a triangle with edges of 2^-27 is hit by a ray
    passing two edge lengths away, depending on the leaf size. *)
Theorem C14_mesh_tolerance_refuted : exists m nodes1 nodes2 st1 st2 rh1 rh2,
  @make_mesh _ F64 tol_vertices tol_faces = Ok m /\
  @build _ F64 _ libstdcxx_partition [] (@mesh_coll _ F64 m) (Options 1 26 64) = Ok (nodes1, st1) /\
  @build _ F64 _ libstdcxx_partition [] (@mesh_coll _ F64 m) (Options 4 26 64) = Ok (nodes2, st2) /\
  @traverse _ F64 _ _ (@tri_isector _ F64 m) nodes1 tol_ray (@new_rayhit _ F64) = Ok (false, rh1) /\
  @traverse _ F64 _ _ (@tri_isector _ F64 m) nodes2 tol_ray (@new_rayhit _ F64) = Ok (true, rh2) /\
  h_distance rh2 = f64 10 0.
Proof. exact tol_refutes. Qed.
Print Assumptions C14_mesh_tolerance_refuted.
