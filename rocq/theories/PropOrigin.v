(** The sphere mesh of the benchmarks (benchmarks/benchmark_helper/OriginSphere.h). *)

From Coq Require Import Reals ZArith List Bool Arith Floats.SpecFloat.
From Flocq Require Import Core IEEE754.BinarySingleNaN.
From Verif Require Import Num NumR NumX NumF Vec Datatypes Ray Bvh Traverse Trimesh OriginSphere.
From Verif Require Import SpecBvh SpecReal SpecIEEE SpecTri SpecTriF SpecOrigin.
From Verif Require Import PfX PfOrigin PfOrigin5 PfOriginF CaseIEEE CaseOrigin.
Import ListNotations.
Local Open Scope R_scope.

(** C92: resolutions up to 13 have a mesh; above that the number of vertices to reserve does not fit. *)
Theorem C92_defined : forall (T : Type) (N : num T) (t : T) n,
  ((n <= 13)%nat -> exists m, origin_sphere t n = Ok m) /\ ((13 < n)%nat -> origin_sphere t n = UB UBconv).
Proof. exact @sphere_defined. Qed.
Print Assumptions C92_defined.
Example C92_defined_case : @origin_sphere _ F32 golden_float 14 = UB UBconv.
Proof. exact no_sphere. Qed.

(** C92: the mesh has 20 4^n faces and 20 4^n - 8 vertices, and its indices are in bounds, in any
    arithmetic. *)
Theorem C92_counts : forall (T : Type) (N : num T) (t : T) n m, origin_sphere t n = Ok m ->
  length (om_triangles m) = (20 * 4 ^ n)%nat /\ (length (om_vertices m) + 8)%nat = (20 * 4 ^ n)%nat /\ indexed m.
Proof. exact @sphere_counts. Qed.
Print Assumptions C92_counts.
Example C92_counts_case : exists m, @origin_sphere _ F32 golden_float 1 = Ok m /\
  length (om_vertices m) = 72%nat /\ length (om_triangles m) = 80%nat /\ indexed m /\ closed m.
Proof. exact some_sphere. Qed.

(** C92: it has no border if addition commutes, as it does in real and in IEEE arithmetic. *)
Theorem C92_closed : forall (T : Type) (N : num T) (t : T) n m, (forall x y, nadd x y = nadd y x) ->
  origin_sphere t n = Ok m -> closed m.
Proof. exact @sphere_closed. Qed.
Print Assumptions C92_closed.
Theorem C92_closed_exact : forall big tiny eps t n m, @origin_sphere _ (Xnum big tiny eps) t n = Ok m -> closed m.
Proof. exact sphere_closed_X. Qed.
Print Assumptions C92_closed_exact.
Theorem C92_closed_ieee : forall prec emax t n m, @origin_sphere _ (Fnum prec emax) t n = Ok m -> closed m.
Proof. exact sphere_closed_F. Qed.
Print Assumptions C92_closed_ieee.

(** C93: in exact arithmetic, with any number above 1 in the place of the golden ratio, the vertices
    are numbers. *)
Theorem C93_finite : forall big tiny eps t tau n m, isR t tau -> 1 < tau -> @origin_sphere _ (Xnum big tiny eps) t n = Ok m ->
  exists P, mesh_are (om_vertices m) (om_triangles m) P.
Proof. exact sphere_ready. Qed.
Print Assumptions C93_finite.
Example C93_case : exists m P, @origin_sphere _ (Xnum 1000 0 0) (Fin 2) 2 = Ok m /\ mesh_are (om_vertices m) (om_triangles m) P /\
  length (om_triangles m) = 320%nat.
Proof. exact some_real_sphere. Qed.

(** C93: the vertices lie on the unit sphere, the faces are seen from outside in positive order, and
    edges and the gap between a face and the sphere become small. *)
Theorem C93_shape : forall big tiny eps t tau n m P, isR t tau -> 1 < tau -> @origin_sphere _ (Xnum big tiny eps) t n = Ok m ->
  mesh_are (om_vertices m) (om_triangles m) P ->
  let A := fa (om_triangles m) P in let B := fb (om_triangles m) P in let C := fc (om_triangles m) P in
  (forall j, (j < length (om_vertices m))%nat -> rv_norm (P j) = 1) /\
  (forall i, (i < length (om_triangles m))%nat ->
     0 < rv_dot (A i) (tri_cross (A i) (B i) (C i)) /\
     dist2 (A i) (B i) < 6 / (2 + 4 ^ n) /\ dist2 (B i) (C i) < 6 / (2 + 4 ^ n) /\ dist2 (C i) (A i) < 6 / (2 + 4 ^ n) /\
     forall p, on_tri (A i) (B i) (C i) p -> sqrt (4 ^ n / (2 + 4 ^ n)) <= rv_norm p <= 1).
Proof. exact sphere_shape. Qed.
Print Assumptions C93_shape.

(** C93: seen from the center, the faces cover every direction, and no two of them overlap. *)
Theorem C93_round : forall big tiny eps t tau n m P, isR t tau -> 1 < tau -> @origin_sphere _ (Xnum big tiny eps) t n = Ok m ->
  mesh_are (om_vertices m) (om_triangles m) P ->
  let A := fa (om_triangles m) P in let B := fb (om_triangles m) P in let C := fc (om_triangles m) P in
  (forall p, exists i, (i < length (om_triangles m))%nat /\ in_cone (A i) (B i) (C i) p) /\
  (forall i j p, (i < length (om_triangles m))%nat -> (j < length (om_triangles m))%nat ->
     within_cone (A i) (B i) (C i) p -> within_cone (A j) (B j) (C j) p -> i = j).
Proof. exact sphere_round. Qed.
Print Assumptions C93_round.

(** C94: in exact arithmetic a ray from the center hits, if its direction's z is not 0: at a face in
    whose cone it is, and at a distance close to 1. *)
Theorem C94_center : forall big tiny t tau n m P, 1 <= big -> isR t tau -> 1 < tau -> @origin_sphere _ (Xnum big tiny 0) t n = Ok m ->
  mesh_are (om_vertices m) (om_triangles m) P ->
  forall part opt, partition_ok part -> (1 <= bin_size opt)%nat -> (3 * Z.of_nat (bin_size opt) < 4294967296)%Z -> shallow opt (20 * 4 ^ n) ->
  exists ms nodes st, @make_mesh _ (Xnum big tiny 0) (om_vertices m) (om_triangles m) = Ok ms /\
    @build _ (Xnum big tiny 0) _ part [] (@mesh_coll _ (Xnum big tiny 0) ms) opt = Ok (nodes, st) /\
  forall o d tmin tmax any D m0 rh, admissible o d tmin rv_zero D m0 -> vz D <> 0 -> m0 * m0 <= 4 ^ n / (2 + 4 ^ n) -> xltb (Fin 1) tmax = true ->
  exists rh' i s, @traverse _ (Xnum big tiny 0) _ _ (@tri_isector _ (Xnum big tiny 0) ms) nodes
      (@make_ray _ (Xnum big tiny 0) o d tmin tmax any) rh = Ok (true, rh') /\
    h_prim rh' = Some i /\ (i < length (om_triangles m))%nat /\
    in_cone (fa (om_triangles m) P i) (fb (om_triangles m) P i) (fc (om_triangles m) P i) D /\
    isR (h_distance rh') s /\ sqrt (4 ^ n / (2 + 4 ^ n)) <= s <= 1.
Proof. exact center_answer. Qed.
Print Assumptions C94_center.
Example C94_center_case : exists m P ms nodes st rh i s, @origin_sphere _ (Xnum 1000 0 0) (Fin 2) 2 = Ok m /\ mesh_are (om_vertices m) (om_triangles m) P /\
  @make_mesh _ (Xnum 1000 0 0) (om_vertices m) (om_triangles m) = Ok ms /\
  @build _ (Xnum 1000 0 0) _ libstdcxx_partition [] (@mesh_coll _ (Xnum 1000 0 0) ms) low_opt = Ok (nodes, st) /\
  @traverse _ (Xnum 1000 0 0) _ _ (@tri_isector _ (Xnum 1000 0 0) ms) nodes
    (@make_ray _ (Xnum 1000 0 0) (V (Fin 0) (Fin 0) (Fin 0)) (V (Fin 1) (Fin 2) (Fin 2)) (Fin 0) (Fin 1000) false) (@new_rayhit _ (Xnum 1000 0 0)) = Ok (true, rh) /\
  h_prim rh = Some i /\ in_cone (fa (om_triangles m) P i) (fb (om_triangles m) P i) (fc (om_triangles m) P i) (V 1 2 2) /\
  isR (h_distance rh) s /\ sqrt (16 / 18) <= s <= 1.
Proof. exact look_out. Qed.

(** C94: in binary32 a ray from the center to one of the vertices, as the benchmark worst_case shoots
    it, may miss the mesh. *)
Theorem C94_vertices_refuted : exists m ms nodes st dir rh,
  @origin_sphere _ F32 golden_float 1 = Ok m /\ @make_mesh _ F32 (om_vertices m) (om_triangles m) = Ok ms /\
  @build _ F32 _ libstdcxx_partition [] (@mesh_coll _ F32 ms) default_options = Ok (nodes, st) /\ In dir (om_vertices m) /\
  @traverse _ F32 _ _ (@tri_isector _ F32 ms) nodes
    (@make_ray _ F32 (vconst (@n0 _ F32)) dir (@n0 _ F32) (@nmaxv _ F32) false) (@new_rayhit _ F32) = Ok (false, rh).
Proof. exact sphere_missed. Qed.
Print Assumptions C94_vertices_refuted.

(** C95: in IEEE arithmetic no vertex is off the unit sphere by more than nine units of roundoff,
    however often the faces are divided. *)
Theorem C95_near : forall prec emax, Prec_gt_0 prec -> Prec_lt_emax prec emax -> usual_format prec emax ->
  forall t tau n m, isF prec emax t tau -> 1.6 <= tau <= 1.65 -> @origin_sphere _ (Fnum prec emax) t n = Ok m ->
  exists P, mesh_areF prec emax 1.1 (om_vertices m) (om_triangles m) P /\
    forall j, (j < length (om_vertices m))%nat -> Rabs (rv_norm (P j) - 1) <= 9 * ulpf prec.
Proof. exact sphere_near. Qed.
Print Assumptions C95_near.
Example C95_near_case : exists tau, isF 24 128 golden_float tau /\ isF 53 1024 golden_double tau /\ 1.6 <= tau <= 1.65.
Proof. exact golden_near. Qed.
