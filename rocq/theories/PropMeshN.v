(** Normals of meshes in IEEE arithmetic. *)

From Coq Require Import Reals ZArith List Floats.SpecFloat.
From Flocq Require Import Core IEEE754.BinarySingleNaN.
From Verif Require Import Num NumF Vec Datatypes Ray Bvh Traverse Trimesh SpecBvh SpecReal SpecIEEE SpecTri SpecTriF SpecTubeN SpecMeshN.
From Verif Require Import PfBuild PfPart CaseIEEE CaseTriF PfMeshN2 CaseMeshN.
Import ListNotations.
Local Open Scope R_scope.

(** C104: in IEEE arithmetic the constructor of a mesh without needles stores every face's normal
    and every vertex' sum of normals up to the stated errors. *)
Theorem C104_mesh : forall prec emax, Prec_gt_0 prec -> Prec_lt_emax prec emax -> usual_format prec emax ->
  forall vertices faces P,
  (forall j, (j < length vertices)%nat -> exists x, nth_error vertices j = Some x /\ visF prec emax x (P j)) ->
  (forall f, In f faces -> (vx f < length vertices /\ vy f < length vertices /\ vz f < length vertices)%nat) ->
  forall k m, 1 <= k -> 1024 * k * ulpf prec <= 1 -> stout_faces prec k P faces ->
  1 <= m -> 1024 * m * ulpf prec <= 1 -> (forall j, valence faces j <= m) ->
  exists ms, @make_mesh _ (Fnum prec emax) vertices faces = Ok ms /\
  (forall i, (i < length faces)%nat -> exists n, nth_error (m_fnormals ms) i = Some n /\
     vec_near prec emax (face_err prec k) n (face_normal P (face faces i))) /\
  (forall j, (j < length vertices)%nat -> exists n, nth_error (m_vnormals ms) j = Some n /\
     vec_near prec emax (vertex_err prec k (valence faces j)) n (vertex_normal P faces j)).
Proof. exact mesh_made. Qed.
Print Assumptions C104_mesh.

Example C104_mesh_case :
  (forall j, (j < length fold_vertices)%nat -> exists x, nth_error fold_vertices j = Some x /\ visF 53 1024 x (fold_points j)) /\
  (forall f, In f fold_faces -> (vx f < length fold_vertices /\ vy f < length fold_vertices /\ vz f < length fold_vertices)%nat) /\
  stout_faces 53 1 fold_points fold_faces /\ (forall j, valence fold_faces j <= 2) /\ 1024 * 2 * ulpf 53 <= 1.
Proof. exact fold_ready. Qed.

(** C104: a query on a mesh in IEEE arithmetic (C84) also records the normal of its hit, up to the
    stated error. *)
Theorem C104_query : forall prec emax, Prec_gt_0 prec -> Prec_lt_emax prec emax ->
  forall M vertices faces P o d tmin tmax O D lo,
  mesh_ray prec emax M vertices faces P o d tmin tmax O D lo ->
  forall ms, @make_mesh _ (Fnum prec emax) vertices faces = Ok ms ->
  forall part, partition_ok part -> forall opt nodes st,
  @build _ (Fnum prec emax) _ part [] (@mesh_coll _ (Fnum prec emax) ms) opt = Ok (nodes, st) ->
  (forall k d, node_depth nodes k d -> (d <= 26)%nat) ->
  forall any rh,
  (@traverse _ (Fnum prec emax) _ _ (@tri_isector _ (Fnum prec emax) ms) nodes
     (@make_ray _ (Fnum prec emax) o d tmin tmax any) rh = Ok (false, rh) /\
   forall i s, (i < length faces)%nat -> ~ surely_hit prec M faces P O (unit_of D) (lo_unit lo D) i s) \/
  (exists rh' k t u v,
     @traverse _ (Fnum prec emax) _ _ (@tri_isector _ (Fnum prec emax) ms) nodes
       (@make_ray _ (Fnum prec emax) o d tmin tmax any) rh = Ok (true, rh') /\
     (k < length faces)%nat /\ h_prim rh' = Some k /\
     isF prec emax (h_distance rh') t /\ isF prec emax (fst (h_uv rh')) u /\ isF prec emax (snd (h_uv rh')) v /\
     nearly_hit prec M faces P O (unit_of D) lo k t u v /\
     (any = false -> forall i s, (i < length faces)%nat ->
        surely_hit prec M faces P O (unit_of D) (lo_unit lo D) i s ->
        not_behind prec M faces P O (unit_of D) i s (length faces) t) /\
     mesh_normal prec emax faces P k u v (h_normal rh')).
Proof. exact mesh_query_normal. Qed.
Print Assumptions C104_query.

Example C104_query_case : exists nodes st rh ny nz,
  mesh_ray 53 1024 8 fold_vertices fold_faces fold_points fold_o down_d (f64 0 0) (S754_infinity false) (pR 1 1 8) (pR 0 0 (-2)) 0 /\
  @make_mesh _ F64 fold_vertices fold_faces = Ok fold_mesh /\
  @build _ F64 _ libstdcxx_partition [] (@mesh_coll _ F64 fold_mesh) pair_opt = Ok (nodes, st) /\
  (forall k d, node_depth nodes k d -> (d <= 26)%nat) /\
  stout_faces 53 1 fold_points fold_faces /\ (forall j, valence fold_faces j <= 2) /\
  mixed_normal fold_points fold_faces 0 (1 / 4) (1 / 4) = V 0 (1 / 4) (1 / 3) /\
  512 * 2 * (32 * 1 + 2) * ulpf 53 <= rv_norm (V 0 (1 / 4) (1 / 3)) /\
  @traverse _ F64 _ _ (@tri_isector _ F64 fold_mesh) nodes
    (@make_ray _ F64 fold_o down_d (f64 0 0) (S754_infinity false) false) two_rh = Ok (true, rh) /\
  h_prim rh = Some 0%nat /\ isF 53 1024 (fst (h_uv rh)) (1 / 4) /\ isF 53 1024 (snd (h_uv rh)) (1 / 4) /\
  h_normal rh = V (f64 0 0) ny nz.
Proof. exact fold_query. Qed.
