(** C66, C70, C72, C73: OBJ files. *)

From Coq Require Import Reals ZArith Strings.String List Bool.
From Verif Require Import Num NumX Vec Datatypes Ray Bvh Traverse Trimesh PathTracer TinyObj SpecBvh SpecReal SpecTri SpecNearest SpecObj SpecObjMesh.
From Verif Require Import PfPart PfObj5 PfObj6 PfObjMesh CaseObj.
Import ListNotations.
Local Open Scope Z_scope.

(** C66.  A file gives one face for every triangle of its polygons, in order, over the
    scaled vertices of the file. *)
Theorem C66_obj_geometry : forall (T : Type) (N : num T) mtl_file scale (cs : list (cmd T)),
  well_formed mtl_file 0 0 0 cs -> uniform_shapes None cs -> small_file mtl_file cs ->
  exists m, load_mesh mtl_file scale cs = Ok (Some (m, file_materials mtl_file cs)) /\
    Forall2 (drawn (vscale scale) (vertices_of cs) (om_vertices m)) (om_faces m) (file_triangles mtl_file cs) /\
    (forall p, In p (om_vertices m) -> exists q, In q (vertices_of cs) /\ p = vscale scale q).
Proof. exact geometry. Qed.
Print Assumptions C66_obj_geometry.
(** Without materials and texture coordinates, as the other examples load it. *)
Theorem C66_obj_plain : forall (T : Type) (N : num T) (cs : list (cmd T)),
  well_formed no_mtl 0 0 0 cs -> small_file no_mtl cs ->
  forall mtl_file, exists vertices faces, load_plain mtl_file cs = Ok (Some (vertices, faces)) /\
    Forall2 (drawn (fun p => p) (vertices_of cs) vertices) faces (file_triangles no_mtl cs) /\
    (forall p, In p vertices -> In p (vertices_of cs)).
Proof. exact @load_plain_ok. Qed.
Print Assumptions C66_obj_plain.
(** A polygon of one corner: face[1] is read. *)
Theorem C66_one_corner_refuted : forall (T : Type) (N : num T), exists cs : list (cmd T),
  vertices_of cs <> [] /\ uniform_shapes None cs /\
  (forall f c, In (OFace f) cs -> In c f -> corner_ok 1 0 0 c) /\
  forall mtl_file scale, load_mesh mtl_file scale cs = UB UBprim.
Proof. exact @one_corner. Qed.
Print Assumptions C66_one_corner_refuted.
Example C66_case : forall (T : Type) (N : num T),
  well_formed two_mtl 0 0 0 square_file /\ uniform_shapes None square_file /\ small_file two_mtl square_file.
Proof. exact @square_ok. Qed.
Example C66_triangles_case : forall (T : Type) (N : num T), file_triangles two_mtl square_file =
  [((0, Some 0), (1, Some 1), (2, Some 2), Some 0); ((0, Some 0), (2, Some 2), (3, Some 3), Some 0);
   ((4, None), (3, None), (0, None), Some 1)].
Proof. exact @square_triangles. Qed.

(** C72.  Every face has the material in force at its line, and the list of materials is
    the one the files describe. *)
Theorem C72_obj_materials : forall (T : Type) (N : num T) mtl_file scale (cs : list (cmd T)),
  well_formed mtl_file 0 0 0 cs -> uniform_shapes None cs -> small_file mtl_file cs ->
  exists m, load_mesh mtl_file scale cs = Ok (Some (m, file_materials mtl_file cs)) /\
    om_materials m = map (fun t => stored_material (snd t)) (file_triangles mtl_file cs).
Proof. exact materials_stored. Qed.
Print Assumptions C72_obj_materials.
(** A known name is a number of the list. *)
Theorem C72_known_material : forall (T : Type) (N : num T) mtl_file (cs : list (cmd T)) t z,
  well_formed mtl_file 0 0 0 cs -> In (t, Some z) (file_triangles mtl_file cs) ->
  0 <= z < count (file_materials mtl_file cs).
Proof. exact known_material. Qed.
Print Assumptions C72_known_material.
(** If no name is in force the number stored is none, and the list of lights reads
    outside the materials. *)
Theorem C72_unknown_material_refuted : forall (T : Type) (N : num T), exists (cs : list (cmd T)) m mats,
  (forall mtl_file, well_formed mtl_file 0 0 0 cs /\ small_file mtl_file cs) /\ uniform_shapes None cs /\
  (forall mtl_file, load_mesh mtl_file (nofZ 1) cs = Ok (Some (m, mats))) /\
  om_materials m = [4294967295] /\ make_light (map face_nat (om_faces m)) (om_materials m) mats = UB UBprim.
Proof. exact @no_material. Qed.
Print Assumptions C72_unknown_material_refuted.
(** If a name is always in force, the list of lights is defined. *)
Theorem C72_lights_defined : forall (T : Type) (N : num T) mtl_file scale (cs : list (cmd T)),
  well_formed mtl_file 0 0 0 cs -> uniform_shapes None cs -> small_file mtl_file cs ->
  (forall t, In t (file_triangles mtl_file cs) -> snd t <> None) ->
  exists m lights, load_mesh mtl_file scale cs = Ok (Some (m, file_materials mtl_file cs)) /\
    make_light (map face_nat (om_faces m)) (om_materials m) (file_materials mtl_file cs) = Ok lights.
Proof. exact lights_defined. Qed.
Print Assumptions C72_lights_defined.
Example C72_case : forall (T : Type) (N : num T), file_materials two_mtl square_file =
  [Material (vconst (nofZ 1)) (vconst (nofZ 0)) (vconst (nofZ 0)) (vconst (nofZ 0)) (nofZ 1) (nsub (nofZ 1) (nofZ 1));
   Material (vconst (nofZ 0)) (vconst (nofZ 3)) (vconst (nofZ 0)) (vconst (nofZ 0)) (nofZ 1) (nofZ 1)].
Proof. exact @square_materials. Qed.
Example C72_repeated_name_case : forall (T : Type) (N : num T), exists mtl (cs : list (cmd T)) m, well_formed mtl 0 0 0 cs /\
  load_mesh mtl (nofZ 1) cs = Ok (Some (m, [material_of [MIor (nofZ 2)]; material_of [MIor (nofZ 3)]])) /\ om_materials m = [0].
Proof. exact @repeated_name. Qed.

(** C73.  The texture coordinates are those of the textured triangles, in order. *)
Theorem C73_obj_texture : forall (T : Type) (N : num T) mtl_file scale (cs : list (cmd T)),
  well_formed mtl_file 0 0 0 cs -> uniform_shapes None cs -> small_file mtl_file cs ->
  exists m, load_mesh mtl_file scale cs = Ok (Some (m, file_materials mtl_file cs)) /\
    Forall2 (uv_drawn (nofZ 0) (texcoords_of cs)) (om_uvs m) (somes (map uv_of (file_triangles mtl_file cs))).
Proof. exact texture. Qed.
Print Assumptions C73_obj_texture.
(** A shape some of whose corners have none reads past the end. *)
Theorem C73_mixed_refuted : forall (T : Type) (N : num T), exists cs : list (cmd T),
  (forall mtl_file, well_formed mtl_file 0 0 0 cs /\ small_file mtl_file cs) /\
  (forall mtl_file scale, load_mesh mtl_file scale cs = UB UBprim) /\
  forall mtl_file, exists vs fs, load_plain mtl_file cs = Ok (Some (vs, fs)).
Proof. exact @mixed_corners. Qed.
Print Assumptions C73_mixed_refuted.
(** They are not one per face if some shapes have none. *)
Theorem C73_per_face_refuted : forall (T : Type) (N : num T), exists (cs : list (cmd T)) m mats,
  (forall mtl_file, well_formed mtl_file 0 0 0 cs /\ small_file mtl_file cs) /\ uniform_shapes None cs /\
  (forall mtl_file, load_mesh mtl_file (nofZ 1) cs = Ok (Some (m, mats))) /\
  length (om_faces m) = 2%nat /\ length (om_uvs m) = 1%nat.
Proof. exact @missing_uvs. Qed.
Print Assumptions C73_per_face_refuted.
Example C73_case : forall (T : Type) (N : num T),
  somes (map uv_of (file_triangles two_mtl square_file)) = [(0, 1, 2); (0, 2, 3)].
Proof. exact square_uvs. Qed.

Local Open Scope R_scope.
(** C70.  From the file to the answer: a ray through the mesh of a file meets the nearest
    triangle of the file. *)
Theorem C70_plain_file : forall big tiny eps cs Q, 0 <= eps ->
  well_formed (T := xr) no_mtl 0 0 0 cs -> small_file no_mtl cs -> points (fun p => p) (vertices_of cs) Q ->
  (forall j, (j < length (vertices_of cs))%nat -> in_bounds big (Q (Z.of_nat j))) ->
  forall part, partition_ok part -> forall opt, (1 <= bin_size opt)%nat -> (3 * Z.of_nat (bin_size opt) < 4294967296)%Z ->
  forall mtl_file, exists vertices faces ms nodes st,
    @load_plain _ (Xnum big tiny eps) mtl_file cs = Ok (Some (vertices, faces)) /\
    @make_mesh _ (Xnum big tiny eps) vertices (map face_nat faces) = Ok ms /\
    @build _ (Xnum big tiny eps) _ part [] (@mesh_coll _ (Xnum big tiny eps) ms) opt = Ok (nodes, st) /\
    ((forall k d, node_depth nodes k d -> (d <= 26)%nat) ->
     forall o d tmin tmax any O D m, wide o d tmin O D m ->
     (vz D = 0 -> forall j, (j < length (vertices_of cs))%nat -> vz O <> vz (Q (Z.of_nat j))) ->
     forall rh, loose_answer (obj_cross (file_triangles no_mtl cs) Q O (unit_of D) (m * rv_norm D) tmax)
       (obj_hit (4 * eps) (file_triangles no_mtl cs) Q O (unit_of D) m tmax)
       (obj_about (file_triangles no_mtl cs) Q O (unit_of D)) any rh
       (@traverse _ (Xnum big tiny eps) _ _ (@tri_isector _ (Xnum big tiny eps) ms) nodes
          (@make_ray _ (Xnum big tiny eps) o d tmin tmax any) rh)).
Proof. exact plain_query. Qed.
Print Assumptions C70_plain_file.
Theorem C70_scaled_file : forall big tiny eps mtl_file cs Q scale a, 0 <= eps ->
  well_formed (T := xr) mtl_file 0 0 0 cs -> uniform_shapes None cs -> small_file mtl_file cs ->
  points (fun p => p) (vertices_of cs) Q -> isR scale a ->
  (forall j, (j < length (vertices_of cs))%nat -> in_bounds big (rv_scale a (Q (Z.of_nat j)))) ->
  forall part, partition_ok part -> forall opt, (1 <= bin_size opt)%nat -> (3 * Z.of_nat (bin_size opt) < 4294967296)%Z ->
  exists mesh ms nodes st,
    @load_mesh _ (Xnum big tiny eps) mtl_file scale cs = Ok (Some (mesh, @file_materials _ mtl_file (Xnum big tiny eps) cs)) /\
    @make_mesh _ (Xnum big tiny eps) (om_vertices mesh) (map face_nat (om_faces mesh)) = Ok ms /\
    @build _ (Xnum big tiny eps) _ part [] (@mesh_coll _ (Xnum big tiny eps) ms) opt = Ok (nodes, st) /\
    ((forall k d, node_depth nodes k d -> (d <= 26)%nat) ->
     forall o d tmin tmax any O D m, wide o d tmin O D m ->
     (vz D = 0 -> forall j, (j < length (vertices_of cs))%nat -> vz O <> a * vz (Q (Z.of_nat j))) ->
     forall rh, loose_answer
       (obj_cross (file_triangles mtl_file cs) (fun j => rv_scale a (Q j)) O (unit_of D) (m * rv_norm D) tmax)
       (obj_hit (4 * eps) (file_triangles mtl_file cs) (fun j => rv_scale a (Q j)) O (unit_of D) m tmax)
       (obj_about (file_triangles mtl_file cs) (fun j => rv_scale a (Q j)) O (unit_of D)) any rh
       (@traverse _ (Xnum big tiny eps) _ _ (@tri_isector _ (Xnum big tiny eps) ms) nodes
          (@make_ray _ (Xnum big tiny eps) o d tmin tmax any) rh)).
Proof. exact mesh_file_query. Qed.
Print Assumptions C70_scaled_file.
Example C70_case : forall tiny eps : R,
  well_formed (T := xr) no_mtl 0 0 0 (@square_file _ (Xnum 10 tiny eps)) /\ small_file no_mtl (@square_file _ (Xnum 10 tiny eps)) /\
  points (fun p => p) (vertices_of (@square_file _ (Xnum 10 tiny eps))) square_points /\
  (forall j, (j < length (vertices_of (@square_file _ (Xnum 10 tiny eps))))%nat -> in_bounds 10 (square_points (Z.of_nat j))) /\
  wide (V (Fin (/ 2)) (Fin (/ 4)) (Fin (- (1)))) (V (Fin 0) (Fin 0) (Fin 4)) (Fin 0) (V (/ 2) (/ 4) (- (1))) (V 0 0 4) 0 /\
  obj_cross (file_triangles no_mtl (@square_file _ (Xnum 10 tiny eps))) square_points (V (/ 2) (/ 4) (- (1))) (unit_of (V 0 0 4)) 0 (Fin 100) 0 1.
Proof. exact square_case. Qed.
