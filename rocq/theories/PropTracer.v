(** C99: the path tracer as a whole. *)

From Coq Require Import Reals ZArith Strings.String List Bool Floats.SpecFloat.
From Verif Require Import Num NumR NumX NumF Vec Datatypes Ray Bvh Traverse Trimesh PathTracer TinyObj ObjText Image Mains PathMain.
From Verif Require Import SpecBvh SpecReal SpecIEEE SpecTri SpecNearest SpecOptics SpecLight SpecPath SpecImage SpecObj SpecObjMesh SpecText SpecRender SpecTracer.
From Verif Require Import PfPart PfObj5 CasePath CaseObj CaseText PfTracer CaseTracer.
Import ListNotations.
Local Open Scope R_scope.

(** C99.  A text in which every triangle has a material, one of them gives off light, and the
    materials are physical, becomes a picture of the asked size.  Rows are stored from the top; each
    cell is the byte of the gamma-corrected mean of the samples, and no mean is negative. *)
Theorem C99_tracer_text : forall big tiny eps pow_ ldexp_ to_float files part, partition_ok part ->
  forall fcos fsin pi p floor_u rand_max gamma to_f32, pow_exact pow_ -> ldexp_exact ldexp_ -> float_exact to_float ->
  computes fcos cos -> computes fsin sin -> isR pi p -> 0 < p -> floors floor_u -> gives_floats to_f32 ->
  forall width height ps, (0 < width)%Z -> (0 < height)%Z -> (3 * width * height < 4294967296)%Z -> covers width height ps ->
  forall ks rnd, (forall x y i, random_number rand_max (fst (ks x y i)) /\ random_number rand_max (snd (ks x y i))) ->
  (forall x y s i k, random_number rand_max (rnd x y s i k)) ->
  forall base mtl text cs scale a, file_says text cs -> libraries files base mtl cs -> well_formed mtl 0 0 0 cs ->
  uniform_shapes None cs -> small_file mtl cs -> isR scale a ->
  (forall j, (j < length (vertices_of cs))%nat -> in_bounds big (rv_scale a (point_of cs (Z.of_nat j)))) ->
  (forall t, In t (file_triangles mtl cs) -> snd t <> None) -> lit (file_triangles mtl cs) (@file_materials _ mtl (Rnum big tiny eps) cs) ->
  physical_materials (@file_materials _ mtl (Rnum big tiny eps) cs) ->
  exists mesh mats P ms nodes st,
    @tracer_load _ (Xnum big tiny eps) pow_ ldexp_ to_float files base scale (Some text) = Ok (Some (mesh, mats)) /\
    mesh_are (om_vertices mesh) (map indices (om_faces mesh)) P /\
    faces_of (file_triangles mtl cs) (fun j => rv_scale a (point_of cs j)) (map indices (om_faces mesh)) P /\
    @make_mesh _ (Xnum big tiny eps) (om_vertices mesh) (map indices (om_faces mesh)) = Ok ms /\
    @build _ (Xnum big tiny eps) _ part [] (@mesh_coll _ (Xnum big tiny eps) ms) default_options = Ok (nodes, st) /\
    ((forall k d, node_depth nodes k d -> (d <= 26)%nat) -> proper P (map indices (om_faces mesh)) ->
     normals_defined (4 * eps) (map indices (om_faces mesh)) P ->
     exists bytes c,
       @tracer_main _ (Xnum big tiny eps) pow_ ldexp_ to_float files part fcos fsin pi floor_u rand_max gamma to_f32
         base scale (Some text) width height ps ks rnd = Ok (Some bytes) /\
       picture width height bytes (fun x r => bytes_of 24 128 (vmap (fun v => to_f32 (gamma v)) (c x (height - 1 - r)%Z))) /\
       forall x y, (0 <= x < width)%Z -> (0 <= y < height)%Z -> colour (c x y)).
Proof. exact tracer_text. Qed.
Print Assumptions C99_tracer_text.
(** One triangle before the first usemtl is enough to leave the program undefined, whatever else the
    text says: the face's material number is read from outside [materials]. *)
Theorem C99_no_material : forall big tiny eps pow_ ldexp_ to_float files part, partition_ok part ->
  forall fcos fsin pi floor_u rand_max gamma to_f32, pow_exact pow_ -> ldexp_exact ldexp_ -> float_exact to_float ->
  forall width height ps ks rnd base mtl text cs scale a, file_says text cs -> libraries files base mtl cs -> well_formed mtl 0 0 0 cs ->
  uniform_shapes None cs -> small_file mtl cs -> isR scale a ->
  (forall j, (j < length (vertices_of cs))%nat -> in_bounds big (rv_scale a (point_of cs (Z.of_nat j)))) ->
  forall t, In (t, None) (file_triangles mtl cs) ->
  forall out, @tracer_main _ (Xnum big tiny eps) pow_ ldexp_ to_float files part fcos fsin pi floor_u rand_max gamma to_f32
    base scale (Some text) width height ps ks rnd <> Ok out.
Proof. exact tracer_bare. Qed.
Print Assumptions C99_no_material.
(** A missing file, or one the reader refuses, ends the program before it writes anything. *)
Theorem C99_refused : forall big tiny eps pow_ ldexp_ to_float files part fcos fsin pi floor_u rand_max gamma to_f32
  width height ps ks rnd base scale file,
  @tracer_load _ (Xnum big tiny eps) pow_ ldexp_ to_float files base scale file = Ok None ->
  @tracer_main _ (Xnum big tiny eps) pow_ ldexp_ to_float files part fcos fsin pi floor_u rand_max gamma to_f32
    base scale file width height ps ks rnd = Ok None.
Proof. exact tracer_refused. Qed.
Print Assumptions C99_refused.
(** The text of [text_] with a material that gives off light, a picture of two pixels. *)
Example C99_case : forall tiny ks rnd, (forall x y i, random_number 32767 (fst (ks x y i)) /\ random_number 32767 (snd (ks x y i))) ->
  (forall x y s i k, random_number 32767 (rnd x y s i k)) -> exists bytes c,
  @tracer_main _ (Xnum 1000 tiny 0) exact_pow exact_ldexp exact_float lamp_files libstdcxx_partition xcos xsin (Fin PI) xfloor 32767 (fun x => x) to_float32
    "dir/" (Fin 1) (Some text_) 2 1 [(1, 0); (0, 0)]%Z ks rnd = Ok (Some bytes) /\
  picture 2 1 bytes (fun x r => bytes_of 24 128 (vmap to_float32 (c x (1 - 1 - r)%Z))) /\
  (forall x y, (0 <= x < 2)%Z -> (0 <= y < 1)%Z -> colour (c x y)).
Proof. exact tracer_case. Qed.
(** Neither condition can be dropped.  In doubles: a well-formed text without materials, and one
    with physical materials but no light. *)
Theorem C99_bare_refuted : exists text cs, file_says text cs /\ well_formed (T := R) no_mtl 0 0 0 cs /\ uniform_shapes None cs /\
  small_file (T := R) no_mtl cs /\ trace (fun _ => None) text = UB UBprim.
Proof. exact bare_undefined. Qed.
Print Assumptions C99_bare_refuted.
Theorem C99_unlit_refuted : exists files mtl text cs, file_says text cs /\ libraries files "dir/" mtl cs /\ well_formed mtl 0 0 0 cs /\
  uniform_shapes None cs /\ small_file mtl cs /\ (forall t, In t (file_triangles mtl cs) -> snd t <> None) /\
  physical_materials (@file_materials _ mtl (Rnum 1000 0 0) cs) /\ trace files text = UB UBprim.
Proof. exact unlit_undefined. Qed.
Print Assumptions C99_unlit_refuted.
