(** C100: the PNG files. *)

From Coq Require Import ZArith Strings.String List Bool Floats.SpecFloat Reals.
From Verif Require Import Num NumR NumX NumF Vec Datatypes Ray Bvh Traverse Trimesh Scene PathTracer TinyObj ObjText Image Mains PathMain ScenePic Zlib Png.
From Verif Require Import SpecBvh SpecReal SpecIEEE SpecTri SpecNearest SpecOptics SpecLight SpecPath SpecImage SpecObj SpecObjMesh SpecText SpecRender SpecScene SpecPic SpecTracer SpecZlib SpecPng.
From Verif Require Import PfPart PfObj5 PfPic PfPic2 PfTracer PfZlib2 PfCrc PfPng PfPng2 CasePng.
Import ListNotations.
Local Open Scope Z_scope.

(** The compressor: it never reads outside its data, and its output is a zlib stream of bytes that
    expands to them. *)
Theorem C100_zlib : forall data quality, Forall byte data ->
  exists out, zlib_compress data quality = Ok out /\ unzlib out = Some data /\ Forall byte out /\
    8 * Z.of_nat (length out) <= 11 * Z.of_nat (length data) + 72.
Proof. exact zlib_ok. Qed.
Print Assumptions C100_zlib.
Example C100_zlib_case : exists l, zlib_compress sentence 8 = Ok l /\ length l = 20%nat /\ unzlib l = Some sentence.
Proof. exact compress_case. Qed.
(** The checksum by table is the remainder of the polynomial division. *)
Theorem C100_crc : forall l, Forall byte l -> crc32 l = Ok (crc_of l).
Proof. exact crc_ok. Qed.
Print Assumptions C100_crc.
Example C100_crc_case : crc32 [49; 50; 51; 52; 53; 54; 55; 56; 57] = Ok 3421780262.
Proof. exact crc_case. Qed.
(** The writer, for one to four samples a pixel and any distance between the rows: the file decodes to
    the picture. *)
Theorem C100_png : forall pixels stride_bytes x y n, Forall byte pixels -> 1 <= n <= 4 -> 1 <= x -> 1 <= y -> 0 <= stride_bytes ->
  x * n <= 16777215 -> y * (x * n + 1) <= 536870912 ->
  row_stride stride_bytes x n * (y - 1) <= 2147483647 -> row_stride stride_bytes x n * (y - 1) + x * n <= Z.of_nat (length pixels) ->
  exists file, png_to_mem pixels stride_bytes x y n = Ok file /\ Forall byte file /\
    png_read file = Some (Raster x y n (rows_of pixels (Z.to_nat (row_stride stride_bytes x n)) (Z.to_nat (x * n)) (Z.to_nat y))).
Proof. exact png_ok. Qed.
Print Assumptions C100_png.
(** The call in SaveImagePNG. *)
Theorem C100_save : forall width height bytes c, writable width height -> picture width height bytes c ->
  (forall x r, 0 <= x < width -> 0 <= r < height -> byte_vec (c x r)) ->
  exists file, png_file_of bytes width height = Ok file /\ Forall byte file /\ png_shows file width height c.
Proof. exact save_ok. Qed.
Print Assumptions C100_save.
Example C100_case : (picture 3 2 flag flag_pixel /\ writable 3 2 /\ (forall x r, 0 <= x < 3 -> 0 <= r < 2 -> byte_vec (flag_pixel x r))) /\
  exists file, png_file_of flag 3 2 = Ok file /\ length file = 85%nat /\
    png_read file = Some (Raster 3 2 3 [[10; 200; 30; 12; 203; 29; 13; 205; 31]; [11; 201; 31; 12; 204; 29; 255; 0; 128]]).
Proof. exact (conj flag_picture flag_read). Qed.
(** The path tracer, from the text of the scene to its file. *)
Theorem C100_tracer_file : forall big tiny eps pow_ ldexp_ to_float files part, partition_ok part ->
  forall fcos fsin pi p floor_u rand_max gamma to_f32, pow_exact pow_ -> ldexp_exact ldexp_ -> float_exact to_float ->
  computes fcos cos -> computes fsin sin -> isR pi p -> (0 < p)%R -> floors floor_u -> gives_floats to_f32 ->
  forall width height ps, writable width height -> covers width height ps ->
  forall ks rnd, (forall x y i, random_number rand_max (fst (ks x y i)) /\ random_number rand_max (snd (ks x y i))) ->
  (forall x y s i k, random_number rand_max (rnd x y s i k)) ->
  forall base mtl text cs scale a, file_says text cs -> libraries files base mtl cs -> well_formed mtl 0 0 0 cs ->
  uniform_shapes None cs -> small_file mtl cs -> isR scale a ->
  (forall j, (j < length (vertices_of cs))%nat -> in_bounds big (rv_scale a (point_of cs (Z.of_nat j)))) ->
  (forall t, In t (file_triangles mtl cs) -> snd t <> None) -> lit (file_triangles mtl cs) (@file_materials _ mtl (Rnum big tiny eps) cs) ->
  physical_materials (@file_materials _ mtl (Rnum big tiny eps) cs) ->
  exists mesh mats P ms nodes st,
    @tracer_load _ (Xnum big tiny eps) pow_ ldexp_ to_float files base scale (Some text) = Ok (Some (mesh, mats)) /\
    mesh_are (om_vertices mesh) (map indices (om_faces mesh)) P /\
    faces_of (file_triangles mtl cs) (fun j => rv_scale a (point_of cs j)) (map indices (om_faces mesh)) P /\
    @make_mesh _ (Xnum big tiny eps) (om_vertices mesh) (map indices (om_faces mesh)) = Ok ms /\
    @build _ (Xnum big tiny eps) _ part [] (@mesh_coll _ (Xnum big tiny eps) ms) default_options = Ok (nodes, st) /\
    ((forall k d, node_depth nodes k d -> (d <= 26)%nat) -> proper P (map indices (om_faces mesh)) ->
     normals_defined (4 * eps)%R (map indices (om_faces mesh)) P ->
     exists file c,
       saved (@tracer_main _ (Xnum big tiny eps) pow_ ldexp_ to_float files part fcos fsin pi floor_u rand_max gamma to_f32
         base scale (Some text) width height ps ks rnd) width height = Ok (Some file) /\
       png_shows file width height (fun x r => bytes_of 24 128 (vmap (fun v => to_f32 (gamma v)) (c x (height - 1 - r)%Z))) /\
       forall x y, (0 <= x < width)%Z -> (0 <= y < height)%Z -> colour (c x y)).
Proof. exact tracer_file. Qed.
Print Assumptions C100_tracer_file.
(** scene_primitives: the file shows three of the four solids, compare C86_primitives_partial. *)
Theorem C86_primitives_file_partial : forall big tiny eps, (100 <= big)%R -> (0 <= eps)%R -> (0 <= tiny)%R -> forall part, partition_ok part ->
  forall width height ps, writable width height -> covers width height ps ->
  exists bytes file c, @primitives_main _ (Xnum big tiny eps) part width height ps = Ok bytes /\ png_file_of bytes width height = Ok file /\
    (png_shows file width height c) /\
    forall x r, (0 <= x < width)%Z -> (0 <= r < height)%Z ->
      solids_show [(tube1, red); (ball1, red); (ball2, green)] eye (unit_of (line_of_sight width height x (height - 1 - r))) (c x r).
Proof. exact primitives_file. Qed.
Print Assumptions C86_primitives_file_partial.
(** The limit on the length of a row cannot be dropped: the sum of the absolute values overflows. *)
Theorem C100_wide_refuted : exists bytes width height, 0 < width /\ 0 < height /\ Forall byte bytes /\ Z.of_nat (length bytes) = 3 * width * height /\
  height * (3 * width + 1) <= 536870912 /\ png_file_of bytes width height = UB UBconv.
Proof. exact wide_undefined. Qed.
Print Assumptions C100_wide_refuted.
