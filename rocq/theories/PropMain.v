(** C96-C97: the example programs as a whole. *)

From Coq Require Import Reals ZArith Strings.String List Bool.
From Verif Require Import Num NumR NumX NumF Vec Datatypes Ray Bvh Traverse Trimesh Scene PathTracer TinyObj ObjText Image Camera ScenePic Mains.
From Verif Require Import SpecBvh SpecReal SpecTri SpecNearest SpecImage SpecCamera SpecObj SpecObjMesh SpecText SpecRender SpecMain.
From Verif Require Import PfPart PfObj5 CaseText PfMain PfMain2 CaseMain.
Import ListNotations.
Local Open Scope R_scope.

(** C96.  The renderer turns the text of a model into a PPM file of the asked size.  A pixel whose
    line of sight meets nothing is black; otherwise it shows the normal where the line first meets a
    triangle of the text. *)
Theorem C96_renderer_text : forall big tiny eps, 0 <= eps -> forall pow_ ldexp_ to_float files part, partition_ok part ->
  forall ftan half_degree w width height, isR (ftan (@nmul _ (Xnum big tiny eps) (Fin 60) half_degree)) w ->
  (0 < width)%Z -> (0 < height)%Z -> (3 * width * height < 18446744073709551616)%Z ->
  pow_exact pow_ -> ldexp_exact ldexp_ -> float_exact to_float ->
  forall base mtl text cs, file_says text cs -> libraries files base mtl cs ->
  well_formed mtl 0 0 0 cs -> uniform_shapes None cs -> small_file mtl cs ->
  (forall j, (j < length (vertices_of cs))%nat -> in_bounds big (point_of cs (Z.of_nat j))) ->
  exists vertices faces P ms nodes st,
    @renderer_mesh _ (Xnum big tiny eps) pow_ ldexp_ to_float files base (Some text) = Ok (vertices, faces) /\ mesh_are vertices faces P /\
    faces_of (file_triangles mtl cs) (point_of cs) faces P /\ @make_mesh _ (Xnum big tiny eps) vertices faces = Ok ms /\
    @build _ (Xnum big tiny eps) _ part [] (@mesh_coll _ (Xnum big tiny eps) ms) default_options = Ok (nodes, st) /\
    ((forall k d, node_depth nodes k d -> (d <= 26)%nat) ->
     shadable (4 * eps) (file_triangles mtl cs) (point_of cs) faces P (V 0 5 10) (Fin big) ->
     exists out colour,
       @renderer_main _ (Xnum big tiny eps) pow_ ldexp_ to_float files part ftan half_degree real_u8 base (Some text) width height = Ok out /\
       ppm_file width height out colour /\
       forall x r, (0 <= x < width)%Z -> (0 <= r < height)%Z -> exists U, rv_norm U = 1 /\
         through_pixel (V 0 0 (-1)) (V 1 0 0) (V 0 1 0) w width height x (height - 1 - r) U /\
         file_shown (4 * eps) (file_triangles mtl cs) (point_of cs) faces P (V 0 5 10) U (Fin big) (colour x r)).
Proof. exact main_text. Qed.
Print Assumptions C96_renderer_text.
(** The loader's verdict is ignored: with no file, or one it refuses, the program still succeeds and
    writes a black picture. *)
Theorem C96_renderer_nothing : forall big tiny eps, 0 <= eps -> forall pow_ ldexp_ to_float files part, partition_ok part ->
  forall ftan half_degree w width height, isR (ftan (@nmul _ (Xnum big tiny eps) (Fin 60) half_degree)) w ->
  (0 < width)%Z -> (0 < height)%Z -> (3 * width * height < 18446744073709551616)%Z ->
  forall base file, @renderer_mesh _ (Xnum big tiny eps) pow_ ldexp_ to_float files base file = Ok ([], []) ->
  exists out, @renderer_main _ (Xnum big tiny eps) pow_ ldexp_ to_float files part ftan half_degree real_u8 base file width height = Ok out /\
    ppm_file width height out (fun _ _ => V 0 0 0)%Z.
Proof. exact main_empty. Qed.
Print Assumptions C96_renderer_nothing.
(** A text of eleven lines: the program runs, and a pixel shows the triangle. *)
Example C96_case : forall tiny eps, 0 <= eps -> exists out colour,
  @renderer_main _ (Xnum 1000 tiny eps) exact_pow exact_ldexp exact_float files_ libstdcxx_partition (fun _ => Fin 1) (Fin 0) real_u8
    "dir/" (Some text_) 20 20 = Ok out /\ ppm_file 20 20 out colour /\ colour 10%Z 14%Z = V 0%Z 0%Z 255%Z.
Proof. exact renderer_case. Qed.
Example C96_missing_case : forall tiny eps, 0 <= eps -> exists out,
  @renderer_main _ (Xnum 1000 tiny eps) exact_pow exact_ldexp exact_float files_ libstdcxx_partition (fun _ => Fin 1) (Fin 0) real_u8
    "dir/" None 20 20 = Ok out /\ ppm_file 20 20 out (fun _ _ => V 0 0 0)%Z.
Proof. exact missing_case. Qed.
(** The condition on normals cannot be dropped: one degenerate face in the text, and a pixel that shows
    its neighbour is a NaN converted to unsigned char. *)
Theorem C96_renderer_degenerate_refuted : exists text cs, file_says text cs /\ well_formed (T := R) no_mtl 0 0 0 cs /\
  uniform_shapes None cs /\ small_file (T := R) no_mtl cs /\
  @renderer_main _ F64 (fun b e => @nofZ _ F64 (b ^ e)) (fun x _ => x) (fun x => x) (fun _ => None) libstdcxx_partition (fun x => x)
    (@nofZ _ F64 1) sf_u8 "" (Some text) 1 1 = UB UBconv.
Proof. exact renderer_degenerate. Qed.
Print Assumptions C96_renderer_degenerate_refuted.

(** C97.  scene_mesh and benchmark_blaze run to their end on every well-formed text, whatever pixels
    their loops visit. *)
Theorem C97_plain_programs : forall big tiny eps, 0 <= eps -> forall pow_ ldexp_ to_float,
  pow_exact pow_ -> ldexp_exact ldexp_ -> float_exact to_float -> forall files part, partition_ok part ->
  forall width height, (0 < width)%Z -> (0 < height)%Z ->
  forall text cs, file_says text cs -> well_formed no_mtl 0 0 0 cs -> small_file no_mtl cs ->
  (forall j, (j < length (vertices_of cs))%nat -> in_bounds big (point_of cs (Z.of_nat j))) ->
  exists vertices faces ms nodes st,
    @plain_mesh _ (Xnum big tiny eps) pow_ ldexp_ to_float files (Some text) = Ok (vertices, faces) /\
    @make_mesh _ (Xnum big tiny eps) vertices faces = Ok ms /\
    @build _ (Xnum big tiny eps) _ part [] (@mesh_coll _ (Xnum big tiny eps) ms) default_options = Ok (nodes, st) /\
    c_size (@mesh_coll _ (Xnum big tiny eps) ms) = length (file_triangles no_mtl cs) /\
    ((forall k d, node_depth nodes k d -> (d <= 26)%nat) -> forall ps,
     @scene_mesh_main _ (Xnum big tiny eps) pow_ ldexp_ to_float files part (Some text) width height ps = Ok tt /\
     @benchmark_blaze_main _ (Xnum big tiny eps) pow_ ldexp_ to_float files part (Some text) width height ps = Ok tt).
Proof. exact plain_mains. Qed.
Print Assumptions C97_plain_programs.
(** Without a file too. *)
Theorem C97_plain_nothing : forall big tiny eps, 0 <= eps -> forall pow_ ldexp_ to_float files part, partition_ok part ->
  forall width height, (0 < width)%Z -> (0 < height)%Z ->
  forall file ps, @plain_mesh _ (Xnum big tiny eps) pow_ ldexp_ to_float files file = Ok ([], []) ->
  @scene_mesh_main _ (Xnum big tiny eps) pow_ ldexp_ to_float files part file width height ps = Ok tt /\
  @benchmark_blaze_main _ (Xnum big tiny eps) pow_ ldexp_ to_float files part file width height ps = Ok tt.
Proof. exact plain_mains_empty. Qed.
Print Assumptions C97_plain_nothing.
Example C97_case : forall tiny eps ps, 0 <= eps ->
  @scene_mesh_main _ (Xnum 1000 tiny eps) exact_pow exact_ldexp exact_float files_ libstdcxx_partition (Some text_) 20 20 ps = Ok tt /\
  @benchmark_blaze_main _ (Xnum 1000 tiny eps) exact_pow exact_ldexp exact_float files_ libstdcxx_partition (Some text_) 20 20 ps = Ok tt.
Proof. exact plain_case. Qed.
