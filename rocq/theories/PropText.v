(** C77-C80: the text of OBJ and material files. *)

From Coq Require Import Reals ZArith Strings.String Strings.Ascii List Bool.
From Verif Require Import Num NumR NumX Vec Datatypes Ray Bvh Traverse Trimesh PathTracer TinyObj ObjText SpecBvh SpecReal SpecTri SpecNearest SpecObj SpecObjMesh SpecText.
From Verif Require Import PfPart PfObj5 PfText PfText2 PfText3 PfText4 PfText5 CaseText.
Import ListNotations.
Local Open Scope string_scope.
Local Open Scope list_scope.

(** C77.  A decimal number is read as its value. *)
Theorem C77_number_value : forall big tiny eps pow_ ldexp_, pow_exact pow_ -> ldexp_exact ldexp_ ->
  forall n, decimal_ok n ->
  exists x, @tryParseDouble _ (Xnum big tiny eps) pow_ ldexp_ (decimal_text n) = Ok (Some x) /\ isR x (decimal_value n).
Proof. exact number_reads. Qed.
Print Assumptions C77_number_value.
(** In front of other text, with blanks before it. *)
Theorem C77_number_in_line : forall big tiny eps pow_ ldexp_ to_float, pow_exact pow_ -> ldexp_exact ldexp_ -> float_exact to_float ->
  forall a n t, blank a -> decimal_ok n -> tail t ->
  exists x, @parseFloat _ (Xnum big tiny eps) pow_ ldexp_ to_float (a ++ decimal_text n ++ t) = Ok (x, t) /\ isR x (decimal_value n).
Proof. exact (fun big tiny eps p l f Hp Hl Hf a n t Ha Hn Ht => parseFloat_reads big tiny eps p l f Hp Hl Hf a n t Ha Hn (tail_stops t Ht)). Qed.
Print Assumptions C77_number_in_line.
(** A number without a digit before its point is read as zero. *)
Theorem C77_point_first_refuted : forall big tiny eps pow_ ldexp_ to_float, float_exact to_float ->
  exists n x, decimal_value n = (/ 2)%R /\ decimal_text n = ".5" /\
    @parseFloat _ (Xnum big tiny eps) pow_ ldexp_ to_float (decimal_text n) = Ok (x, "") /\ isR x 0.
Proof. exact half_is_zero. Qed.
Print Assumptions C77_point_first_refuted.
(** An exponent that is no int is undefined. *)
Theorem C77_exponent_undefined : forall (T : Type) (N : num T) pow_ ldexp_ w ds, w <> [] -> (2147483647 < natural ds)%Z ->
  tryParseDouble pow_ ldexp_ (digs w ++ "e" ++ digs ds) = UB UBconv.
Proof. exact @exponent_overflow. Qed.
Print Assumptions C77_exponent_undefined.
Example C77_exponent_case : (2147483647 < natural [D2; D1; D4; D7; D4; D8; D3; D6; D4; D8])%Z.
Proof. exact large_case. Qed.
Example C77_case : decimal_text minus_125 = "-12.50e+1" /\ decimal_ok minus_125 /\ decimal_value minus_125 = (-125)%R.
Proof. exact minus_125_case. Qed.
Example C77_functions_case : pow_exact exact_pow /\ ldexp_exact exact_ldexp /\ float_exact exact_float.
Proof. exact exact_functions. Qed.

(** C78.  A line is read as what it says. *)
Theorem C78_line : forall big tiny eps pow_ ldexp_ to_float, pow_exact pow_ -> ldexp_exact ldexp_ -> float_exact to_float ->
  forall l c, line_says l c ->
  exists c', @parse_line _ (Xnum big tiny eps) pow_ ldexp_ to_float true l = Ok c' /\
    @parse_line _ (Xnum big tiny eps) pow_ ldexp_ to_float false l = Ok (plain c') /\ same_cmd c' c.
Proof. exact line_reads. Qed.
Print Assumptions C78_line.
Theorem C78_material_line : forall big tiny eps pow_ ldexp_ to_float, pow_exact pow_ -> ldexp_exact ldexp_ -> float_exact to_float ->
  forall l c, mline_says l c ->
  exists c', @parse_mline _ (Xnum big tiny eps) pow_ ldexp_ to_float l = Ok c' /\ same_mcmd c' c.
Proof. exact mline_reads. Qed.
Print Assumptions C78_material_line.
(** Any text at all: reading ends, and is undefined only for numbers that are no int and
    for missing or long names. *)
Theorem C78_line_total : forall (T : Type) (N : num T) pow_ ldexp_ to_float materials l,
  match parse_line pow_ ldexp_ to_float materials l with Ok _ => True | UB w => In w [UBconv; UBtext] | NoFuel => False end.
Proof. exact @line_total. Qed.
Print Assumptions C78_line_total.
Theorem C78_material_line_total : forall (T : Type) (N : num T) pow_ ldexp_ to_float l,
  match parse_mline pow_ ldexp_ to_float l with Ok _ => True | UB w => In w [UBconv; UBtext] | NoFuel => False end.
Proof. exact @mline_total. Qed.
Print Assumptions C78_material_line_total.
(** Lines that are undefined. *)
Theorem C78_nameless_undefined : forall (T : Type) (N : num T) pow_ ldexp_ to_float w a, In w ["usemtl"; "mtllib"; "o"] -> gap a ->
  parse_line pow_ ldexp_ to_float true (w ++ a) = UB UBtext.
Proof. exact @nameless. Qed.
Print Assumptions C78_nameless_undefined.
Theorem C78_index_undefined : forall i t, integer_ok i -> ~ int_range (integer_value i) -> tail t ->
  parse_corner (integer_text i ++ t) = UB UBconv.
Proof. exact (fun i t H1 H2 H3 => index_overflow i t H1 H2 (end_off t (tail_stops t H3))). Qed.
Print Assumptions C78_index_undefined.
Example C78_index_case : integer_ok (Integer Minus [D9; D9; D9; D9; D9; D9; D9; D9; D9; D9]) /\
  ~ int_range (integer_value (Integer Minus [D9; D9; D9; D9; D9; D9; D9; D9; D9; D9])) /\ tail " 2 3" /\ gap "  ".
Proof. exact index_case. Qed.
Example C78_case : file_says text_ commands.
Proof. exact text_says. Qed.

(** C79.  A file is read as the commands of its lines: the loaders on the text do what they
    do on the commands. *)
Theorem C79_file : forall big tiny eps pow_ ldexp_ to_float, pow_exact pow_ -> ldexp_exact ldexp_ -> float_exact to_float ->
  forall files base text cs, file_says text cs ->
  exists cs', Forall2 same_cmd cs' cs /\
    (forall mtl, libraries files base mtl cs -> exists mtl',
      (forall n, In (OMtlLib n) cs -> same_library (mtl' n) (mtl n)) /\
      @load_text _ (Xnum big tiny eps) pow_ ldexp_ to_float files base text = @load_obj _ (Xnum big tiny eps) mtl' cs' /\
      forall scale, @load_mesh_text _ (Xnum big tiny eps) pow_ ldexp_ to_float files base scale text = @load_mesh _ (Xnum big tiny eps) mtl' scale cs') /\
    (forall mtl', @load_text_plain _ (Xnum big tiny eps) pow_ ldexp_ to_float files text = @load_obj_plain _ (Xnum big tiny eps) mtl' cs' /\
      @load_plain_text _ (Xnum big tiny eps) pow_ ldexp_ to_float files text = @load_plain _ (Xnum big tiny eps) mtl' cs').
Proof. exact file_reads_ex. Qed.
Print Assumptions C79_file.
(** Lines end with LF or CR LF, the last one perhaps with neither. *)
Theorem C79_lines : forall text ls whole, file_text text ls whole -> file_lines text = Ok (ls, negb whole).
Proof. exact file_lines_read. Qed.
Print Assumptions C79_lines.
(** Every file is split. *)
Theorem C79_lines_total : forall text, exists ls bad, file_lines text = Ok (ls, bad).
Proof. exact file_lines_total. Qed.
Print Assumptions C79_lines_total.
(** After a line of 8192 characters the rest of the file is lost. *)
Theorem C79_long_line_refuted : forall (T : Type) (N : num T) pow_ ldexp_ to_float files, exists line : string, forall rest,
  load_text pow_ ldexp_ to_float files "" (line ++ nl ++ rest) = load_text pow_ ldexp_ to_float files "" "".
Proof. exact @long_comment. Qed.
Print Assumptions C79_long_line_refuted.
(** A material file whose last line has no end is refused, and the model with it. *)
Theorem C79_open_library_refuted : forall (T : Type) (N : num T) pow_ ldexp_ to_float, exists text,
  load_text pow_ ldexp_ to_float open_files "" text = Ok None /\
  exists r, load_text pow_ ldexp_ to_float closed_files "" text = Ok (Some r).
Proof. exact @open_refused. Qed.
Print Assumptions C79_open_library_refuted.
Example C79_case : libraries files_ "dir/" mtl_ commands.
Proof. exact text_libraries. Qed.

Local Open Scope R_scope.
(** C80.  From the text to the answer: a ray through the mesh of a file meets the nearest
    triangle of those the text describes. *)
Theorem C80_plain_text : forall big tiny eps, 0 <= eps -> forall pow_ ldexp_ to_float,
  pow_exact pow_ -> ldexp_exact ldexp_ -> float_exact to_float -> forall files text cs, file_says text cs ->
  well_formed no_mtl 0 0 0 cs -> small_file no_mtl cs ->
  (forall j, (j < length (vertices_of cs))%nat -> in_bounds big (point_of cs (Z.of_nat j))) ->
  forall part, partition_ok part -> forall opt, (1 <= bin_size opt)%nat -> (3 * Z.of_nat (bin_size opt) < 4294967296)%Z ->
  exists vertices faces ms nodes st,
    @load_plain_text _ (Xnum big tiny eps) pow_ ldexp_ to_float files text = Ok (Some (vertices, faces)) /\
    @make_mesh _ (Xnum big tiny eps) vertices (map face_nat faces) = Ok ms /\
    @build _ (Xnum big tiny eps) _ part [] (@mesh_coll _ (Xnum big tiny eps) ms) opt = Ok (nodes, st) /\
    ((forall k d, node_depth nodes k d -> (d <= 26)%nat) ->
     forall o d tmin tmax any O D m, wide o d tmin O D m ->
     (vz D = 0 -> forall j, (j < length (vertices_of cs))%nat -> vz O <> vz (point_of cs (Z.of_nat j))) ->
     forall rh, loose_answer (obj_cross (file_triangles no_mtl cs) (point_of cs) O (unit_of D) (m * rv_norm D) tmax)
       (obj_hit (4 * eps) (file_triangles no_mtl cs) (point_of cs) O (unit_of D) m tmax)
       (obj_about (file_triangles no_mtl cs) (point_of cs) O (unit_of D)) any rh
       (@traverse _ (Xnum big tiny eps) _ _ (@tri_isector _ (Xnum big tiny eps) ms) nodes
          (@make_ray _ (Xnum big tiny eps) o d tmin tmax any) rh)).
Proof. exact text_plain_query. Qed.
Print Assumptions C80_plain_text.
(** With materials: also the materials are those the text describes. *)
Theorem C80_mesh_text : forall big tiny eps, 0 <= eps -> forall pow_ ldexp_ to_float,
  pow_exact pow_ -> ldexp_exact ldexp_ -> float_exact to_float -> forall files base mtl text cs scale a,
  file_says text cs -> libraries files base mtl cs ->
  well_formed mtl 0 0 0 cs -> uniform_shapes None cs -> small_file mtl cs -> isR scale a ->
  (forall j, (j < length (vertices_of cs))%nat -> in_bounds big (rv_scale a (point_of cs (Z.of_nat j)))) ->
  forall part, partition_ok part -> forall opt, (1 <= bin_size opt)%nat -> (3 * Z.of_nat (bin_size opt) < 4294967296)%Z ->
  exists mesh materials ms nodes st,
    @load_mesh_text _ (Xnum big tiny eps) pow_ ldexp_ to_float files base scale text = Ok (Some (mesh, materials)) /\
    Forall2 same_material materials (@file_materials _ mtl (Rnum big tiny eps) cs) /\
    om_materials mesh = map (fun t => stored_material (snd t)) (file_triangles mtl cs) /\
    @make_mesh _ (Xnum big tiny eps) (om_vertices mesh) (map face_nat (om_faces mesh)) = Ok ms /\
    @build _ (Xnum big tiny eps) _ part [] (@mesh_coll _ (Xnum big tiny eps) ms) opt = Ok (nodes, st) /\
    ((forall k d, node_depth nodes k d -> (d <= 26)%nat) ->
     forall o d tmin tmax any O D m, wide o d tmin O D m ->
     (vz D = 0 -> forall j, (j < length (vertices_of cs))%nat -> vz O <> a * vz (point_of cs (Z.of_nat j))) ->
     forall rh, loose_answer
       (obj_cross (file_triangles mtl cs) (fun j => rv_scale a (point_of cs j)) O (unit_of D) (m * rv_norm D) tmax)
       (obj_hit (4 * eps) (file_triangles mtl cs) (fun j => rv_scale a (point_of cs j)) O (unit_of D) m tmax)
       (obj_about (file_triangles mtl cs) (fun j => rv_scale a (point_of cs j)) O (unit_of D)) any rh
       (@traverse _ (Xnum big tiny eps) _ _ (@tri_isector _ (Xnum big tiny eps) ms) nodes
          (@make_ray _ (Xnum big tiny eps) o d tmin tmax any) rh)).
Proof. exact text_mesh_query. Qed.
Print Assumptions C80_mesh_text.
Example C80_case : forall tiny : R,
  file_says text_ commands /\ well_formed (T := R) no_mtl 0 0 0 commands /\ small_file (T := R) no_mtl commands /\
  (forall j, (j < length (vertices_of commands))%nat -> in_bounds 10 (point_of commands (Z.of_nat j))) /\
  wide (V (Fin (/ 2)) (Fin (/ 4)) (Fin (- (1)))) (V (Fin 0) (Fin 0) (Fin 4)) (Fin 0) (V (/ 2) (/ 4) (- (1)))%R (V 0 0 4)%R 0 /\
  obj_cross (file_triangles no_mtl commands) (point_of commands) (V (/ 2) (/ 4) (- (1)))%R (unit_of (V 0 0 4))%R 0 (Fin 100) 0 1.
Proof. exact text_query_case. Qed.
Example C80_mesh_case : file_says text_ commands /\ libraries files_ "dir/" mtl_ commands /\ well_formed mtl_ 0 0 0 commands /\
  uniform_shapes None commands /\ small_file mtl_ commands /\
  file_triangles mtl_ commands = [((0, Some 0), (1, Some 0), (2, Some 0), Some 0)]%Z /\
  (forall j, (j < length (vertices_of commands))%nat -> in_bounds 10 (rv_scale 2 (point_of commands (Z.of_nat j)))).
Proof. exact text_mesh_case. Qed.
