(** The text of OBJ and material files: how numbers, corners, lines and files are written. *)

From Coq Require Import Reals ZArith Strings.String Strings.Ascii List Bool.
From Verif Require Import Num NumX Vec PathTracer SpecReal TinyObj SpecObj.
Import ListNotations.
Local Open Scope string_scope.
Local Open Scope list_scope.

(** ** Numbers *)

Inductive dig := D0 | D1 | D2 | D3 | D4 | D5 | D6 | D7 | D8 | D9.
Definition dig_char (d : dig) : ascii :=
  match d with
  | D0 => "0" | D1 => "1" | D2 => "2" | D3 => "3" | D4 => "4"
  | D5 => "5" | D6 => "6" | D7 => "7" | D8 => "8" | D9 => "9"
  end%char.
Definition dig_value (d : dig) : Z :=
  match d with D0 => 0 | D1 => 1 | D2 => 2 | D3 => 3 | D4 => 4 | D5 => 5 | D6 => 6 | D7 => 7 | D8 => 8 | D9 => 9 end%Z.
Definition digs (ds : list dig) : string := string_of_list_ascii (map dig_char ds).
(** The number that digits stand for. *)
Fixpoint natural (ds : list dig) : Z :=
  match ds with [] => 0 | d :: ds' => dig_value d * 10 ^ Z.of_nat (length ds') + natural ds' end%Z.

(** An optional sign. *)
Inductive sgn := NoSign | Plus | Minus.
Definition sgn_text (s : sgn) : string := match s with NoSign => "" | Plus => "+" | Minus => "-" end.
Definition sgn_value (s : sgn) : Z := match s with Minus => -1 | _ => 1 end%Z.

(** An integer, with at least one digit. *)
Record integer := Integer { i_sgn : sgn; i_digits : list dig }.
Definition integer_ok (i : integer) : Prop := i_digits i <> [].
Definition integer_text (i : integer) : string := sgn_text (i_sgn i) ++ digs (i_digits i).
Definition integer_value (i : integer) : Z := (sgn_value (i_sgn i) * natural (i_digits i))%Z.
Definition int_range (z : Z) : Prop := (-2147483648 <= z <= 2147483647)%Z.

(** A decimal number: an integer, a fraction (after a point, may be empty) and an exponent
    (after e or E). *)
Record decimal := Decimal { d_whole : integer; d_frac : option (list dig); d_exp : option (bool * integer) }.
Definition decimal_ok (n : decimal) : Prop :=
  integer_ok (d_whole n) /\
  forall c e, d_exp n = Some (c, e) -> integer_ok e /\ int_range (integer_value (Integer NoSign (i_digits e))).
Definition decimal_text (n : decimal) : string :=
  integer_text (d_whole n) ++
  match d_frac n with None => "" | Some ds => "." ++ digs ds end ++
  match d_exp n with None => "" | Some (c, e) => (if c : bool then "E" else "e") ++ integer_text e end.
Definition frac_digits (n : decimal) : list dig := match d_frac n with Some ds => ds | None => [] end.
Definition exponent (n : decimal) : Z := match d_exp n with Some (_, e) => integer_value e | None => 0%Z end.
Definition decimal_value (n : decimal) : R :=
  (IZR (sgn_value (i_sgn (d_whole n))) *
   (IZR (natural (i_digits (d_whole n))) + IZR (natural (frac_digits n)) / 10 ^ length (frac_digits n)) *
   powerRZ 10 (exponent n))%R.

(** ** Lines *)

Definition blank_char (c : ascii) : Prop := c = " "%char \/ c = "009"%char.
Definition blank (s : string) : Prop := forall c, In c (list_ascii_of_string s) -> blank_char c.
Definition gap (s : string) : Prop := blank s /\ s <> "".
(** What may follow the last value: nothing, or a blank and anything. *)
Definition tail (s : string) : Prop := s = "" \/ exists c s', s = String c s' /\ (blank_char c \/ c = "013"%char).

(** A corner: vertex, texture coordinates, normal. *)
Inductive corner_text : string -> corner -> Prop :=
| CT_v i : integer_ok i -> int_range (integer_value i) ->
    corner_text (integer_text i) (Corner (integer_value i) None None)
| CT_vt i j : integer_ok i -> integer_ok j -> int_range (integer_value i) -> int_range (integer_value j) ->
    corner_text (integer_text i ++ "/" ++ integer_text j) (Corner (integer_value i) (Some (integer_value j)) None)
| CT_vn i k : integer_ok i -> integer_ok k -> int_range (integer_value i) -> int_range (integer_value k) ->
    corner_text (integer_text i ++ "//" ++ integer_text k) (Corner (integer_value i) None (Some (integer_value k)))
| CT_vtn i j k : integer_ok i -> integer_ok j -> integer_ok k ->
    int_range (integer_value i) -> int_range (integer_value j) -> int_range (integer_value k) ->
    corner_text (integer_text i ++ "/" ++ integer_text j ++ "/" ++ integer_text k)
      (Corner (integer_value i) (Some (integer_value j)) (Some (integer_value k))).
(** Corners with blanks between them. *)
Inductive corners_text : string -> list corner -> Prop :=
| CS_nil : corners_text "" []
| CS_last s c p : corner_text s c -> blank p -> corners_text (s ++ p) [c]
| CS_cons s c p t cs : corner_text s c -> gap p -> corners_text t cs -> cs <> [] -> corners_text (s ++ p ++ t) (c :: cs).

(** A name: no white space, not empty, at most 4095 characters. *)
Definition white (c : ascii) : Prop := c = " "%char \/ (9 <= nat_of_ascii c <= 13)%nat.
Definition name_ok (s : string) : Prop :=
  s <> "" /\ (Z.of_nat (String.length s) <= 4095)%Z /\ forall c, In c (list_ascii_of_string s) -> ~ white c.

(** What a line of an OBJ file says. *)
Inductive line_says : string -> cmd R -> Prop :=
| LS_v p a b c x y z t : blank p -> gap a -> gap b -> gap c -> tail t -> decimal_ok x -> decimal_ok y -> decimal_ok z ->
    line_says (p ++ "v" ++ a ++ decimal_text x ++ b ++ decimal_text y ++ c ++ decimal_text z ++ t)
      (OVertex (decimal_value x) (decimal_value y) (decimal_value z))
| LS_vn p a b c x y z t : blank p -> gap a -> gap b -> gap c -> tail t -> decimal_ok x -> decimal_ok y -> decimal_ok z ->
    line_says (p ++ "vn" ++ a ++ decimal_text x ++ b ++ decimal_text y ++ c ++ decimal_text z ++ t)
      (ONormal (decimal_value x) (decimal_value y) (decimal_value z))
| LS_vt p a b x y t : blank p -> gap a -> gap b -> tail t -> decimal_ok x -> decimal_ok y ->
    line_says (p ++ "vt" ++ a ++ decimal_text x ++ b ++ decimal_text y ++ t)
      (OTexcoord (decimal_value x) (decimal_value y))
| LS_f p a s cs : blank p -> gap a -> corners_text s cs ->
    line_says (p ++ "f" ++ a ++ s) (OFace cs)
| LS_usemtl p a n t : blank p -> gap a -> name_ok n -> tail t -> line_says (p ++ "usemtl" ++ a ++ n ++ t) (OUseMtl n)
| LS_mtllib p a n t : blank p -> gap a -> name_ok n -> tail t -> line_says (p ++ "mtllib" ++ a ++ n ++ t) (OMtlLib n)
| LS_g p a t : blank p -> gap a -> line_says (p ++ "g" ++ a ++ t) OGroup
| LS_o p a n t : blank p -> gap a -> name_ok n -> tail t -> line_says (p ++ "o" ++ a ++ n ++ t) OObject
| LS_blank p : blank p -> line_says p OIgnored
| LS_comment p t : blank p -> line_says (p ++ "#" ++ t) OIgnored
| LS_s p a t : blank p -> gap a -> line_says (p ++ "s" ++ a ++ t) OIgnored.

(** The same for material files. *)
Inductive mline_says : string -> mcmd R -> Prop :=
| MS_new p a n t : blank p -> gap a -> name_ok n -> tail t -> mline_says (p ++ "newmtl" ++ a ++ n ++ t) (MNew n)
| MS_color w f p a b c x y z t :
    In (w, f) [("Kd", @MDiffuse R); ("Ks", @MSpecular R); ("Kt", @MTransmittance R); ("Ke", @MEmission R); ("Ka", fun _ => MOther)] ->
    blank p -> gap a -> gap b -> gap c -> tail t -> decimal_ok x -> decimal_ok y -> decimal_ok z ->
    mline_says (p ++ w ++ a ++ decimal_text x ++ b ++ decimal_text y ++ c ++ decimal_text z ++ t)
      (f (V (decimal_value x) (decimal_value y) (decimal_value z)))
| MS_value w f p a x t :
    In (w, f) [("Ni", @MIor R); ("d", @MDissolve R); ("Tr", @MTr R); ("Ns", fun _ => MOther)] ->
    blank p -> gap a -> tail t -> decimal_ok x ->
    mline_says (p ++ w ++ a ++ decimal_text x ++ t) (f (decimal_value x))
| MS_illum p a i t : blank p -> gap a -> tail t -> integer_ok i -> int_range (integer_value i) ->
    mline_says (p ++ "illum" ++ a ++ integer_text i ++ t) MOther
| MS_map w p a t : In w ["map_Ka"; "map_Kd"; "map_Ks"; "map_Ns"; "map_bump"; "map_d"; "bump"; "disp"] ->
    blank p -> gap a -> mline_says (p ++ w ++ a ++ t) MOther
| MS_blank p : blank p -> mline_says p MOther
| MS_comment p t : blank p -> mline_says (p ++ "#" ++ t) MOther.

(** Commands read by the loader stand for the real ones. *)
Inductive same_cmd : cmd xr -> cmd R -> Prop :=
| SC_v x y z a b c : isR x a -> isR y b -> isR z c -> same_cmd (OVertex x y z) (OVertex a b c)
| SC_vn x y z a b c : isR x a -> isR y b -> isR z c -> same_cmd (ONormal x y z) (ONormal a b c)
| SC_vt x y a b : isR x a -> isR y b -> same_cmd (OTexcoord x y) (OTexcoord a b)
| SC_f cs : same_cmd (OFace cs) (OFace cs)
| SC_usemtl n : same_cmd (OUseMtl n) (OUseMtl n)
| SC_mtllib n : same_cmd (OMtlLib n) (OMtlLib n)
| SC_g : same_cmd OGroup OGroup
| SC_o : same_cmd OObject OObject
| SC_ignored : same_cmd OIgnored OIgnored.
Inductive same_mcmd : mcmd xr -> mcmd R -> Prop :=
| SM_new n : same_mcmd (MNew n) (MNew n)
| SM_diffuse v w : visR v w -> same_mcmd (MDiffuse v) (MDiffuse w)
| SM_specular v w : visR v w -> same_mcmd (MSpecular v) (MSpecular w)
| SM_transmittance v w : visR v w -> same_mcmd (MTransmittance v) (MTransmittance w)
| SM_emission v w : visR v w -> same_mcmd (MEmission v) (MEmission w)
| SM_ior x a : isR x a -> same_mcmd (MIor x) (MIor a)
| SM_dissolve x a : isR x a -> same_mcmd (MDissolve x) (MDissolve a)
| SM_tr x a : isR x a -> same_mcmd (MTr x) (MTr a)
| SM_other : same_mcmd MOther MOther.

(** ** Files *)

(** The end of a line. *)
Inductive line_end := Unix | Dos.
Definition end_text (e : line_end) : string := match e with Unix => String "010" "" | Dos => String "013" (String "010" "") end.
Definition clean (s : string) : Prop := forall c, In c (list_ascii_of_string s) -> c <> "000"%char /\ c <> "010"%char.
(** Lines of at most 8190 characters without null characters; the last may lack its end
    ([whole] says that it does not). *)
Inductive file_text : string -> list string -> bool -> Prop :=
| FT_end : file_text "" [] true
| FT_open l : clean l -> l <> "" -> (Z.of_nat (String.length l) <= 8190)%Z -> (forall s, l <> s ++ String "013" "")%string ->
    file_text l [l] false
| FT_line l e s ls w : clean l -> (Z.of_nat (String.length l) <= 8190)%Z -> (forall s, l <> s ++ String "013" "")%string ->
    file_text s ls w -> file_text (l ++ end_text e ++ s) (l :: ls) w.
(** A file says these commands. *)
Definition file_says (text : string) (cs : list (cmd R)) : Prop :=
  exists ls w, file_text text ls w /\ Forall2 line_says ls cs.
Definition mfile_says (text : string) (cs : list (mcmd R)) (whole : bool) : Prop :=
  exists ls, file_text text ls whole /\ Forall2 mline_says ls cs.

(** What a material library by this name holds: no file, or a file of complete lines. *)
Definition library (files : string -> option string) (name : string) (o : option (list (mcmd R))) : Prop :=
  match files name with None => o = None | Some t => exists ms, mfile_says t ms true /\ o = Some ms end.
(** The libraries a file names, in directory [base]. *)
Definition libraries (files : string -> option string) (base : string) (mtl : string -> option (list (mcmd R))) (cs : list (cmd R)) : Prop :=
  forall n, In (OMtlLib n) cs -> library files (base ++ n) (mtl n).
Definition same_library (o' : option (list (mcmd xr))) (o : option (list (mcmd R))) : Prop :=
  match o', o with None, None => True | Some l', Some l => Forall2 same_mcmd l' l | _, _ => False end.

(** Exact pow, ldexp and conversion to float. *)
Definition pow_exact (p : Z -> Z -> xr) : Prop := forall b e, b <> 0%Z -> isR (p b e) (powerRZ (IZR b) e).
Definition ldexp_exact (l : xr -> Z -> xr) : Prop := forall x a e, isR x a -> isR (l x e) (a * powerRZ 2 e)%R.
Definition float_exact (f : xr -> xr) : Prop := forall x a, isR x a -> isR (f x) a.

(** The points of a file. *)
Definition point_of (cs : list (cmd R)) (j : Z) : vec R := nth (Z.to_nat j) (vertices_of cs) (V 0 0 0)%R.
(** Materials and their real values. *)
Definition same_material (m' : material xr) (m : material R) : Prop :=
  visR (mt_diffuse m') (mt_diffuse m) /\ visR (mt_emission m') (mt_emission m) /\ visR (mt_specular m') (mt_specular m) /\
  visR (mt_transmittance m') (mt_transmittance m) /\ isR (mt_ior m') (mt_ior m) /\ isR (mt_dissolve m') (mt_dissolve m).
