(** examples/common/tiny_obj_loader.cc, character by character: lines, tokens and numbers
    of OBJ and material files.

    A file's contents are a string of bytes.  A pointer into a line is the rest of the line
    from there on; past its end follows a null character, and the code never reads beyond
    that.  isdigit is that of the C locale and false for bytes above 127.  The functions
    pow and ldexp and the conversion from double to float are arguments. *)

From Coq Require Import ZArith Strings.String Strings.Ascii List Bool.
From Verif Require Import Num Vec Datatypes PathTracer TinyObj.
Import ListNotations.
Local Open Scope string_scope.
Local Open Scope list_scope.
Local Open Scope Z_scope.

(** Named characters. *)
Definition NUL : ascii := ascii_of_nat 0.
Definition TAB : ascii := ascii_of_nat 9.
Definition LF : ascii := ascii_of_nat 10.
Definition VT : ascii := ascii_of_nat 11.
Definition FF : ascii := ascii_of_nat 12.
Definition CR : ascii := ascii_of_nat 13.
Definition one_of (l : list ascii) (c : ascii) : bool := existsb (Ascii.eqb c) l.

(** tiny_obj_loader.cc:72 isSpace, :74-76 isNewLine. *)
Definition isSpace (c : ascii) : bool := one_of [" "%char; TAB] c.
Definition isNewLine (c : ascii) : bool := one_of [CR; LF; NUL] c.
(** isspace of the C locale, in atoi and scanf. *)
Definition isspace (c : ascii) : bool := one_of [" "%char; TAB; LF; VT; FF; CR] c.

(** token[0]. *)
Definition first (s : string) : ascii := match s with "" => NUL | String c _ => c end.
(** token + 1, token + n. *)
Definition next (s : string) : string := match s with "" => "" | String _ s' => s' end.
Fixpoint forth (n : nat) (s : string) : string := match n with O => s | S n' => forth n' (next s) end.
(** token + strspn(token, p). *)
Fixpoint skip (p : ascii -> bool) (s : string) : string :=
  match s with "" => "" | String c s' => if p c then skip p s' else s end.
(** The characters passed by token += strcspn(token, p), and token + strcspn(token, p). *)
Fixpoint upto (p : ascii -> bool) (s : string) : string :=
  match s with "" => "" | String c s' => if p c then "" else String c (upto p s') end.
Fixpoint after (p : ascii -> bool) (s : string) : string :=
  match s with "" => "" | String c s' => if p c then s else after p s' end.
(** strncmp(token, w, strlen(w)) == 0. *)
Definition starts (w s : string) : bool := prefix w s.
(** The character token[strlen(w)]. *)
Definition at_len (w s : string) : ascii := first (forth (String.length w) s).

(** The value of a digit. *)
Definition digit (c : ascii) : option Z :=
  let n := Z.of_nat (nat_of_ascii c) in if (48 <=? n) && (n <=? 57) then Some (n - 48) else None.

(** atoi.  Out of the range of int it is undefined. *)
Fixpoint digits_value (z : Z) (s : string) : Z :=
  match s with
  | "" => z
  | String c s' => match digit c with Some d => digits_value (10 * z + d) s' | None => z end
  end.
Definition atoi (s : string) : res Z :=
  let s := skip isspace s in
  match s with
  | "" => Ok 0
  | String c s' =>
      if Ascii.eqb c "-" then int_ (- digits_value 0 s')
      else if Ascii.eqb c "+" then int_ (digits_value 0 s')
      else int_ (digits_value 0 s)
  end.

(** tiny_obj_loader.cc:96-101 parseInt. *)
Definition parseInt (s : string) : res (Z * string) :=
  let s := skip isSpace s in
  do i <- atoi s;
  Ok (i, after (one_of [" "%char; TAB; CR]) s).
(** tiny_obj_loader.cc:87-94 parseString. *)
Definition parseString (s : string) : string * string :=
  let s := skip isSpace s in
  (upto (one_of [" "%char; TAB; CR]) s, after (one_of [" "%char; TAB; CR]) s).

(** tiny_obj_loader.cc:263-294 parseTriple: the numbers of a corner, and the pointer. *)
Definition over_index (s : string) : string := after (one_of ["/"%char; " "%char; TAB; CR]) s.
Definition is_slash (c : ascii) : bool := Ascii.eqb c "/".
Definition parse_corner (s : string) : res (corner * string) :=
  do v <- atoi s;
  let s := over_index s in
  if negb (is_slash (first s)) then Ok (Corner v None None, s)
  else
    let s := next s in
    if is_slash (first s) then
      let s := next s in
      do k <- atoi s;
      Ok (Corner v None (Some k), over_index s)
    else
      do j <- atoi s;
      let s := over_index s in
      if negb (is_slash (first s)) then Ok (Corner v (Some j) None, s)
      else
        let s := next s in
        do k <- atoi s;
        Ok (Corner v (Some j) (Some k), over_index s).
(** tiny_obj_loader.cc:774-781: the loop over the corners of a face. *)
Fixpoint corners_loop (fuel : nat) (s : string) : res (list corner) :=
  match fuel with
  | O => NoFuel
  | S fuel' =>
      if isNewLine (first s) then Ok []
      else
        do (c, s) <- parse_corner s;
        do cs <- corners_loop fuel' (skip (one_of [" "%char; TAB; CR]) s);
        Ok (c :: cs)
  end.
Definition parse_corners (s : string) : res (list corner) := corners_loop (S (String.length s)) s.

(** sscanf(token, "%s", namebuf) into 4096 characters (tiny_obj_loader.cc:789-795).
    Without a name the buffer is read though never written. *)
Definition scan_name (s : string) : res string :=
  let n := upto isspace (skip isspace s) in
  if (String.length n =? 0)%nat then UB UBtext
  else if (Z.of_nat (String.length n) <? 4096) then Ok n else UB UBtext.

Section Model.
Context {T : Type} {N : num T}.
Variable pow_ : Z -> Z -> T.
Variable ldexp_ : T -> Z -> T.
Variable to_float : T -> T.

(** tiny_obj_loader.cc:128-233 tryParseDouble, on the characters from s to s_end.  Reading
    *s_end (line 203) gives a character that is no digit.  Ok None: parse failure. *)

(** :168-173: the integer part; how many digits were read. *)
Fixpoint int_loop (m : T) (read : Z) (s : string) : T * Z * string :=
  match s with
  | "" => (m, read, s)
  | String c s' =>
      match digit c with
      | Some d => int_loop (nadd (nmul m (nofZ 10)) (nofZ d)) (read + 1) s'
      | None => (m, read, s)
      end
  end.
(** :186-191: the decimal part. *)
Fixpoint frac_loop (m : T) (read : Z) (s : string) : T * string :=
  match s with
  | "" => (m, s)
  | String c s' =>
      match digit c with
      | Some d => frac_loop (nadd m (nmul (nofZ d) (pow_ 10 (- read)))) (read + 1) s'
      | None => (m, s)
      end
  end.
(** :212-217: the exponent, in int. *)
Fixpoint exp_loop (e read : Z) (s : string) : res (Z * Z) :=
  match s with
  | "" => Ok (e, read)
  | String c s' =>
      match digit c with
      | Some d => do p <- int_ (e * 10); do q <- int_ (p + d); exp_loop q (read + 1) s'
      | None => Ok (e, read)
      end
  end.
Definition is_sign (c : ascii) : bool := one_of ["+"%char; "-"%char] c.
Definition is_e (c : ascii) : bool := one_of ["e"%char; "E"%char] c.
(** :225-227. *)
Definition assemble (sign : ascii) (m : T) (e : Z) : T :=
  nmul (nofZ (if Ascii.eqb sign "+" then 1 else -1)) (ldexp_ (nmul m (pow_ 5 e)) e).
(** :198-223: the exponent part, if there is one. *)
Definition parse_exponent (sign : ascii) (m : T) (s : string) : res (option T) :=
  match s with
  | "" => Ok (Some (assemble sign m 0))
  | String c s' =>
      if is_e c then
        let signed := negb (String.length s' =? 0)%nat && is_sign (first s') in
        if negb signed && match digit (first s') with Some _ => false | None => true end then Ok None
        else
          let exp_sign := if signed then first s' else "+"%char in
          do (e, read) <- exp_loop 0 0 (if signed then next s' else s');
          do e <- int_ (e * (if Ascii.eqb exp_sign "+" then 1 else -1));
          if read =? 0 then Ok None else Ok (Some (assemble sign m e))
      else Ok (Some (assemble sign m 0))
  end.
Definition tryParseDouble (s : string) : res (option T) :=
  match s with
  | "" => Ok None
  | String c s' =>
      if negb (is_sign c) && match digit c with Some _ => false | None => true end then Ok None
      else
        let sign := if is_sign c then c else "+"%char in
        let '(m, read, s) := int_loop (nofZ 0) 0 (if is_sign c then s' else s) in
        if read =? 0 then Ok None
        else match s with
             | "" => Ok (Some (assemble sign m 0))
             | String c s' =>
                 if Ascii.eqb c "." then
                   let (m, s) := frac_loop m 1 s' in parse_exponent sign m s
                 else parse_exponent sign m s
             end
  end.

(** tiny_obj_loader.cc:234-247 parseFloat: 0 if the token is no number. *)
Definition parseFloat (s : string) : res (T * string) :=
  let s := skip isSpace s in
  do o <- tryParseDouble (upto (one_of [" "%char; TAB; CR]) s);
  Ok (to_float (match o with Some x => x | None => nofZ 0 end), after (one_of [" "%char; TAB; CR]) s).
(** tiny_obj_loader.cc:249-261 parseFloat2, parseFloat3. *)
Definition parseFloat2 (s : string) : res (T * T) :=
  do (x, s) <- parseFloat s;
  do (y, s) <- parseFloat s;
  Ok (x, y).
Definition parseFloat3 (s : string) : res (vec T) :=
  do (x, s) <- parseFloat s;
  do (y, s) <- parseFloat s;
  do (z, s) <- parseFloat s;
  Ok (V x y z).

(** A line's keyword [w], followed by a blank; token after [n] characters. *)
Definition command (w s : string) : bool := starts w s && isSpace (at_len w s).

(** tiny_obj_loader.cc:726-889: what a line says.  The LoadObj without materials does not
    look at usemtl and mtllib (:945-1071). *)
Definition parse_line (materials : bool) (s : string) : res (cmd T) :=
  let s := skip isSpace s in
  if Ascii.eqb (first s) NUL then Ok OIgnored
  else if Ascii.eqb (first s) "#" then Ok OIgnored
  else if command "v" s then do p <- parseFloat3 (forth 2 s); Ok (OVertex (vx p) (vy p) (vz p))
  else if command "vn" s then do p <- parseFloat3 (forth 3 s); Ok (ONormal (vx p) (vy p) (vz p))
  else if command "vt" s then do (x, y) <- parseFloat2 (forth 3 s); Ok (OTexcoord x y)
  else if command "f" s then do cs <- parse_corners (skip isSpace (forth 2 s)); Ok (OFace cs)
  else if materials && command "usemtl" s then do n <- scan_name (forth 7 s); Ok (OUseMtl n)
  else if materials && command "mtllib" s then do n <- scan_name (forth 7 s); Ok (OMtlLib n)
  else if command "g" s then Ok OGroup
  else if command "o" s then do _ <- scan_name (forth 2 s); Ok OObject
  else Ok OIgnored.

(** tiny_obj_loader.cc:430-632: what a line of a material file says. *)
Definition parse_mline (s : string) : res (mcmd T) :=
  let s := skip isSpace s in
  if Ascii.eqb (first s) NUL then Ok MOther
  else if Ascii.eqb (first s) "#" then Ok MOther
  else if command "newmtl" s then do n <- scan_name (forth 7 s); Ok (MNew n)
  else if command "Ka" s then do _ <- parseFloat3 (forth 2 s); Ok MOther
  else if command "Kd" s then do c <- parseFloat3 (forth 2 s); Ok (MDiffuse c)
  else if command "Ks" s then do c <- parseFloat3 (forth 2 s); Ok (MSpecular c)
  else if command "Kt" s then do c <- parseFloat3 (forth 2 s); Ok (MTransmittance c)
  else if command "Ni" s then do (x, _) <- parseFloat (forth 2 s); Ok (MIor x)
  else if command "Ke" s then do c <- parseFloat3 (forth 2 s); Ok (MEmission c)
  else if command "Ns" s then do _ <- parseFloat (forth 2 s); Ok MOther
  else if command "illum" s then do _ <- parseInt (forth 6 s); Ok MOther
  else if command "d" s then do (x, _) <- parseFloat (forth 1 s); Ok (MDissolve x)
  else if command "Tr" s then do (x, _) <- parseFloat (forth 2 s); Ok (MTr x)
  else Ok MOther.

(** std::string linebuf(&buf[0]) and the trimming of tiny_obj_loader.cc:711-719 (also
    :424-432, :931-939). *)
Definition is_nul (c : ascii) : bool := Ascii.eqb c NUL.
Fixpoint trim_last (c : ascii) (s : string) : string :=
  match s with
  | "" => ""
  | String d "" => if Ascii.eqb d c then "" else s
  | String d s' => String d (trim_last c s')
  end.
Definition line_of (buf : string) : string := trim_last CR (trim_last LF (upto is_nul buf)).

(** The loop over the lines (tiny_obj_loader.cc:705-708, :420-423, :925-928):
    peek() and getline with 8192 characters.  The state of a stream is what is left, or
    that it failed: getline fails at a line of 8192 characters or more, and peek fails if
    the last getline hit the end of the file. *)
Inductive stream := Left (s : string) | Ended | Failed.
Definition is_lf (c : ascii) : bool := Ascii.eqb c LF.
Fixpoint cut (n : nat) (s : string) : string :=
  match n, s with S n', String c s' => String c (cut n' s') | _, _ => "" end.
(** getline: the buffer and what is left. *)
Definition getline (s : string) : string * stream :=
  let l := upto is_lf s in
  if 8191 <? Z.of_nat (String.length l) then (cut (Z.to_nat 8191) l, Failed)
  else (l, match after is_lf s with "" => Ended | s' => Left (next s') end).
(** The lines of a stream, and whether it has failed at the end of the loop. *)
Fixpoint lines_loop (fuel : nat) (s : string) : res (list string * bool) :=
  match fuel with
  | O => NoFuel
  | S fuel' =>
      match s with
      | "" => Ok ([], false)
      | _ =>
          let (buf, st) := getline s in
          match st with
          | Left s' => do (l, bad) <- lines_loop fuel' s'; Ok (line_of buf :: l, bad)
          | Ended | Failed => Ok ([line_of buf], true)
          end
      end
  end.
Definition file_lines (s : string) : res (list string * bool) := lines_loop (S (String.length s)) s.

(** tiny_obj_loader.cc:410-640 LoadMtl on the contents of a file. *)
Fixpoint parse_mlines (ls : list string) : res (list (mcmd T)) :=
  match ls with
  | [] => Ok []
  | l :: ls' => do c <- parse_mline l; do cs <- parse_mlines ls'; Ok (c :: cs)
  end.

(** Files by name. *)
Variable files : string -> option string.
(** tiny_obj_loader.cc:642-661 MaterialFileReader.  None: an error is returned, also if the
    stream has failed. *)
Definition read_mtl (n : string) : res (option (list (mcmd T))) :=
  match files n with
  | None => Ok None
  | Some text =>
      do (ls, bad) <- file_lines text;
      do cs <- parse_mlines ls;
      Ok (if bad : bool then None else Some cs)
  end.

(** tiny_obj_loader.cc:704-899: the lines one after the other. *)
Fixpoint read_text_lines (materials : bool) (base : string) (r : reader T) (ls : list string) : res (option (reader T)) :=
  match ls with
  | [] => Ok (Some r)
  | l :: ls' =>
      do c <- parse_line materials l;
      do m <- match c with OMtlLib n => read_mtl (base ++ n)%string | _ => Ok None end;
      do o <- read_line (fun _ => m) r c;
      match o with None => Ok None | Some r => read_text_lines materials base r ls' end
  end.
(** tiny_obj_loader.cc:663-909 LoadObj with materials, :911-1097 without. *)
Definition load_text (base text : string) : res (option (list (shape T) * list (material T))) :=
  do (ls, _) <- file_lines text;
  do o <- read_text_lines true base (new_reader []) ls;
  match o with
  | None => Ok None
  | Some r => do shapes <- flush r; Ok (Some (shapes, rd_materials r))
  end.
Definition load_text_plain (text : string) : res (option (list (shape T) * list (material T))) :=
  do (ls, _) <- file_lines text;
  do o <- read_text_lines false "" (Reader [] [] [] [] 0 [] [] []) ls;
  match o with
  | None => Ok None
  | Some r => do shapes <- flush r; Ok (Some (shapes, rd_materials r))
  end.

(** path_tracer/main.cc:166-223, renderer.cc:23-76 LoadObj on the text of a file (see
    TinyObj.load_mesh), and scene_mesh/main.cc:14-42. *)
Definition load_mesh_text (base : string) (scale : T) (text : string) : res (option (obj_mesh T * list (material T))) :=
  do o <- load_text base text;
  match o with
  | None => Ok None
  | Some (shapes, materials) => do m <- add_shapes scale shapes (ObjMesh [] [] [] []); Ok (Some (m, materials))
  end.
Definition load_plain_text (text : string) : res (option (list (vec T) * list (vec Z))) :=
  do o <- load_text_plain text;
  match o with
  | None => Ok None
  | Some (shapes, _) => do r <- add_plain shapes 0 [] []; Ok (Some r)
  end.
End Model.
