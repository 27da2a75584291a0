(** Concrete texts. *)

From Coq Require Import Reals ZArith Strings.String Strings.Ascii List Bool Lia Lra.
From Verif Require Import Num NumR NumX Vec Datatypes PathTracer TinyObj SpecReal SpecTri SpecObj SpecObjMesh ObjText SpecText PfX PfText PfText2 PfText3 PfText4 PfObj5 CaseObj.
Import ListNotations.
Local Open Scope string_scope.
Local Open Scope list_scope.

(** Exact functions exist. *)
Definition exact_pow (b e : Z) : xr := Fin (powerRZ (IZR b) e).
Definition exact_ldexp (x : xr) (e : Z) : xr := xmul x (Fin (powerRZ 2 e)).
Definition exact_float (x : xr) : xr := x.
Lemma exact_functions : pow_exact exact_pow /\ ldexp_exact exact_ldexp /\ float_exact exact_float.
Proof.
  split; [|split].
  - intros b e _. reflexivity.
  - intros x a e H. apply isR_mul; [exact H|reflexivity].
  - intros x a H. exact H.
Qed.

(** Numbers. *)
Definition num_ (s : sgn) (w : list dig) : decimal := Decimal (Integer s w) None None.
Ltac value := unfold num_, decimal_value, exponent, frac_digits, integer_value; cbn [d_whole d_frac d_exp i_sgn i_digits sgn_value length pow];
  repeat match goal with |- context [natural ?l] => let v := eval vm_compute in (natural l) in change (natural l) with v end;
  repeat match goal with |- context [Z.mul ?a ?b] => let v := eval vm_compute in (Z.mul a b) in change (Z.mul a b) with v end;
  rewrite ?powerRZ_O, ?powerRZ_1; cbn [powerRZ Pos.to_nat Pos.iter_op pow].
Definition minus_125 : decimal := Decimal (Integer Minus [D1; D2]) (Some [D5; D0]) (Some (false, Integer Plus [D1])).
Lemma minus_125_case : decimal_text minus_125 = "-12.50e+1" /\ decimal_ok minus_125 /\ decimal_value minus_125 = (-125)%R.
Proof.
  split; [reflexivity|]. split.
  - split; [discriminate|]. intros c e H. injection H as _ <-. split; [discriminate|]. cbn. unfold int_range. lia.
  - unfold minus_125. value. lra.
Qed.

Lemma large_case : (2147483647 < natural [D2; D1; D4; D7; D4; D8; D3; D6; D4; D8])%Z.
Proof. reflexivity. Qed.

(** A file and its material library. *)
Definition nl : string := String LF "".
Definition crlf : string := String CR (String LF "").
Definition tab : string := String TAB "".
Definition text_ : string :=
  "mtllib m" ++ nl ++ "# corners" ++ nl ++ "v 0 0 0" ++ crlf ++ "v 2.5 0.0 -0" ++ nl ++ nl ++ " v" ++ tab ++ "0 15e-1  0 " ++ nl ++
  "vt 0 1" ++ nl ++ "vn 0 0 1" ++ nl ++ "usemtl red" ++ crlf ++ "f 1/1 2/-1/1 -1/1 " ++ nl ++ "g a b".
Definition library_ : string := "newmtl red" ++ nl ++ "Kd 1 0.5 0" ++ nl.
Definition files_ (n : string) : option string := if String.eqb n "dir/m" then Some library_ else None.

Definition n25 : decimal := Decimal (Integer NoSign [D2]) (Some [D5]) None.
Definition n00 : decimal := Decimal (Integer NoSign [D0]) (Some [D0]) None.
Definition n15 : decimal := Decimal (Integer NoSign [D1; D5]) None (Some (false, Integer Minus [D1])).
Definition n05 : decimal := Decimal (Integer NoSign [D0]) (Some [D5]) None.
Definition zero_ : decimal := num_ NoSign [D0].
Definition one_ : decimal := num_ NoSign [D1].
Definition mzero : decimal := num_ Minus [D0].

Ltac dec_ok := match goal with |- decimal_ok _ =>
  split; [discriminate|]; let c := fresh in let e := fresh in let H := fresh in
  intros c e H; cbn in H; first [discriminate H | injection H as _ <-; split; [discriminate|cbn; unfold int_range; lia]] end.
Ltac blanks := match goal with
  | |- blank _ => let c := fresh in let H := fresh in intros c H; cbn in H; repeat (destruct H as [<-|H]; [(left; reflexivity) || (right; reflexivity)|]); destruct H
  | |- gap _ => split; [blanks|discriminate] end.
Ltac tails := match goal with
  | |- tail "" => left; reflexivity
  | |- tail _ => right; eexists _, _; split; [reflexivity|]; left; left; reflexivity end.
Ltac name := match goal with |- name_ok _ =>
  split; [discriminate|]; split; [cbn; lia|]; let c := fresh in let H := fresh in let W := fresh in
  intros c H W; cbn in H; repeat (destruct H as [<-|H]; [destruct W as [W|W]; [discriminate W|cbv in W; lia]|]); destruct H end.
Ltac line := first [dec_ok | blanks | tails | name].

Lemma index_case : integer_ok (Integer Minus [D9; D9; D9; D9; D9; D9; D9; D9; D9; D9]) /\
  ~ int_range (integer_value (Integer Minus [D9; D9; D9; D9; D9; D9; D9; D9; D9; D9])) /\ tail " 2 3" /\ gap "  ".
Proof. split; [discriminate|]. split; [unfold int_range; vm_compute; intros [H _]; apply H; reflexivity|]. split; [tails|blanks]. Qed.

Definition commands : list (cmd R) :=
  [OMtlLib "m"; OIgnored; OVertex (decimal_value zero_) (decimal_value zero_) (decimal_value zero_);
   OVertex (decimal_value n25) (decimal_value n00) (decimal_value mzero); OIgnored;
   OVertex (decimal_value zero_) (decimal_value n15) (decimal_value zero_);
   OTexcoord (decimal_value zero_) (decimal_value one_); ONormal (decimal_value zero_) (decimal_value zero_) (decimal_value one_);
   OUseMtl "red"; OFace [Corner 1 (Some 1) None; Corner 2 (Some (-1)) (Some 1); Corner (-1) (Some 1) None]%Z; OGroup].
Lemma clean_dec s : forallb (fun c => negb (one_of [NUL; LF] c)) (list_ascii_of_string s) = true -> clean s.
Proof.
  intros H c Hc. rewrite forallb_forall in H. specialize (H c Hc). apply negb_true_iff, one_of_out in H. cbn [In] in H.
  split; intros ->; apply H; [left|right; left]; reflexivity.
Qed.
Lemma no_cr_dec s : (trim_last CR s =? s)%string = true -> forall u, s <> (u ++ String "013" "")%string.
Proof.
  intros H u ->. apply String.eqb_eq in H. change (String "013" "") with (String CR "") in H. rewrite trim_cr in H.
  apply (f_equal String.length) in H. rewrite len_app in H. cbn [String.length] in H. lia.
Qed.
Lemma text_file : file_text text_ ["mtllib m"; "# corners"; "v 0 0 0"; "v 2.5 0.0 -0"; ""; " v" ++ tab ++ "0 15e-1  0 "; "vt 0 1"; "vn 0 0 1"; "usemtl red"; "f 1/1 2/-1/1 -1/1 "; "g a b"]%string false.
Proof.
  unfold text_, nl, crlf.
  refine (FT_line "mtllib m" Unix _ _ _ _ _ _ _); [apply clean_dec; reflexivity|vm_compute; discriminate|apply no_cr_dec; reflexivity|].
  refine (FT_line "# corners" Unix _ _ _ _ _ _ _); [apply clean_dec; reflexivity|vm_compute; discriminate|apply no_cr_dec; reflexivity|].
  refine (FT_line "v 0 0 0" Dos _ _ _ _ _ _ _); [apply clean_dec; reflexivity|vm_compute; discriminate|apply no_cr_dec; reflexivity|].
  refine (FT_line "v 2.5 0.0 -0" Unix _ _ _ _ _ _ _); [apply clean_dec; reflexivity|vm_compute; discriminate|apply no_cr_dec; reflexivity|].
  refine (FT_line "" Unix _ _ _ _ _ _ _); [apply clean_dec; reflexivity|vm_compute; discriminate|apply no_cr_dec; reflexivity|].
  refine (FT_line (" v" ++ tab ++ "0 15e-1  0 ") Unix _ _ _ _ _ _ _); [apply clean_dec; reflexivity|vm_compute; discriminate|apply no_cr_dec; reflexivity|].
  refine (FT_line "vt 0 1" Unix _ _ _ _ _ _ _); [apply clean_dec; reflexivity|vm_compute; discriminate|apply no_cr_dec; reflexivity|].
  refine (FT_line "vn 0 0 1" Unix _ _ _ _ _ _ _); [apply clean_dec; reflexivity|vm_compute; discriminate|apply no_cr_dec; reflexivity|].
  refine (FT_line "usemtl red" Dos _ _ _ _ _ _ _); [apply clean_dec; reflexivity|vm_compute; discriminate|apply no_cr_dec; reflexivity|].
  refine (FT_line "f 1/1 2/-1/1 -1/1 " Unix _ _ _ _ _ _ _); [apply clean_dec; reflexivity|vm_compute; discriminate|apply no_cr_dec; reflexivity|].
  apply FT_open; [apply clean_dec; reflexivity|discriminate|vm_compute; discriminate|apply no_cr_dec; reflexivity].
Qed.
Lemma text_says : file_says text_ commands.
Proof.
  eexists _, _. split; [exact text_file|]. unfold commands.
  constructor; [refine (LS_mtllib "" " " "m" "" _ _ _ _); line|].
  constructor; [refine (LS_comment "" " corners" _); line|].
  constructor; [refine (LS_v "" " " " " " " zero_ zero_ zero_ "" _ _ _ _ _ _ _ _); line|].
  constructor; [refine (LS_v "" " " " " " " n25 n00 mzero "" _ _ _ _ _ _ _ _); line|].
  constructor; [refine (LS_blank "" _); line|].
  constructor; [refine (LS_v " " tab " " "  " zero_ n15 zero_ " " _ _ _ _ _ _ _ _); line|].
  constructor; [refine (LS_vt "" " " " " zero_ one_ "" _ _ _ _ _ _); line|].
  constructor; [refine (LS_vn "" " " " " " " zero_ zero_ one_ "" _ _ _ _ _ _ _ _); line|].
  constructor; [refine (LS_usemtl "" " " "red" "" _ _ _ _); line|].
  constructor; [|constructor; [refine (LS_g "" " " "a b" _ _); line|constructor]].
  refine (LS_f "" " " "1/1 2/-1/1 -1/1 " _ _ _ _); [line|line|].
  refine (CS_cons "1/1" _ " " "2/-1/1 -1/1 " _ _ _ _ _); [|line| |discriminate].
  { refine (CT_vt (Integer NoSign [D1]) (Integer NoSign [D1]) _ _ _ _); try discriminate; unfold int_range; cbn; lia. }
  refine (CS_cons "2/-1/1" _ " " "-1/1 " _ _ _ _ _); [|line| |discriminate].
  { refine (CT_vtn (Integer NoSign [D2]) (Integer Minus [D1]) (Integer NoSign [D1]) _ _ _ _ _ _); try discriminate; unfold int_range; cbn; lia. }
  refine (CS_last "-1/1" _ " " _ _); [|line].
  refine (CT_vt (Integer Minus [D1]) (Integer NoSign [D1]) _ _ _ _); try discriminate; unfold int_range; cbn; lia.
Qed.
Definition mcommands : list (mcmd R) := [MNew "red"; MDiffuse (V (decimal_value one_) (decimal_value n05) (decimal_value zero_))].
Lemma library_says : mfile_says library_ mcommands true.
Proof.
  exists ["newmtl red"; "Kd 1 0.5 0"]. split.
  - unfold library_, nl.
    refine (FT_line "newmtl red" Unix _ _ _ _ _ _ _); [apply clean_dec; reflexivity|vm_compute; discriminate|apply no_cr_dec; reflexivity|].
    refine (FT_line "Kd 1 0.5 0" Unix "" _ _ _ _ _ _); [apply clean_dec; reflexivity|vm_compute; discriminate|apply no_cr_dec; reflexivity|].
    constructor.
  - constructor; [refine (MS_new "" " " "red" "" _ _ _ _); line|]. constructor; [|constructor].
    refine (MS_color "Kd" (@MDiffuse R) "" " " " " " " one_ n05 zero_ "" _ _ _ _ _ _ _ _ _); [left; reflexivity|line..].
Qed.

Definition mtl_ (n : string) : option (list (mcmd R)) := if String.eqb n "m" then Some mcommands else None.
Lemma text_libraries : libraries files_ "dir/" mtl_ commands.
Proof.
  intros n H. unfold commands in H. cbn [In] in H.
  repeat (destruct H as [H|H]; [first [discriminate H | injection H as <-; exists mcommands; split; [exact library_says|reflexivity]]|]). destruct H.
Qed.
Lemma text_points : vertices_of commands = [V 0 0 0; V (5/2) 0 0; V 0 (3/2) 0]%R.
Proof.
  unfold commands, vertices_of. cbn [flat_map app]. unfold zero_, n25, n00, mzero, n15. value.
  repeat match goal with |- _ :: _ = _ :: _ => f_equal end; f_equal; first [lra | rewrite Pos2Nat.inj_1, pow_1; lra].
Qed.
Lemma commands_ok mtl : (exists ms, mtl "m" = Some ms /\ forall k, In k (new_names ms) -> k <> "") ->
  well_formed (T := R) mtl 0 0 0 commands /\ uniform_shapes None commands.
Proof.
  intros Hm. unfold commands. cbn [well_formed uniform_shapes]. split.
  - split; [exact Hm|]. split; [cbn; lia|]. split; [|exact I].
    intros c Hc. cbn [In] in Hc. repeat destruct Hc as [<-|Hc]; try destruct Hc; unfold corner_ok, refers, entry; cbn;
      (split; [lia|split; intros j Hj; try discriminate Hj; injection Hj as <-; cbn; lia]).
  - exists true. split; [|split; [left; reflexivity|exact I]].
    intros c Hc. cbn [In] in Hc. repeat destruct Hc as [<-|Hc]; try destruct Hc; cbn; split; congruence.
Qed.
Lemma commands_small mtl : (length (match mtl "m" with Some ms => names_of ms | None => [] end) <= 1)%nat -> small_file (T := R) mtl commands.
Proof.
  intros H. unfold small_file, file_names, count, commands. cbn [flat_map]. rewrite !app_nil_r.
  split; [cbn; lia|]. split; [cbn; lia|]. split; [cbn; lia|]. split; [cbn; lia|]. lia.
Qed.
Lemma text_triangles mtl : file_triangles (T := R) mtl commands =
  [((0, Some 0), (1, Some 0), (2, Some 0), place "red" (match mtl "m" with Some ms => names_of ms | None => [] end))]%Z.
Proof. reflexivity. Qed.

(** The plain loader: a ray crosses the triangle. *)
Lemma text_query_case : forall tiny : R,
  file_says text_ commands /\ well_formed (T := R) no_mtl 0 0 0 commands /\ small_file (T := R) no_mtl commands /\
  (forall j, (j < length (vertices_of commands))%nat -> in_bounds 10 (point_of commands (Z.of_nat j))) /\
  wide (V (Fin (/ 2)) (Fin (/ 4)) (Fin (- (1)))) (V (Fin 0) (Fin 0) (Fin 4)) (Fin 0) (V (/ 2) (/ 4) (- (1)))%R (V 0 0 4)%R 0 /\
  obj_cross (file_triangles no_mtl commands) (point_of commands) (V (/ 2) (/ 4) (- (1)))%R (unit_of (V 0 0 4))%R 0 (Fin 100) 0 1.
Proof.
  intros tiny. split; [exact text_says|].
  split; [apply commands_ok; exists []; split; [reflexivity|intros k []]|]. split; [apply commands_small; cbn; lia|]. split; [|split].
  - unfold point_of. rewrite text_points. intros j Hj. cbn [length] in Hj. rewrite Nat2Z.id.
    do 3 (destruct j as [|j]; [unfold in_bounds; cbn; lra|]). lia.
  - exact (proj1 (proj2 (proj2 (proj2 (proj2 (square_case tiny 0)))))).
  - assert (E4 : unit_of (V 0 0 4)%R = (V 0 0 1)%R).
    { unfold unit_of. rewrite norm_z by lra. unfold rv_scale. cbn [vx vy vz]. f_equal; lra. }
    rewrite E4, text_triangles. exists 0%Z, 1%Z, 2%Z, (Some 0%Z), (Some 0%Z), (Some 0%Z), None. split; [reflexivity|].
    unfold point_of. rewrite text_points. change (Z.to_nat 0) with 0%nat. change (Z.to_nat 1) with 1%nat. change (Z.to_nat 2) with 2%nat. cbn [nth]. split; [|split; [|split; [lra|]]].
    + unfold tri_det, tri_cross, rv_dot, rv_cross, rv_sub. cbn. lra.
    + exists (/ 5)%R, (/ 6)%R. split; [lra|]. split; [lra|]. split; [lra|].
      unfold at_t, bary, rv_add, rv_scale. cbn. f_equal; lra.
    + change (Rltb 1 100 = true). apply Rltb_spec. lra.
Qed.
(** The loader with materials. *)
Lemma text_mesh_case : file_says text_ commands /\ libraries files_ "dir/" mtl_ commands /\ well_formed mtl_ 0 0 0 commands /\
  uniform_shapes None commands /\ small_file mtl_ commands /\
  file_triangles mtl_ commands = [((0, Some 0), (1, Some 0), (2, Some 0), Some 0)]%Z /\
  (forall j, (j < length (vertices_of commands))%nat -> in_bounds 10 (rv_scale 2 (point_of commands (Z.of_nat j)))).
Proof.
  split; [exact text_says|]. split; [exact text_libraries|].
  assert (M : exists ms, mtl_ "m" = Some ms /\ forall k, In k (new_names ms) -> k <> "")
    by (exists mcommands; split; [reflexivity|cbn; intros k [<-|[]]; discriminate]).
  split; [exact (proj1 (commands_ok mtl_ M))|]. split; [exact (proj2 (commands_ok mtl_ M))|].
  split; [apply commands_small; cbn; lia|]. split; [reflexivity|].
  unfold point_of. rewrite text_points. intros j Hj. cbn [length] in Hj. rewrite Nat2Z.id.
  do 3 (destruct j as [|j]; [unfold in_bounds; cbn; lra|]). lia.
Qed.

(** Findings. *)
Section Findings.
Context (big tiny eps : R).
Local Instance XN : num xr := Xnum big tiny eps.
Lemma half_is_zero pow_ ldexp_ to_float : float_exact to_float ->
  exists n x, decimal_value n = (/ 2)%R /\ decimal_text n = ".5" /\
    parseFloat pow_ ldexp_ to_float (decimal_text n) = Ok (x, "") /\ isR x 0.
Proof.
  intros Hf. exists (Decimal (Integer NoSign []) (Some [D5]) None), (to_float (nofZ 0)).
  split; [value; lra|]. split; [reflexivity|]. split; [exact (point_first pow_ ldexp_ to_float [D5] "" I)|]. apply Hf. reflexivity.
Qed.
End Findings.
Section Any.
Context {T : Type} {N : num T}.
(** The same library, once with and once without the end of its last line. *)
Definition open_ : string := "newmtl red" ++ nl ++ "Kd 1 0.5 0".
Definition open_files (n : string) : option string := if String.eqb n "m" then Some open_ else None.
Definition closed_files (n : string) : option string := if String.eqb n "m" then Some (open_ ++ nl)%string else None.
Lemma open_refused pow_ ldexp_ to_float : exists text : string,
  load_text (T := T) pow_ ldexp_ to_float open_files "" text = Ok None /\
  exists r, load_text (T := T) pow_ ldexp_ to_float closed_files "" text = Ok (Some r).
Proof. exists ("mtllib m" ++ nl)%string. split; [reflexivity|]. eexists. reflexivity. Qed.
(** A long comment hides the rest of the file. *)
Lemma long_comment pow_ ldexp_ to_float files : exists line : string, forall rest,
  load_text (T := T) pow_ ldexp_ to_float files "" (line ++ nl ++ rest) = load_text pow_ ldexp_ to_float files "" "".
Proof.
  set (l := ("#" ++ string_of_list_ascii (repeat "x"%char (Z.to_nat 8191)))%string). exists l. intros rest.
  assert (Hc : clean l) by (apply clean_dec; vm_compute; reflexivity).
  assert (Hl : (8192 <= Z.of_nat (String.length l))%Z) by (vm_compute; discriminate).
  unfold load_text.
  assert (E : file_lines (l ++ nl ++ rest) = Ok ([line_of (cut (Z.to_nat 8191) l)], true)).
  { unfold file_lines. rewrite lines_step by (destruct l; discriminate). unfold getline.
    change (l ++ nl ++ rest)%string with (l ++ String LF rest)%string. rewrite upto_none; [| |reflexivity].
    - rewrite (proj2 (Z.ltb_lt _ _)) by lia. reflexivity.
    - intros c H. unfold is_lf. apply Ascii.eqb_neq. exact (proj2 (Hc c H)). }
  rewrite E. assert (F : exists s, line_of (cut (Z.to_nat 8191) l) = String "#" s) by (vm_compute; eexists; reflexivity).
  destruct F as (s & ->). reflexivity.
Qed.
End Any.
