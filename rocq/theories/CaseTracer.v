(** The path tracer run on concrete files. *)

From Coq Require Import Reals ZArith Strings.String List Bool Lia Lra Floats.SpecFloat.
From Flocq Require Import Core IEEE754.BinarySingleNaN.
From Verif Require Import Num NumR NumX NumF Vec Datatypes Ray Bvh Traverse Trimesh PathTracer TinyObj ObjText Image Mains PathMain.
From Verif Require Import SpecBvh SpecReal SpecIEEE SpecTri SpecNearest SpecOptics SpecLight SpecPath SpecImage SpecObj SpecObjMesh SpecText SpecRender SpecTracer.
From Verif Require Import PfPart PfX PfTri2 PfTri3 PfTrav2 PfObj5 PfObj6 PfImage CasePath CaseObj CaseText CaseMain PfTracer.
Import ListNotations.
Local Open Scope R_scope.

(** The text of CaseText with a library whose material gives off light. *)
Definition lamp_library : string := ("newmtl red" ++ nl ++ "Ke 1 0.5 0" ++ nl)%string.
Definition lamp_files (n : string) : option string := if String.eqb n "dir/m" then Some lamp_library else None.
Definition lamp_commands : list (mcmd R) := [MNew "red"; MEmission (V (decimal_value one_) (decimal_value n05) (decimal_value zero_))].
Definition lamp_mtl (n : string) : option (list (mcmd R)) := if String.eqb n "m" then Some lamp_commands else None.
Lemma lamp_says : mfile_says lamp_library lamp_commands true.
Proof.
  exists ["newmtl red"; "Ke 1 0.5 0"]%string. split.
  - unfold lamp_library, nl.
    refine (FT_line "newmtl red" Unix _ _ _ _ _ _ _); [apply clean_dec; reflexivity|vm_compute; discriminate|apply no_cr_dec; reflexivity|].
    refine (FT_line "Ke 1 0.5 0" Unix "" _ _ _ _ _ _); [apply clean_dec; reflexivity|vm_compute; discriminate|apply no_cr_dec; reflexivity|].
    constructor.
  - constructor; [refine (MS_new "" " " "red" "" _ _ _ _); line|]. constructor; [|constructor].
    refine (MS_color "Ke" (@MEmission R) "" " " " " " " one_ n05 zero_ "" _ _ _ _ _ _ _ _ _); [do 3 right; left; reflexivity|line..].
Qed.
Lemma lamp_libraries : libraries lamp_files "dir/" lamp_mtl commands.
Proof.
  intros n H. unfold commands in H. cbn [In] in H.
  repeat (destruct H as [H|H]; [first [discriminate H | injection H as <-; exists lamp_commands; split; [exact lamp_says|reflexivity]]|]). destruct H.
Qed.
Lemma lamp_value : decimal_value one_ = 1 /\ decimal_value n05 = / 2 /\ decimal_value zero_ = 0.
Proof. unfold one_, n05, zero_. repeat split; value; lra. Qed.
Lemma faces_one tris Q faces P : faces_of tris (fun j => rv_scale 1 (Q j)) faces P -> faces_of tris Q faces P.
Proof.
  intros [L H]. split; [exact L|]. intros i a b c x y z m Hi. specialize (H i a b c x y z m Hi).
  assert (E : forall w, rv_scale 1 w = w) by (intros [? ? ?]; unfold rv_scale; cbn; f_equal; ring).
  rewrite !E in H. exact H.
Qed.
(** One or nothing. *)
Definition to_float32 (x : xr) : spec_float :=
  match x with Xf _ a => if Rlt_dec a (/ 2) then S754_zero false else S754_finite false 8388608 (-23) | _ => S754_nan end.
Lemma to_float32_ok : gives_floats to_float32.
Proof. intros [|s|s a]; cbn [to_float32]; [reflexivity..|]. destruct (Rlt_dec a (/ 2)); reflexivity. Qed.

Lemma tracer_case tiny ks rnd : (forall x y i, random_number 32767 (fst (ks x y i)) /\ random_number 32767 (snd (ks x y i))) ->
  (forall x y s i k, random_number 32767 (rnd x y s i k)) ->
  exists bytes c,
  @tracer_main _ (Xnum 1000 tiny 0) exact_pow exact_ldexp exact_float lamp_files libstdcxx_partition xcos xsin (Fin PI) xfloor 32767 (fun x => x) to_float32
    "dir/" (Fin 1) (Some text_) 2 1 [(1, 0); (0, 0)]%Z ks rnd = Ok (Some bytes) /\
  picture 2 1 bytes (fun x r => bytes_of 24 128 (vmap to_float32 (c x (1 - 1 - r)%Z))) /\
  (forall x y, (0 <= x < 2)%Z -> (0 <= y < 1)%Z -> colour (c x y)).
Proof.
  intros Hks Hrnd. destruct exact_functions as (Hp & Hl & Hf). destruct lamp_value as (V1 & V2 & V3).
  assert (M : exists ms, lamp_mtl "m" = Some ms /\ forall k, In k (new_names ms) -> k <> ""%string)
    by (exists lamp_commands; split; [reflexivity|cbn; intros k [<-|[]]; discriminate]).
  assert (Hcov : covers 2 1 [(1, 0); (0, 0)]%Z).
  { split; [repeat constructor; cbn; intuition discriminate|]. intros x y. split.
    - cbn. intros [E|[E|[]]]; injection E as <- <-; lia.
    - intros [H1 H2]. assert (y = 0)%Z as -> by lia. assert (x = 0 \/ x = 1)%Z as [-> | ->] by lia; cbn; auto. }
  destruct (tracer_text 1000 tiny 0 exact_pow exact_ldexp exact_float lamp_files libstdcxx_partition libstdcxx_partition_ok
    xcos xsin (Fin PI) PI xfloor 32767 (fun x => x) to_float32 Hp Hl Hf xcos_ok xsin_ok eq_refl PI_RGT_0 xfloor_ok to_float32_ok
    2 1 [(1, 0); (0, 0)]%Z ltac:(lia) ltac:(lia) ltac:(lia) Hcov ks rnd Hks Hrnd "dir/" lamp_mtl text_ commands (Fin 1) 1
    text_says lamp_libraries (proj1 (commands_ok lamp_mtl M)) (proj2 (commands_ok lamp_mtl M)) ltac:(apply commands_small; cbn; lia) eq_refl)
    as (mesh & mats & P & ms & nodes & st & _ & HM & HF & Ems & Eb & H).
  - unfold point_of. rewrite text_points. intros j Hj. cbn [length] in Hj. rewrite Nat2Z.id. do 3 (destruct j as [|j]; [unfold in_bounds; cbn; lra|]). lia.
  - rewrite text_triangles. intros t [<-|[]]. discriminate.
  - rewrite text_triangles. eexists _, 0%Z, _. split; [left; reflexivity|]. split; [reflexivity|]. left. cbn. rewrite V1. lra.
  - unfold physical_materials. cbn. constructor; [|constructor]. unfold physical, surface_of, vnonneg. cbn. rewrite V1, V2, V3. lra.
  - apply faces_one in HF. destruct H as (bytes & c & E & Hpic & Hc).
    + apply (shallow_depth libstdcxx_partition libstdcxx_partition_ok _ default_options nodes st Eb). right.
      rewrite (PfTri3.mesh_size 1000 tiny 0 _ _ _ ms HM Ems). destruct HF as [-> _]. cbn. lia.
    + exact (proj1 (one_face lamp_mtl _ P 0 0 HF)).
    + intros i U q u v Hi _ _. assert (i = 0)%nat as ->. { rewrite (proj1 HF) in Hi. cbn in Hi. lia. }
      rewrite (proj2 (one_face lamp_mtl _ P u v HF)). intros E. injection E as E. lra.
    + exists bytes, c. split; [exact E|]. split; [exact Hpic|exact Hc].
Qed.

(** In doubles.  Every random number is the largest. *)
Definition trace (files : string -> option string) (text : string) : res (option (list Z)) :=
  @tracer_main _ F64 (fun b e => @nofZ _ F64 (b ^ e)) (fun x _ => x) (fun x => x) files libstdcxx_partition (fun x => x) (fun x => x) (@nofZ _ F64 3)
    (fun _ => Some 0%Z) 32767 (fun x => x) (fun _ => S754_zero false) "dir/" (@nofZ _ F64 1) (Some text) 1 1 [(0, 0)]%Z
    (fun _ _ _ => (32767, 32767)%Z) (fun _ _ _ _ _ => 16384%Z).
(** A face without a material. *)
Definition nice_commands : list (cmd R) :=
  [OVertex (decimal_value (num_ Minus [D9])) (decimal_value zero_) (decimal_value zero_);
   OVertex (decimal_value (num_ NoSign [D9])) (decimal_value zero_) (decimal_value zero_);
   OVertex (decimal_value zero_) (decimal_value (num_ NoSign [D9])) (decimal_value zero_);
   OFace [Corner 1 None None; Corner 2 None None; Corner 3 None None]%Z].
Ltac textline w r := refine (FT_line w Unix r _ _ _ _ _ _); [apply clean_dec; reflexivity|vm_compute; discriminate|apply no_cr_dec; reflexivity|].
Lemma face_123 : line_says "f 1 2 3" (OFace [Corner 1 None None; Corner 2 None None; Corner 3 None None]%Z).
Proof.
  assert (C1 : corner_text "1" (Corner 1 None None)) by (refine (CT_v (Integer NoSign [D1]) _ _); [discriminate|unfold int_range; cbn; lia]).
  assert (C2 : corner_text "2" (Corner 2 None None)) by (refine (CT_v (Integer NoSign [D2]) _ _); [discriminate|unfold int_range; cbn; lia]).
  assert (C3 : corner_text "3" (Corner 3 None None)) by (refine (CT_v (Integer NoSign [D3]) _ _); [discriminate|unfold int_range; cbn; lia]).
  refine (LS_f "" " " "1 2 3" _ _ _ _); [line|line|].
  refine (CS_cons "1" _ " " "2 3" _ C1 _ _ _); [line| |discriminate]. refine (CS_cons "2" _ " " "3" _ C2 _ _ _); [line| |discriminate].
  refine (CS_last "3" _ "" C3 _). line.
Qed.
Lemma nice_says : file_says nice_text nice_commands.
Proof.
  exists ["v -9 0 0"; "v 9 0 0"; "v 0 9 0"; "f 1 2 3"]%string, true. split.
  - unfold nice_text, nl. textline "v -9 0 0"%string ("v 9 0 0" ++ nl ++ "v 0 9 0" ++ nl ++ "f 1 2 3" ++ nl)%string.
    textline "v 9 0 0"%string ("v 0 9 0" ++ nl ++ "f 1 2 3" ++ nl)%string. textline "v 0 9 0"%string ("f 1 2 3" ++ nl)%string.
    textline "f 1 2 3"%string ""%string. constructor.
  - unfold nice_commands.
    constructor; [refine (LS_v "" " " " " " " (num_ Minus [D9]) zero_ zero_ "" _ _ _ _ _ _ _ _); line|].
    constructor; [refine (LS_v "" " " " " " " (num_ NoSign [D9]) zero_ zero_ "" _ _ _ _ _ _ _ _); line|].
    constructor; [refine (LS_v "" " " " " " " zero_ (num_ NoSign [D9]) zero_ "" _ _ _ _ _ _ _ _); line|].
    constructor; [exact face_123|constructor].
Qed.
Lemma bare_undefined : exists text cs, file_says text cs /\ well_formed (T := R) no_mtl 0 0 0 cs /\ uniform_shapes None cs /\ small_file (T := R) no_mtl cs /\
  trace (fun _ => None) text = UB UBprim.
Proof.
  exists nice_text, nice_commands. split; [exact nice_says|]. split; [|split; [|split; [|vm_compute; reflexivity]]].
  - unfold nice_commands. cbn [well_formed]. split; [cbn; lia|]. split; [|exact I].
    intros c Hc; cbn [In] in Hc; repeat destruct Hc as [<-|Hc]; try destruct Hc; unfold corner_ok, refers, entry; cbn;
      (split; [lia|split; intros j Hj; discriminate Hj]).
  - exists false. split; [|split; [left; reflexivity|exact I]].
    intros c Hc; cbn [In] in Hc; repeat destruct Hc as [<-|Hc]; try destruct Hc; cbn; split; congruence.
  - unfold small_file, file_names, count, nice_commands. cbn [flat_map]. repeat split; cbn; lia.
Qed.

(** A scene without a light. *)
Definition plain_text : string := ("mtllib m" ++ nl ++ "v -9 0 0" ++ nl ++ "v 9 0 0" ++ nl ++ "v 0 9 0" ++ nl ++ "usemtl red" ++ nl ++ "f 1 2 3" ++ nl)%string.
Definition dark_library : string := ("newmtl red" ++ nl ++ "Kd 1 1 1" ++ nl ++ "d 0" ++ nl)%string.
Definition dark_files (n : string) : option string := if String.eqb n "dir/m" then Some dark_library else None.

Definition plain_commands : list (cmd R) :=
  [OMtlLib "m"; OVertex (decimal_value (num_ Minus [D9])) (decimal_value zero_) (decimal_value zero_);
   OVertex (decimal_value (num_ NoSign [D9])) (decimal_value zero_) (decimal_value zero_);
   OVertex (decimal_value zero_) (decimal_value (num_ NoSign [D9])) (decimal_value zero_); OUseMtl "red";
   OFace [Corner 1 None None; Corner 2 None None; Corner 3 None None]%Z].
Definition dark_commands : list (mcmd R) :=
  [MNew "red"; MDiffuse (V (decimal_value one_) (decimal_value one_) (decimal_value one_)); MDissolve (decimal_value zero_)].
Definition dark_mtl (n : string) : option (list (mcmd R)) := if String.eqb n "m" then Some dark_commands else None.
Lemma plain_says : file_says plain_text plain_commands.
Proof.
  exists ["mtllib m"; "v -9 0 0"; "v 9 0 0"; "v 0 9 0"; "usemtl red"; "f 1 2 3"]%string, true. split.
  - unfold plain_text, nl. textline "mtllib m"%string ("v -9 0 0" ++ nl ++ "v 9 0 0" ++ nl ++ "v 0 9 0" ++ nl ++ "usemtl red" ++ nl ++ "f 1 2 3" ++ nl)%string.
    textline "v -9 0 0"%string ("v 9 0 0" ++ nl ++ "v 0 9 0" ++ nl ++ "usemtl red" ++ nl ++ "f 1 2 3" ++ nl)%string.
    textline "v 9 0 0"%string ("v 0 9 0" ++ nl ++ "usemtl red" ++ nl ++ "f 1 2 3" ++ nl)%string. textline "v 0 9 0"%string ("usemtl red" ++ nl ++ "f 1 2 3" ++ nl)%string.
    textline "usemtl red"%string ("f 1 2 3" ++ nl)%string. textline "f 1 2 3"%string ""%string. constructor.
  - unfold plain_commands.
    constructor; [refine (LS_mtllib "" " " "m" "" _ _ _ _); line|].
    constructor; [refine (LS_v "" " " " " " " (num_ Minus [D9]) zero_ zero_ "" _ _ _ _ _ _ _ _); line|].
    constructor; [refine (LS_v "" " " " " " " (num_ NoSign [D9]) zero_ zero_ "" _ _ _ _ _ _ _ _); line|].
    constructor; [refine (LS_v "" " " " " " " zero_ (num_ NoSign [D9]) zero_ "" _ _ _ _ _ _ _ _); line|].
    constructor; [refine (LS_usemtl "" " " "red" "" _ _ _ _); line|]. constructor; [exact face_123|constructor].
Qed.
Lemma dark_says : mfile_says dark_library dark_commands true.
Proof.
  exists ["newmtl red"; "Kd 1 1 1"; "d 0"]%string. split.
  - unfold dark_library, nl. textline "newmtl red"%string ("Kd 1 1 1" ++ nl ++ "d 0" ++ nl)%string. textline "Kd 1 1 1"%string ("d 0" ++ nl)%string.
    textline "d 0"%string ""%string. constructor.
  - constructor; [refine (MS_new "" " " "red" "" _ _ _ _); line|].
    constructor; [refine (MS_color "Kd" (@MDiffuse R) "" " " " " " " one_ one_ one_ "" _ _ _ _ _ _ _ _ _); [left; reflexivity|line..]|].
    constructor; [|constructor]. refine (MS_value "d" (@MDissolve R) "" " " zero_ "" _ _ _ _ _); [cbn [In]; auto 9|line..].
Qed.
Lemma unlit_undefined : exists files mtl text cs, file_says text cs /\ libraries files "dir/" mtl cs /\ well_formed mtl 0 0 0 cs /\
  uniform_shapes None cs /\ small_file mtl cs /\ (forall t, In t (file_triangles mtl cs) -> snd t <> None) /\
  physical_materials (@file_materials _ mtl (Rnum 1000 0 0) cs) /\ trace files text = UB UBprim.
Proof.
  exists dark_files, dark_mtl, plain_text, plain_commands. split; [exact plain_says|]. split; [|split; [|split; [|split; [|split; [|split]]]]].
  - intros n H. unfold plain_commands in H. cbn [In] in H.
    repeat (destruct H as [H|H]; [first [discriminate H | injection H as <-; exists dark_commands; split; [exact dark_says|reflexivity]]|]). destruct H.
  - unfold plain_commands. cbn [well_formed]. split.
    { eexists. split; [reflexivity|]. cbn. intros k [<-|[]]; discriminate. }
    split; [cbn; lia|]. split; [|exact I].
    intros c Hc; cbn [In] in Hc; repeat destruct Hc as [<-|Hc]; try destruct Hc; unfold corner_ok, refers, entry; cbn;
      (split; [lia|split; intros j Hj; discriminate Hj]).
  - exists false. split; [|split; [left; reflexivity|exact I]].
    intros c Hc; cbn [In] in Hc; repeat destruct Hc as [<-|Hc]; try destruct Hc; cbn; split; congruence.
  - unfold small_file, file_names, count, plain_commands. cbn [flat_map]. repeat split; cbn; lia.
  - intros t [<-|[]]. discriminate.
  - destruct lamp_value as (V1 & V2 & V3). unfold physical_materials. cbn. constructor; [|constructor]. unfold physical, surface_of, vnonneg. cbn. rewrite V1, V3. lra.
  - vm_compute. reflexivity.
Qed.
