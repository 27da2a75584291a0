(** Programs run on concrete files. *)

From Coq Require Import Reals ZArith Strings.String List Bool Lia Lra.
From Verif Require Import Num NumR NumX NumF Vec Datatypes Ray Bvh Traverse Trimesh Scene PathTracer TinyObj ObjText Image Camera ScenePic Mains.
From Verif Require Import SpecBvh SpecReal SpecTri SpecNearest SpecImage SpecCamera SpecObj SpecObjMesh SpecText SpecRender SpecMain.
From Verif Require Import PfPart PfX PfTri2 PfTri3 PfTrav2 PfObj5 PfObj6 PfCamera CaseObj CaseText PfMain PfMain2.
Import ListNotations.
Local Open Scope R_scope.

(** The only face is level: the interpolated normal points upwards. *)
Lemma one_face mtl faces P u v : faces_of (file_triangles mtl commands) (point_of commands) faces P ->
  proper P faces /\ mixed_normal P faces 0 u v = V 0 0 (/ 3).
Proof.
  rewrite text_triangles. unfold point_of. rewrite text_points. intros [L H].
  specialize (H 0%nat 0%Z 1%Z 2%Z (Some 0%Z) (Some 0%Z) (Some 0%Z) _ eq_refl).
  change (Z.to_nat 0) with 0%nat in H. change (Z.to_nat 1) with 1%nat in H. change (Z.to_nat 2) with 2%nat in H. cbn [nth] in H.
  destruct faces as [|f [|g faces]]; try discriminate L. unfold fa, fb, fc, face in H. cbn [nth] in H. destruct H as (A & B & C).
  assert (X : tri_cross (P (vx f)) (P (vy f)) (P (vz f)) = V 0 0 (15 / 4)).
  { rewrite A, B, C. unfold tri_cross, rv_cross, rv_sub. cbn. f_equal; lra. }
  assert (N : face_normal P f = V 0 0 1).
  { unfold face_normal. rewrite X. unfold unit_of. rewrite norm_z by lra. unfold rv_scale. cbn [vx vy vz]. f_equal; lra. }
  split; [intros g [<-|[]]; rewrite X; intros E; injection E as E; lra|].
  assert (D1 : vx f <> vy f) by (intros E; rewrite E, B in A; injection A as A; lra).
  assert (D2 : vx f <> vz f) by (intros E; rewrite E, C in A; injection A as A; lra).
  assert (D3 : vy f <> vz f) by (intros E; rewrite E, C in B; injection B as B; lra).
  assert (W : forall j, j = vx f \/ j = vy f \/ j = vz f -> vertex_normal P [f] j = V 0 0 (/ 3)).
  { intros j Hj. cbn [vertex_normal]. replace (uses f j) with 1.
    - rewrite N. unfold rv_add, rv_scale, rv_zero. cbn. f_equal; lra.
    - unfold uses. destruct Hj as [->|[->| ->]]; repeat match goal with |- context [Nat.eq_dec ?a ?b] => destruct (Nat.eq_dec a b); try congruence end; lra. }
  unfold mixed_normal, face. cbn [nth]. rewrite !W by auto. unfold bary, rv_add, rv_scale. cbn. f_equal; ring.
Qed.
Lemma one_shadable tol mtl faces P O far : faces_of (file_triangles mtl commands) (point_of commands) faces P ->
  shadable tol (file_triangles mtl commands) (point_of commands) faces P O far.
Proof.
  intros H. split; [exact (proj1 (one_face mtl faces P 0 0 H))|]. intros U i t u v _ (a & b & c & x & y & z & mat & Hi & _) _.
  rewrite text_triangles in Hi. destruct i as [|i]; [|destruct i; discriminate Hi]. rewrite (proj2 (one_face mtl faces P u v H)).
  intros E. injection E as E. lra.
Qed.

(** The line of sight through this pixel crosses the triangle. *)
Lemma pixel_crosses U : rv_norm U = 1 -> through_pixel (V 0 0 (-1)) (V 1 0 0) (V 0 1 0) 1 20 20 10 (20 - 1 - 14) U ->
  exists t, obj_cross (file_triangles mtl_ commands) (point_of commands) (V 0 5 10) U 0 (Fin 1000) 0 t.
Proof.
  destruct U as [a b c]. unfold through_pixel, rv_dot. cbn [vx vy vz]. intros N (H1 & H2 & H3).
  assert (Ea : a = / 20 * - c) by lra. assert (Eb : b = - (9 / 20) * - c) by (change (20 - 1 - 14)%Z with 5%Z in H3; lra).
  assert (Hc : 0 < - c) by lra. assert (N2 : 241 / 200 * (c * c) = 1).
  { unfold rv_norm, rv_dot in N. cbn [vx vy vz] in N. apply (f_equal (fun x => x * x)) in N. rewrite sqrt_sqrt in N by nra. rewrite Ea, Eb in N. lra. }
  assert (Hc2 : / 2 < - c) by nra.
  exists (10 / - c). rewrite text_triangles. exists 0%Z, 1%Z, 2%Z, (Some 0%Z), (Some 0%Z), (Some 0%Z). eexists. split; [reflexivity|].
  unfold point_of. rewrite text_points. change (Z.to_nat 0) with 0%nat. change (Z.to_nat 1) with 1%nat. change (Z.to_nat 2) with 2%nat. cbn [nth].
  assert (T1 : 0 <= 10 / - c) by (apply Rmult_le_pos; [lra|apply Rlt_le, Rinv_0_lt_compat; lra]).
  assert (T2 : 10 / - c * - c = 10) by (field; lra).
  split; [|split; [|split; [exact T1|]]].
  - unfold tri_det, tri_cross, rv_dot, rv_cross, rv_sub. cbn. lra.
  - exists (/ 5), (/ 3). split; [lra|]. split; [lra|]. split; [lra|].
    unfold at_t, bary, rv_add, rv_scale. cbn [vx vy vz]. rewrite Ea, Eb. set (t := 10 / - c) in *. f_equal; nra.
  - apply Rltb_spec. nra.
Qed.

Lemma renderer_case tiny eps : 0 <= eps -> exists out colour,
  @renderer_main _ (Xnum 1000 tiny eps) exact_pow exact_ldexp exact_float files_ libstdcxx_partition (fun _ => Fin 1) (Fin 0) real_u8
    "dir/" (Some text_) 20 20 = Ok out /\ ppm_file 20 20 out colour /\ colour 10%Z 14%Z = V 0%Z 0%Z 255%Z.
Proof.
  intros Heps. destruct exact_functions as (Hp & Hl & Hf). destruct text_mesh_case as (T1 & T2 & T3 & T4 & T5 & T6 & _).
  destruct (main_text 1000 tiny eps Heps exact_pow exact_ldexp exact_float files_ libstdcxx_partition libstdcxx_partition_ok (fun _ => Fin 1) (Fin 0) 1 20 20
    ltac:(reflexivity) ltac:(lia) ltac:(lia) ltac:(lia) Hp Hl Hf "dir/" mtl_ text_ commands T1 T2 T3 T4 T5)
    as (vertices & faces & P & ms & nodes & st & E1 & HM & HF & E2 & E3 & H).
  { unfold point_of. rewrite text_points. intros j Hj. cbn [length] in Hj. rewrite Nat2Z.id. do 3 (destruct j as [|j]; [unfold in_bounds; cbn; lra|]). lia. }
  destruct H as (out & colour & E & Hf' & Hc).
  { apply (shallow_depth libstdcxx_partition libstdcxx_partition_ok _ default_options nodes st E3). right.
    rewrite (PfTri3.mesh_size 1000 tiny eps _ _ _ ms HM E2). destruct HF as [-> _]. rewrite T6. cbn. lia. }
  { apply one_shadable, HF. }
  exists out, colour. split; [exact E|]. split; [exact Hf'|]. destruct (Hc 10%Z 14%Z ltac:(lia) ltac:(lia)) as (U & N & Th & [[_ Hn]|Hs]).
  { destruct (pixel_crosses U N Th) as (t & Ht). destruct (Hn _ _ Ht). }
  destruct Hs as (i & t & u & v & (a & b & c & x & y & z & mat & Hi & _) & _ & _ & ->). rewrite T6 in Hi. destruct i as [|i]; [|destruct i; discriminate Hi].
  rewrite (proj2 (one_face mtl_ faces P u v HF)). unfold unit_of. rewrite norm_z by lra. unfold rv_abs, rv_scale. cbn [vmap vx vy vz].
  replace (/ / 3 * 0) with 0 by lra. replace (/ / 3 * / 3) with 1 by lra. rewrite Rabs_R0, Rabs_R1. unfold vmap, byteR. cbn [vx vy vz].
  replace (255 * 0) with (IZR 0) by lra. replace (255 * 1) with (IZR 255) by lra. rewrite !Int_IZR. reflexivity.
Qed.

(** The programs that only query run on the same file. *)
Lemma plain_case tiny eps ps : 0 <= eps ->
  @scene_mesh_main _ (Xnum 1000 tiny eps) exact_pow exact_ldexp exact_float files_ libstdcxx_partition (Some text_) 20 20 ps = Ok tt /\
  @benchmark_blaze_main _ (Xnum 1000 tiny eps) exact_pow exact_ldexp exact_float files_ libstdcxx_partition (Some text_) 20 20 ps = Ok tt.
Proof.
  intros Heps. destruct exact_functions as (Hp & Hl & Hf). destruct (text_query_case tiny) as (T1 & T2 & T3 & _).
  destruct (plain_mains 1000 tiny eps Heps exact_pow exact_ldexp exact_float Hp Hl Hf files_ libstdcxx_partition libstdcxx_partition_ok 20 20
    ltac:(lia) ltac:(lia) text_ commands T1 T2 T3) as (vertices & faces & ms & nodes & st & E1 & E2 & E3 & Es & H).
  { unfold point_of. rewrite text_points. intros j Hj. cbn [length] in Hj. rewrite Nat2Z.id. do 3 (destruct j as [|j]; [unfold in_bounds; cbn; lra|]). lia. }
  apply H. apply (shallow_depth libstdcxx_partition libstdcxx_partition_ok _ default_options nodes st E3). right. rewrite Es. cbn. lia.
Qed.

(** A missing file. *)
Lemma missing_case tiny eps : 0 <= eps -> exists out,
  @renderer_main _ (Xnum 1000 tiny eps) exact_pow exact_ldexp exact_float files_ libstdcxx_partition (fun _ => Fin 1) (Fin 0) real_u8
    "dir/" None 20 20 = Ok out /\ ppm_file 20 20 out (fun _ _ => V 0 0 0)%Z.
Proof.
  intros Heps. apply (main_empty 1000 tiny eps Heps exact_pow exact_ldexp exact_float files_ libstdcxx_partition libstdcxx_partition_ok _ _ 1 20 20);
    [reflexivity|lia|lia|lia|reflexivity].
Qed.

(** A degenerate face has no normal: a pixel that shows one of its neighbours cannot be written.
    The same text without its last line is drawn. *)
Definition nice_text : string := ("v -9 0 0" ++ nl ++ "v 9 0 0" ++ nl ++ "v 0 9 0" ++ nl ++ "f 1 2 3" ++ nl)%string.
Definition flat_text : string := (nice_text ++ "f 1 1 2" ++ nl)%string.
Definition flat_commands : list (cmd R) :=
  [OVertex (decimal_value (num_ Minus [D9])) (decimal_value zero_) (decimal_value zero_);
   OVertex (decimal_value (num_ NoSign [D9])) (decimal_value zero_) (decimal_value zero_);
   OVertex (decimal_value zero_) (decimal_value (num_ NoSign [D9])) (decimal_value zero_);
   OFace [Corner 1 None None; Corner 2 None None; Corner 3 None None]%Z; OFace [Corner 1 None None; Corner 1 None None; Corner 2 None None]%Z].
Lemma flat_says : file_says flat_text flat_commands.
Proof.
  exists ["v -9 0 0"; "v 9 0 0"; "v 0 9 0"; "f 1 2 3"; "f 1 1 2"]%string, true. split.
  - unfold flat_text, nice_text, nl.
    refine (FT_line "v -9 0 0" Unix _ _ _ _ _ _ _); [apply clean_dec; reflexivity|vm_compute; discriminate|apply no_cr_dec; reflexivity|].
    refine (FT_line "v 9 0 0" Unix _ _ _ _ _ _ _); [apply clean_dec; reflexivity|vm_compute; discriminate|apply no_cr_dec; reflexivity|].
    refine (FT_line "v 0 9 0" Unix _ _ _ _ _ _ _); [apply clean_dec; reflexivity|vm_compute; discriminate|apply no_cr_dec; reflexivity|].
    refine (FT_line "f 1 2 3" Unix _ _ _ _ _ _ _); [apply clean_dec; reflexivity|vm_compute; discriminate|apply no_cr_dec; reflexivity|].
    refine (FT_line "f 1 1 2" Unix "" _ _ _ _ _ _); [apply clean_dec; reflexivity|vm_compute; discriminate|apply no_cr_dec; reflexivity|].
    constructor.
  - unfold flat_commands.
    constructor; [refine (LS_v "" " " " " " " (num_ Minus [D9]) zero_ zero_ "" _ _ _ _ _ _ _ _); line|].
    constructor; [refine (LS_v "" " " " " " " (num_ NoSign [D9]) zero_ zero_ "" _ _ _ _ _ _ _ _); line|].
    constructor; [refine (LS_v "" " " " " " " zero_ (num_ NoSign [D9]) zero_ "" _ _ _ _ _ _ _ _); line|].
    assert (C1 : corner_text "1" (Corner 1 None None)) by (refine (CT_v (Integer NoSign [D1]) _ _); [discriminate|unfold int_range; cbn; lia]).
    assert (C2 : corner_text "2" (Corner 2 None None)) by (refine (CT_v (Integer NoSign [D2]) _ _); [discriminate|unfold int_range; cbn; lia]).
    assert (C3 : corner_text "3" (Corner 3 None None)) by (refine (CT_v (Integer NoSign [D3]) _ _); [discriminate|unfold int_range; cbn; lia]).
    constructor; [|constructor; [|constructor]].
    + refine (LS_f "" " " "1 2 3" _ _ _ _); [line|line|].
      refine (CS_cons "1" _ " " "2 3" _ C1 _ _ _); [line| |discriminate]. refine (CS_cons "2" _ " " "3" _ C2 _ _ _); [line| |discriminate].
      refine (CS_last "3" _ "" C3 _). line.
    + refine (LS_f "" " " "1 1 2" _ _ _ _); [line|line|].
      refine (CS_cons "1" _ " " "1 2" _ C1 _ _ _); [line| |discriminate]. refine (CS_cons "1" _ " " "2" _ C1 _ _ _); [line| |discriminate].
      refine (CS_last "2" _ "" C2 _). line.
Qed.
Definition draw (text : string) : res (list Z) :=
  @renderer_main _ F64 (fun b e => @nofZ _ F64 (b ^ e)) (fun x _ => x) (fun x => x) (fun _ => None) libstdcxx_partition (fun x => x)
    (@nofZ _ F64 1) sf_u8 "" (Some text) 1 1.
Lemma flat_undefined : draw flat_text = UB UBconv /\ draw nice_text = Ok [80; 54; 32; 49; 32; 49; 32; 50; 53; 53; 10; 0; 0; 255]%Z.
Proof. split; vm_compute; reflexivity. Qed.
Lemma renderer_degenerate : exists text cs, file_says text cs /\ well_formed (T := R) no_mtl 0 0 0 cs /\ uniform_shapes None cs /\ small_file (T := R) no_mtl cs /\
  draw text = UB UBconv.
Proof.
  exists flat_text, flat_commands. split; [exact flat_says|]. split; [|split; [|split; [|exact (proj1 flat_undefined)]]].
  - unfold flat_commands. cbn [well_formed]. split; [cbn; lia|]. split; [|split; [cbn; lia|split; [|exact I]]];
      (intros c Hc; cbn [In] in Hc; repeat destruct Hc as [<-|Hc]; try destruct Hc; unfold corner_ok, refers, entry; cbn;
      (split; [lia|split; intros j Hj; discriminate Hj])).
  - exists false. split; [|split; [left; reflexivity|exists false; split; [|split; [right; reflexivity|exact I]]]];
      (intros c Hc; cbn [In] in Hc; repeat destruct Hc as [<-|Hc]; try destruct Hc; cbn; split; congruence).
  - unfold small_file, file_names, count, flat_commands. cbn [flat_map]. repeat split; cbn; lia.
Qed.
