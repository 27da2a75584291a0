(** Whole programs. *)

From Coq Require Import Reals ZArith Strings.String List Bool Lia Lra.
From Verif Require Import Num NumR NumX Vec Datatypes Ray Bvh Traverse Trimesh Scene PathTracer TinyObj ObjText Image Camera ScenePic Mains.
From Verif Require Import SpecBvh SpecReal SpecTri SpecNearest SpecImage SpecCamera SpecObj SpecObjMesh SpecText SpecRender SpecMain.
From Verif Require Import PfPart PfX PfTrav2 PfTri2 PfTri3 PfImage PfImage3 PfCamera PfObj5 PfObj6 PfObjMesh PfText PfText2 PfText3 PfText5 PfRender CaseCamera.
Import ListNotations.

(** ** Decimal numbers *)

Local Open Scope Z_scope.
Lemma value_snoc l c : digits_value (l ++ [c]) = 10 * digits_value l + (c - 48).
Proof. unfold digits_value. rewrite fold_left_app. reflexivity. Qed.
Lemma digits_are fuel : forall n, 0 <= n < 10 ^ Z.of_nat fuel -> (0 < fuel)%nat -> decimal_of n (digits fuel n) /\ (0 < n -> hd 48 (digits fuel n) <> 48).
Proof.
  induction fuel as [|fuel IH]; intros n Hn Hf; [now apply Nat.lt_irrefl in Hf|]. cbn [digits].
  assert (N0 : 0 <= n) by apply Hn. assert (M : 0 <= n mod 10 < 10) by (apply Z.mod_pos_bound; lia). pose proof (Z.div_mod n 10 ltac:(lia)) as DM.
  destruct (Z.ltb_spec n 10) as [H|H].
  - cbn [app]. rewrite Z.mod_small by (split; assumption). clear - N0 H. split.
    + split; [discriminate|]. split; [constructor; [unfold ascii_digit; lia|constructor]|]. split; [unfold digits_value; cbn [fold_left]; lia|].
      intros c l' E Hl. injection E as _ <-. now elim Hl.
    + cbn [hd]. lia.
  - assert (Q : 1 <= n / 10) by (apply Z.div_le_lower_bound; lia).
    assert (F : (0 < fuel)%nat). { destruct fuel; [cbn in Hn; lia|lia]. }
    destruct (IH (n / 10)) as ((Nn & Fd & Vl & _) & Hh); [|exact F|].
    { split; [lia|]. rewrite Nat2Z.inj_succ, Z.pow_succ_r in Hn by lia. apply Z.div_lt_upper_bound; lia. }
    specialize (Hh ltac:(lia)). set (l := digits fuel (n / 10)) in *. destruct l as [|c l]; [now elim Nn|]. cbn [hd] in Hh.
    split.
    + split; [discriminate|]. split; [apply Forall_app; split; [exact Fd|constructor; [unfold ascii_digit; lia|constructor]]|].
      split; [rewrite value_snoc, Vl; lia|]. intros c' l' E _. cbn in E. injection E as <- _. exact Hh.
    + intros _. exact Hh.
Qed.
Lemma print_size_ok n : 0 <= n < 18446744073709551616 -> decimal_of n (print_size n).
Proof. intros H. apply digits_are; [|lia]. change (10 ^ Z.of_nat 20) with 100000000000000000000. lia. Qed.
Lemma print_255 : print_size 255 = [50; 53; 53]. Proof. reflexivity. Qed.

(** ** Bytes *)

Lemma Int_floor z a : (IZR z <= a < IZR z + 1)%R -> Int_part a = z.
Proof.
  intros H. unfold Int_part. assert (up a = z + 1)%Z; [|lia]. symmetry. apply tech_up; rewrite plus_IZR; simpl; lra.
Qed.
Lemma Int_bounds a : (IZR (Int_part a) <= a < IZR (Int_part a) + 1)%R.
Proof. destruct (base_Int_part a). lra. Qed.
Lemma Int_le a b : (a <= b)%R -> Int_part a <= Int_part b.
Proof.
  intros H. pose proof (Int_bounds a) as A. pose proof (Int_bounds b) as B.
  assert (IZR (Int_part a) < IZR (Int_part b + 1))%R by (rewrite plus_IZR; lra). apply lt_IZR in H0. lia.
Qed.
Lemma Int_IZR z : Int_part (IZR z) = z.
Proof. apply Int_floor. lra. Qed.

Section Byte.
Variables big tiny eps : R.
Notation XN := (Xnum big tiny eps).
Lemma byte_is v a : isR v a -> @ppm_byte _ XN real_u8 v = Some (byteR a).
Proof.
  intros H. assert (M : isR (xmul v (@nofZ _ XN 255)) (a * 255)) by (apply isR_mul; [exact H|reflexivity]).
  unfold ppm_byte, smin, smax. change (@nmul _ XN) with xmul. change (@nltb _ XN) with xltb.
  change (@nofZ _ XN 255) with (Fin 255) in *. change (@nofZ _ XN 0) with (Fin 0) in *.
  destruct (xmul v (Fin 255)) as [|s|s b]; try (now destruct M). cbn in M. subst b.
  assert (R0 : forall s z a, (0 <= a <= 255)%R -> Int_part a = z -> real_u8 (Xf s a) = Some z).
  { intros s' z b Hb E. cbn. destruct (Rle_dec 0 b) as [_|F]; [|lra]. rewrite E.
    pose proof (Int_le 0 b ltac:(lra)) as L0. pose proof (Int_le b 255 ltac:(lra)) as L1. rewrite !Int_IZR in *. rewrite E in *.
    rewrite (proj2 (Z.leb_le 0 z)), (proj2 (Z.leb_le z 255)) by lia. reflexivity. }
  unfold byteR. replace (a * 255)%R with (255 * a)%R by ring. unfold Fin. cbn [xltb].
  destruct (Rltb 255 (255 * a)) eqn:E1.
  - apply Rltb_spec in E1. cbn [xltb]. destruct (Rltb 255 0) eqn:E2; [apply Rltb_spec in E2; lra|].
    rewrite (R0 _ 255 255%R ltac:(lra) (Int_IZR 255)). pose proof (Int_le 255 (255 * a) ltac:(lra)) as L. rewrite Int_IZR in L. f_equal. lia.
  - apply not_true_iff_false in E1. rewrite Rltb_spec in E1. cbn [xltb]. destruct (Rltb (255 * a) 0) eqn:E2.
    + apply Rltb_spec in E2. rewrite (R0 _ 0 0%R ltac:(lra) (Int_IZR 0)). pose proof (Int_le (255 * a) 0 ltac:(lra)) as L. rewrite Int_IZR in L. f_equal. lia.
    + apply not_true_iff_false in E2. rewrite Rltb_spec in E2. rewrite (R0 s (Int_part (255 * a)) (255 * a)%R ltac:(lra) eq_refl).
      pose proof (Int_le 0 (255 * a) ltac:(lra)) as L0. pose proof (Int_le (255 * a) 255 ltac:(lra)) as L1. rewrite Int_IZR in *. f_equal. lia.
Qed.
Lemma byte_zero : byteR 0 = 0.
Proof. unfold byteR. rewrite Rmult_0_r, (Int_IZR 0). reflexivity. Qed.
Lemma bytes_black : vmap byteR rv_zero = V 0 0 0.
Proof. unfold vmap, rv_zero. cbn [vx vy vz]. now rewrite byte_zero. Qed.
End Byte.

(** ** The rows of the file *)

Section Rows.
Context {T : Type} {N : num T}.
Variables (to_u8 : T -> option Z) (pixels : list T) (width height : Z) (c : Z -> Z -> vec T) (b : Z -> Z -> vec Z).
Hypothesis Hwh : 3 * width * height < 18446744073709551616.
Hypothesis Hpix : picture width height pixels c.
Hypothesis Hb : forall x r, 0 <= x < width -> 0 <= r < height ->
  ppm_byte to_u8 (vx (c x r)) = Some (vx (b x r)) /\ ppm_byte to_u8 (vy (c x r)) = Some (vy (b x r)) /\ ppm_byte to_u8 (vz (c x r)) = Some (vz (b x r)).
Definition row_cell (j i : Z) : list Z := [vx (b i j); vy (b i j); vz (b i j)].

Lemma row_is j is : 0 <= j < height -> (forall i, In i is -> 0 <= i < width) ->
  ppm_row to_u8 pixels width j is = Ok (flat_map (row_cell j) is).
Proof.
  intros Hj. induction is as [|i is IH]; intros Hin; [reflexivity|].
  assert (Hi : 0 <= i < width) by (apply Hin; now left).
  destruct (Hb i j Hi Hj) as (B0 & B1 & B2). destruct (proj2 Hpix i j Hi Hj) as (H0 & S0 & S1 & S2).
  cbn [ppm_row]. rewrite !(pixel_index_eq width height) by (assumption || lia).
  rewrite (atZ_ok UBprim pixels _ (vx (c i j))) by ((rewrite Z.add_0_r; exact S0) || lia). cbn [bind]. rewrite B0. cbn [conv bind].
  rewrite (atZ_ok UBprim pixels _ (vy (c i j))) by (exact S1 || lia). cbn [bind]. rewrite B1. cbn [conv bind].
  rewrite (atZ_ok UBprim pixels _ (vz (c i j))) by (exact S2 || lia). cbn [bind]. rewrite B2. cbn [conv bind].
  rewrite IH by (intros; apply Hin; now right). reflexivity.
Qed.
Lemma rows_are js : (forall j, In j js -> 0 <= j < height) ->
  ppm_rows to_u8 pixels width js = Ok (flat_map (fun j => flat_map (row_cell j) (upto width)) js).
Proof.
  induction js as [|j js IH]; intros Hin; [reflexivity|]. cbn [ppm_rows].
  rewrite row_is; [|apply Hin; now left|intros i Hi; now apply upto_in]. cbn [bind].
  rewrite IH by (intros; apply Hin; now right). reflexivity.
Qed.
Lemma bytes_are : 0 <= width -> 0 <= height ->
  exists bytes, ppm_bytes to_u8 pixels width height = Ok bytes /\ picture width height bytes (fun x r => b x (height - 1 - r)).
Proof.
  intros Hw Hh. unfold ppm_bytes. rewrite rows_are by (intros j Hj; apply in_rev, upto_in in Hj; lia).
  eexists. split; [reflexivity|].
  destruct (flat_block (fun j => flat_map (row_cell j) (upto width)) (3 * Z.to_nat width) (rev (upto height))) as [L K].
  { intros j _. destruct (flat_block (row_cell j) 3 (upto width)) as [-> _]; [reflexivity|]. now rewrite upto_length. }
  split; [rewrite L, rev_length, upto_length; nia|].
  intros x r Hx Hr.
  assert (Q : forall k v, 0 <= k <= 2 -> nth_error (row_cell (height - 1 - r) x) (Z.to_nat k) = Some v ->
    nth_error (flat_map (fun j => flat_map (row_cell j) (upto width)) (rev (upto height))) (Z.to_nat (3 * (r * width + x) + k)) = Some v).
  { intros k v Hk Ev.
    destruct (flat_block (row_cell (height - 1 - r)) 3 (upto width)) as [_ K2]; [reflexivity|].
    specialize (K2 (Z.to_nat x) x (Z.to_nat k) (upto_nth width x Hx) ltac:(lia)).
    specialize (K (Z.to_nat r) (height - 1 - r) (3 * Z.to_nat x + Z.to_nat k)%nat (rev_upto_nth height r Hr) ltac:(lia)).
    rewrite K2, Ev in K. rewrite <- K. f_equal.
    apply Nat2Z.inj. repeat rewrite ?Nat2Z.inj_add, ?Nat2Z.inj_mul.
    rewrite !Z2Nat.id by nia. change (Z.of_nat 3) with 3. ring. }
  pose proof (grid_le width height x r Hx Hr).
  split; [lia|]. split; [rewrite <- (Z.add_0_r (3 * _))|split]; apply Q; try lia; reflexivity.
Qed.
End Rows.

Local Open Scope R_scope.
Section Programs.
Context (big tiny eps : R) (Heps : 0 <= eps).
Notation XN := (Xnum big tiny eps).
Variables (pow_ : Z -> Z -> xr) (ldexp_ : xr -> Z -> xr) (to_float : xr -> xr).
Variable files : string -> option string.
Variable part : (nat -> bool) -> list nat -> list nat * list nat.
Hypothesis Hpart : partition_ok part.
Variables (ftan : xr -> xr) (half_degree : xr) (w : R) (width height : Z).
Hypothesis Ht : isR (ftan (@nmul _ XN (Fin 60) half_degree)) w.
Hypothesis Hw : (0 < width)%Z.
Hypothesis Hh : (0 < height)%Z.
Hypothesis Hsize : (3 * width * height < 18446744073709551616)%Z.

Lemma fits : (0 <= width < 18446744073709551616 /\ 0 <= height < 18446744073709551616)%Z.
Proof. nia. Qed.

(** From the picture to the file. *)
Lemma written img (rule : vec R -> vec xr -> Prop) (show : vec R -> vec Z -> Prop) :
  photograph (V 0 0 (-1)) (V 0 1 0) w width height img rule ->
  (forall U c, rv_norm U = 1 -> rule U c -> exists v, visR c v /\ show U (vmap byteR v)) ->
  exists bytes colour, @ppm_bytes _ XN real_u8 img width height = Ok bytes /\ ppm_file width height (ppm_header width height ++ bytes) colour /\
    forall x r, (0 <= x < width)%Z -> (0 <= r < height)%Z -> exists U, rv_norm U = 1 /\
      through_pixel (V 0 0 (-1)) (V 1 0 0) (V 0 1 0) w width height x (height - 1 - r) U /\ show U (colour x r).
Proof.
  intros (c & d & r & a & Hp & L & H) Hs. destruct (front_frame _ _ _ L) as (-> & -> & ->).
  set (b := fun x y => vmap byteR (vmap (fun z => match z with Xf _ t => t | _ => 0 end) (c x y))).
  assert (K : forall x y, (0 <= x < width)%Z -> (0 <= y < height)%Z ->
    (@ppm_byte _ XN real_u8 (vx (c x y)) = Some (vx (b x y)) /\ @ppm_byte _ XN real_u8 (vy (c x y)) = Some (vy (b x y)) /\
     @ppm_byte _ XN real_u8 (vz (c x y)) = Some (vz (b x y))) /\
    exists U, rv_norm U = 1 /\ through_pixel (V 0 0 (-1)) (V 1 0 0) (V 0 1 0) w width height x y U /\ show U (b x y)).
  { intros x y Hx Hy. destruct (H x y Hx Hy) as (U & N1 & Th & Rl). destruct (Hs U _ N1 Rl) as (v & Hv & Sh).
    assert (E : vmap (fun z => match z with Xf _ t => t | _ => 0 end) (c x y) = v).
    { destruct Hv as (A & B & C). destruct v as [v0 v1 v2]. unfold vmap. cbn [vx vy vz] in A, B, C.
      destruct (vx (c x y)); try contradiction. destruct (vy (c x y)); try contradiction. destruct (vz (c x y)); try contradiction.
      cbn in A, B, C. now subst. }
    unfold b. rewrite E. split.
    - destruct Hv as (A & B & C). cbn [vmap vx vy vz]. repeat split; apply byte_is; assumption.
    - exists U. auto. }
  destruct (@bytes_are _ XN real_u8 img width height c b Hsize Hp (fun x r Hx Hr => proj1 (K x r Hx Hr)) ltac:(lia) ltac:(lia)) as (bytes & E & Pb).
  exists bytes, (fun x r => b x (height - 1 - r)%Z). split; [exact E|]. split.
  - exists (print_size width), (print_size height), bytes. split; [apply print_size_ok, fits|]. split; [apply print_size_ok, fits|].
    split; [|exact Pb]. unfold ppm_header. rewrite print_255. rewrite <- !app_assoc. reflexivity.
  - intros x r Hx Hr. apply K; [exact Hx|lia].
Qed.

Lemma camera_front : @renderer_camera _ XN = front. Proof. reflexivity. Qed.

(** The picture is drawn by [render]. *)
Lemma main_from vertices faces ms nodes st img bytes base file :
  @renderer_mesh _ XN pow_ ldexp_ to_float files base file = Ok (vertices, faces) ->
  @make_mesh _ XN vertices faces = Ok ms -> @build _ XN _ part [] (@mesh_coll _ XN ms) default_options = Ok (nodes, st) ->
  @render _ XN ftan half_degree front ms nodes width height = Ok img -> @ppm_bytes _ XN real_u8 img width height = Ok bytes ->
  @renderer_main _ XN pow_ ldexp_ to_float files part ftan half_degree real_u8 base file width height = Ok (ppm_header width height ++ bytes).
Proof.
  intros E1 E2 E3 E4 E5. unfold renderer_main. rewrite E1. cbn [bind]. rewrite E2. cbn [bind]. rewrite E3. cbn [bind].
  rewrite camera_front, E4. cbn [bind]. rewrite E5. reflexivity.
Qed.

(** Without a file. *)
Lemma main_empty base file : @renderer_mesh _ XN pow_ ldexp_ to_float files base file = Ok ([], []) ->
  exists out, @renderer_main _ XN pow_ ldexp_ to_float files part ftan half_degree real_u8 base file width height = Ok out /\
    ppm_file width height out (fun _ _ => V 0 0 0)%Z.
Proof.
  intros E1. destruct front_ok as (Fo & Fd & Fu & Zx & Zy & Zz & Fc).
  assert (HM : mesh_are [] [] (fun _ => rv_zero)) by (split; [intros j Hj; cbn in Hj; lia|intros f []]).
  assert (HB : forall i, (i < @length (vec nat) [])%nat ->
     in_bounds big (tri_lower (fa [] (fun _ => rv_zero) i) (fb [] (fun _ => rv_zero) i) (fc [] (fun _ => rv_zero) i)) /\
     in_bounds big (tri_upper (fa [] (fun _ => rv_zero) i) (fb [] (fun _ => rv_zero) i) (fc [] (fun _ => rv_zero) i))) by (intros i Hi; cbn in Hi; lia).
  destruct (make_mesh_ok big tiny eps [] _ (proj1 HM) _ (proj2 HM)) as (ms & Ems).
  destruct (mesh_build_ok big tiny eps [] [] _ ms part default_options HM Ems HB Hpart ltac:(cbn; lia) ltac:(reflexivity)) as (nodes & st & Eb).
  assert (Hdep : forall k d, node_depth nodes k d -> (d <= 26)%nat).
  { apply (shallow_depth part Hpart _ default_options nodes st Eb). right. rewrite (PfTri3.mesh_size big tiny eps _ _ _ ms HM Ems). cbn. lia. }
  destruct (render_mesh big tiny eps ftan half_degree front _ _ _ w width height Fo Fd Fu Zx Zy Zz Ht Hw Hh Hsize Fc Heps [] [] _ ms HM Ems HB
    (front_level _ _ _ _ _) part Hpart default_options nodes st Eb Hdep) as (img & Ei & Hp).
  destruct (written img _ (fun _ b => b = V 0 0 0)%Z Hp) as (bytes & colour & E & Hf & Hc).
  { intros U c _ [[Hv _]|(i & t & u & v & (Hi & _) & _ & _)]; [|cbn in Hi; lia]. exists rv_zero. split; [exact Hv|]. exact bytes_black. }
  exists (ppm_header width height ++ bytes). split; [exact (main_from [] [] ms nodes st img bytes base file E1 Ems Eb Ei E)|].
  destruct Hf as (dw & dh & bs & A & B & C & D & F). exists dw, dh, bs. split; [exact A|]. split; [exact B|]. split; [exact C|]. split; [exact D|].
  intros x r Hx Hr. destruct (Hc x r Hx Hr) as (_ & _ & _ & <-). apply F; assumption.
Qed.

Lemma scale_one (Q : Z -> vec R) : (fun j => rv_scale 1 (Q j)) = Q.
Proof. apply FunctionalExtensionality.functional_extensionality. intros j. unfold rv_scale. destruct (Q j). cbn. f_equal; ring. Qed.

Hypothesis Hpow : pow_exact pow_.
Hypothesis Hldexp : ldexp_exact ldexp_.
Hypothesis Hfloat : float_exact to_float.

Lemma main_text base mtl text cs : file_says text cs -> libraries files base mtl cs ->
  well_formed mtl 0 0 0 cs -> uniform_shapes None cs -> small_file mtl cs ->
  (forall j, (j < length (vertices_of cs))%nat -> in_bounds big (point_of cs (Z.of_nat j))) ->
  exists vertices faces P ms nodes st,
    @renderer_mesh _ XN pow_ ldexp_ to_float files base (Some text) = Ok (vertices, faces) /\ mesh_are vertices faces P /\
    faces_of (file_triangles mtl cs) (point_of cs) faces P /\ @make_mesh _ XN vertices faces = Ok ms /\
    @build _ XN _ part [] (@mesh_coll _ XN ms) default_options = Ok (nodes, st) /\
    ((forall k d, node_depth nodes k d -> (d <= 26)%nat) ->
     shadable (4 * eps) (file_triangles mtl cs) (point_of cs) faces P (V 0 5 10) (Fin big) ->
     exists out colour, @renderer_main _ XN pow_ ldexp_ to_float files part ftan half_degree real_u8 base (Some text) width height = Ok out /\
       ppm_file width height out colour /\
       forall x r, (0 <= x < width)%Z -> (0 <= r < height)%Z -> exists U, rv_norm U = 1 /\
         through_pixel (V 0 0 (-1)) (V 1 0 0) (V 0 1 0) w width height x (height - 1 - r) U /\
         file_shown (4 * eps) (file_triangles mtl cs) (point_of cs) faces P (V 0 5 10) U (Fin big) (colour x r)).
Proof.
  intros Hfs Hlib HW HU HS Hbig. destruct front_ok as (Fo & Fd & Fu & Zx & Zy & Zz & Fc).
  destruct (file_reads big tiny eps pow_ ldexp_ to_float Hpow Hldexp Hfloat files base text cs Hfs) as (cs' & Hs & Hl & _).
  destruct (Hl mtl Hlib) as (Hm & _ & El).
  pose proof (Forall2_length _ _ _ (same_vertices _ _ Hs)) as L.
  set (mtl' := read_library big tiny eps pow_ ldexp_ to_float files base) in *.
  pose proof (same_well_formed mtl' mtl cs' cs Hs Hm 0 0 0 HW) as HW'. pose proof (same_small mtl' mtl cs' cs Hs Hm HS) as HS'.
  pose proof (same_uniform cs' cs Hs None HU) as HU'.
  destruct (render_file big tiny eps ftan half_degree front _ _ _ w width height Fo Fd Fu Zx Zy Zz Ht Hw Hh Hsize Fc Heps mtl' cs' (point_of cs)
    (@nofZ _ XN 1) 1 HW' HU' HS' (same_points cs' cs Hs) eq_refl) with (part := part) (opt := default_options)
    as (mesh & P & ms & nodes & st & E1 & HM & HF & E2 & E3 & H).
  { rewrite L. intros j Hj. specialize (Hbig j Hj). pose proof (f_equal (fun f => f (Z.of_nat j)) (scale_one (point_of cs))) as X. cbn beta in X. rewrite X. exact Hbig. }
  { apply front_level. }
  { exact Hpart. }
  { cbn. lia. }
  { reflexivity. }
  unfold file_triangles in *. rewrite (same_triangles mtl' mtl cs' cs Hs Hm) in HF, H. rewrite scale_one in HF, H.
  assert (EM : @renderer_mesh _ XN pow_ ldexp_ to_float files base (Some text) = Ok (om_vertices mesh, map face_nat (om_faces mesh))).
  { pose proof (eq_trans (El (@nofZ _ XN 1)) E1) as X. unfold renderer_mesh.
    match type of X with ?l = _ => match goal with |- bind ?l' _ = _ => change l' with l end end. rewrite X. reflexivity. }
  exists (om_vertices mesh), (map face_nat (om_faces mesh)), P, ms, nodes, st.
  split; [exact EM|]. split; [exact HM|]. split; [exact HF|]. split; [exact E2|]. split; [exact E3|].
  intros Hdep [Hpr Hn]. destruct (H Hdep) as (img & Ei & Hp).
  destruct (written img _ (fun U b => file_shown (4 * eps) (triangles mtl 0 0 [] None cs) (point_of cs) (map face_nat (om_faces mesh)) P (V 0 5 10) U (Fin big) b) Hp)
    as (bytes & colour & E & Hf & Hc).
  { intros U c N1 [[Hv Hno]|(i & t & u & v & A1 & A2 & A3 & A4)].
    - exists rv_zero. split; [exact Hv|]. left. split; [exact bytes_black|exact Hno].
    - eexists. split; [apply A4; [exact Hpr|exact (Hn U i t u v N1 A1 A3)]|]. right. exists i, t, u, v. auto. }
  exists (ppm_header width height ++ bytes), colour. split; [exact (main_from _ _ ms nodes st img bytes base (Some text) EM E2 E3 Ei E)|]. auto.
Qed.
End Programs.
