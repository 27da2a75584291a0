(** The files of the example programs; rows that are too long. *)

From Coq Require Import ZArith Strings.String List Bool Lia Floats.SpecFloat Reals.
From Verif Require Import Num NumR NumX NumF Vec Datatypes Ray Bvh Traverse Trimesh Scene PathTracer TinyObj ObjText Image Mains PathMain ScenePic Zlib Png.
From Verif Require Import SpecBvh SpecReal SpecIEEE SpecTri SpecNearest SpecOptics SpecLight SpecPath SpecImage SpecObj SpecObjMesh SpecText SpecRender SpecScene SpecPic SpecTracer SpecZlib SpecPng.
From Verif Require Import PfPart PfObj5 PfPic PfPic2 PfTracer PfZlib PfZlib2 PfCrc PfPng.
Import ListNotations.
Local Open Scope Z_scope.

Definition byte_vec (c : vec Z) : Prop := byte (vx c) /\ byte (vy c) /\ byte (vz c).
Lemma byte_of_byte prec emax v : byte (byte_of prec emax v).
Proof. unfold byte_of, byte. destruct v as [s|s| |s m e]; try destruct s; lia. Qed.
Lemma bytes_of_byte prec emax c : byte_vec (bytes_of prec emax c).
Proof. repeat split; apply byte_of_byte. Qed.
Lemma to_int_id z : 0 <= z < 2147483648 -> to_int z = z.
Proof. intros H. unfold to_int, u32. rewrite Z.mod_small by lia. cbv zeta. destruct (Z.ltb_spec z 2147483648); lia. Qed.
Lemma picture_bytes width height bytes c : 0 < width -> 0 < height -> picture width height bytes c ->
  (forall x r, 0 <= x < width -> 0 <= r < height -> byte_vec (c x r)) -> Forall byte bytes.
Proof.
  intros Hw Hh [Hl Hp] Hc. apply Forall_forall. intros b Hb. apply In_nth_error in Hb as (k & Ek).
  assert (Hk : (k < length bytes)%nat) by (apply nth_error_Some; congruence).
  set (z := Z.of_nat k). assert (Hz : 0 <= z < 3 * width * height) by lia.
  pose proof (Z.div_mod z 3 ltac:(lia)) as D. pose proof (Z.mod_pos_bound z 3 ltac:(lia)) as M. set (q := z / 3) in *.
  pose proof (Z.div_mod q width ltac:(lia)) as D2. pose proof (Z.mod_pos_bound q width ltac:(lia)) as M2.
  assert (Hr : 0 <= q / width < height) by (split; [apply Z.div_pos; lia|apply Z.div_lt_upper_bound; lia]).
  specialize (Hp (q mod width) (q / width) M2 Hr) as (Hn & E0 & E1 & E2). specialize (Hc (q mod width) (q / width) M2 Hr) as (B0 & B1 & B2).
  assert (Eq : q / width * width + q mod width = q) by lia. rewrite Eq in *.
  assert (Ez : z mod 3 = 0 \/ z mod 3 = 1 \/ z mod 3 = 2) by lia. destruct Ez as [Ez|[Ez|Ez]].
  - replace (Z.to_nat (3 * q)) with k in E0 by lia. congruence.
  - replace (Z.to_nat (3 * q + 1)) with k in E1 by lia. congruence.
  - replace (Z.to_nat (3 * q + 2)) with k in E2 by lia. congruence.
Qed.
Lemma segment3 {A} (l : list A) a : forall m w u v t, (m + 3 <= w)%nat ->
  nth_error l (a + m) = Some u -> nth_error l (a + m + 1) = Some v -> nth_error l (a + m + 2) = Some t ->
  firstn 3 (skipn m (firstn w (skipn a l))) = [u; v; t].
Proof.
  intros m w u v t H E0 E1 E2.
  assert (G : forall (s : list A) p k, nth_error (skipn p s) k = nth_error s (p + k)).
  { clear. intros s p. revert s. induction p as [|p IH]; intros [|x s] k; try reflexivity; [destruct k; reflexivity|]. cbn. apply IH. }
  assert (K : forall (s : list A) p k, (k < p)%nat -> nth_error (firstn p s) k = nth_error s k).
  { clear. intros s p. revert s. induction p as [|p IH]; intros [|x s] k H; try lia; [destruct k; reflexivity|]. destruct k as [|k]; [reflexivity|]. cbn. apply IH. lia. }
  set (s := skipn m (firstn w (skipn a l))).
  assert (F0 : nth_error s 0 = Some u) by (unfold s; rewrite G, K, G by lia; rewrite <- E0; f_equal; lia).
  assert (F1 : nth_error s 1 = Some v) by (unfold s; rewrite G, K, G by lia; rewrite <- E1; f_equal; lia).
  assert (F2 : nth_error s 2 = Some t) by (unfold s; rewrite G, K, G by lia; rewrite <- E2; f_equal; lia).
  clearbody s. destruct s as [|x [|y [|z s]]]; try discriminate. cbn in *. congruence.
Qed.
Theorem save_ok width height bytes c : writable width height -> picture width height bytes c ->
  (forall x r, 0 <= x < width -> 0 <= r < height -> byte_vec (c x r)) ->
  exists file, png_file_of bytes width height = Ok file /\ Forall byte file /\ png_shows file width height c.
Proof.
  intros (Hw & Hh & H1 & H2) Hp Hc. pose proof Hp as [Hl Hs]. unfold png_file_of. rewrite !to_int_id by nia.
  assert (Es : row_stride (width * 3) width 3 = 3 * width) by (unfold row_stride; destruct (Z.eqb_spec (width * 3) 0); lia).
  destruct (png_ok bytes (width * 3) width height 3) as (file & Ef & Bf & Er); rewrite ?Es; try lia; try (exact (picture_bytes _ _ _ _ Hw Hh Hp Hc)); try nia.
  exists file. split; [exact Ef|]. split; [exact Bf|]. eexists. split; [exact Er|]. rewrite Es. split; [reflexivity|]. split; [reflexivity|]. split; [reflexivity|].
  intros x r Hx Hr. unfold pixel_at. cbn [r_samples r_rows]. unfold rows_of.
  rewrite (nth_indep _ [] (firstn (Z.to_nat (width * 3)) (skipn (Z.to_nat (3 * width) * 0) bytes))) by (rewrite map_length, seq_length; lia).
  rewrite (map_nth (fun j => firstn (Z.to_nat (width * 3)) (skipn (Z.to_nat (3 * width) * j) bytes))), seq_nth by lia. cbn [Nat.add].
  destruct (Hs x r Hx Hr) as (Hn & E0 & E1 & E2).
  assert (Ea : (Z.to_nat (3 * width) * Z.to_nat r + Z.to_nat (3 * x) = Z.to_nat (3 * (r * width + x)))%nat) by (rewrite <- Z2Nat.inj_mul, <- Z2Nat.inj_add by nia; f_equal; lia).
  apply segment3; [lia|rewrite Ea; exact E0|rewrite Ea|rewrite Ea].
  - rewrite <- E1. f_equal. nia.
  - rewrite <- E2. f_equal. nia.
Qed.
Theorem tracer_file : forall big tiny eps pow_ ldexp_ to_float files part, partition_ok part ->
  forall fcos fsin pi p floor_u rand_max gamma to_f32, pow_exact pow_ -> ldexp_exact ldexp_ -> float_exact to_float ->
  computes fcos cos -> computes fsin sin -> isR pi p -> (0 < p)%R -> floors floor_u -> gives_floats to_f32 ->
  forall width height ps, writable width height -> covers width height ps ->
  forall ks rnd, (forall x y i, random_number rand_max (fst (ks x y i)) /\ random_number rand_max (snd (ks x y i))) ->
  (forall x y s i k, random_number rand_max (rnd x y s i k)) ->
  forall base mtl text cs scale a, file_says text cs -> libraries files base mtl cs -> well_formed mtl 0 0 0 cs ->
  uniform_shapes None cs -> small_file mtl cs -> isR scale a ->
  (forall j, (j < length (vertices_of cs))%nat -> in_bounds big (rv_scale a (point_of cs (Z.of_nat j)))) ->
  (forall t, In t (file_triangles mtl cs) -> snd t <> None) -> lit (file_triangles mtl cs) (@file_materials _ mtl (Rnum big tiny eps) cs) ->
  physical_materials (@file_materials _ mtl (Rnum big tiny eps) cs) ->
  exists mesh mats P ms nodes st,
    @tracer_load _ (Xnum big tiny eps) pow_ ldexp_ to_float files base scale (Some text) = Ok (Some (mesh, mats)) /\
    mesh_are (om_vertices mesh) (map indices (om_faces mesh)) P /\
    faces_of (file_triangles mtl cs) (fun j => rv_scale a (point_of cs j)) (map indices (om_faces mesh)) P /\
    @make_mesh _ (Xnum big tiny eps) (om_vertices mesh) (map indices (om_faces mesh)) = Ok ms /\
    @build _ (Xnum big tiny eps) _ part [] (@mesh_coll _ (Xnum big tiny eps) ms) default_options = Ok (nodes, st) /\
    ((forall k d, node_depth nodes k d -> (d <= 26)%nat) -> proper P (map indices (om_faces mesh)) ->
     normals_defined (4 * eps)%R (map indices (om_faces mesh)) P ->
     exists file c,
       saved (@tracer_main _ (Xnum big tiny eps) pow_ ldexp_ to_float files part fcos fsin pi floor_u rand_max gamma to_f32
         base scale (Some text) width height ps ks rnd) width height = Ok (Some file) /\
       png_shows file width height (fun x r => bytes_of 24 128 (vmap (fun v => to_f32 (gamma v)) (c x (height - 1 - r)%Z))) /\
       forall x y, (0 <= x < width)%Z -> (0 <= y < height)%Z -> colour (c x y)).
Proof.
  intros big tiny eps pow_ ldexp_ to_float files part Hpart fcos fsin pi p floor_u rand_max gamma to_f32 Hpow Hld Hfl Hcos Hsin Hpi Hp Hfloor Hg
    width height ps Hw Hcov ks rnd Hks Hrnd base mtl text cs scale a Hsays Hlib Hwf Hus Hsm Hsc Hb Hmat Hlit Hphys.
  pose proof Hw as (W1 & W2 & W3 & W4).
  destruct (tracer_text big tiny eps pow_ ldexp_ to_float files part Hpart fcos fsin pi p floor_u rand_max gamma to_f32 Hpow Hld Hfl Hcos Hsin Hpi Hp Hfloor Hg
    width height ps W1 W2 ltac:(nia) Hcov ks rnd Hks Hrnd base mtl text cs scale a Hsays Hlib Hwf Hus Hsm Hsc Hb Hmat Hlit Hphys) as (mesh & mats & P & ms & nodes & st & A1 & A2 & A3 & A4 & A5 & A6).
  exists mesh, mats, P, ms, nodes, st. split; [exact A1|]. split; [exact A2|]. split; [exact A3|]. split; [exact A4|]. split; [exact A5|].
  intros D1 D2 D3. destruct (A6 D1 D2 D3) as (bytes & c & B1 & B2 & B3).
  destruct (save_ok width height bytes _ Hw B2) as (file & Ef & _ & Es); [intros x r _ _; apply bytes_of_byte|].
  exists file, c. split; [|split; [exact Es|exact B3]]. unfold saved. rewrite B1. cbn [bind]. rewrite Ef. reflexivity.
Qed.
Theorem primitives_file : forall big tiny eps, (100 <= big)%R -> (0 <= eps)%R -> (0 <= tiny)%R -> forall part, partition_ok part ->
  forall width height ps, writable width height -> covers width height ps ->
  exists bytes file c, @primitives_main _ (Xnum big tiny eps) part width height ps = Ok bytes /\ png_file_of bytes width height = Ok file /\
    (png_shows file width height c) /\
    forall x r, (0 <= x < width)%Z -> (0 <= r < height)%Z ->
      solids_show [(tube1, red); (ball1, red); (ball2, green)] eye (unit_of (line_of_sight width height x (height - 1 - r))) (c x r).
Proof.
  intros big tiny eps Hbig Heps Htiny part Hpart width height ps Hw Hcov. pose proof Hw as (W1 & W2 & W3 & W4).
  destruct (primitives_picture big tiny eps Hbig Heps Htiny part Hpart width height ps W1 W2 ltac:(nia) Hcov) as (bytes & c & E & P & S).
  destruct (save_ok width height bytes c Hw P) as (file & Ef & _ & Es).
  - intros x r Hx Hr. destruct (S x r Hx Hr) as [[-> _]|(s & t & Hin & _)]; [repeat split; cbn; lia|].
    destruct Hin as [Hin|[Hin|[Hin|[]]]]; injection Hin as _ <-; repeat split; cbn; lia.
  - exists bytes, file, c. auto.
Qed.

(** Rows of 16777216 bytes or more. *)
Lemma estimate_long m : forall est, 0 <= est <= 2147483647 -> 2147483647 < est + 128 * Z.of_nat m -> estimate (repeat 128 m) est = UB UBconv.
Proof.
  induction m as [|m IH]; intros est H0 H; [lia|]. cbn [repeat estimate]. change (Z.abs (s8 128)) with 128. unfold i32.
  destruct (Z.leb_spec (-2147483648) (est + 128)); [|lia]. destruct (Z.leb_spec (est + 128) 2147483647); cbn [andb bind]; [|reflexivity]. apply IH; lia.
Qed.
Lemma wide_row w : 16777216 <= 3 * w -> 3 * w <= 536870912 -> png_file_of (repeat 128 (Z.to_nat (3 * w))) w 1 = UB UBconv.
Proof.
  intros H1 H2. unfold png_file_of. rewrite !to_int_id by lia. unfold png_to_mem. rewrite i32_ok by lia. cbn [bind].
  destruct (Z.eqb_spec (w * 3) 0); [lia|]. rewrite i32_ok by lia. cbn [bind]. rewrite i32_ok by lia. cbn [bind]. unfold filter_rows. change (upto 1) with [0]. cbn [mapM]. unfold filter_row. cbn [choose].
  change (filter_type 0 0) with (@Ok Z 0). cbn [bind].
  assert (El : line (repeat 128 (Z.to_nat (3 * w))) (w * 3) w 3 0 0 = Ok (repeat 128 (Z.to_nat (3 * w)))).
  { unfold line. rewrite (mapM_map _ (fun _ => 128)).
    - unfold upto. rewrite map_map. rewrite (Z.mul_comm w 3). generalize (Z.to_nat (3 * w)) at 1 2. intros m. f_equal. generalize 0%nat. induction m as [|m IH]; intros k; [reflexivity|]. cbn. f_equal. apply IH.
    - intros i Hi. unfold upto in Hi. apply in_map_iff in Hi as (m & <- & Hm). apply in_seq in Hm. unfold line_entry. rewrite (atZ_ok UBprim _ 128) by (rewrite repeat_length; lia). cbn [bind].
      rewrite nth_repeat. destruct (_ <? 3); reflexivity. }
  rewrite El. cbn [bind]. rewrite estimate_long by lia. reflexivity.
Qed.
Theorem wide_undefined : exists bytes width height, 0 < width /\ 0 < height /\ Forall byte bytes /\ Z.of_nat (length bytes) = 3 * width * height /\
  height * (3 * width + 1) <= 536870912 /\ png_file_of bytes width height = UB UBconv.
Proof.
  exists (repeat 128 (Z.to_nat (3 * 5592406))), 5592406, 1. split; [lia|]. split; [lia|]. split.
  - apply Forall_forall. intros b Hb. apply repeat_spec in Hb. subst. unfold byte. lia.
  - split; [rewrite repeat_length, Z2Nat.id by lia; reflexivity|]. split; [lia|]. apply wide_row; lia.
Qed.
