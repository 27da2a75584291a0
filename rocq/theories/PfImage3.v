(** The bytes of an image, and the progress bar. *)

From Coq Require Import Reals ZArith List Bool Arith Lra Lia Floats.SpecFloat.
From Flocq Require Import Core IEEE754.BinarySingleNaN.
From Verif Require Import Num NumR NumF Vec Datatypes PathTracer Image SpecReal SpecIEEE SpecImage
  PfIEEE PfIEEE2 PfIEEE3 PfImage PfImage2.
Import ListNotations.
Local Open Scope Z_scope.

Lemma atZ_ok {A} w (l : list A) i a : 0 <= i -> nth_error l (Z.to_nat i) = Some a -> atZ w l i = Ok a.
Proof.
  intros Hi E. assert (Z.to_nat i < length l)%nat by (apply nth_error_Some; congruence).
  unfold atZ, at_. destruct (Z.leb_spec 0 i); [|lia]. destruct (Z.ltb_spec i (Z.of_nat (length l))); [|lia].
  cbn [andb]. now rewrite E.
Qed.

(** Blocks of equal length. *)
Lemma flat_block {A B} (g : A -> list B) n l : (forall a, In a l -> length (g a) = n) ->
  length (flat_map g l) = (n * length l)%nat /\
  forall k a j, nth_error l k = Some a -> (j < n)%nat -> nth_error (flat_map g l) (n * k + j) = nth_error (g a) j.
Proof.
  intros Hn. induction l as [|a l IH].
  - split; [cbn; lia|]. intros [|k]; discriminate.
  - destruct IH as [IH1 IH2]; [intros; apply Hn; now right|].
    assert (Ha : length (g a) = n) by (apply Hn; now left).
    cbn [flat_map length]. rewrite app_length. split; [lia|].
    intros [|k] b j E Hj.
    + injection E as <-. rewrite nth_error_app1 by lia. f_equal. lia.
    + rewrite nth_error_app2 by lia. rewrite <- (IH2 k b j E Hj). f_equal. lia.
Qed.

Lemma upto_nth n k : 0 <= k < n -> nth_error (upto n) (Z.to_nat k) = Some k.
Proof.
  intros H. unfold upto. rewrite nth_error_map.
  rewrite (nth_error_nth' _ O) by (rewrite seq_length; lia). rewrite seq_nth by lia. cbn. f_equal. lia.
Qed.
Lemma rev_upto_nth n k : 0 <= k < n -> nth_error (rev (upto n)) (Z.to_nat k) = Some (n - 1 - k).
Proof.
  intros H. rewrite (nth_error_nth' _ 0) by (rewrite rev_length, upto_length; lia).
  rewrite rev_nth by (rewrite upto_length; lia). rewrite upto_length. f_equal.
  apply nth_error_nth. rewrite <- (upto_nth n (n - 1 - k)) by lia. f_equal. lia.
Qed.

Section F.
Variables prec emax : Z.
Context {Hprec : Prec_gt_0 prec} {Hmax : Prec_lt_emax prec emax}.
Hypothesis Hp8 : (8 <= prec)%Z.
Notation FN := (Fnum prec emax).
Notation valid := (fun c : vec spec_float => valid_binary prec emax (vx c) = true /\
  valid_binary prec emax (vy c) = true /\ valid_binary prec emax (vz c) = true).

Section Png.
Variable rgb : list spec_float.
Variables width height : Z.
Variable c : Z -> Z -> vec spec_float.
Hypothesis Hwh : 3 * width * height < 4294967296.
Hypothesis Hrgb : picture width height rgb c.
Hypothesis Hval : forall x r, 0 <= x < width -> 0 <= r < height -> valid (c x r).

Definition png_index (x y k : Z) : Z := u32 (u32 (u32 (u32 (y * width) + x) * 3) + k).
Lemma png_index_eq x y k : 0 <= x < width -> 0 <= y < height -> 0 <= k <= 2 ->
  png_index x y k = 3 * (y * width + x) + k.
Proof.
  intros Hx Hy Hk. pose proof (grid_le width height x y Hx Hy). assert (0 <= y * width) by nia.
  unfold png_index. rewrite (u32_id (y * width)) by lia. rewrite (u32_id (_ + x)) by lia.
  rewrite (u32_id (_ * 3)) by lia. rewrite u32_id by lia. lia.
Qed.

Lemma png_loop_store ps : (forall x y, In (x, y) ps -> 0 <= x < width /\ 0 <= y < height) -> forall bytes,
  png_loop (N := FN) sf_u8 rgb width ps bytes =
  store_pixels png_index (fun x y => Ok (Some (bytes_of prec emax (c x y)))) ps bytes.
Proof.
  induction ps as [|[x y] ps IH]; intros Hin bytes; [reflexivity|].
  destruct (Hin x y (or_introl eq_refl)) as [Hx Hy].
  cbn [png_loop store_pixels bind]. unfold store3.
  destruct (Hval x y Hx Hy) as (V0 & V1 & V2).
  destruct (proj2 Hrgb x y Hx Hy) as (H0 & S0 & S1 & S2).
  assert (P : forall l k v, 0 <= k <= 2 -> nth_error rgb (Z.to_nat (3 * (y * width + x) + k)) = Some v ->
     valid_binary prec emax v = true ->
     png_pixel (N := FN) sf_u8 rgb (u32 (u32 (y * width) + x)) l k = setZ UBprim l (png_index x y k) (byte_of prec emax v)).
  { intros l k v Hk Ev Vv. unfold png_pixel. fold (png_index x y k). rewrite png_index_eq by assumption.
    rewrite (atZ_ok UBprim rgb _ v) by (assumption || lia). cbn [bind].
    rewrite (@png_byte_ok prec emax Hprec Hmax Hp8 v Vv). reflexivity. }
  rewrite (P bytes 0 (vx (c x y))) by (lia || (rewrite Z.add_0_r; exact S0) || exact V0).
  cbn [bytes_of vx vy vz].
  destruct (setZ UBprim bytes (png_index x y 0) _) as [l0| |]; cbn [bind]; [|reflexivity|reflexivity].
  rewrite (P l0 1 (vy (c x y))) by (lia || exact S1 || exact V1).
  destruct (setZ UBprim l0 (png_index x y 1) _) as [l1| |]; cbn [bind]; [|reflexivity|reflexivity].
  rewrite (P l1 2 (vz (c x y))) by (lia || exact S2 || exact V2).
  destruct (setZ UBprim l1 (png_index x y 2) _) as [l2| |]; cbn [bind]; [|reflexivity|reflexivity].
  apply IH. intros; apply Hin; now right.
Qed.

Lemma png_bytes_ok : 0 <= width -> 0 <= height ->
  exists bytes, png_bytes (N := FN) sf_u8 rgb width height = Ok bytes /\
    picture width height bytes (fun x r => bytes_of prec emax (c x r)).
Proof.
  intros Hw Hh. unfold png_bytes. rewrite rgb_length by assumption.
  destruct (by_rows_covers width height) as [Hnd Hc].
  rewrite png_loop_store by (intros x y H; now apply Hc).
  pose (inside := fun x y => 0 <= x < width /\ 0 <= y < height).
  destruct (@store_black Z png_index (fun x y => y * width + x) inside (Z.to_nat (3 * width * height)))
    with (f := fun x y => @Ok (option (vec Z)) (Some (bytes_of prec emax (c x y))))
         (c := fun x y => Some (bytes_of prec emax (c x y))) (black := 0) (ps := by_rows width height)
    as (l & E & Hl & Hs).
  - intros x y k [] Hk. now apply png_index_eq.
  - intros x y [Hx Hy]. pose proof (grid_le width height x y Hx Hy). split; lia.
  - intros x y x' y' [] [] E. now apply (grid_inj width height).
  - reflexivity.
  - exact Hnd.
  - intros x y H. now apply Hc.
  - exists l. split; [exact E|]. split; [rewrite Hl; rewrite Z2Nat.id by nia; reflexivity|].
    intros x r Hx Hr. apply (Hs x r). now apply Hc.
Qed.
End Png.

Section Ppm.
Variable pixels : list spec_float.
Variables width height : Z.
Variable c : Z -> Z -> vec spec_float.
Hypothesis Hwh : 3 * width * height < 18446744073709551616.
Hypothesis Hpix : picture width height pixels c.
Hypothesis Hval : forall x r, 0 <= x < width -> 0 <= r < height -> valid (c x r).
Hypothesis Hnum : forall x r, 0 <= x < width -> 0 <= r < height ->
  vx (c x r) <> S754_nan /\ vy (c x r) <> S754_nan /\ vz (c x r) <> S754_nan.

Definition cell3 (j i : Z) : list Z := let b := bytes_of prec emax (c i j) in [vx b; vy b; vz b].

Lemma ppm_row_ok j is : 0 <= j < height -> (forall i, In i is -> 0 <= i < width) ->
  ppm_row (N := FN) sf_u8 pixels width j is = Ok (flat_map (cell3 j) is).
Proof.
  intros Hj. induction is as [|i is IH]; intros Hin; [reflexivity|].
  assert (Hi : 0 <= i < width) by (apply Hin; now left).
  destruct (Hval i j Hi Hj) as (V0 & V1 & V2). destruct (Hnum i j Hi Hj) as (N0 & N1 & N2).
  destruct (proj2 Hpix i j Hi Hj) as (H0 & S0 & S1 & S2).
  cbn [ppm_row]. rewrite !(pixel_index_eq width height) by (assumption || lia).
  rewrite (atZ_ok UBprim pixels _ (vx (c i j))) by ((rewrite Z.add_0_r; exact S0) || lia). cbn [bind].
  rewrite (@ppm_byte_ok prec emax Hprec Hmax Hp8 _ V0 N0). cbn [conv bind].
  rewrite (atZ_ok UBprim pixels _ (vy (c i j))) by (exact S1 || lia). cbn [bind].
  rewrite (@ppm_byte_ok prec emax Hprec Hmax Hp8 _ V1 N1). cbn [conv bind].
  rewrite (atZ_ok UBprim pixels _ (vz (c i j))) by (exact S2 || lia). cbn [bind].
  rewrite (@ppm_byte_ok prec emax Hprec Hmax Hp8 _ V2 N2). cbn [conv bind].
  rewrite IH by (intros; apply Hin; now right). reflexivity.
Qed.
Lemma ppm_rows_ok js : (forall j, In j js -> 0 <= j < height) ->
  ppm_rows (N := FN) sf_u8 pixels width js = Ok (flat_map (fun j => flat_map (cell3 j) (upto width)) js).
Proof.
  induction js as [|j js IH]; intros Hin; [reflexivity|]. cbn [ppm_rows].
  rewrite ppm_row_ok; [|apply Hin; now left|intros i Hi; now apply upto_in]. cbn [bind].
  rewrite IH by (intros; apply Hin; now right). reflexivity.
Qed.

Lemma ppm_bytes_ok : 0 <= width -> 0 <= height ->
  exists bytes, ppm_bytes (N := FN) sf_u8 pixels width height = Ok bytes /\
    picture width height bytes (fun x r => bytes_of prec emax (c x (height - 1 - r))).
Proof.
  intros Hw Hh. unfold ppm_bytes. rewrite ppm_rows_ok by (intros j Hj; apply in_rev, upto_in in Hj; lia).
  eexists. split; [reflexivity|].
  destruct (flat_block (fun j => flat_map (cell3 j) (upto width)) (3 * Z.to_nat width) (rev (upto height))) as [L K].
  { intros j _. destruct (flat_block (cell3 j) 3 (upto width)) as [-> _]; [reflexivity|]. now rewrite upto_length. }
  split; [rewrite L, rev_length, upto_length; nia|].
  intros x r Hx Hr.
  assert (Q : forall k v, 0 <= k <= 2 -> nth_error (cell3 (height - 1 - r) x) (Z.to_nat k) = Some v ->
    nth_error (flat_map (fun j => flat_map (cell3 j) (upto width)) (rev (upto height))) (Z.to_nat (3 * (r * width + x) + k)) = Some v).
  { intros k v Hk Ev.
    destruct (flat_block (cell3 (height - 1 - r)) 3 (upto width)) as [_ K2]; [reflexivity|].
    specialize (K2 (Z.to_nat x) x (Z.to_nat k) (upto_nth width x Hx) ltac:(lia)).
    specialize (K (Z.to_nat r) (height - 1 - r) (3 * Z.to_nat x + Z.to_nat k)%nat (rev_upto_nth height r Hr) ltac:(lia)).
    rewrite K2, Ev in K. rewrite <- K. f_equal.
    apply Nat2Z.inj. repeat rewrite ?Nat2Z.inj_add, ?Nat2Z.inj_mul.
    rewrite !Z2Nat.id by nia. change (Z.of_nat 3) with 3. ring. }
  pose proof (grid_le width height x r Hx Hr).
  split; [lia|]. split; [rewrite <- (Z.add_0_r (3 * _))|split]; apply Q; try lia; reflexivity.
Qed.
End Ppm.
End F.

(** A pixel that is not a number makes the conversion of the renderer undefined. *)
Lemma ppm_nan : ppm_bytes (N := F32) sf_u8 [S754_nan; S754_nan; S754_nan] 1 1 = UB UBconv.
Proof. reflexivity. Qed.

(** progressBar. *)
Lemma progress_ok tick total width :
  0 <= tick <= total -> 0 < total -> 0 <= width <= 16777215 -> width * tick < 18446744073709551616 ->
  progress_bar tick total width =
    Ok (repeat true (Z.to_nat (width * tick / total)) ++ repeat false (Z.to_nat (width - width * tick / total))) /\
  0 <= width * tick / total <= width.
Proof.
  intros Ht Hp Hw Hov.
  assert (Hq : 0 <= width * tick / total <= width).
  { split; [apply Z.div_pos; nia|]. apply Z.div_le_upper_bound; nia. }
  split; [|exact Hq].
  unfold progress_bar, bar_count. destruct (Z.eqb_spec total 0); [lia|].
  rewrite u64_id by nia. set (q := width * tick / total) in *.
  assert (Hf : isF 24 128 (@nofZ _ F32 q) (IZR q)).
  { pose proof (@isF_lit 24 128 eq_refl eq_refl ltac:(lia) q 0) as H.
    cbn [bpow] in H. rewrite Rmult_1_r in H. apply H; [change (2 ^ 24) with 16777216|]; lia. }
  rewrite (trunc_F 24 128 _ _ Hf) by (apply IZR_le; lia). rewrite Zfloor_IZR.
  destruct (Z.leb_spec 0 q); [|lia]. destruct (Z.leb_spec q width); [|lia]. reflexivity.
Qed.
