(** C67, C68, C74: the images and the progress bar of the examples. *)

From Coq Require Import Reals ZArith List Bool Floats.SpecFloat.
From Flocq Require Import Core IEEE754.BinarySingleNaN.
From Verif Require Import Num NumF Vec Datatypes PathTracer Image SpecReal SpecIEEE SpecImage.
From Verif Require Import PfImage PfImage2 PfImage3 CaseImage.
Import ListNotations.
Local Open Scope Z_scope.

(** C67.  Every pixel is stored, bottom row last, in any order of the loops. *)
Theorem C67_image_stores : forall A (black : A) width height f c ps,
  0 <= width -> 0 <= height -> 3 * width * height < 4294967296 -> covers width height ps ->
  (forall x y, 0 <= x < width -> 0 <= y < height -> f x y = Ok (c x y)) ->
  exists img, rgb_image black width height f ps = Ok img /\
    picture width height img (fun x r => or_black black (c x (height - 1 - r))).
Proof. exact rgb_image_ok. Qed.
Print Assumptions C67_image_stores.
Theorem C67_order_free : forall A (black : A) width height f c ps qs,
  0 <= width -> 0 <= height -> 3 * width * height < 4294967296 -> covers width height ps -> covers width height qs ->
  (forall x y, 0 <= x < width -> 0 <= y < height -> f x y = Ok (c x y)) ->
  rgb_image black width height f ps = rgb_image black width height f qs.
Proof. exact rgb_order. Qed.
Print Assumptions C67_order_free.
(** The loops of the sources are such orders. *)
Theorem C67_loops : forall width height,
  covers width height (by_rows width height) /\ covers width height (by_columns width height).
Proof. exact (fun w h => conj (by_rows_covers w h) (by_columns_covers w h)). Qed.
Print Assumptions C67_loops.
(** The renderer's image has the first row first. *)
Theorem C67_pixel_image : forall A (black : A) width height f c,
  0 <= width -> 0 <= height -> 3 * width * height < 18446744073709551616 ->
  (forall x y, 0 <= x < width -> 0 <= y < height -> f x y = Ok (Some (c x y))) ->
  exists img, pixel_image black width height f = Ok img /\ picture width height img c.
Proof. exact pixel_image_ok. Qed.
Print Assumptions C67_pixel_image.
(** Without the bound on the size the index leaves the array. *)
Theorem C67_size_refuted : exists width height, 0 < width < 4294967296 /\ 0 < height < 4294967296 /\
  forall A (black : A) f, (forall x y, exists c, f x y = Ok (Some c)) ->
  rgb_image black width height f (by_rows width height) = UB UBprim.
Proof. exact rgb_wraps. Qed.
Print Assumptions C67_size_refuted.
Example C67_case : covers 2 2 (by_columns 2 2) /\
  forall x y, 0 <= x < 2 -> 0 <= y < 2 -> valid_colour 24 128 (or_black (S754_zero false) (four x y)).
Proof. exact four_ok. Qed.

(** C68.  The bytes of the files, for binary formats of 8 digits or more. *)
Theorem C68_png_bytes : forall prec emax (Hprec : Prec_gt_0 prec) (Hmax : Prec_lt_emax prec emax) (black : spec_float) width height f c ps,
  8 <= prec -> 0 <= width -> 0 <= height -> 3 * width * height < 4294967296 -> covers width height ps ->
  (forall x y, 0 <= x < width -> 0 <= y < height -> f x y = Ok (c x y)) ->
  (forall x y, 0 <= x < width -> 0 <= y < height -> valid_colour prec emax (or_black black (c x y))) ->
  exists img bytes, rgb_image black width height f ps = Ok img /\
    png_bytes (N := Fnum prec emax) sf_u8 img width height = Ok bytes /\
    picture width height bytes (fun x r => bytes_of prec emax (or_black black (c x (height - 1 - r)))).
Proof. exact png_file. Qed.
Print Assumptions C68_png_bytes.
Theorem C68_ppm_bytes : forall prec emax (Hprec : Prec_gt_0 prec) (Hmax : Prec_lt_emax prec emax) (black : spec_float) width height f c,
  8 <= prec -> 0 <= width -> 0 <= height -> 3 * width * height < 18446744073709551616 ->
  (forall x y, 0 <= x < width -> 0 <= y < height -> f x y = Ok (Some (c x y))) ->
  (forall x y, 0 <= x < width -> 0 <= y < height -> valid_colour prec emax (c x y)) ->
  (forall x y, 0 <= x < width -> 0 <= y < height ->
     vx (c x y) <> S754_nan /\ vy (c x y) <> S754_nan /\ vz (c x y) <> S754_nan) ->
  exists img bytes, pixel_image black width height f = Ok img /\
    ppm_bytes (N := Fnum prec emax) sf_u8 img width height = Ok bytes /\
    picture width height bytes (fun x r => bytes_of prec emax (c x (height - 1 - r))).
Proof. exact ppm_file. Qed.
Print Assumptions C68_ppm_bytes.
(** Not-a-number cannot be converted. *)
Theorem C68_ppm_nan_refuted : exists c : spec_float, valid_binary 24 128 c = true /\
  ppm_bytes (N := F32) sf_u8 [c; c; c] 1 1 = UB UBconv.
Proof. exact (ex_intro _ S754_nan (conj eq_refl ppm_nan)). Qed.
Print Assumptions C68_ppm_nan_refuted.
(** The byte of a value: monotone, 0 up to zero, 255 from one on, and within one below
    255 times the value. *)
Theorem C68_byte_monotone : forall prec emax (Hprec : Prec_gt_0 prec) v w a b,
  isF prec emax v a -> isF prec emax w b -> (a <= b)%R -> byte_of prec emax v <= byte_of prec emax w.
Proof. exact @byte_mono. Qed.
Print Assumptions C68_byte_monotone.
Theorem C68_byte_black : forall prec emax (Hprec : Prec_gt_0 prec) v a,
  isF prec emax v a -> (a <= 0)%R -> byte_of prec emax v = 0.
Proof. exact @byte_black. Qed.
Print Assumptions C68_byte_black.
Theorem C68_byte_full : forall prec emax (Hprec : Prec_gt_0 prec) (Hmax : Prec_lt_emax prec emax), 8 <= prec ->
  forall v a, isF prec emax v a -> (1 <= a)%R -> byte_of prec emax v = 255.
Proof. exact @byte_full. Qed.
Print Assumptions C68_byte_full.
Theorem C68_byte_near : forall prec emax (Hprec : Prec_gt_0 prec) (Hmax : Prec_lt_emax prec emax), 8 <= prec ->
  forall v a, isF prec emax v a -> (0 <= a <= 1)%R ->
  (rnd prec emax (a * 255) - 1 < IZR (byte_of prec emax v) <= rnd prec emax (a * 255))%R.
Proof. exact @byte_near. Qed.
Print Assumptions C68_byte_near.
Example C68_case : exists img,
  rgb_image (S754_zero false) 2 2 (fun x y => Ok (four x y)) (by_columns 2 2) = Ok img /\
  png_bytes (N := F32) sf_u8 img 2 2 = Ok [127; 255; 191; 255; 255; 191; 127; 127; 191; 0; 0; 0].
Proof. exact four_file. Qed.
Example C68_ppm_case : exists img,
  pixel_image (S754_zero false) 2 2 (fun x y => Ok (Some (two x y))) = Ok img /\
  ppm_bytes (N := F32) sf_u8 img 2 2 = Ok [127; 255; 191; 255; 255; 191; 127; 127; 191; 255; 127; 191].
Proof. exact two_file. Qed.

(** C74.  The bar has [width] cells, of which the part done is filled. *)
Theorem C74_progress_bar : forall tick total width,
  0 <= tick <= total -> 0 < total -> 0 <= width <= 16777215 -> width * tick < 18446744073709551616 ->
  progress_bar tick total width =
    Ok (repeat true (Z.to_nat (width * tick / total)) ++ repeat false (Z.to_nat (width - width * tick / total))) /\
  0 <= width * tick / total <= width.
Proof. exact progress_ok. Qed.
Print Assumptions C74_progress_bar.
Example C74_case : progress_bar 3 4 10 = Ok (repeat true 7 ++ repeat false 3).
Proof. exact bar_case. Qed.
