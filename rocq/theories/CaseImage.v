(** From pixel colours to bytes; concrete images. *)

From Coq Require Import Reals ZArith List Bool Lia Lra Floats.SpecFloat.
From Flocq Require Import Core IEEE754.BinarySingleNaN.
From Verif Require Import Num NumF Vec Datatypes PathTracer Image SpecReal SpecIEEE SpecImage PfImage PfImage2 PfImage3.
Import ListNotations.
Local Open Scope Z_scope.

Definition valid_colour (prec emax : Z) (c : vec spec_float) : Prop :=
  valid_binary prec emax (vx c) = true /\ valid_binary prec emax (vy c) = true /\ valid_binary prec emax (vz c) = true.

Lemma png_file prec emax (Hprec : Prec_gt_0 prec) (Hmax : Prec_lt_emax prec emax) (black : spec_float) width height f c ps :
  8 <= prec -> 0 <= width -> 0 <= height -> 3 * width * height < 4294967296 -> covers width height ps ->
  (forall x y, 0 <= x < width -> 0 <= y < height -> f x y = Ok (c x y)) ->
  (forall x y, 0 <= x < width -> 0 <= y < height -> valid_colour prec emax (or_black black (c x y))) ->
  exists img bytes, rgb_image black width height f ps = Ok img /\
    png_bytes (N := Fnum prec emax) sf_u8 img width height = Ok bytes /\
    picture width height bytes (fun x r => bytes_of prec emax (or_black black (c x (height - 1 - r)))).
Proof.
  intros Hp Hw Hh Hs Hc Hf Hv. destruct (rgb_image_ok _ black width height f c ps Hw Hh Hs Hc Hf) as (img & Ei & Pi).
  destruct (png_bytes_ok prec emax Hp img width height _ Hs Pi) as (bytes & Eb & Pb); try assumption.
  - intros x r Hx Hr. apply Hv; lia.
  - exists img, bytes. auto.
Qed.

Lemma ppm_file prec emax (Hprec : Prec_gt_0 prec) (Hmax : Prec_lt_emax prec emax) (black : spec_float) width height f c :
  8 <= prec -> 0 <= width -> 0 <= height -> 3 * width * height < 18446744073709551616 ->
  (forall x y, 0 <= x < width -> 0 <= y < height -> f x y = Ok (Some (c x y))) ->
  (forall x y, 0 <= x < width -> 0 <= y < height -> valid_colour prec emax (c x y)) ->
  (forall x y, 0 <= x < width -> 0 <= y < height ->
     vx (c x y) <> S754_nan /\ vy (c x y) <> S754_nan /\ vz (c x y) <> S754_nan) ->
  exists img bytes, pixel_image black width height f = Ok img /\
    ppm_bytes (N := Fnum prec emax) sf_u8 img width height = Ok bytes /\
    picture width height bytes (fun x r => bytes_of prec emax (c x (height - 1 - r))).
Proof.
  intros Hp Hw Hh Hs Hf Hv Hn. destruct (pixel_image_ok _ black width height f c Hw Hh Hs Hf) as (img & Ei & Pi).
  destruct (ppm_bytes_ok prec emax Hp img width height _ Hs Pi) as (bytes & Eb & Pb); try assumption.
  - exists img, bytes. auto.
Qed.

(** Two by two pixels; the one at (1, 0) is not stored. *)
Definition four (x y : Z) : option (vec spec_float) :=
  if (x =? 1) && (y =? 0) then None else Some (V (f32 (x + 1) (-1)) (f32 (y + 1) (-1)) (f32 3 (-2))).
Lemma four_file : exists img,
  rgb_image (S754_zero false) 2 2 (fun x y => Ok (four x y)) (by_columns 2 2) = Ok img /\
  png_bytes (N := F32) sf_u8 img 2 2 = Ok [127; 255; 191; 255; 255; 191; 127; 127; 191; 0; 0; 0].
Proof. eexists. split; [vm_compute; reflexivity|]. vm_compute. reflexivity. Qed.
Lemma four_ok : covers 2 2 (by_columns 2 2) /\
  forall x y, 0 <= x < 2 -> 0 <= y < 2 -> valid_colour 24 128 (or_black (S754_zero false) (four x y)).
Proof.
  split; [apply by_columns_covers|]. intros x y Hx Hy.
  assert (x = 0 \/ x = 1) as [-> | ->] by lia; assert (y = 0 \/ y = 1) as [-> | ->] by lia; vm_compute; auto.
Qed.
Definition two (x y : Z) : vec spec_float := V (f32 (x + 1) (-1)) (f32 (y + 1) (-1)) (f32 3 (-2)).
Lemma two_file : exists img,
  pixel_image (S754_zero false) 2 2 (fun x y => Ok (Some (two x y))) = Ok img /\
  ppm_bytes (N := F32) sf_u8 img 2 2 = Ok [127; 255; 191; 255; 255; 191; 127; 127; 191; 255; 127; 191].
Proof. eexists. split; [vm_compute; reflexivity|]. vm_compute. reflexivity. Qed.

Lemma bar_case : progress_bar 3 4 10 = Ok (repeat true 7 ++ repeat false 3).
Proof. vm_compute. reflexivity. Qed.
(** Without a total the division is undefined; past the end too. *)
Lemma bar_undefined : exists tick total width w, 0 <= tick /\ 0 <= width /\ progress_bar tick total width = UB w /\ (total = 0 \/ total < tick).
Proof. exists 5, 4, 10. eexists. split; [lia|]. split; [lia|]. split; [vm_compute; reflexivity|]. right. lia. Qed.
