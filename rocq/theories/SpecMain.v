(** Files that programs write. *)

From Coq Require Import Reals ZArith List Bool.
From Verif Require Import NumX Vec SpecReal SpecTri SpecImage SpecCamera SpecObj SpecObjMesh SpecRender.
Import ListNotations.
Local Open Scope Z_scope.

(** [l] are the ASCII codes of the decimal digits of [n], without leading zeroes. *)
Definition ascii_digit (c : Z) : Prop := 48 <= c <= 57.
Definition digits_value (l : list Z) : Z := fold_left (fun a c => 10 * a + (c - 48)) l 0.
Definition decimal_of (n : Z) (l : list Z) : Prop :=
  l <> [] /\ Forall ascii_digit l /\ digits_value l = n /\ (forall c l', l = c :: l' -> l' <> [] -> c <> 48).

(** A binary PPM file of depth 255: "P6", width, height, 255, separated by blanks, a line feed, and
    three bytes for each pixel, row by row from the top. *)
Definition ppm_file (width height : Z) (file : list Z) (colour : Z -> Z -> vec Z) : Prop :=
  exists w h bytes, decimal_of width w /\ decimal_of height h /\
    file = [80; 54; 32] ++ w ++ [32] ++ h ++ [32; 50; 53; 53; 10] ++ bytes /\ picture width height bytes colour.

Local Open Scope R_scope.
(** The byte for the value [a]: 255 [a] cut to the range and rounded down. *)
Definition byteR (a : R) : Z := Z.max 0 (Z.min 255 (Int_part (255 * a))).

(** Colour of a pixel as in [file_shaded], as bytes. *)
Definition file_shown (tol : R) (tris : list tri) (Q : Z -> vec R) (faces : list (vec nat)) (P : nat -> vec R)
    (O U : vec R) (far : xr) (b : vec Z) : Prop :=
  (b = V 0%Z 0%Z 0%Z /\ forall i t, ~ obj_cross tris Q O U 0 far i t) \/
  (exists i t u v, obj_hit tol tris Q O U 0 far i t /\ (forall j s, obj_cross tris Q O U 0 far j s -> t <= s) /\
     at_t O U t = bary (fa faces P i) (fb faces P i) (fc faces P i) u v /\
     b = vmap byteR (rv_abs (unit_of (mixed_normal P faces i u v)))).

(** No face is degenerate, and vertex normals do not cancel where a line of sight from [O] ends. *)
Definition shadable (tol : R) (tris : list tri) (Q : Z -> vec R) (faces : list (vec nat)) (P : nat -> vec R) (O : vec R) (far : xr) : Prop :=
  proper P faces /\ forall U i t u v, rv_norm U = 1 -> obj_hit tol tris Q O U 0 far i t ->
    at_t O U t = bary (fa faces P i) (fb faces P i) (fc faces P i) u v -> mixed_normal P faces i u v <> rv_zero.

(** Truncation of a number to an unsigned char; None where it does not fit. *)
Definition real_u8 (x : xr) : option Z :=
  match x with
  | Xf _ a => let z := (if Rle_dec 0 a then Int_part a else - Int_part (- a))%Z in
              if (0 <=? z)%Z && (z <=? 255)%Z then Some z else None
  | _ => None
  end.
