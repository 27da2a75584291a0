(** Images as arrays. *)

From Coq Require Import Reals ZArith List Floats.SpecFloat.
From Flocq Require Import Core IEEE754.BinarySingleNaN.
From Verif Require Import Num Vec SpecReal SpecIEEE.
Import ListNotations.
Local Open Scope Z_scope.

(** Cell [n] of an image with three entries per cell. *)
Definition shows {A} (img : list A) (n : Z) (c : vec A) : Prop :=
  0 <= n /\ nth_error img (Z.to_nat (3 * n)) = Some (vx c) /\
  nth_error img (Z.to_nat (3 * n + 1)) = Some (vy c) /\ nth_error img (Z.to_nat (3 * n + 2)) = Some (vz c).

(** [ps] lists every pixel once. *)
Definition covers (width height : Z) (ps : list (Z * Z)) : Prop :=
  NoDup ps /\ forall x y, In (x, y) ps <-> 0 <= x < width /\ 0 <= y < height.

(** [img] has [width * height] cells; the cell in column [x] of row [r], counted from the
    first entry, is [c x r]. *)
Definition picture {A} (width height : Z) (img : list A) (c : Z -> Z -> vec A) : Prop :=
  Z.of_nat (length img) = 3 * width * height /\
  forall x r, 0 <= x < width -> 0 <= r < height -> shows img (r * width + x) (c x r).

Definition or_black {A} (black : A) (c : option (vec A)) : vec A :=
  match c with Some c => c | None => V black black black end.

(** The byte for [v]: 255 times the value, rounded to the format, cut to the range and
    truncated; zero for not-a-number. *)
Definition byte_of (prec emax : Z) (v : spec_float) : Z :=
  match v with
  | S754_nan => 0
  | S754_infinity s => if s then 0 else 255
  | _ => Z.max 0 (Z.min 255 (Zfloor (rnd prec emax (SF2R radix2 v * 255))))
  end.
Definition bytes_of (prec emax : Z) (c : vec spec_float) : vec Z :=
  V (byte_of prec emax (vx c)) (byte_of prec emax (vy c)) (byte_of prec emax (vz c)).
