(** Numbers of OBJ files in IEEE arithmetic: what is required of the C library, and how far
    off a number may be read. *)

From Coq Require Import Reals ZArith List Floats.SpecFloat.
From Flocq Require Import Core.
From Verif Require Import Num NumF SpecIEEE SpecText.
Local Open Scope R_scope.

(** pow is off by at most one unit in the last place on the powers of five and ten in use,
    and right for exponent zero. *)
Definition pow_near (pow_ : Z -> Z -> spec_float) : Prop :=
  isF 53 1024 (pow_ 5%Z 0%Z) 1 /\
  forall b e, b = 5%Z \/ b = 10%Z -> (Z.abs e <= 100)%Z ->
  exists p, isF 53 1024 (pow_ b e) p /\ Rabs (p - powerRZ (IZR b) e) <= bpow radix2 (-52) * powerRZ (IZR b) e.
(** ldexp is exact between the smallest normal number and overflow. *)
Definition ldexp_right (ldexp_ : spec_float -> Z -> spec_float) : Prop :=
  forall x a e, isF 53 1024 x a -> a = 0 \/ least 1024 <= Rabs (a * bpow radix2 e) < top 1024 ->
  isF 53 1024 (ldexp_ x e) (a * bpow radix2 e).
(** Conversion to float rounds to nearest even; the result is kept as a double. *)
Definition float_right (to_float : spec_float -> spec_float) : Prop :=
  forall x a, isF 53 1024 x a -> Rabs (rnd 24 128 a) < top 128 -> isF 53 1024 (to_float x) (rnd 24 128 a).

(** Numbers of usual size: up to a hundred digits on either side of the point, exponent up
    to fifty. *)
Definition usual (n : decimal) : Prop :=
  (length (i_digits (d_whole n)) <= 100)%nat /\ (length (frac_digits n) <= 100)%nat /\ (Z.abs (exponent n) <= 50)%Z.
(** How many roundings go into it. *)
Definition roundings (n : decimal) : nat := 2 * length (i_digits (d_whole n)) + length (frac_digits n) + 6.
(** [x] is [v] up to a relative error of [k] roundings to doubles. *)
Definition within (k : nat) (x : spec_float) (v : R) : Prop :=
  exists a, isF 53 1024 x a /\ Rabs (a - v) <= ((1 + bpow radix2 (-53)) ^ k - 1) * Rabs v.
(** The same with one rounding to a float. *)
Definition within_float (k : nat) (x : spec_float) (v : R) : Prop :=
  exists a, isF 53 1024 x a /\ Rabs (a - v) <= ((1 + bpow radix2 (-53)) ^ k * (1 + bpow radix2 (-24)) - 1) * Rabs v.
