(** Signs of IEEE numbers. *)

From Coq Require Import Bool.
From Flocq Require Import IEEE754.Binary.

(** The number with the magnitude (or NaN payload) of [x] and sign bit [s]. *)
Definition with_sign {prec emax} (s : bool) (x : binary_float prec emax) : binary_float prec emax :=
  match x with
  | B754_zero _ _ _ => B754_zero _ _ s
  | B754_infinity _ _ _ => B754_infinity _ _ s
  | B754_nan _ _ _ pl H => B754_nan _ _ s pl H
  | B754_finite _ _ _ m e H => B754_finite _ _ s m e H
  end.
