(** C48: product_sign. *)

From Coq Require Import Reals ZArith Bool Floats.SpecFloat.
From Flocq Require Import IEEE754.Binary IEEE754.Bits.
From Verif Require Import NumF ProductSign SpecSign PfSign.
Local Open Scope Z_scope.

(** Every pair of bit patterns, NaNs included: only the top bit changes, to the
    exclusive or of the two top bits. *)
Theorem C48_bits32 : forall x y n, 0 <= x < 2 ^ 32 -> 0 <= y < 2 ^ 32 -> 0 <= n ->
  0 <= product_sign_bits32 x y < 2 ^ 32 /\
  Z.testbit (product_sign_bits32 x y) n = if n =? 31 then xorb (Z.testbit x n) (Z.testbit y n) else Z.testbit x n.
Proof. exact bits32_is. Qed.
Print Assumptions C48_bits32.

Theorem C48_bits64 : forall x y n, 0 <= x < 2 ^ 64 -> 0 <= y < 2 ^ 64 -> 0 <= n ->
  0 <= product_sign_bits64 x y < 2 ^ 64 /\
  Z.testbit (product_sign_bits64 x y) n = if n =? 63 then xorb (Z.testbit x n) (Z.testbit y n) else Z.testbit x n.
Proof. exact bits64_is. Qed.
Print Assumptions C48_bits64.

(** Every pair of IEEE values: zeros, infinities, NaNs and finite numbers. *)
Theorem C48_sign32 : forall x y : binary32,
  product_sign32 x y = with_sign (xorb (Bsign 24 128 x) (Bsign 24 128 y)) x.
Proof. exact sign32_is. Qed.
Print Assumptions C48_sign32.

Theorem C48_sign64 : forall x y : binary64,
  product_sign64 x y = with_sign (xorb (Bsign 53 1024 x) (Bsign 53 1024 y)) x.
Proof. exact sign64_is. Qed.
Print Assumptions C48_sign64.

(** The real number it stands for. *)
Theorem C48_real32 : forall x y : binary32,
  B2R 24 128 (product_sign32 x y) = (if Bsign 24 128 y then - B2R 24 128 x else B2R 24 128 x)%R.
Proof. exact sign32_real. Qed.
Print Assumptions C48_real32.

Theorem C48_real64 : forall x y : binary64,
  B2R 53 1024 (product_sign64 x y) = (if Bsign 53 1024 y then - B2R 53 1024 x else B2R 53 1024 x)%R.
Proof. exact sign64_real. Qed.
Print Assumptions C48_real64.

(** The operation [sf_psign] of the triangle model is product_sign unless the second
    argument is a NaN. *)
Theorem C48_model32 : forall x y : binary32, is_nan 24 128 y = false ->
  B2SF 24 128 (product_sign32 x y) = sf_psign (B2SF 24 128 x) (B2SF 24 128 y).
Proof. exact sign32_model. Qed.
Print Assumptions C48_model32.

Theorem C48_model64 : forall x y : binary64, is_nan 53 1024 y = false ->
  B2SF 53 1024 (product_sign64 x y) = sf_psign (B2SF 53 1024 x) (B2SF 53 1024 y).
Proof. exact sign64_model. Qed.
Print Assumptions C48_model64.

(** -0 with -inf gives +0; 1 with -0 gives -1. *)
Example C48_case : bits_of_b32 (product_sign32 (B754_zero 24 128 true) (B754_infinity 24 128 true)) = 0 /\
  product_sign_bits32 0x3f800000 0x80000000 = 0xbf800000.
Proof. exact sign_case. Qed.
Print Assumptions C48_case.
