(** IEEE 754 binary arithmetic, round to nearest even, from the standard library
    (Coq.Floats.SpecFloat).  Computable; used for concrete executions. *)

From Coq Require Import ZArith Bool Floats.SpecFloat.
From Verif Require Import Num NumR.
Local Open Scope Z_scope.

Section F.
Variables prec emax : Z.

(** product_sign, blazert/datatypes.h:79-85: xor of the sign bits.  SpecFloat's
    NaN carries no sign; a NaN second argument is taken as positive. *)
Definition sf_sign (x : spec_float) : bool :=
  match x with
  | S754_zero s | S754_infinity s | S754_finite s _ _ => s
  | S754_nan => false
  end.
Definition sf_psign (x y : spec_float) : spec_float :=
  match x with
  | S754_zero s => S754_zero (xorb s (sf_sign y))
  | S754_infinity s => S754_infinity (xorb s (sf_sign y))
  | S754_nan => S754_nan
  | S754_finite s m e => S754_finite (xorb s (sf_sign y)) m e
  end.

(** unsigned(std::round(x)): round half away from zero, then convert. *)
Definition sf_round_Z (x : spec_float) : option Z :=
  match x with
  | S754_zero _ => Some 0
  | S754_finite s m e =>
      let a := if 0 <=? e then Zpos m * 2 ^ e
               else (Zpos m + 2 ^ (- e - 1)) / 2 ^ (- e) in
      Some (if s then - a else a)
  | _ => None
  end.
Definition sf_round_u (x : spec_float) : option Z :=
  match sf_round_Z x with Some z => u32_of_Z z | None => None end.

Definition sf_pow2 (k : Z) : spec_float := binary_normalize prec emax 1 k false.

Definition Fnum : num spec_float := {|
  nadd := SFadd prec emax; nsub := SFsub prec emax; nmul := SFmul prec emax;
  ndiv := SFdiv prec emax; nopp := SFopp; nabs := SFabs; nsqrt := SFsqrt prec emax;
  nltb := SFltb; nleb := SFleb; neqb := SFeqb;
  nofZ := fun z => binary_normalize prec emax z 0 false;
  nmaxv := binary_normalize prec emax (2 ^ prec - 1) (emax - prec) false;
  ntiny := sf_pow2 (3 - emax - 1);
  neps := sf_pow2 (1 - prec);
  npsign := sf_psign;
  nround_u := sf_round_u |}.
End F.

Definition F64 : num spec_float := Fnum 53 1024.
Definition F32 : num spec_float := Fnum 24 128.

(** A dyadic literal m * 2^e. *)
Definition f64 (m e : Z) : spec_float := binary_normalize 53 1024 m e false.
Definition f32 (m e : Z) : spec_float := binary_normalize 24 128 m e false.
