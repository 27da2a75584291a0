(** C81: numbers of OBJ files in double and float. *)

From Coq Require Import Reals ZArith Strings.String List Floats.SpecFloat.
From Flocq Require Import Core.
From Verif Require Import Num NumF Vec TinyObj ObjText SpecIEEE SpecText SpecTextF PfText PfText6 CaseTextF.
Import ListNotations.
Local Open Scope string_scope.
Local Open Scope R_scope.

(** C81.  A number is read up to a relative error of two roundings a digit. *)
Theorem C81_double : forall pow_ ldexp_, pow_near pow_ -> ldexp_right ldexp_ ->
  forall n, decimal_ok n -> usual n ->
  exists x, @tryParseDouble _ F64 pow_ ldexp_ (decimal_text n) = Ok (Some x) /\ within (roundings n) x (decimal_value n).
Proof. exact number_accurate. Qed.
Print Assumptions C81_double.
Theorem C81_float : forall pow_ ldexp_ to_float, pow_near pow_ -> ldexp_right ldexp_ -> float_right to_float ->
  forall b n t, blank b -> decimal_ok n -> tail t -> usual n ->
  decimal_value n = 0 \/ bpow radix2 (-125) <= Rabs (decimal_value n) <= bpow radix2 126 ->
  exists x, @parseFloat _ F64 pow_ ldexp_ to_float (b ++ decimal_text n ++ t) = Ok (x, t) /\
    within_float (roundings n) x (decimal_value n).
Proof. exact number_float_accurate. Qed.
Print Assumptions C81_float.
(** The coordinates of a vertex. *)
Theorem C81_vertex : forall pow_ ldexp_ to_float, pow_near pow_ -> ldexp_right ldexp_ -> float_right to_float ->
  forall materials p a b c x y z t, blank p -> gap a -> gap b -> gap c -> tail t ->
  decimal_ok x -> decimal_ok y -> decimal_ok z -> usual x -> usual y -> usual z ->
  (forall n, In n [x; y; z] -> decimal_value n = 0 \/ bpow radix2 (-125) <= Rabs (decimal_value n) <= bpow radix2 126) ->
  exists fx fy fz,
    @parse_line _ F64 pow_ ldexp_ to_float materials
      (p ++ "v" ++ a ++ decimal_text x ++ b ++ decimal_text y ++ c ++ decimal_text z ++ t) = Ok (OVertex fx fy fz) /\
    within_float (roundings x) fx (decimal_value x) /\ within_float (roundings y) fy (decimal_value y) /\
    within_float (roundings z) fz (decimal_value z).
Proof. exact vertex_accurate. Qed.
Print Assumptions C81_vertex.
(** Integers are exact as long as the format holds them. *)
Theorem C81_integer : forall pow_ ldexp_, pow_near pow_ -> ldexp_right ldexp_ ->
  forall n, decimal_ok n -> frac_digits n = [] -> exponent n = 0%Z -> (natural (i_digits (d_whole n)) < 2 ^ 53)%Z ->
  exists x, @tryParseDouble _ F64 pow_ ldexp_ (decimal_text n) = Ok (Some x) /\ isF 53 1024 x (decimal_value n).
Proof. exact integer_exact. Qed.
Print Assumptions C81_integer.
Theorem C81_integer_float : forall pow_ ldexp_ to_float, pow_near pow_ -> ldexp_right ldexp_ -> float_right to_float ->
  forall b n t, blank b -> decimal_ok n -> tail t -> frac_digits n = [] -> exponent n = 0%Z ->
  (natural (i_digits (d_whole n)) < 2 ^ 24)%Z ->
  exists x, @parseFloat _ F64 pow_ ldexp_ to_float (b ++ decimal_text n ++ t) = Ok (x, t) /\ isF 53 1024 x (decimal_value n).
Proof. exact integer_float_exact. Qed.
Print Assumptions C81_integer_float.
(** Other numbers are not always read as the nearest double, even if pow is right: "0.3". *)
Theorem C81_nearest_refuted : forall pow_ ldexp_,
  pow_ 10%Z (-1)%Z = nearest_tenth -> pow_ 5%Z 0%Z = f64 1 0 -> (forall x, ldexp_ x 0%Z = x) ->
  exists x a, @tryParseDouble _ F64 pow_ ldexp_ (decimal_text three_tenths) = Ok (Some x) /\ isF 53 1024 x a /\
    a <> rnd 53 1024 (decimal_value three_tenths).
Proof. exact three_tenths_off. Qed.
Print Assumptions C81_nearest_refuted.
Example C81_functions_case : pow_near ieee_pow /\ ldexp_right ieee_ldexp /\ float_right ieee_float.
Proof. exact (conj pow_case (conj ldexp_case float_case)). Qed.
Example C81_number_case : decimal_text minus_16 = "-160.25e-1" /\ decimal_ok minus_16 /\ usual minus_16 /\ roundings minus_16 = 14%nat /\
  decimal_value minus_16 = (-(16025 / 1000))%R /\ bpow radix2 (-125) <= Rabs (decimal_value minus_16) <= bpow radix2 126.
Proof. exact minus_16_case. Qed.
Example C81_integer_case : decimal_text largest = "+16777215" /\ decimal_ok largest /\ frac_digits largest = [] /\ exponent largest = 0%Z /\
  (natural (i_digits (d_whole largest)) < 2 ^ 24)%Z.
Proof. exact largest_case. Qed.
Example C81_nearest_case : ieee_pow 10%Z (-1)%Z = nearest_tenth /\ ieee_pow 5%Z 0%Z = f64 1 0 /\ nearest_tenth = @ndiv _ F64 (f64 1 0) (f64 10 0).
Proof. exact three_tenths_case. Qed.
