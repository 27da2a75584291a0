(** Ideal IEEE arithmetic: real numbers with infinities, NaN and signed zeros.

    This is IEEE 754 arithmetic with the rounding function replaced by the
    identity, hence also without overflow.  Division by zero, operations on
    infinities and comparisons with NaN behave as in the standard.  In [Xf s r]
    the value is [r]; the bit [s] is the sign of zero and is significant only if
    [r = 0]. *)

From Coq Require Import Reals ZArith Bool.
From Verif Require Import Num NumR.
Local Open Scope R_scope.

Inductive xr :=
| Xnan
| Xinf (s : bool)            (* true: negative *)
| Xf (s : bool) (r : R).

(** Sign bit. *)
Definition xsign (x : xr) : bool :=
  match x with
  | Xnan => false
  | Xinf s => s
  | Xf s r => if Rlt_dec r 0 then true else if Rlt_dec 0 r then false else s
  end.

Definition xopp (x : xr) : xr :=
  match x with Xnan => Xnan | Xinf s => Xinf (negb s) | Xf s r => Xf (negb s) (- r) end.

Definition xabs (x : xr) : xr :=
  match x with Xnan => Xnan | Xinf _ => Xinf false | Xf _ r => Xf false (Rabs r) end.

Definition xadd (x y : xr) : xr :=
  match x, y with
  | Xnan, _ | _, Xnan => Xnan
  | Xinf s, Xinf s' => if Bool.eqb s s' then Xinf s else Xnan
  | Xinf s, Xf _ _ => Xinf s
  | Xf _ _, Xinf s => Xinf s
  | Xf _ a, Xf _ b => Xf (xsign x && xsign y) (a + b)
  end.

Definition xsub (x y : xr) : xr := xadd x (xopp y).

Definition xmul (x y : xr) : xr :=
  let s := xorb (xsign x) (xsign y) in
  match x, y with
  | Xnan, _ | _, Xnan => Xnan
  | Xinf _, Xinf _ => Xinf s
  | Xinf _, Xf _ b => if Req_EM_T b 0 then Xnan else Xinf s
  | Xf _ a, Xinf _ => if Req_EM_T a 0 then Xnan else Xinf s
  | Xf _ a, Xf _ b => Xf s (a * b)
  end.

Definition xdiv (x y : xr) : xr :=
  let s := xorb (xsign x) (xsign y) in
  match x, y with
  | Xnan, _ | _, Xnan => Xnan
  | Xinf _, Xinf _ => Xnan
  | Xinf _, Xf _ _ => Xinf s
  | Xf _ _, Xinf _ => Xf s 0
  | Xf _ a, Xf _ b =>
      if Req_EM_T b 0 then (if Req_EM_T a 0 then Xnan else Xinf s) else Xf s (a / b)
  end.

Definition xsqrt (x : xr) : xr :=
  match x with
  | Xnan => Xnan
  | Xinf s => if s then Xnan else Xinf false
  | Xf s r => if Rlt_dec r 0 then Xnan else Xf s (sqrt r)
  end.

Definition xltb (x y : xr) : bool :=
  match x, y with
  | Xnan, _ | _, Xnan => false
  | Xinf s, Xinf s' => s && negb s'
  | Xinf s, Xf _ _ => s
  | Xf _ _, Xinf s => negb s
  | Xf _ a, Xf _ b => Rltb a b
  end.

Definition xleb (x y : xr) : bool :=
  match x, y with
  | Xnan, _ | _, Xnan => false
  | Xinf s, Xinf s' => s || negb s'
  | Xinf s, Xf _ _ => s
  | Xf _ _, Xinf s => negb s
  | Xf _ a, Xf _ b => Rleb a b
  end.

Definition xeqb (x y : xr) : bool :=
  match x, y with
  | Xnan, _ | _, Xnan => false
  | Xinf s, Xinf s' => Bool.eqb s s'
  | Xinf _, Xf _ _ | Xf _ _, Xinf _ => false
  | Xf _ a, Xf _ b => Reqb a b
  end.

Definition xpsign (x y : xr) : xr := if xsign y then xopp x else x.

Definition xround_u (x : xr) : option Z :=
  match x with Xf _ r => u32_of_Z (Rround r) | _ => None end.

(** [Fin r]: the real number [r] as a scalar (positive zero if [r = 0]). *)
Definition Fin (r : R) : xr := Xf false r.

Definition Xnum (big tiny eps : R) : num xr := {|
  nadd := xadd; nsub := xsub; nmul := xmul; ndiv := xdiv;
  nopp := xopp; nabs := xabs; nsqrt := xsqrt;
  nltb := xltb; nleb := xleb; neqb := xeqb;
  nofZ := fun z => Fin (IZR z);
  nmaxv := Fin big; ntiny := Fin tiny; neps := Fin eps;
  npsign := xpsign;
  nround_u := xround_u |}.
