(** Real-number instance, used as a proof device.

    [big], [tiny], [eps] stand for numeric_limits<T>::max/min/epsilon.  Division
    is Coq's total division: every statement that uses this instance carries
    explicit nonzero-divisor hypotheses. *)

From Coq Require Import Reals ZArith Bool.
From Verif Require Import Num.
Local Open Scope R_scope.

Definition Rltb (a b : R) : bool := if Rlt_dec a b then true else false.
Definition Rleb (a b : R) : bool := if Rle_dec a b then true else false.
Definition Reqb (a b : R) : bool := if Req_EM_T a b then true else false.

Lemma Rltb_spec a b : Rltb a b = true <-> a < b.
Proof. unfold Rltb; destruct (Rlt_dec a b); split; intros; auto; discriminate. Qed.
Lemma Rltb_false a b : Rltb a b = false <-> b <= a.
Proof.
  unfold Rltb; destruct (Rlt_dec a b) as [H|H]; split; intros Hx; auto.
  - discriminate.
  - exfalso; apply (Rlt_not_le _ _ H Hx).
  - apply Rnot_lt_le; exact H.
Qed.
Lemma Rleb_spec a b : Rleb a b = true <-> a <= b.
Proof. unfold Rleb; destruct (Rle_dec a b); split; intros; auto; discriminate. Qed.
Lemma Rleb_false a b : Rleb a b = false <-> b < a.
Proof.
  unfold Rleb; destruct (Rle_dec a b) as [H|H]; split; intros Hx; auto.
  - discriminate.
  - exfalso; apply (Rle_not_lt _ _ H Hx).
  - apply Rnot_le_lt; exact H.
Qed.
Lemma Reqb_spec a b : Reqb a b = true <-> a = b.
Proof. unfold Reqb; destruct (Req_EM_T a b); split; intros; auto; discriminate. Qed.
Lemma Reqb_false a b : Reqb a b = false <-> a <> b.
Proof. unfold Reqb; destruct (Req_EM_T a b); split; intros; auto; try discriminate; congruence. Qed.

(** std::round: nearest integer, halves away from zero. *)
Definition Rround (x : R) : Z :=
  if Rle_dec 0 x then Int_part (x + / 2) else (- Int_part (- x + / 2))%Z.

(** unsigned(z) is defined exactly for 0 <= z < 2^32 (the rounded value is an
    integer, so truncation does not matter). *)
Definition u32_of_Z (z : Z) : option Z :=
  if ((0 <=? z) && (z <? 4294967296))%Z then Some z else None.

Definition Rpsign (x y : R) : R := if Rlt_dec y 0 then - x else x.

Definition Rnum (big tiny eps : R) : num R := {|
  nadd := Rplus; nsub := Rminus; nmul := Rmult; ndiv := Rdiv;
  nopp := Ropp; nabs := Rabs; nsqrt := sqrt;
  nltb := Rltb; nleb := Rleb; neqb := Reqb;
  nofZ := IZR; nmaxv := big; ntiny := tiny; neps := eps;
  npsign := Rpsign;
  nround_u := fun x => u32_of_Z (Rround x) |}.
