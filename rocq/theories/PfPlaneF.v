(** Finite results in IEEE arithmetic; what the plane routine tests. *)

From Coq Require Import Reals ZArith Bool Lra Lia Floats.SpecFloat.
From Flocq Require Import Core IEEE754.BinarySingleNaN.
From Verif Require Import Num NumR NumF Vec Ray Plane SpecReal SpecIEEE SpecTriF PfIEEE PfIEEE2 PfIEEE3 PfTriF PfDirF PfX.
Local Open Scope R_scope.

Section F.
Variables prec emax : Z.
Context {Hprec : Prec_gt_0 prec} {Hmax : Prec_lt_emax prec emax}.
Notation FN := (Fnum prec emax).
Notation isf := (isF prec emax).
Notation rd := (rnd prec emax).
Notation fin := is_finite_SF.

(** A finite sum, product or quotient has the rounded value. *)
Lemma add_fin x y a b : isf x a -> isf y b -> fin (@nadd _ FN x y) = true -> isf (@nadd _ FN x y) (rd (a + b)).
Proof.
  intros Hx Hy Hf. destruct (Rlt_le_dec (Rabs (rd (a + b))) (top emax)) as [L|L]; [apply (isF_add prec emax); assumption|exfalso].
  apply (isF_B prec emax) in Hx as (bx & -> & Fx & <-). apply (isF_B prec emax) in Hy as (by_ & -> & Fy & <-).
  cbn [nadd Fnum] in Hf. rewrite (add_eq prec emax) in Hf. pose proof (Bplus_correct prec emax _ _ mode_NE bx by_ Fx Fy) as C.
  rewrite Rlt_bool_false in C by exact L. destruct C as [C _]. rewrite C in Hf. discriminate Hf.
Qed.
Lemma mul_fin x y a b : isf x a -> isf y b -> fin (@nmul _ FN x y) = true -> isf (@nmul _ FN x y) (rd (a * b)).
Proof.
  intros Hx Hy Hf. destruct (Rlt_le_dec (Rabs (rd (a * b))) (top emax)) as [L|L]; [apply (isF_mul prec emax); assumption|exfalso].
  destruct (isF_mul_over prec emax _ _ _ _ Hx Hy L) as (s & E & _). rewrite E in Hf. discriminate Hf.
Qed.
Lemma div_fin x y a b : isf x a -> isf y b -> fin (@ndiv _ FN x y) = true -> b <> 0 /\ isf (@ndiv _ FN x y) (rd (a / b)).
Proof.
  intros Hx Hy Hf. destruct (Req_EM_T b 0) as [->|Hb].
  - exfalso. destruct Hy as (_ & Fy & Ey), Hx as (_ & Fx & _).
    assert (Zy : exists s, y = S754_zero s).
    { destruct y as [s|s| |s m e]; try discriminate Fy; [eauto|]. exfalso. cbn in Ey. revert Ey.
      destruct s; [apply Rlt_not_eq, F2R_lt_0; reflexivity|apply Rgt_not_eq, F2R_gt_0; reflexivity]. }
    destruct Zy as (s & ->). cbn [ndiv Fnum] in Hf. destruct x; try discriminate Fx; discriminate Hf.
  - split; [exact Hb|]. destruct (Rlt_le_dec (Rabs (rd (a / b))) (top emax)) as [L|L]; [apply (isF_div prec emax); assumption|exfalso].
    apply (isF_B prec emax) in Hx as (bx & -> & Fx & <-). apply (isF_B prec emax) in Hy as (by_ & -> & Fy & <-).
    cbn [ndiv Fnum] in Hf. rewrite (div_eq prec emax) in Hf. pose proof (Bdiv_correct prec emax _ _ mode_NE bx by_ Hb) as C.
    rewrite Rlt_bool_false in C by exact L. rewrite C in Hf. destruct (xorb (Bsign bx) (Bsign by_)); discriminate Hf.
Qed.
(** Operands of a finite sum that are not numbers. *)
Lemma add_fin_r x y a : isf x a -> fin (@nadd _ FN x y) = true -> fin y = true.
Proof.
  intros (_ & Fx & _) Hf. destruct y as [s|s| |s m e]; try reflexivity; cbn [nadd Fnum] in Hf; destruct x; try discriminate Fx; discriminate Hf.
Qed.
(** What lies between finite numbers is finite. *)
Lemma between_fin x y z a : isf x a -> @nltb _ FN x y = true -> @nltb _ FN y z = true -> fin y = true.
Proof.
  intros (_ & Fx & _) H1 H2. destruct y as [s|s| |s m e]; try reflexivity.
  - destruct s; [destruct x as [|s'| |s' ? ?]; try discriminate Fx; try (destruct s'); discriminate H1|].
    destruct z as [|s'| |s' ? ?]; try (destruct s'); discriminate H2.
  - destruct x; discriminate H1.
Qed.
Lemma eqb_fin x y a : isf x a -> @neqb _ FN y x = true -> fin y = true.
Proof.
  intros (_ & Fx & _) H. destruct y as [s|[|]| |s m e]; try reflexivity; destruct x as [|s'| |s' ? ?]; try discriminate Fx; discriminate H.
Qed.
Lemma isF_eqb x y a b : isf x a -> isf y b -> @neqb _ FN x y = true -> a = b.
Proof.
  intros Hx Hy H. apply (isF_B prec emax) in Hx as (bx & -> & Fx & <-). apply (isF_B prec emax) in Hy as (by_ & -> & Fy & <-).
  cbn [neqb Fnum] in H. pose proof (Beqb_correct prec emax bx by_ Fx Fy) as C. unfold Beqb in C. unfold SFeqb in H. unfold SpecFloat.SFeqb in C. rewrite C in H.
  revert H. case Req_bool_spec; [auto|discriminate].
Qed.
End F.
