(** The tests of the cylinder routine in IEEE arithmetic: finite results, heights, and the discs of the caps. *)

From Coq Require Import Reals ZArith Bool Lra Lia Psatz Floats.SpecFloat.
From Flocq Require Import Core IEEE754.BinarySingleNaN.
From Verif Require Import Num NumR NumF Vec Cylinder SpecReal SpecIEEE SpecTri SpecTriF SpecTubeF PfIEEE PfIEEE2 PfIEEE3 PfTriF PfDirF PfSphF2 PfPlaneF PfTubeF PfTubeF2 PfTubeF3.
Local Open Scope R_scope.

Section F.
Variables prec emax : Z.
Context {Hprec : Prec_gt_0 prec} {Hmax : Prec_lt_emax prec emax}.
Hypothesis Hfmt : usual_format prec emax.
Notation FN := (Fnum prec emax).
Notation isf := (isF prec emax).
Notation rd := (rnd prec emax).
Notation u := (ulpf prec).
Notation low0 := (least emax).
Notation hi0 := (top emax).
Notation q := (/ 1000000).
Notation fin := is_finite_SF.

(** ** Finite results *)
Lemma leb_fin x y z a b : isf x a -> isf z b -> @nleb _ FN x y = true -> @nleb _ FN y z = true -> fin y = true.
Proof.
  intros (_ & Fx & _) (_ & Fz & _) H1 H2. destruct y as [s|s| |s m e]; try reflexivity.
  - destruct s; [destruct x as [|s'| |s' ? ?]; try discriminate Fx; try (destruct s'); discriminate H1|].
    destruct z as [|s'| |s' ? ?]; try discriminate Fz; try (destruct s'); discriminate H2.
  - destruct x; discriminate H1.
Qed.
Lemma mul_fin_lr x y : fin (@nmul _ FN x y) = true -> fin x = true /\ fin y = true.
Proof. cbn [nmul Fnum]. intros H. destruct x; destruct y; try discriminate H; split; reflexivity. Qed.
Lemma add_fin_lr x y : fin (@nadd _ FN x y) = true -> fin x = true /\ fin y = true.
Proof. cbn [nadd Fnum]. intros H. destruct x as [s|s| |s m e]; destruct y as [s'|s'| |s' m' e']; try discriminate H; try (split; reflexivity). destruct s, s'; discriminate H. Qed.
(** Any result: a number, an infinity, or none. *)
Definition some_F (x : spec_float) : Prop := x = S754_nan \/ (exists s, x = S754_infinity s) \/ exists a, isf x a.
Definition nonneg_F (x : spec_float) : Prop := x = S754_nan \/ x = S754_infinity false \/ exists a, isf x a /\ 0 <= a.
Lemma some_sum x y a : isf x a -> (fin y = true -> exists b, isf y b) -> some_F (@nadd _ FN x y).
Proof.
  intros Hx Hy. destruct (fin (@nadd _ FN x y)) eqn:F.
  - right. right. destruct (Hy (add_fin_r prec emax _ _ _ Hx F)) as (b & Hb). eexists. apply (add_fin prec emax _ _ _ _ Hx Hb F).
  - destruct (@nadd _ FN x y) as [s|s| |s m e]; try discriminate F; [right; left; eauto|left; reflexivity].
Qed.
Lemma finite_sign m e (s : bool) a : isf (S754_finite s m e) a -> if s then a < 0 else 0 < a.
Proof. intros (_ & _ & <-). cbn. destruct s; [apply F2R_lt_0; reflexivity|apply F2R_gt_0; reflexivity]. Qed.
Lemma square_nonneg B bb x : isf B bb -> 0 < bb -> some_F x -> nonneg_F (@nmul _ FN (@nmul _ FN B x) x).
Proof.
  intros HB PB [->|[(s & ->)|(a & Hx)]].
  - left. cbn [nmul Fnum]. destruct (SFmul prec emax B S754_nan) as [?|?| |? ? ?]; reflexivity.
  - right. left. destruct B as [sB|sB| |sB m e].
    + destruct HB as (_ & _ & E). cbn in E. lra.
    + destruct HB as (_ & F & _). discriminate F.
    + destruct HB as (_ & F & _). discriminate F.
    + pose proof (finite_sign _ _ _ _ HB) as S. destruct sB; [lra|]. cbn. destruct s; reflexivity.
  - destruct (Rlt_le_dec (Rabs (rd (bb * a))) hi0) as [L|L].
    + pose proof (isF_mul prec emax _ _ _ _ HB Hx L) as H1.
      assert (P : 0 <= rd (bb * a) * a).
      { destruct (Rle_lt_dec 0 a) as [Q|Q].
        - apply Rmult_le_pos; [|exact Q]. apply (rd_pos prec emax). apply Rmult_le_pos; lra.
        - assert (rd (bb * a) <= 0) by (apply (rd_neg prec emax); nra). nra. }
      destruct (Rlt_le_dec (Rabs (rd (rd (bb * a) * a))) hi0) as [L'|L'].
      * right. right. exists (rd (rd (bb * a) * a)). split; [apply (isF_mul prec emax); assumption|]. apply (rd_pos prec emax), P.
      * destruct (isF_mul_over prec emax _ _ _ _ H1 Hx L') as (s & E & Si). right. left. rewrite E. destruct s; [|reflexivity]. assert (rd (bb * a) * a < 0) by (apply Si; reflexivity). lra.
    + destruct (isF_mul_over prec emax _ _ _ _ HB Hx L) as (s & E & Si). rewrite E. destruct x as [sx|sx| |sx m e].
      * destruct Hx as (_ & _ & Z). cbn in Z. subst a. rewrite Rmult_0_r, (rd_0 prec emax), Rabs_R0 in L. pose proof (hi0_big prec emax). assert (0 < hi0) by (apply bpow_gt_0). lra.
      * destruct Hx as (_ & F & _). discriminate F.
      * destruct Hx as (_ & F & _). discriminate F.
      * pose proof (finite_sign _ _ _ _ Hx) as S. right. left. cbn. f_equal. destruct s, sx; try reflexivity; exfalso.
        -- assert (bb * a < 0) by (apply Si; reflexivity). nra.
        -- assert (false = true) by (apply Si; nra). discriminate.
Qed.
Lemma nonneg_sum x y : nonneg_F x -> nonneg_F y -> nonneg_F (@nadd _ FN x y).
Proof.
  intros [->|[->|(a & Hx & Pa)]] Hy.
  - left. reflexivity.
  - destruct Hy as [->|[->|(b & Hy & Pb)]]; [left; reflexivity|right; left; reflexivity|]. right. left. destruct Hy as (_ & F & _). destruct y; try discriminate F; reflexivity.
  - destruct Hy as [->|[->|(b & Hy & Pb)]].
    + left. destruct x; reflexivity.
    + right. left. destruct Hx as (_ & F & _). destruct x; try discriminate F; reflexivity.
    + destruct (Rlt_le_dec (Rabs (rd (a + b))) hi0) as [L|L].
      * right. right. exists (rd (a + b)). split; [apply (isF_add prec emax); assumption|]. apply (rd_pos prec emax). lra.
      * right. left. apply (isF_B prec emax) in Hx as (bx & -> & Fx & <-). apply (isF_B prec emax) in Hy as (by_ & -> & Fy & <-).
        cbn [nadd Fnum]. rewrite (add_eq prec emax). pose proof (Bplus_correct prec emax _ _ mode_NE bx by_ Fx Fy) as C.
        rewrite Rlt_bool_false in C by exact L. destruct C as [C Sg]. rewrite C.
        destruct (Bsign bx) eqn:Sx; [exfalso|reflexivity].
        assert (N : forall z : binary_float prec emax, Bsign z = true -> is_finite z = true -> B2R z <= 0).
        { intros z Sz Fz. destruct z as [s|s| |s m e]; try discriminate Fz; cbn in Sz; subst s; cbn; [lra|]. apply Rlt_le, F2R_lt_0. reflexivity. }
        pose proof (N _ Sx Fx). pose proof (N by_ (eq_sym Sg) Fy). replace (B2R bx + B2R by_) with 0 in L by lra.
        rewrite (rd_0 prec emax), Rabs_R0 in L. assert (0 < hi0) by (apply bpow_gt_0). lra.
Qed.
Lemma nonneg_leb_fin x z b : nonneg_F x -> isf z b -> @nleb _ FN x z = true -> fin x = true.
Proof.
  intros [->|[->|(a & (_ & F & _) & _)]] (_ & Fz & _) H; [discriminate H| |exact F]. destruct z as [|s'| |s' ? ?]; try discriminate Fz; try (destruct s'); discriminate H.
Qed.
End F.
