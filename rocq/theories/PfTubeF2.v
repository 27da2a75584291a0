(** The roots that the cylinder routine computes. *)

From Coq Require Import Reals ZArith Bool Lra Lia Psatz Floats.SpecFloat.
From Flocq Require Import Core Relative Plus_error IEEE754.BinarySingleNaN.
From Verif Require Import Num NumR NumF Vec Cylinder SpecReal SpecIEEE SpecTri SpecTriF PfIEEE PfIEEE2 PfIEEE3 PfTriF PfDirF PfSphF2 PfPlaneF PfTubeF.
Local Open Scope R_scope.

Section F.
Variables prec emax : Z.
Context {Hprec : Prec_gt_0 prec} {Hmax : Prec_lt_emax prec emax}.
Hypothesis Hfmt : usual_format prec emax.
Notation FN := (Fnum prec emax).
Notation isf := (isF prec emax).
Notation rd := (rnd prec emax).
Notation u := (ulpf prec).
Notation low0 := (least emax).
Notation hi0 := (top emax).
Notation q := (/ 1000000).
Notation nr := (nr prec emax).
Notation mag := (mag emax).

Variables v W : R.
Hypothesis Hv : 0 < v <= 1.
Hypothesis HW : 1 <= W.
Hypothesis Hlow : low0 <= v ^ 4.
Hypothesis Htop : 64 * W ^ 4 <= hi0.

(** Products of up to four numbers in the range. *)
Definition atom (p : R) : Prop := v <= p <= W.
Lemma v_pow : v ^ 4 <= v ^ 3 /\ v ^ 3 <= v ^ 2 /\ v ^ 2 <= v /\ 0 < v ^ 4.
Proof.
  assert (P2 : 0 < v ^ 2) by (apply pow_lt; lra). assert (P3 : 0 < v ^ 3) by (apply pow_lt; lra). assert (P4 : 0 < v ^ 4) by (apply pow_lt; lra).
  cbn in *. repeat split; nra.
Qed.
Lemma W_pow : W ^ 3 <= W ^ 4 /\ W ^ 2 <= W ^ 3 /\ W <= W ^ 2 /\ 1 <= W ^ 4.
Proof.
  pose proof (pow_R1_Rle W 2 HW). pose proof (pow_R1_Rle W 3 HW). pose proof (pow_R1_Rle W 4 HW). cbn in *. repeat split; nra.
Qed.
Lemma atom_pos p : atom p -> 0 < p. Proof. intros [H _]. lra. Qed.
Definition size (n : nat) (p : R) : Prop := v ^ n <= p <= W ^ n.
Lemma size1 p : atom p -> size 1 p. Proof. intros [H1 H2]. split; cbn; lra. Qed.
Lemma size_mul n p r : size n p -> atom r -> size (S n) (p * r).
Proof.
  intros [H1 H2] [H3 H4]. pose proof (pow_lt v n ltac:(lra)) as P. split; cbn [pow]; rewrite (Rmult_comm _ (_ ^ n)); apply Rmult_le_compat; lra.
Qed.
Lemma size_mag n p c : (n <= 4)%nat -> size n p -> 1 <= c <= 16 -> mag (c * p).
Proof.
  intros Hn [H1 H2] Hc. destruct v_pow as (V1 & V2 & V3 & V4). destruct W_pow as (W1 & W2 & W3 & W4).
  assert (A : v ^ 4 <= v ^ n /\ W ^ n <= W ^ 4).
  { destruct n as [|[|[|[|[|n]]]]]; [| | | | |lia]; cbn in *; lra. }
  assert (0 < p) by lra. split; [nra|]. apply Rle_trans with (16 * W ^ 4); [nra|lra].
Qed.
Lemma mag1 n p : (n <= 4)%nat -> size n p -> mag p.
Proof. intros Hn H. rewrite <- (Rmult_1_l p). apply (size_mag n); [exact Hn|exact H|lra]. Qed.

Lemma nr2 x y s t X Y n m k : (n <= 4)%nat -> size n (X * Y) -> 0 <= m -> 0 <= k -> m + k <= 100 -> nr m X x s -> nr k Y y t -> nr (m + k + 1.01) (X * Y) (@nmul _ FN x y) (s * t).
Proof.
  intros Hn Hs H1 H2 H3 Hx Hy. assert ((m + k) * (m + k) <= 100 * 100) by (apply Rmult_le_compat; lra). pose proof (Rle_0_sqr (m - k)) as Sq. unfold Rsqr in Sq. assert (0 <= m * k) by (apply Rmult_le_pos; assumption). apply (nr_mul prec emax Hfmt m k); try assumption; try (eapply mag1; eassumption); lra.
Qed.

Variables (fa fb fx fy fj fk : spec_float) (a b x0 y0 j k R s : R).
Hypothesis Ha : isf fa a. Hypothesis Hb : isf fb b.
Hypothesis Hx : isf fx x0. Hypothesis Hy : isf fy y0.
Hypothesis Hj : isf fj j. Hypothesis Hk : isf fk k.
Hypothesis HR : 1 <= R.
Hypothesis Aa : atom a. Hypothesis Ab : atom b.
Hypothesis AX : atom (a * R). Hypothesis AY : atom (b * R).
Hypothesis AJ : atom (a * s). Hypothesis AK : atom (b * s).
Hypothesis Hs : 0 < s.
Hypothesis Hss : (j / a) * (j / a) + (k / b) * (k / b) = s * s.
Hypothesis Hor : (x0 / a) * (x0 / a) + (y0 / b) * (y0 / b) <= R * R.
Hypothesis Hu : 4096 * u * (R * R) <= 1.

Lemma a0 : 0 < a. Proof. apply atom_pos, Aa. Qed.
Lemma b0 : 0 < b. Proof. apply atom_pos, Ab. Qed.
Lemma scaled_le z c d m : 0 < c -> (z / c) * (z / c) + d * d <= m * m -> 0 <= m -> Rabs z <= c * m.
Proof.
  intros Hc H Hm. assert (A : Rabs (z / c) <= m).
  { apply Rabs_le. nra. }
  replace z with (c * (z / c)) by (field; lra). rewrite Rabs_mult, (Rabs_pos_eq c) by lra. apply Rmult_le_compat_l; lra.
Qed.
Lemma jn : nr 0 (a * s) fj j.
Proof. apply nr_exact; [exact Hj|]. apply scaled_le with (k / b); [apply a0|rewrite Hss; lra|lra]. Qed.
Lemma kn : nr 0 (b * s) fk k.
Proof. apply nr_exact; [exact Hk|]. apply scaled_le with (j / a); [apply b0|rewrite Rplus_comm, Hss; lra|lra]. Qed.
Lemma xn : nr 0 (a * R) fx x0.
Proof. apply nr_exact; [exact Hx|]. apply scaled_le with (y0 / b); [apply a0|exact Hor|lra]. Qed.
Lemma yn : nr 0 (b * R) fy y0.
Proof. apply nr_exact; [exact Hy|]. apply scaled_le with (x0 / a); [apply b0|rewrite Rplus_comm; exact Hor|lra]. Qed.
Lemma an : nr 0 a fa a. Proof. apply nr_exact; [exact Ha|]. rewrite Rabs_pos_eq; [lra|]. pose proof a0. lra. Qed.
Lemma bn : nr 0 b fb b. Proof. apply nr_exact; [exact Hb|]. rewrite Rabs_pos_eq; [lra|]. pose proof b0. lra. Qed.

Ltac sz := repeat first [apply size1; assumption | apply size_mul; [|assumption]].
(** A product of four. *)
Lemma nr4 f1 f2 f3 f4 r1 r2 r3 r4 X1 X2 X3 X4 : atom X1 -> atom X2 -> atom X3 -> atom X4 ->
  nr 0 X1 f1 r1 -> nr 0 X2 f2 r2 -> nr 0 X3 f3 r3 -> nr 0 X4 f4 r4 ->
  nr 3.04 (X1 * X2 * X3 * X4) (@nmul _ FN (@nmul _ FN (@nmul _ FN f1 f2) f3) f4) (r1 * r2 * r3 * r4).
Proof.
  intros A1 A2 A3 A4 H1 H2 H3 H4.
  assert (K2 : nr 1.01 (X1 * X2) (@nmul _ FN f1 f2) (r1 * r2)).
  { replace 1.01 with (0 + 0 + 1.01) by lra. apply (nr2 _ _ _ _ _ _ 2); [lia|sz|lra..|exact H1|exact H2]. }
  assert (K3 : nr 2.02 (X1 * X2 * X3) (@nmul _ FN (@nmul _ FN f1 f2) f3) (r1 * r2 * r3)).
  { replace 2.02 with (1.01 + 0 + 1.01) by lra. apply (nr2 _ _ _ _ _ _ 3); [lia|sz|lra..|exact K2|exact H3]. }
  eapply nr_weak; [|apply Rle_refl|apply (nr2 _ _ _ _ _ _ 4 2.02 0); [lia|sz|lra..|exact K3|exact H4]]. lra.
Qed.

(** The sums. *)
Notation E := (a * a * (b * s) * (b * s)).
Lemma E_alt : b * b * (a * s) * (a * s) = E. Proof. ring. Qed.
Lemma E_size : size 4 E. Proof. sz. Qed.
Lemma E_pos : 0 < E. Proof. pose proof E_size as [H _]. pose proof v_pow. lra. Qed.
Definition fA := @nadd _ FN (@nmul _ FN (@nmul _ FN (@nmul _ FN fa fa) fk) fk) (@nmul _ FN (@nmul _ FN (@nmul _ FN fb fb) fj) fj).
Definition rA := a * a * k * k + b * b * j * j.
Lemma rA_is : rA = E.
Proof.
  unfold rA. pose proof a0. pose proof b0. replace (a * a * (b * s) * (b * s)) with (a * a * (b * b) * (s * s)) by ring. rewrite <- Hss. field. lra.
Qed.
Lemma A_n : nr 4.05 (2 * E) fA rA.
Proof.
  replace (2 * E) with (E + b * b * (a * s) * (a * s)) by ring. unfold rA, fA.
  apply (nr_add prec emax Hfmt 3.04 3.04 _ E) with (n0 := 3.04); try lra.
  - apply nr4; try assumption; [apply an|apply an|apply kn|apply kn].
  - apply nr4; try assumption; [apply bn|apply bn|apply jn|apply jn].
  - rewrite E_alt. replace (E + E) with (2 * E) by ring. apply (size_mag 4); [lia|exact E_size|lra].
Qed.

Notation RR := (R * R).
Definition rC := a * a * k * k + b * b * j * j - j * j * y0 * y0 + 2 * j * k * x0 * y0 - k * k * x0 * x0.
Definition fC := @cyl_C _ FN fa fb fx fy fj fk.
Lemma ER_size : size 4 (E * RR). Proof. replace (E * RR) with (a * s * (a * s) * (b * R) * (b * R)) by ring. sz. Qed.
Lemma C_n : nr 9.1 (2 * E + 4 * (E * RR)) fC rC.
Proof.
  assert (M : forall p r, 1 <= p -> 0 <= r -> p + r <= 16 -> mag (p * E + r * (E * RR))).
  { intros p r Hp Hr Hpr. pose proof E_size as S1. pose proof ER_size as S2. pose proof v_pow. destruct S1 as [S1 S1']. destruct S2 as [S2 S2']. pose proof W_pow.
    split.
    - assert (1 * E <= p * E) by (apply Rmult_le_compat_r; lra). assert (0 <= r * (E * RR)) by (apply Rmult_le_pos; lra). lra.
    - assert (p * E <= p * W ^ 4) by (apply Rmult_le_compat_l; lra). assert (r * (E * RR) <= r * W ^ 4) by (apply Rmult_le_compat_l; lra).
      assert ((p + r) * W ^ 4 <= 16 * W ^ 4) by (apply Rmult_le_compat_r; lra). lra. }
  assert (P3 : nr 3.04 (E * RR) (@nmul _ FN (@nmul _ FN (@nmul _ FN fj fj) fy) fy) (j * j * y0 * y0)).
  { replace (E * RR) with (a * s * (a * s) * (b * R) * (b * R)) by ring. apply nr4; try assumption; [apply jn|apply jn|apply yn|apply yn]. }
  assert (P5 : nr 3.04 (E * RR) (@nmul _ FN (@nmul _ FN (@nmul _ FN fk fk) fx) fx) (k * k * x0 * x0)).
  { replace (E * RR) with (b * s * (b * s) * (a * R) * (a * R)) by ring. apply nr4; try assumption; [apply kn|apply kn|apply xn|apply xn]. }
  assert (P4 : nr 4.05 (2 * (E * RR)) (@nmul _ FN (@nmul _ FN (@nmul _ FN (@nmul _ FN (@n2 _ FN) fj) fk) fx) fy) (2 * j * k * x0 * y0)).
  { assert (T : nr 0 2 (@n2 _ FN) 2) by (apply nr_exact; [apply (two_isF prec emax Hfmt)|rewrite Rabs_pos_eq; lra]).
    assert (G : forall n p, (n <= 4)%nat -> size n p -> mag (2 * p)) by (intros n p Hn Hp; apply (size_mag n); [exact Hn|exact Hp|lra]).
    assert (Q1 : nr 1.01 (2 * (a * s)) (@nmul _ FN (@n2 _ FN) fj) (2 * j)).
    { apply (nr_mul prec emax Hfmt 0 0); [exact T|apply jn|apply (G 1%nat); [lia|sz]|lra..]. }
    assert (Q2 : nr 2.02 (2 * (a * s * (b * s))) (@nmul _ FN (@nmul _ FN (@n2 _ FN) fj) fk) (2 * j * k)).
    { replace (2 * (a * s * (b * s))) with (2 * (a * s) * (b * s)) by ring.
      apply (nr_mul prec emax Hfmt 1.01 0); [exact Q1|apply kn|rewrite Rmult_assoc; apply (G 2%nat); [lia|sz]|lra..]. }
    assert (Q3 : nr 3.03 (2 * (a * s * (b * s) * (a * R))) (@nmul _ FN (@nmul _ FN (@nmul _ FN (@n2 _ FN) fj) fk) fx) (2 * j * k * x0)).
    { replace (2 * (a * s * (b * s) * (a * R))) with (2 * (a * s * (b * s)) * (a * R)) by ring.
      apply (nr_mul prec emax Hfmt 2.02 0); [exact Q2|apply xn|rewrite Rmult_assoc; apply (G 3%nat); [lia|sz]|lra..]. }
    replace (2 * (E * RR)) with (2 * (a * s * (b * s) * (a * R)) * (b * R)) by ring.
    apply (nr_mul prec emax Hfmt 3.03 0); [exact Q3|apply yn|rewrite Rmult_assoc; apply (G 4%nat); [lia|sz]|lra..]. }
  unfold fC, cyl_C, rC.
  assert (S1 : nr 5.06 (2 * E + E * RR) (@nsub _ FN fA (@nmul _ FN (@nmul _ FN (@nmul _ FN fj fj) fy) fy)) (rA - j * j * y0 * y0)).
  { apply (nr_sub prec emax Hfmt 4.05 3.04) with (n0 := 4.05); try lra; [exact A_n|exact P3|rewrite <- (Rmult_1_l (E * RR)); apply M; lra]. }
  assert (S2 : nr 6.07 (2 * E + 3 * (E * RR)) (@nadd _ FN (@nsub _ FN fA (@nmul _ FN (@nmul _ FN (@nmul _ FN fj fj) fy) fy))
     (@nmul _ FN (@nmul _ FN (@nmul _ FN (@nmul _ FN (@n2 _ FN) fj) fk) fx) fy)) (rA - j * j * y0 * y0 + 2 * j * k * x0 * y0)).
  { replace (2 * E + 3 * (E * RR)) with (2 * E + E * RR + 2 * (E * RR)) by ring.
    apply (nr_add prec emax Hfmt 5.06 4.05) with (n0 := 5.06); try lra; [exact S1|exact P4|].
    replace (2 * E + E * RR + 2 * (E * RR)) with (2 * E + 3 * (E * RR)) by ring. apply M; lra. }
  eapply nr_weak; [|apply Req_le; reflexivity|].
  2: { replace (2 * E + 4 * (E * RR)) with (2 * E + 3 * (E * RR) + E * RR) by ring.
       apply (nr_sub prec emax Hfmt 6.07 3.04 7.1) with (n0 := 6.07); try lra; [exact S2|exact P5|].
       replace (2 * E + 3 * (E * RR) + E * RR) with (2 * E + 4 * (E * RR)) by ring. apply M; lra. }
  lra.
Qed.

(** ** The roots *)

Notation Q := (a * (b * s)).
Notation GR := (a * a * (b * s) * (b * R)).
Lemma Q_size : size 2 Q. Proof. sz. Qed.
Lemma GR_size : size 4 GR. Proof. sz. Qed.
Lemma G_size : size 4 (a * b * Q). Proof. replace (a * b * Q) with (a * b * a * (b * s)) by ring. sz. Qed.
Lemma sz_pos n p : size n p -> 0 < p. Proof. intros [H _]. pose proof (pow_lt v n ltac:(lra)). lra. Qed.
Lemma u_R : 4096 * u <= 1 /\ 4096 * (u * R) <= 1.
Proof. pose proof (u_pos prec). assert (1 <= RR) by nra. assert (R <= RR) by nra. split; nra. Qed.

Definition fB := @nadd _ FN (@nmul _ FN (@nmul _ FN (@nmul _ FN fa fa) fk) fy) (@nmul _ FN (@nmul _ FN (@nmul _ FN fb fb) fj) fx).
Definition rB := a * a * k * y0 + b * b * j * x0.
Lemma B_n : nr 4.05 (2 * GR) fB rB.
Proof.
  replace (2 * GR) with (GR + b * b * (a * s) * (a * R)) by ring. unfold rB, fB.
  apply (nr_add prec emax Hfmt 3.04 3.04 _ GR) with (n0 := 3.04); try lra.
  - apply nr4; try assumption; [apply an|apply an|apply kn|apply yn].
  - apply nr4; try assumption; [apply bn|apply bn|apply jn|apply xn].
  - replace (GR + b * b * (a * s) * (a * R)) with (2 * GR) by ring. apply (size_mag 4); [lia|exact GR_size|lra].
Qed.

(** The discriminant. *)
Lemma C_val : exists c, isf fC c /\ Rabs (c - rC) <= 54.6 * u * (E * RR) /\ c <= 1.014 * E.
Proof.
  destruct C_n as [_ (c & Hc & Ec)]. exists c. split; [exact Hc|]. pose proof E_pos as P. pose proof (u_pos prec) as U0.
  assert (R1 : 1 <= RR) by nra. assert (E1 : E <= E * RR) by (rewrite <- (Rmult_1_r E) at 1; apply Rmult_le_compat_l; lra).
  assert (B1 : 9.1 * u * (2 * E + 4 * (E * RR)) <= 54.6 * u * (E * RR)).
  { replace (54.6 * u * (E * RR)) with (9.1 * u * (6 * (E * RR))) by lra. apply Rmult_le_compat_l; lra. }
  split; [lra|]. assert (rC <= E).
  { rewrite <- rA_is. unfold rC, rA. pose proof (Rle_0_sqr (j * y0 - k * x0)) as Sq. unfold Rsqr in Sq. lra. }
  assert (54.6 * u * (E * RR) <= 0.014 * E).
  { replace (54.6 * u * (E * RR)) with (54.6 * (u * RR) * E) by ring. apply Rmult_le_compat_r; [lra|]. lra. }
  apply Rle_trans with (rC + 54.6 * u * (E * RR)); [|lra]. assert (A := Rle_abs (c - rC)). lra.
Qed.

Section Root.
Variable c : Rdefinitions.RbaseSymbolsImpl.R.
Hypothesis Hc : isf fC c.
Hypothesis Hc0 : 0 <= c.
Hypothesis Hc1 : c <= 1.014 * E.
Lemma sqrt_c : 0 <= sqrt c <= 1.007 * Q.
Proof.
  split; [apply sqrt_pos|]. pose proof (sz_pos _ _ Q_size) as P. rewrite <- (sqrt_Rsqr (1.007 * Q)) by lra. apply sqrt_le_1_alt. unfold Rsqr.
  assert (0 < Q * Q) by (apply Rmult_lt_0_compat; assumption). replace E with (Q * Q) in Hc1 by ring. lra.
Qed.
Lemma w_n : nr 3.03 (a * b * (1.007 * Q)) (@nmul _ FN (@nmul _ FN fa fb) (@nsqrt _ FN fC)) (a * b * sqrt c).
Proof.
  assert (N1 : nr 1 (1.007 * Q) (@nsqrt _ FN fC) (sqrt c)).
  { pose proof sqrt_c as [S0 S1]. split; [rewrite Rabs_pos_eq; assumption|]. exists (rd (sqrt c)). split; [apply (isF_sqrt prec emax); assumption|].
    eapply Rle_trans; [apply (rd_max prec emax)|]. rewrite Rmult_1_l. pose proof (u_pos prec). apply Rmult_le_compat_l; [lra|].
    rewrite Rabs_pos_eq by exact S0. apply Rmax_lub; [exact S1|]. apply (size_mag 2); [lia|exact Q_size|lra]. }
  assert (N2 : nr 1.01 (a * b) (@nmul _ FN fa fb) (a * b)).
  { replace 1.01 with (0 + 0 + 1.01) by lra. apply (nr2 _ _ _ _ _ _ 2); [lia|sz|lra..|apply an|apply bn]. }
  apply (nr_mul prec emax Hfmt 1.01 1); [exact N2|exact N1| |lra..].
  replace (a * b * (1.007 * Q)) with (1.007 * (a * b * Q)) by ring. apply (size_mag 4); [lia|exact G_size|lra].
Qed.
Lemma w_mag : a * b * (1.007 * Q) <= 1.007 * GR.
Proof. pose proof (sz_pos _ _ G_size). replace GR with (a * b * Q * R) by ring. nra. Qed.
Definition fw := @nmul _ FN (@nmul _ FN fa fb) (@nsqrt _ FN fC).
Definition fS1 := @nadd _ FN fB fw.
Definition fS0 := @nadd _ FN (@nopp _ FN fB) fw.
Lemma sum_mag : mag (2 * GR + a * b * (1.007 * Q)).
Proof.
  pose proof w_mag as L. destruct (size_mag 4 GR 2 ltac:(lia) GR_size ltac:(lra)) as [L1 _]. destruct (size_mag 4 GR 3.007 ltac:(lia) GR_size ltac:(lra)) as [_ L2].
  pose proof (sz_pos _ _ G_size). split; lra.
Qed.
Lemma S1_n : nr 5.1 (3.007 * GR) fS1 (rB + a * b * sqrt c).
Proof.
  eapply nr_weak; [split; [|apply Rle_refl]; lra| |apply (nr_add prec emax Hfmt 4.05 3.03) with (n0 := 4.05) (n := 5.1); [exact B_n|exact w_n|exact sum_mag|lra..]].
  pose proof w_mag. lra.
Qed.
Lemma S0_n : nr 5.1 (3.007 * GR) fS0 (- rB + a * b * sqrt c).
Proof.
  eapply nr_weak; [split; [|apply Rle_refl]; lra| |apply (nr_add prec emax Hfmt 4.05 3.03) with (n0 := 4.05) (n := 5.1); [apply nr_opp, B_n|exact w_n|exact sum_mag|lra..]].
  pose proof w_mag. lra.
Qed.

(** The inverse. *)
Lemma inv_mag : mag (/ E).
Proof.
  pose proof E_size as [S1 S2]. pose proof E_pos as P. pose proof (low0_inv emax) as L. pose proof (low_pos emax) as L0. split.
  - assert (X : low0 = / (hi0 / 4)) by (rewrite <- L, Rinv_inv; reflexivity). rewrite X. apply Rinv_le; [exact P|]. pose proof W_pow. lra.
  - rewrite <- L. apply Rinv_le; [exact L0|lra].
Qed.
Lemma inv_val : exists i, isf (@ndiv _ FN (@n1 _ FN) fA) i /\ isf (@ndiv _ FN (@nopp _ FN (@n1 _ FN)) fA) (- i) /\ 0 <= i /\ Rabs (i - / E) <= 9.2 * u * (/ E).
Proof.
  destruct A_n as [_ (A & HA & EA)]. rewrite rA_is in EA. pose proof E_pos as P. pose proof (u_pos prec) as U0. pose proof (u_small prec emax Hfmt) as U1.
  assert (UE : u * E <= q * E) by (apply Rmult_le_compat_r; lra). apply Rabs_le_inv in EA.
  pose proof inv_mag as IM. set (e := a * a * (b * s) * (b * s)) in *. clearbody e.
  assert (PA : 0.9999 * e <= A) by lra. assert (A0 : 0 < A) by lra.
  assert (D : Rabs (1 / A - / e) <= 8.15 * u * / e).
  { replace (1 / A - / e) with ((e - A) * (/ A * / e)) by (field; lra). rewrite Rabs_mult, (Rabs_pos_eq (/ A * / e)).
    2: { apply Rmult_le_pos; apply Rlt_le, Rinv_0_lt_compat; assumption. }
    assert (N : Rabs (e - A) <= 8.1 * (u * e)) by (apply Rabs_le; lra).
    apply Rle_trans with (8.15 * u * A * (/ A * / e)).
    2: { right. rewrite (Rmult_assoc (8.15 * u)). f_equal. field. lra. }
    apply Rmult_le_compat_r; [apply Rmult_le_pos; apply Rlt_le, Rinv_0_lt_compat; assumption|]. eapply Rle_trans; [exact N|].
    apply Rle_trans with (8.15 * u * (0.9999 * e)); [assert (0 <= u * e) by (apply Rmult_le_pos; lra); lra|]. apply Rmult_le_compat_l; lra. }
  assert (I0 : 0 < / e) by (apply Rinv_0_lt_compat, P).
  destruct (nr_round prec emax Hfmt 8.15 9.2 (/ e) (1 / A) (/ e) ltac:(lra) IM ltac:(rewrite Rabs_pos_eq; lra) D ltac:(lra)) as [R1 R2].
  exists (rd (1 / A)). split; [apply (isF_div prec emax); [apply (one_isF prec emax (p6 prec emax Hfmt))|exact HA|lra|exact R1]|]. split.
  - replace (- rd (1 / A)) with (rd (- 1 / A)).
    2: { rewrite <- (rd_opp prec emax). f_equal. field. lra. }
    apply (isF_div prec emax); [apply (isF_opp prec emax), (one_isF prec emax (p6 prec emax Hfmt))|exact HA|lra|].
    replace (- 1 / A) with (- (1 / A)) by (field; lra). rewrite (rd_opp prec emax), Rabs_Ropp. exact R1.
  - split; [|exact R2]. apply (rd_pos prec emax). apply Rlt_le, Rdiv_lt_0_compat; lra.
Qed.

Lemma ratio_mag : mag (3.007 * (R / s)).
Proof.
  assert (P : 0 < v / W) by (apply Rdiv_lt_0_compat; lra).
  assert (X : R / s = (a * R) / (a * s)) by (pose proof a0; field; lra). destruct AX as [X1 X2]. destruct AJ as [J1 J2].
  assert (L1 : v / W <= R / s).
  { rewrite X. unfold Rdiv. apply Rmult_le_compat; [lra|apply Rlt_le, Rinv_0_lt_compat; lra|exact X1|]. apply Rinv_le; lra. }
  assert (L2 : R / s <= W / v).
  { rewrite X. unfold Rdiv. apply Rmult_le_compat; [lra|apply Rlt_le, Rinv_0_lt_compat; lra|exact X2|]. apply Rinv_le; lra. }
  pose proof (low0_inv emax) as L. pose proof (low_pos emax) as L0.
  assert (T : hi0 = 4 / low0) by (unfold Rdiv; rewrite L; lra).
  assert (Hq : v / W <= 1).
  { apply Rle_trans with (v / 1); [|lra]. apply Rmult_le_compat_l; [lra|]. apply Rinv_le; lra. }
  assert (Sq : 4 * low0 <= v / W * (v / W)).
  { (* (v/W)^4 >= 16 low0^2 *)
    assert (F : 16 * (low0 * low0) <= (v / W * (v / W)) * (v / W * (v / W))).
    { replace ((v / W * (v / W)) * (v / W * (v / W))) with (v ^ 4 * / W ^ 4) by (field; lra).
      assert (W4 : 16 * low0 <= / W ^ 4).
      { replace (16 * low0) with (/ (hi0 / 64)) by (rewrite T; field; lra). apply Rinv_le; [pose proof W_pow; lra|lra]. }
      replace (16 * (low0 * low0)) with (low0 * (16 * low0)) by ring. apply Rmult_le_compat; lra. }
    set (z := v / W * (v / W)) in *. assert (0 < z) by (apply Rmult_lt_0_compat; exact P). nra. }
  split.
  - assert (v / W * (v / W) <= v / W) by nra. lra.
  - apply Rle_trans with (3.007 * (W / v)); [lra|]. replace (W / v) with (/ (v / W)) by (field; lra).
    assert (IV : / (v / W) <= / (4 * low0)) by (apply Rinv_le; nra). rewrite Rinv_mult, L in IV. pose proof W_pow. lra.
Qed.

Definition ft0 := @cyl_t0 _ FN fa fb fx fy fj fk.
Definition ft1 := @cyl_t1 _ FN fa fb fx fy fj fk.
Lemma t_vals : exists t0 t1, isf ft0 t0 /\ isf ft1 t1 /\ t1 <= t0 /\
  Rabs (t0 - (- rB + a * b * sqrt c) / E) <= 46.2 * u * (R / s) /\ Rabs (t1 - (- rB - a * b * sqrt c) / E) <= 46.2 * u * (R / s).
Proof.
  destruct inv_val as (i & I1 & I2 & I0 & Ei). pose proof E_pos as P. pose proof (u_pos prec) as U0. pose proof (u_small prec emax Hfmt) as U1.
  assert (IE : 0 < / E) by (apply Rinv_0_lt_compat, P).
  assert (N0 : nr 9.2 (/ E) (@ndiv _ FN (@n1 _ FN) fA) (/ E)) by (split; [rewrite Rabs_pos_eq; lra|]; exists i; split; assumption).
  assert (N1 : nr 9.2 (/ E) (@ndiv _ FN (@nopp _ FN (@n1 _ FN)) fA) (- / E)).
  { split; [rewrite Rabs_Ropp, Rabs_pos_eq; lra|]. exists (- i). split; [exact I2|]. replace (- i - - / E) with (- (i - / E)) by ring. rewrite Rabs_Ropp. exact Ei. }
  assert (M : / E * (3.007 * GR) = 3.007 * (R / s)) by (pose proof a0; pose proof b0; field; repeat split; lra).
  pose proof (nr_mul prec emax Hfmt 9.2 5.1 15.33 _ _ _ _ _ _ N0 S0_n ltac:(rewrite M; exact ratio_mag) ltac:(lra) ltac:(lra) ltac:(lra) ltac:(lra)) as [_ (t0 & T0 & E0)].
  pose proof (nr_mul prec emax Hfmt 9.2 5.1 15.33 _ _ _ _ _ _ N1 S1_n ltac:(rewrite M; exact ratio_mag) ltac:(lra) ltac:(lra) ltac:(lra) ltac:(lra)) as [_ (t1 & T1 & E1)].
  rewrite M in E0, E1. exists t0, t1. split; [exact T0|]. split; [exact T1|].
  assert (RS : 0 < u * (R / s)) by (apply Rmult_lt_0_compat; [lra|]; apply Rdiv_lt_0_compat; lra).
  split; [|split].
  - (* monotonicity *)
    destruct B_n as [_ (B & HB & EB)]. destruct w_n as [_ (w & Hw & Ew)].
    assert (W0 : 0 <= w).
    { assert (X : isf (@nmul _ FN fa fb) (rd (a * b))).
      { apply (isF_mul prec emax); [assumption..|]. apply (rd_half_top prec emax (p6 prec emax Hfmt)).
        destruct (size_mag 2 (a * b) 1 ltac:(lia) ltac:(sz) ltac:(lra)) as [A1 A2]. rewrite Rmult_1_l in A1, A2. pose proof (low_pos emax). rewrite Rabs_pos_eq; lra. }
      pose proof (isF_sqrt prec emax _ _ Hc Hc0) as Y. 
      assert (X0 : 0 <= rd (a * b)) by (apply (rd_pos prec emax); pose proof a0; pose proof b0; nra).
      assert (Y0 : 0 <= rd (sqrt c)) by (apply (rd_pos prec emax), sqrt_pos).
      destruct (Rlt_le_dec (Rabs (rd (rd (a * b) * rd (sqrt c)))) hi0) as [L|L].
      - pose proof (isF_mul prec emax _ _ _ _ X Y L) as Z. rewrite (isF_fun prec emax _ _ _ Hw Z). apply (rd_pos prec emax), Rmult_le_pos; assumption.
      - destruct (isF_mul_over prec emax _ _ _ _ X Y L) as (sg & Z & _). fold fw in Hw. unfold fw in Hw. rewrite Z in Hw. destruct Hw as (_ & F & _). discriminate F. }
    destruct S0_n as [_ (z0 & Z0 & _)]. destruct S1_n as [_ (z1 & Z1 & _)].
    pose proof (add_fin prec emax _ _ _ _ (isF_opp prec emax _ _ HB) Hw (proj1 (proj2 Z0))) as Y0. pose proof (add_fin prec emax _ _ _ _ HB Hw (proj1 (proj2 Z1))) as Y1.
    pose proof (isF_fun prec emax _ _ _ Z0 Y0) as ->. pose proof (isF_fun prec emax _ _ _ Z1 Y1) as ->.
    pose proof (mul_fin prec emax _ _ _ _ I1 Z0 (proj1 (proj2 T0))) as X0. pose proof (mul_fin prec emax _ _ _ _ I2 Z1 (proj1 (proj2 T1))) as X1.
    pose proof (isF_fun prec emax _ _ _ T0 X0) as ->. pose proof (isF_fun prec emax _ _ _ T1 X1) as ->.
    apply (rd_mono prec emax). replace (- i * rd (B + w)) with (i * - rd (B + w)) by ring. apply Rmult_le_compat_l; [exact I0|].
    rewrite <- (rd_opp prec emax). apply (rd_mono prec emax). lra.
  - replace ((- rB + a * b * sqrt c) / E) with (/ E * (- rB + a * b * sqrt c)) by (unfold Rdiv; ring). eapply Rle_trans; [exact E0|]. lra.
  - replace ((- rB - a * b * sqrt c) / E) with (- / E * (rB + a * b * sqrt c)) by (unfold Rdiv; ring). eapply Rle_trans; [exact E1|]. lra.
Qed.
End Root.
End F.
