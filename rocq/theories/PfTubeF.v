(** Errors of IEEE operations in proportion to a magnitude of each operand; what the cylinder routine
    computes for its quadratic. *)

From Coq Require Import Reals ZArith Bool Lra Lia Psatz Floats.SpecFloat.
From Flocq Require Import Core Relative Plus_error IEEE754.BinarySingleNaN.
From Verif Require Import Num NumR NumF Vec Cylinder SpecReal SpecIEEE SpecTri SpecTriF PfIEEE PfIEEE2 PfIEEE3 PfTriF PfDirF PfSphF2.
Local Open Scope R_scope.

Section F.
Variables prec emax : Z.
Context {Hprec : Prec_gt_0 prec} {Hmax : Prec_lt_emax prec emax}.
Hypothesis Hfmt : usual_format prec emax.
Notation FN := (Fnum prec emax).
Notation isf := (isF prec emax).
Notation rd := (rnd prec emax).
Notation u := (ulpf prec).
Notation low0 := (least emax).
Notation hi0 := (top emax).
Notation q := (/ 1000000).

(** Below the smallest normal number the error is that of the smallest normal number. *)
Lemma rd_max x : Rabs (rd x - x) <= u * Rmax (Rabs x) low0.
Proof.
  pose proof (u_pos prec) as U0. destruct (Rle_lt_dec low0 (Rabs x)) as [L|L].
  - eapply Rle_trans; [apply (rd_rel prec emax x L)|]. apply Rmult_le_compat_l; [lra|apply Rmax_l].
  - rewrite Rmax_right by lra.
    pose proof (error_le_half_ulp radix2 (SpecFloat.fexp prec emax) (fun z => negb (Z.even z)) x) as E. fold (rd x) in E.
    eapply Rle_trans; [exact E|].
    rewrite (ulp_FLT_small radix2 (SpecFloat.emin prec emax) prec).
    + unfold least, ulpf, SpecFloat.emin. rewrite <- bpow_plus. apply Req_le. replace (3 - emax - prec)%Z with ((- prec + (3 - emax - 1)) + 1)%Z by lia.
      rewrite bpow_plus. change (bpow radix2 1) with 2. field.
    + eapply Rlt_le_trans; [exact L|]. apply bpow_le. unfold SpecFloat.emin. lia.
Qed.

(** [x] is [v] up to [n] units of roundoff of [X], which bounds [v]. *)
Definition nr (n X : R) (x : spec_float) (v : R) : Prop :=
  Rabs v <= X /\ exists a, isf x a /\ Rabs (a - v) <= n * u * X.
(** A magnitude in the normal range. *)
Definition mag (X : R) : Prop := low0 <= X <= hi0 / 4.

Lemma nr_exact X x v : isf x v -> Rabs v <= X -> nr 0 X x v.
Proof. intros H1 H2. split; [exact H2|]. exists v. split; [exact H1|]. rewrite Rminus_eq_0, Rabs_R0. lra. Qed.
Lemma nr_pos n X x v : nr n X x v -> 0 <= X.
Proof. intros [H _]. pose proof (Rabs_pos v). lra. Qed.
Lemma nr_weak n n' X X' x v : 0 <= n <= n' -> X <= X' -> nr n X x v -> nr n' X' x v.
Proof.
  intros [Hn Hn'] HX H. pose proof (nr_pos _ _ _ _ H) as P. destruct H as [H1 (a & Ha & E)]. split; [lra|]. exists a. split; [exact Ha|].
  pose proof (u_pos prec) as U0. eapply Rle_trans; [exact E|]. apply Rmult_le_compat; [apply Rmult_le_pos; lra|lra| |exact HX]. apply Rmult_le_compat_r; lra.
Qed.
(** A rounded result. *)
Lemma nr_round n n' X a v : 0 <= n <= 1000000 -> mag X -> Rabs v <= X -> Rabs (a - v) <= n * u * X -> n + 1 + n * q <= n' ->
  Rabs (rd a) < hi0 /\ Rabs (rd a - v) <= n' * u * X.
Proof.
  intros Hn [HX1 HX2] Hv Ha Hn'. pose proof (u_pos prec) as U0. pose proof (u_small prec emax Hfmt) as U1. pose proof (low_pos emax) as L0.
  assert (UX : 0 < u * X) by (apply Rmult_lt_0_compat; lra).
  assert (NU : n * u * X <= n * q * X).
  { apply Rmult_le_compat_r; [lra|]. apply Rmult_le_compat_l; lra. }
  assert (A : Rabs a <= X + n * q * X).
  { pose proof (Rabs_triang (a - v) v) as T. replace (a - v + v) with a in T by ring. lra. }
  split.
  - apply (rd_half_top prec emax (p6 prec emax Hfmt)). assert (n * q * X <= 1 * X) by (apply Rmult_le_compat_r; lra). lra.
  - replace (rd a - v) with ((rd a - a) + (a - v)) by ring. eapply Rle_trans; [apply Rabs_triang|].
    pose proof (rd_max a) as Rm. assert (NX : 0 <= n * q * X) by (apply Rmult_le_pos; [apply Rmult_le_pos; lra|lra]).
    assert (Mx : Rmax (Rabs a) low0 <= X + n * q * X) by (apply Rmax_lub; lra).
    assert (u * Rmax (Rabs a) low0 <= u * (X + n * q * X)) by (apply Rmult_le_compat_l; lra).
    apply Rle_trans with ((n + 1 + n * q) * (u * X)); [lra|]. rewrite Rmult_assoc. apply Rmult_le_compat_r; lra.
Qed.
Lemma nr_mul n1 n2 n X Y x y v w : nr n1 X x v -> nr n2 Y y w -> mag (X * Y) -> 0 <= n1 -> 0 <= n2 -> n1 + n2 + n1 * n2 * q <= 1000000 ->
  (n1 + n2 + n1 * n2 * q) + 1 + (n1 + n2 + n1 * n2 * q) * q <= n -> nr n (X * Y) (@nmul _ FN x y) (v * w).
Proof.
  intros Hx Hy Hm N1 N2 Hb Hn. pose proof (nr_pos _ _ _ _ Hx) as P. pose proof (nr_pos _ _ _ _ Hy) as P'.
  destruct Hx as [V (a & Ha & E)]. destruct Hy as [W (b & Hb' & F)].
  pose proof (u_pos prec) as U0. pose proof (u_small prec emax Hfmt) as U1.
  assert (V' : Rabs (v * w) <= X * Y) by (rewrite Rabs_mult; apply Rmult_le_compat; try apply Rabs_pos; assumption).
  assert (XY : 0 <= X * Y) by (apply Rmult_le_pos; assumption). assert (NN : 0 <= n1 * n2) by (apply Rmult_le_pos; assumption).
  assert (E' : Rabs (a * b - v * w) <= (n1 + n2 + n1 * n2 * q) * u * (X * Y)).
  { replace (a * b - v * w) with ((a - v) * (b - w) + ((a - v) * w + v * (b - w))) by ring.
    eapply Rle_trans; [apply Rabs_triang|]. eapply Rle_trans; [apply Rplus_le_compat_l, Rabs_triang|]. rewrite !Rabs_mult.
    pose proof (Rmult_le_compat _ _ _ _ (Rabs_pos _) (Rabs_pos _) E F) as X1.
    pose proof (Rmult_le_compat _ _ _ _ (Rabs_pos _) (Rabs_pos _) E W) as X2.
    pose proof (Rmult_le_compat _ _ _ _ (Rabs_pos _) (Rabs_pos _) V F) as X3.
    assert (X4 : n1 * u * X * (n2 * u * Y) <= n1 * n2 * q * (u * (X * Y))).
    { replace (n1 * u * X * (n2 * u * Y)) with (u * (n1 * n2 * (u * (X * Y)))) by ring.
      replace (n1 * n2 * q * (u * (X * Y))) with (q * (n1 * n2 * (u * (X * Y)))) by ring.
      apply Rmult_le_compat_r; [|exact U1]. apply Rmult_le_pos; [assumption|]. apply Rmult_le_pos; lra. }
    replace ((n1 + n2 + n1 * n2 * q) * u * (X * Y)) with (n1 * n2 * q * (u * (X * Y)) + (n1 * u * X * Y + X * (n2 * u * Y))) by ring. lra. }
  destruct (nr_round (n1 + n2 + n1 * n2 * q) n (X * Y) (a * b) (v * w) ltac:(lra) Hm V' E' Hn) as [R1 R2].
  split; [exact V'|]. exists (rd (a * b)). split; [apply (isF_mul prec emax); assumption|exact R2].
Qed.
Lemma nr_add n1 n2 n X Y x y v w : nr n1 X x v -> nr n2 Y y w -> mag (X + Y) -> 0 <= n1 -> 0 <= n2 ->
  forall n0, n1 <= n0 -> n2 <= n0 -> n0 <= 1000000 -> n0 + 1 + n0 * q <= n -> nr n (X + Y) (@nadd _ FN x y) (v + w).
Proof.
  intros Hx Hy Hm N1 N2 n0 A1 A2 Hb Hn. pose proof (nr_pos _ _ _ _ Hx) as P. pose proof (nr_pos _ _ _ _ Hy) as P'.
  destruct Hx as [V (a & Ha & E)]. destruct Hy as [W (b & Hb' & F)]. pose proof (u_pos prec) as U0.
  assert (V' : Rabs (v + w) <= X + Y) by (eapply Rle_trans; [apply Rabs_triang|]; lra).
  assert (E' : Rabs (a + b - (v + w)) <= n0 * u * (X + Y)).
  { replace (a + b - (v + w)) with ((a - v) + (b - w)) by ring. eapply Rle_trans; [apply Rabs_triang|].
    assert (n1 * u * X <= n0 * u * X) by (apply Rmult_le_compat_r; [lra|]; apply Rmult_le_compat_r; lra).
    assert (n2 * u * Y <= n0 * u * Y) by (apply Rmult_le_compat_r; [lra|]; apply Rmult_le_compat_r; lra). lra. }
  destruct (nr_round n0 n (X + Y) (a + b) (v + w) ltac:(lra) Hm V' E' Hn) as [R1 R2].
  split; [exact V'|]. exists (rd (a + b)). split; [apply (isF_add prec emax); assumption|exact R2].
Qed.
Lemma nr_opp n X x v : nr n X x v -> nr n X (@nopp _ FN x) (- v).
Proof.
  intros [V (a & Ha & E)]. split; [now rewrite Rabs_Ropp|]. exists (- a). split; [apply (isF_opp prec emax), Ha|].
  replace (- a - - v) with (- (a - v)) by ring. now rewrite Rabs_Ropp.
Qed.
Lemma nr_sub n1 n2 n X Y x y v w : nr n1 X x v -> nr n2 Y y w -> mag (X + Y) -> 0 <= n1 -> 0 <= n2 ->
  forall n0, n1 <= n0 -> n2 <= n0 -> n0 <= 1000000 -> n0 + 1 + n0 * q <= n -> nr n (X + Y) (@nsub _ FN x y) (v - w).
Proof.
  intros Hx Hy Hm N1 N2 n0 A1 A2 Hb Hn. pose proof (nr_pos _ _ _ _ Hx) as P. pose proof (nr_pos _ _ _ _ Hy) as P'.
  destruct Hx as [V (a & Ha & E)]. destruct Hy as [W (b & Hb' & F)]. pose proof (u_pos prec) as U0.
  assert (V' : Rabs (v - w) <= X + Y) by (unfold Rminus; eapply Rle_trans; [apply Rabs_triang|]; rewrite Rabs_Ropp; lra).
  assert (E' : Rabs (a - b - (v - w)) <= n0 * u * (X + Y)).
  { replace (a - b - (v - w)) with ((a - v) + - (b - w)) by ring. eapply Rle_trans; [apply Rabs_triang|]. rewrite Rabs_Ropp.
    assert (n1 * u * X <= n0 * u * X) by (apply Rmult_le_compat_r; [lra|]; apply Rmult_le_compat_r; lra).
    assert (n2 * u * Y <= n0 * u * Y) by (apply Rmult_le_compat_r; [lra|]; apply Rmult_le_compat_r; lra). lra. }
  destruct (nr_round n0 n (X + Y) (a - b) (v - w) ltac:(lra) Hm V' E' Hn) as [R1 R2].
  split; [exact V'|]. exists (rd (a - b)). split; [apply (isF_sub prec emax); assumption|exact R2].
Qed.
End F.
