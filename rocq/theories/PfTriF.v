(** Absolute errors of IEEE operations on numbers of bounded size. *)

From Coq Require Import Reals ZArith Bool Lra Lia Psatz Floats.SpecFloat.
From Flocq Require Import Core Relative Plus_error IEEE754.BinarySingleNaN.
From Verif Require Import Num NumR NumF Vec SpecReal SpecIEEE SpecTri SpecTriF PfIEEE PfIEEE2.
Local Open Scope R_scope.

Section F.
Variables prec emax : Z.
Context {Hprec : Prec_gt_0 prec} {Hmax : Prec_lt_emax prec emax}.
Hypothesis Hfmt : usual_format prec emax.
Notation FN := (Fnum prec emax).
Notation isf := (isF prec emax).
Notation rd := (rnd prec emax).
Notation u := (ulpf prec).
Notation low0 := (least emax).
Notation hi0 := (top emax).
Notation q := (/ 1000000).
Variable M : R.
Hypothesis HM : scale_ok prec emax M.

Lemma p6 : (6 <= prec)%Z. Proof. destruct Hfmt. lia. Qed.
Lemma u_pos : 0 < u. Proof. apply bpow_gt_0. Qed.
Lemma u_small : u <= q.
Proof.
  apply Rle_trans with (bpow radix2 (-20)); [apply bpow_le; destruct Hfmt; lia|]. cbn. lra.
Qed.
Lemma low_small : 2 * low0 <= q * u.
Proof.
  destruct Hfmt as [H1 H2]. unfold least, ulpf.
  apply Rle_trans with (bpow radix2 (-20) * bpow radix2 (- prec)).
  - change 2 with (bpow radix2 1). rewrite <- !bpow_plus. apply bpow_le. lia.
  - apply Rmult_le_compat_r; [apply bpow_ge_0|]. cbn. lra.
Qed.
(** Rounding, whether or not it underflows. *)
Lemma rd_abs x : Rabs (rd x - x) <= u * Rabs x + q * u.
Proof.
  pose proof u_pos. pose proof u_small. pose proof low_small. pose proof (Rabs_pos x).
  assert (0 < low0) by apply bpow_gt_0.
  destruct (Rle_lt_dec low0 (Rabs x)) as [L|L].
  - pose proof (rd_rel prec emax x L). nra.
  - assert (R : Rabs (rd x) <= low0).
    { assert (E : rd low0 = low0) by (apply (rd_bpow prec emax); unfold Prec_gt_0 in Hprec; lia).
      apply Rabs_le. apply Rabs_lt_inv in L. split.
      - rewrite <- E, <- (rd_opp prec emax). apply (rd_mono prec emax). lra.
      - rewrite <- E. apply (rd_mono prec emax). lra. }
    pose proof (Rabs_triang (rd x) (- x)) as T. rewrite Rabs_Ropp in T. unfold Rminus. nra.
Qed.

(** [x] is [v] up to [n] units of roundoff; both in proportion to [M]^k. *)
Definition ap (k : nat) (c n : R) (x : spec_float) (v : R) : Prop :=
  Rabs v <= c * M ^ k /\ exists a, isf x a /\ Rabs (a - v) <= n * u * M ^ k.

Lemma M1 : 1 <= M. Proof. apply HM. Qed.
Lemma Mk_pos k : 1 <= M ^ k.
Proof. apply pow_R1_Rle, M1. Qed.
Lemma Mk_top k : (k <= 3)%nat -> 128 * M ^ k <= hi0 / 2.
Proof.
  intros H. destruct HM as (H1 & H2 & _). pose proof (Rle_pow M k 3 H1 H). lra.
Qed.
Lemma ap_exact k c x v : isf x v -> Rabs v <= c * M ^ k -> ap k c 0 x v.
Proof. intros H1 H2. split; [exact H2|]. exists v. split; [exact H1|]. rewrite Rminus_eq_0, Rabs_R0. lra. Qed.
Lemma ap_weak k c n n' x v : n <= n' -> ap k c n x v -> ap k c n' x v.
Proof.
  intros H [H1 (a & Ha & E)]. split; [exact H1|]. exists a. split; [exact Ha|].
  pose proof u_pos. pose proof (Mk_pos k). eapply Rle_trans; [exact E|]. apply Rmult_le_compat_r; [lra|]. apply Rmult_le_compat_r; lra.
Qed.
Lemma ap_val k c n x v : ap k c n x v -> exists a, isf x a /\ Rabs v <= c * M ^ k /\ Rabs (a - v) <= n * u * M ^ k /\ Rabs a <= (c + n * u) * M ^ k.
Proof.
  intros [H1 (a & Ha & E)]. exists a. split; [exact Ha|]. split; [exact H1|]. split; [exact E|].
  pose proof (Rabs_triang (a - v) v) as T. replace (a - v + v) with a in T by ring. lra.
Qed.
(** A rounded result. *)
Lemma round_step k c n n' a v : (k <= 3)%nat -> 0 <= c -> 0 <= n -> c + n * q <= 128 ->
  Rabs v <= c * M ^ k -> Rabs (a - v) <= n * u * M ^ k -> n + c + n * q + q <= n' ->
  Rabs (rd a) < hi0 /\ Rabs (rd a - v) <= n' * u * M ^ k.
Proof.
  intros Hk Hc Hn Hcn Hv Ha Hn'. pose proof (Mk_pos k) as P. pose proof u_pos as U0. pose proof u_small as U1.
  assert (A : Rabs a <= (c + n * u) * M ^ k).
  { pose proof (Rabs_triang (a - v) v) as T. replace (a - v + v) with a in T by ring. lra. }
  split.
  - apply (rd_half_top prec emax p6). eapply Rle_trans; [exact A|]. pose proof (Mk_top k Hk).
    apply Rle_trans with (128 * M ^ k); [apply Rmult_le_compat_r; [lra|nra]|lra].
  - replace (rd a - v) with ((rd a - a) + (a - v)) by ring. eapply Rle_trans; [apply Rabs_triang|].
    pose proof (rd_abs a) as R.
    assert (u * Rabs a <= u * ((c + n * u) * M ^ k)) by (apply Rmult_le_compat_l; lra).
    assert (Q : q * u <= q * u * M ^ k) by (assert (0 <= q * u) by nra; nra).
    apply Rle_trans with ((n + c + n * q + q) * u * M ^ k).
    + assert (E1 : u * ((c + n * u) * M ^ k) <= (c + n * q) * u * M ^ k).
      { replace (u * ((c + n * u) * M ^ k)) with ((c + n * u) * (u * M ^ k)) by ring.
        replace ((c + n * q) * u * M ^ k) with ((c + n * q) * (u * M ^ k)) by ring.
        apply Rmult_le_compat_r; [apply Rmult_le_pos; lra|]. assert (n * u <= n * q) by (apply Rmult_le_compat_l; lra). lra. }
      lra.
    + apply Rmult_le_compat_r; [lra|]. apply Rmult_le_compat_r; lra.
Qed.
Lemma ap_add k c1 n1 c2 n2 n x y v w : ap k c1 n1 x v -> ap k c2 n2 y w -> (k <= 3)%nat -> 0 <= c1 + c2 -> 0 <= n1 + n2 ->
  (c1 + c2) + (n1 + n2) * q <= 128 -> (n1 + n2) + (c1 + c2) + (n1 + n2) * q + q <= n ->
  ap k (c1 + c2) n (@nadd _ FN x y) (v + w).
Proof.
  intros Hx Hy Hk Hc Hn Hb Hn'. destruct (ap_val _ _ _ _ _ Hx) as (a & Ha & V & E & _). destruct (ap_val _ _ _ _ _ Hy) as (b & Hb' & W & F & _).
  assert (V' : Rabs (v + w) <= (c1 + c2) * M ^ k) by (eapply Rle_trans; [apply Rabs_triang|]; lra).
  assert (E' : Rabs (a + b - (v + w)) <= (n1 + n2) * u * M ^ k).
  { replace (a + b - (v + w)) with ((a - v) + (b - w)) by ring. eapply Rle_trans; [apply Rabs_triang|]. lra. }
  destruct (round_step k (c1 + c2) (n1 + n2) n (a + b) (v + w) Hk Hc Hn Hb V' E' Hn') as [R1 R2].
  split; [exact V'|]. exists (rd (a + b)). split; [apply (isF_add prec emax); assumption|exact R2].
Qed.
Lemma ap_sub k c1 n1 c2 n2 n x y v w : ap k c1 n1 x v -> ap k c2 n2 y w -> (k <= 3)%nat -> 0 <= c1 + c2 -> 0 <= n1 + n2 ->
  (c1 + c2) + (n1 + n2) * q <= 128 -> (n1 + n2) + (c1 + c2) + (n1 + n2) * q + q <= n ->
  ap k (c1 + c2) n (@nsub _ FN x y) (v - w).
Proof.
  intros Hx Hy Hk Hc Hn Hb Hn'. destruct (ap_val _ _ _ _ _ Hx) as (a & Ha & V & E & _). destruct (ap_val _ _ _ _ _ Hy) as (b & Hb' & W & F & _).
  assert (V' : Rabs (v - w) <= (c1 + c2) * M ^ k) by (unfold Rminus; eapply Rle_trans; [apply Rabs_triang|]; rewrite Rabs_Ropp; lra).
  assert (E' : Rabs (a - b - (v - w)) <= (n1 + n2) * u * M ^ k).
  { replace (a - b - (v - w)) with ((a - v) + - (b - w)) by ring. eapply Rle_trans; [apply Rabs_triang|]. rewrite Rabs_Ropp. lra. }
  destruct (round_step k (c1 + c2) (n1 + n2) n (a - b) (v - w) Hk Hc Hn Hb V' E' Hn') as [R1 R2].
  split; [exact V'|]. exists (rd (a - b)). split; [apply (isF_sub prec emax); assumption|exact R2].
Qed.
Lemma ap_mul j k c1 n1 c2 n2 n x y v w : ap j c1 n1 x v -> ap k c2 n2 y w -> (j + k <= 3)%nat -> 0 <= c1 -> 0 <= c2 -> 0 <= n1 -> 0 <= n2 ->
  c1 * c2 + (c1 * n2 + c2 * n1 + n1 * n2 * q) * q <= 128 ->
  (c1 * n2 + c2 * n1 + n1 * n2 * q) + c1 * c2 + (c1 * n2 + c2 * n1 + n1 * n2 * q) * q + q <= n ->
  ap (j + k) (c1 * c2) n (@nmul _ FN x y) (v * w).
Proof.
  intros Hx Hy Hk C1 C2 N1 N2 Hb Hn'. destruct (ap_val _ _ _ _ _ Hx) as (a & Ha & V & E & _). destruct (ap_val _ _ _ _ _ Hy) as (b & Hb' & W & F & _).
  pose proof (Mk_pos j) as Pj. pose proof (Mk_pos k) as Pk. pose proof u_pos as U0. pose proof u_small as U1.
  assert (V' : Rabs (v * w) <= c1 * c2 * M ^ (j + k)).
  { rewrite Rabs_mult, pow_add. replace (c1 * c2 * (M ^ j * M ^ k)) with ((c1 * M ^ j) * (c2 * M ^ k)) by ring.
    apply Rmult_le_compat; try apply Rabs_pos; assumption. }
  assert (E' : Rabs (a * b - v * w) <= (c1 * n2 + c2 * n1 + n1 * n2 * q) * u * M ^ (j + k)).
  { replace (a * b - v * w) with ((a - v) * (b - w) + ((a - v) * w + v * (b - w))) by ring.
    eapply Rle_trans; [apply Rabs_triang|]. eapply Rle_trans; [apply Rplus_le_compat_l, Rabs_triang|]. rewrite !Rabs_mult.
    pose proof (Rmult_le_compat _ _ _ _ (Rabs_pos _) (Rabs_pos _) E F) as X1.
    pose proof (Rmult_le_compat _ _ _ _ (Rabs_pos _) (Rabs_pos _) E W) as X2.
    pose proof (Rmult_le_compat _ _ _ _ (Rabs_pos _) (Rabs_pos _) V F) as X3.
    rewrite pow_add. set (m := M ^ j) in *. set (m' := M ^ k) in *.
    assert (X4 : n1 * u * m * (n2 * u * m') <= n1 * n2 * q * (u * (m * m'))).
    { replace (n1 * u * m * (n2 * u * m')) with (u * (n1 * n2 * (u * (m * m')))) by ring.
      replace (n1 * n2 * q * (u * (m * m'))) with (q * (n1 * n2 * (u * (m * m')))) by ring.
      apply Rmult_le_compat_r; [|exact U1]. apply Rmult_le_pos; [apply Rmult_le_pos; assumption|].
      apply Rmult_le_pos; [lra|]. apply Rmult_le_pos; lra. }
    replace ((c1 * n2 + c2 * n1 + n1 * n2 * q) * u * (m * m'))
      with (n1 * n2 * q * (u * (m * m')) + (n1 * u * m * (c2 * m') + c1 * m * (n2 * u * m'))) by ring. lra. }
  assert (H0 : 0 <= c1 * n2 + c2 * n1 + n1 * n2 * q).
  { assert (0 <= c1 * n2) by (apply Rmult_le_pos; assumption). assert (0 <= c2 * n1) by (apply Rmult_le_pos; assumption).
    assert (0 <= n1 * n2) by (apply Rmult_le_pos; assumption). lra. }
  destruct (round_step (j + k) (c1 * c2) _ n (a * b) (v * w) Hk ltac:(apply Rmult_le_pos; assumption) H0 Hb V' E' Hn') as [R1 R2].
  split; [exact V'|]. exists (rd (a * b)). split; [apply (isF_mul prec emax); assumption|exact R2].
Qed.

(** Vectors. *)
Definition vap (k : nat) (c n : R) (x : vec spec_float) (v : vec R) : Prop :=
  ap k c n (vx x) (vx v) /\ ap k c n (vy x) (vy v) /\ ap k c n (vz x) (vz v).
Lemma vap_exact k c x v : visF prec emax x v -> Rabs (vx v) <= c * M ^ k -> Rabs (vy v) <= c * M ^ k -> Rabs (vz v) <= c * M ^ k ->
  vap k c 0 x v.
Proof. intros (H1 & H2 & H3) A B C. split; [|split]; apply ap_exact; assumption. Qed.
Lemma vap_sub k c1 n1 c2 n2 n x y v w : vap k c1 n1 x v -> vap k c2 n2 y w -> (k <= 3)%nat -> 0 <= c1 + c2 -> 0 <= n1 + n2 ->
  (c1 + c2) + (n1 + n2) * q <= 128 -> (n1 + n2) + (c1 + c2) + (n1 + n2) * q + q <= n ->
  vap k (c1 + c2) n (@vsub _ FN x y) (rv_sub v w).
Proof. intros (X1 & X2 & X3) (Y1 & Y2 & Y3) **. split; [|split]; cbn [vsub vmap2 rv_sub vx vy vz]; eapply ap_sub; eassumption. Qed.
(** [pc], [pn] for the products, then [n]. *)
Lemma vap_cross j k c1 n1 c2 n2 pn n x y v w : vap j c1 n1 x v -> vap k c2 n2 y w -> (j + k <= 3)%nat -> 0 <= c1 -> 0 <= c2 -> 0 <= n1 -> 0 <= n2 ->
  c1 * c2 + (c1 * n2 + c2 * n1 + n1 * n2 * q) * q <= 128 ->
  (c1 * n2 + c2 * n1 + n1 * n2 * q) + c1 * c2 + (c1 * n2 + c2 * n1 + n1 * n2 * q) * q + q <= pn ->
  0 <= pn + pn -> (c1 * c2 + c1 * c2) + (pn + pn) * q <= 128 -> (pn + pn) + (c1 * c2 + c1 * c2) + (pn + pn) * q + q <= n ->
  vap (j + k) (c1 * c2 + c1 * c2) n (@cross _ FN x y) (rv_cross v w).
Proof.
  intros (X1 & X2 & X3) (Y1 & Y2 & Y3) Hk C1 C2 N1 N2 Hb Hn P0 Pb Pn.
  assert (C0 : 0 <= c1 * c2 + c1 * c2) by (assert (0 <= c1 * c2) by (apply Rmult_le_pos; assumption); lra).
  unfold vap, cross, rv_cross. cbn [vx vy vz].
  split; [|split]; (apply ap_sub with (n1 := pn) (n2 := pn); [eapply ap_mul; eassumption|eapply ap_mul; eassumption|assumption..]).
Qed.
Lemma ap_dot j k c1 n1 c2 n2 pn sn n x y v w : vap j c1 n1 x v -> vap k c2 n2 y w -> (j + k <= 3)%nat -> 0 <= c1 -> 0 <= c2 -> 0 <= n1 -> 0 <= n2 ->
  c1 * c2 + (c1 * n2 + c2 * n1 + n1 * n2 * q) * q <= 128 ->
  (c1 * n2 + c2 * n1 + n1 * n2 * q) + c1 * c2 + (c1 * n2 + c2 * n1 + n1 * n2 * q) * q + q <= pn ->
  0 <= pn + pn -> (c1 * c2 + c1 * c2) + (pn + pn) * q <= 128 -> (pn + pn) + (c1 * c2 + c1 * c2) + (pn + pn) * q + q <= sn ->
  0 <= sn + pn -> (c1 * c2 + c1 * c2 + c1 * c2) + (sn + pn) * q <= 128 ->
  (sn + pn) + (c1 * c2 + c1 * c2 + c1 * c2) + (sn + pn) * q + q <= n ->
  ap (j + k) (c1 * c2 + c1 * c2 + c1 * c2) n (@dot _ FN x y) (rv_dot v w).
Proof.
  intros (X1 & X2 & X3) (Y1 & Y2 & Y3) Hk C1 C2 N1 N2 Hb Hn P0 Pb Pn S0 Sb Sn.
  assert (C0 : 0 <= c1 * c2) by (apply Rmult_le_pos; assumption).
  unfold dot, rv_dot. apply ap_add with (n1 := sn) (n2 := pn); try assumption; try lra.
  - apply ap_add with (n1 := pn) (n2 := pn); try assumption; try lra; eapply ap_mul; eassumption.
  - eapply ap_mul; eassumption.
Qed.
End F.
