(** Normalising a direction in IEEE arithmetic. *)

From Coq Require Import Reals ZArith Bool Lra Lia Psatz Floats.SpecFloat.
From Flocq Require Import Core IEEE754.BinarySingleNaN.
From Verif Require Import Num NumR NumF Vec SpecReal SpecIEEE SpecTriF PfIEEE PfIEEE2 PfIEEE3 PfTriF.
Local Open Scope R_scope.

Section F.
Variables prec emax : Z.
Context {Hprec : Prec_gt_0 prec} {Hmax : Prec_lt_emax prec emax}.
Notation FN := (Fnum prec emax).
Notation isf := (isF prec emax).
Notation rd := (rnd prec emax).
Notation u := (ulpf prec).

Lemma isF_sqrt x a : isf x a -> 0 <= a -> isf (@nsqrt _ FN x) (rd (sqrt a)).
Proof.
  intros Hx Ha. apply isF_B in Hx as (bx & -> & Fx & <-).
  cbn [nsqrt Fnum]. rewrite (sqrt_eq prec emax). pose proof (Bsqrt_correct prec emax _ _ mode_NE bx) as (C1 & C2 & _).
  unfold rnd. cbn [round_mode] in C1. rewrite <- C1. apply B_isF. rewrite C2.
  destruct bx as [s|s| |s m e Hb]; try discriminate Fx; try reflexivity. destruct s; [|reflexivity]. exfalso.
  cbn [B2R cond_Zopp] in Ha. pose proof (F2R_lt_0 radix2 (Float radix2 (Zneg m) e) ltac:(cbn; lia)) as N. cbn [Z.opp] in Ha. lra.
Qed.

Hypothesis Hfmt : usual_format prec emax.
Lemma top_u : / u * / u * 1000000 <= top emax.
Proof.
  assert (E : / u = bpow radix2 prec) by (unfold ulpf; rewrite bpow_opp, Rinv_inv; reflexivity). rewrite E.
  apply Rle_trans with (bpow radix2 prec * bpow radix2 prec * bpow radix2 20).
  - apply Rmult_le_compat_l; [apply Rmult_le_pos; apply bpow_ge_0|]. cbn. lra.
  - rewrite <- !bpow_plus. apply bpow_le. destruct Hfmt. lia.
Qed.
Lemma low_u : least emax <= u.
Proof. unfold least, ulpf. apply bpow_le. destruct Hfmt. lia. Qed.

Notation low0 := (least emax).
Notation hi0 := (top emax).
Notation q := (/ 1000000).
Lemma low_pos : 0 < low0. Proof. apply bpow_gt_0. Qed.
Lemma rd_low x : Rabs (rd x - x) <= u * Rabs x + 2 * low0.
Proof.
  pose proof (u_pos prec). pose proof low_pos. pose proof (Rabs_pos x).
  destruct (Rle_lt_dec low0 (Rabs x)) as [L|L].
  - pose proof (rd_rel prec emax x L). lra.
  - assert (R : Rabs (rd x) <= low0).
    { assert (E : rd low0 = low0) by (apply (rd_bpow prec emax); unfold Prec_gt_0 in Hprec; lia).
      apply Rabs_le. apply Rabs_lt_inv in L. split.
      - rewrite <- E, <- (rd_opp prec emax). apply (rd_mono prec emax). lra.
      - rewrite <- E. apply (rd_mono prec emax). lra. }
    pose proof (Rabs_triang (rd x) (- x)) as T. rewrite Rabs_Ropp in T. unfold Rminus.
    assert (0 <= u * Rabs x) by (apply Rmult_le_pos; lra). lra.
Qed.
Lemma low_uuu : 2 * least emax <= / 1000000 * u * (4096 * u * (4096 * u)).
Proof.
  assert (E : least emax <= 4 * (u * u * u)).
  { replace 4 with (bpow radix2 2) by (cbn; lra). unfold least, ulpf. rewrite <- !bpow_plus. apply bpow_le. destruct Hfmt. lia. }
  pose proof (u_pos prec) as U0. assert (0 < u * u * u) by (repeat apply Rmult_lt_0_compat; assumption). lra.
Qed.

Lemma normalize_near d D : visF prec emax d D -> 4096 * u <= rv_norm D <= / u -> near_dir prec emax (@normalize _ FN d) (unit_of D).
Proof.
  intros (H1 & H2 & H3) [HL HH]. set (L := rv_norm D) in *.
  pose proof (u_pos prec) as U0. pose proof (u_small prec emax Hfmt) as U1. pose proof top_u as Ht. pose proof low_u as Hl.
  assert (U2 : 1000000 <= / u). { rewrite <- (Rinv_inv 1000000). apply Rinv_le_contravar; lra. }
  assert (L0 : 0 < L) by lra.
  assert (LL : vx D * vx D + vy D * vy D + vz D * vz D = L * L).
  { unfold L, rv_norm. rewrite sqrt_sqrt; [reflexivity|]. unfold rv_dot. pose proof (Rle_0_sqr (vx D)). pose proof (Rle_0_sqr (vy D)). pose proof (Rle_0_sqr (vz D)). unfold Rsqr in *. lra. }
  assert (L1 : 4096 * u * (4096 * u) <= L * L) by (apply Rmult_le_compat; lra).
  assert (L3 : 0 < L * L) by (apply Rmult_lt_0_compat; lra).
  assert (L2 : L * L <= / u * / u) by (apply Rmult_le_compat; lra).
  pose proof (Rle_0_sqr (vx D)) as X0. pose proof (Rle_0_sqr (vy D)) as Y0. pose proof (Rle_0_sqr (vz D)) as Z0. unfold Rsqr in *.
  assert (ST : forall a, Rabs a <= 1.1 * (L * L) -> Rabs (rd a) < top emax /\ Rabs (rd a - a) <= u * Rabs a + / 1000000 * u * (1.1 * (L * L))).
  { intros a Ha. pose proof (rd_abs prec emax Hfmt a) as E. pose proof (rd_low a) as E'. split.
    - pose proof (Rabs_triang (rd a - a) a) as Q. replace (rd a - a + a) with (rd a) in Q by ring. pose proof (Rabs_pos a).
      assert (u * Rabs a <= / 1000000 * Rabs a) by (apply Rmult_le_compat_r; lra). assert (1000000 * 1000000 <= / u * / u) by (apply Rmult_le_compat; lra). lra.
    - pose proof low_uuu as LU. assert (/ 1000000 * u * (4096 * u * (4096 * u)) <= / 1000000 * u * (L * L)) by (apply Rmult_le_compat_l; lra).
      assert (0 <= / 1000000 * u * (L * L)) by (apply Rmult_le_pos; [|apply Rmult_le_pos]; lra). lra. }
  assert (MU : forall x a, isf x a -> a * a <= L * L -> exists p, isf (@nmul _ FN x x) p /\ Rabs (p - a * a) <= u * (a * a) + / 1000000 * u * (1.1 * (L * L))).
  { intros x a Hx Ha. pose proof (Rle_0_sqr a) as A0. unfold Rsqr in A0. destruct (ST (a * a)) as [S1 S2]; [rewrite Rabs_pos_eq; lra|].
    exists (rd (a * a)). split; [apply (isF_mul prec emax); assumption|]. rewrite (Rabs_pos_eq (a * a)) in S2 by lra. exact S2. }
  destruct (MU _ _ H1 ltac:(lra)) as (p1 & I1 & E1). destruct (MU _ _ H2 ltac:(lra)) as (p2 & I2 & E2). destruct (MU _ _ H3 ltac:(lra)) as (p3 & I3 & E3).
  apply Rabs_le_inv in E1. apply Rabs_le_inv in E2. apply Rabs_le_inv in E3.
  assert (V1 : u * (L * L) <= / 1000000 * (L * L)) by (apply Rmult_le_compat_r; lra).
  assert (V2 : 0 < u * (L * L)) by (apply Rmult_lt_0_compat; lra).
  assert (VX : u * (vx D * vx D) <= / 1000000 * (vx D * vx D)) by (apply Rmult_le_compat_r; lra).
  assert (VY : u * (vy D * vy D) <= / 1000000 * (vy D * vy D)) by (apply Rmult_le_compat_r; lra).
  assert (VZ : u * (vz D * vz D) <= / 1000000 * (vz D * vz D)) by (apply Rmult_le_compat_r; lra).
  assert (WL : u * (u * (L * L)) <= / 1000000 * (u * (L * L))) by (apply Rmult_le_compat_r; lra).
  destruct (ST (p1 + p2)) as [A1 A2]; [apply Rabs_le; lra|].
  assert (I12 := isF_add prec emax _ _ _ _ I1 I2 A1). set (s1 := rd (p1 + p2)) in *.
  assert (B12 : Rabs (p1 + p2) <= (1 + 3 * / 1000000) * (L * L)) by (apply Rabs_le; lra).
  assert (C12 : Rabs (p1 + p2) <= vx D * vx D + vy D * vy D + 2 * (u * (L * L))).
  { apply Rabs_le. assert (u * (vx D * vx D) + u * (vy D * vy D) <= u * (L * L)) by (rewrite <- Rmult_plus_distr_l; apply Rmult_le_compat_l; lra).
    assert (0 <= u * (vx D * vx D)) by (apply Rmult_le_pos; lra). assert (0 <= u * (vy D * vy D)) by (apply Rmult_le_pos; lra). split; lra. }
  assert (A3 : Rabs (s1 - (p1 + p2)) <= u * (vx D * vx D + vy D * vy D) + 0.00001 * (u * (L * L))).
  { eapply Rle_trans; [exact A2|]. assert (u * Rabs (p1 + p2) <= u * (vx D * vx D + vy D * vy D + 2 * (u * (L * L)))) by (apply Rmult_le_compat_l; lra). lra. }
  apply Rabs_le_inv in A3.
  assert (UX : 0 <= u * (vx D * vx D)) by (apply Rmult_le_pos; lra).
  assert (UY : 0 <= u * (vy D * vy D)) by (apply Rmult_le_pos; lra).
  assert (UZ : 0 <= u * (vz D * vz D)) by (apply Rmult_le_pos; lra).
  assert (UL : u * (vx D * vx D) + u * (vy D * vy D) + u * (vz D * vz D) = u * (L * L)) by (rewrite <- LL; ring).
  destruct (ST (s1 + p3)) as [G1 G2]; [apply Rabs_le; lra|].
  assert (I123 := isF_add prec emax _ _ _ _ I12 I3 G1). set (s2 := rd (s1 + p3)) in *.
  assert (C3 : Rabs (s1 + p3) <= L * L + 5 * (u * (L * L))) by (apply Rabs_le; split; lra).
  assert (G3 : Rabs (s2 - (s1 + p3)) <= 1.0001 * (u * (L * L))).
  { eapply Rle_trans; [exact G2|]. assert (u * Rabs (s1 + p3) <= u * (L * L + 5 * (u * (L * L)))) by (apply Rmult_le_compat_l; lra). lra. }
  apply Rabs_le_inv in G3.
  assert (S2 : Rabs (s2 - L * L) <= 3.01 * (u * (L * L))) by (apply Rabs_le; split; lra).
  apply Rabs_le_inv in S2. assert (S0 : 0 <= s2) by lra.
  pose proof (isF_sqrt _ _ I123 S0) as Isq.
  assert (Q1 : sqrt s2 <= L * (1 + 1.51 * u)).
  { rewrite <- (sqrt_Rsqr (L * (1 + 1.51 * u))) by (apply Rmult_le_pos; lra). apply sqrt_le_1_alt. unfold Rsqr.
    apply Rle_trans with (L * L + 3.01 * (u * (L * L))); [lra|]. replace (L * (1 + 1.51 * u) * (L * (1 + 1.51 * u))) with (L * L + 2 * 1.51 * (u * (L * L)) + 1.51 * 1.51 * (u * (u * (L * L)))) by ring.
    assert (0 <= u * (u * (L * L))) by (apply Rmult_le_pos; lra). lra. }
  assert (Q2 : L * (1 - 1.51 * u) <= sqrt s2).
  { rewrite <- (sqrt_Rsqr (L * (1 - 1.51 * u))) by (apply Rmult_le_pos; lra). apply sqrt_le_1_alt. unfold Rsqr.
    apply Rle_trans with (L * L - 3.01 * (u * (L * L))); [|lra]. replace (L * (1 - 1.51 * u) * (L * (1 - 1.51 * u))) with (L * L - 2 * 1.51 * (u * (L * L)) + 1.51 * 1.51 * (u * (u * (L * L)))) by ring. lra. }
  assert (UL1 : u * L <= / 1000000 * L) by (apply Rmult_le_compat_r; lra).
  assert (UL0 : 0 < u * L) by (apply Rmult_lt_0_compat; lra).
  assert (UUL : u * (u * L) <= / 1000000 * (u * L)) by (apply Rmult_le_compat_r; lra).
  pose proof (rd_rel prec emax (sqrt s2)) as R. rewrite Rabs_pos_eq in R by lra. specialize (R ltac:(lra)). apply Rabs_le_inv in R.
  assert (R' : u * sqrt s2 <= u * (L * (1 + 1.51 * u))) by (apply Rmult_le_compat_l; lra).
  set (n := rd (sqrt s2)) in *.
  assert (N1 : Rabs (n - L) <= 2.52 * (u * L)) by (apply Rabs_le; split; lra).
  assert (N0 : 0 < n) by (apply Rabs_le_inv in N1; lra).
  assert (Hc : forall x a, isf x a -> a * a <= L * L -> exists b, isf (@ndiv _ FN x (@norm _ FN d)) b /\ Rabs (b - a / L) <= 5 * u /\ Rabs (a / L) <= 1).
  { intros x a Hx Ha.
    assert (Aa : Rabs a <= L). { rewrite <- (Rabs_pos_eq L) by lra. apply Rsqr_le_abs_0. exact Ha. }
    assert (Al : Rabs (a / L) <= 1).
    { unfold Rdiv. rewrite Rabs_mult, (Rabs_pos_eq (/ L)) by (apply Rlt_le, Rinv_0_lt_compat; lra). apply Rmult_le_reg_r with L; [lra|]. rewrite Rmult_assoc, Rinv_l; lra. }
    assert (E : Rabs (a / n - a / L) <= 2.53 * u).
    { replace (a / n - a / L) with ((a / L) * ((L - n) / n)) by (field; lra). rewrite Rabs_mult.
      replace (2.53 * u) with (1 * (2.53 * u)) by ring. apply Rmult_le_compat; try apply Rabs_pos; [exact Al|].
      unfold Rdiv. rewrite Rabs_mult, (Rabs_pos_eq (/ n)) by (apply Rlt_le, Rinv_0_lt_compat; lra). apply Rmult_le_reg_r with n; [lra|].
      rewrite Rmult_assoc, Rinv_l by lra. rewrite Rabs_minus_sym, Rmult_1_r. apply Rle_trans with (2.52 * (u * L)); [exact N1|].
      apply Rabs_le_inv in N1. assert (u * (L * (1 - 3 * / 1000000)) <= u * n) by (apply Rmult_le_compat_l; lra). lra. }
    assert (E' : Rabs (a / n) <= 1.1).
    { pose proof (Rabs_triang (a / n - a / L) (a / L)) as Q. replace (a / n - a / L + a / L) with (a / n) in Q by ring. lra. }
    pose proof (rd_abs prec emax Hfmt (a / n)) as F.
    exists (rd (a / n)). split.
    - apply (isF_div prec emax); [exact Hx|exact Isq|lra|]. pose proof (Rabs_triang (rd (a / n) - a / n) (a / n)) as Q.
      replace (rd (a / n) - a / n + a / n) with (rd (a / n)) in Q by ring.
      assert (u * Rabs (a / n) <= u * 1.1) by (apply Rmult_le_compat_l; lra). pose proof (hi0_big prec emax (p6 prec emax Hfmt)). lra.
    - split; [|exact Al]. pose proof (Rabs_triang (rd (a / n) - a / n) (a / n - a / L)) as Q.
      replace (rd (a / n) - a / n + (a / n - a / L)) with (rd (a / n) - a / L) in Q by ring.
      assert (u * Rabs (a / n) <= u * 1.1) by (apply Rmult_le_compat_l; lra). lra. }
  destruct (Hc _ _ H1 ltac:(lra)) as (b1 & J1 & K1 & M1). destruct (Hc _ _ H2 ltac:(lra)) as (b2 & J2 & K2 & M2). destruct (Hc _ _ H3 ltac:(lra)) as (b3 & J3 & K3 & M3).
  assert (EU : unit_of D = V (vx D / L) (vy D / L) (vz D / L)).
  { unfold unit_of, rv_scale. fold L. f_equal; field; lra. }
  rewrite EU. split; [repeat split; assumption|]. exists (V b1 b2 b3). split.
  - unfold normalize, vdivs. split; [|split]; cbn [vmap vx vy vz]; assumption.
  - repeat split; cbn [rv_sub vx vy vz]; assumption.
Qed.
End F.
