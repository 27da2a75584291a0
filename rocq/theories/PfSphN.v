(** Normals of spheres in IEEE arithmetic. *)

From Coq Require Import Reals ZArith Bool Lra Lia Floats.SpecFloat.
From Flocq Require Import Core IEEE754.BinarySingleNaN.
From Verif Require Import Num NumR NumF Vec SpecReal SpecIEEE SpecTriF SpecSphF PfIEEE PfIEEE2 PfIEEE3 PfTriF PfDirF PfX PfSphF.
Local Open Scope R_scope.

(** Unit vectors along close vectors are close. *)
Lemma unit_close a w e m : 0 < rv_norm w -> 0 < rv_norm a -> coords e (rv_sub a w) -> rv_norm (rv_sub a w) <= m ->
  coords ((e + m) / rv_norm w) (rv_sub (unit_of a) (unit_of w)).
Proof.
  intros Hw Ha (E1 & E2 & E3) Hm. pose proof (norm_sub_le a w) as N1. pose proof (norm_sub_le w a) as N2. rewrite norm_sub_sym in N2.
  destruct (comp_norm a) as (A1 & A2 & A3). set (L := rv_norm w) in *. set (K := rv_norm a) in *.
  assert (G : forall x y, Rabs (x - y) <= e -> Rabs x <= K -> Rabs (/ K * x - / L * y) <= (e + m) / L).
  { intros x y Hxy Hx. assert (I : 0 < / L) by (apply Rinv_0_lt_compat; lra). assert (J : 0 < / K) by (apply Rinv_0_lt_compat; lra).
    replace (/ K * x - / L * y) with ((x - y) * / L + x * / K * ((L - K) * / L)) by (field; lra).
    eapply Rle_trans; [apply Rabs_triang|]. rewrite !Rabs_mult, (Rabs_pos_eq (/ L)), (Rabs_pos_eq (/ K)) by lra.
    unfold Rdiv. rewrite Rmult_plus_distr_r. apply Rplus_le_compat; [apply Rmult_le_compat_r; lra|].
    assert (X : Rabs x * / K <= 1) by (apply Rmult_le_reg_r with K; [lra|]; rewrite Rmult_assoc, Rinv_l; lra).
    assert (Y : Rabs (L - K) <= m) by (apply Rabs_le; lra).
    rewrite <- (Rmult_1_l (m * / L)). apply Rmult_le_compat; [apply Rmult_le_pos; [apply Rabs_pos|lra]|apply Rmult_le_pos; [apply Rabs_pos|lra]|exact X|].
    apply Rmult_le_compat_r; lra. }
  unfold coords, unit_of, rv_scale, rv_sub in *. cbn [vx vy vz] in *. fold L K. split; [|split]; apply G; assumption.
Qed.

Section F.
Variables prec emax : Z.
Context {Hprec : Prec_gt_0 prec} {Hmax : Prec_lt_emax prec emax}.
Notation FN := (Fnum prec emax).
Notation isf := (isF prec emax).
Notation u := (ulpf prec).
Notation q := (/ 1000000).
Hypothesis Hfmt : usual_format prec emax.
Variable M : R.
Hypothesis HM : scale_ok prec emax M.
Notation ap := (ap prec emax M).

Lemma normal_F o d c fx O U C r x : visF prec emax o O -> near_dir prec emax d U -> visF prec emax c C -> isf fx x ->
  coords M C -> rv_norm (rv_sub O C) <= M -> 0 <= x <= 2.2 * M -> 0 <= r <= M -> large prec M r ->
  Rabs (power C r (at_t O U x)) <= power_err prec M ->
  normal_near prec emax M C r (at_t O U x) (@normalize _ FN (@vsub _ FN (@vadd _ FN o (@vscale _ FN fx d)) c)).
Proof.
  intros (O1 & O2 & O3) ((U1 & U2 & U3) & D & (D1 & D2 & D3) & E1 & E2 & E3) (C1 & C2 & C3) Hx (K1 & K2 & K3) Hn Hxm Hr (Hl1 & Hl2) Hp.
  pose proof (u_pos prec) as U0. pose proof (u_small prec emax Hfmt) as Us. assert (V1 : 1 <= M) by apply HM.
  destruct (comp_norm (rv_sub O C)) as (N1 & N2 & N3).
  assert (G : forall fo oi fd di ui fc ci, isf fo oi -> isf fd di -> isf fc ci -> Rabs ui <= 1 -> Rabs (di - ui) <= 5 * u -> Rabs ci <= M -> Rabs (oi - ci) <= M ->
    exists a, isf (@nsub _ FN (@nadd _ FN fo (@nmul _ FN fx fd)) fc) a /\ Rabs (a - (oi + x * ui - ci)) <= 23 * (u * M)).
  { intros fo oi fd di ui fc ci Ho Hd Hc Hu Hdu Hci Hoi.
    assert (P1 : ap 1 2 0 fo oi) by (apply ap_exact; [exact Ho|]; rewrite pow_1; apply Rabs_le_inv in Hci, Hoi; apply Rabs_le; lra).
    assert (P2 : ap 1 2.2 0 fx x) by (apply ap_exact; [exact Hx|]; rewrite pow_1; apply Rabs_le; lra).
    assert (P3 : ap 0 1 5 fd ui) by (split; [rewrite pow_O; lra|]; exists di; split; [exact Hd|rewrite pow_O; lra]).
    assert (P4 : ap 1 1 0 fc ci) by (apply ap_exact; [exact Hc|]; rewrite pow_1; lra).
    pose proof (ap_mul prec emax Hfmt M HM 1 0 _ _ _ _ 13.3 _ _ _ _ P2 P3 ltac:(lia) ltac:(lra) ltac:(lra) ltac:(lra) ltac:(lra) ltac:(lra) ltac:(lra)) as P5.
    pose proof (ap_add prec emax Hfmt M HM 1 _ _ _ _ 17.6 _ _ _ _ P1 P5 ltac:(lia) ltac:(lra) ltac:(lra) ltac:(lra) ltac:(lra)) as P6.
    pose proof (ap_sub prec emax Hfmt M HM 1 _ _ _ _ 23 _ _ _ _ P6 P4 ltac:(lia) ltac:(lra) ltac:(lra) ltac:(lra) ltac:(lra)) as [_ (a & Ha & E)].
    exists a. split; [exact Ha|]. rewrite pow_1 in E. lra. }
  destruct (G _ _ _ _ _ _ _ O1 D1 C1 U1 E1 K1 (Rle_trans _ _ _ N1 Hn)) as (a1 & A1 & B1).
  destruct (G _ _ _ _ _ _ _ O2 D2 C2 U2 E2 K2 (Rle_trans _ _ _ N2 Hn)) as (a2 & A2 & B2).
  destruct (G _ _ _ _ _ _ _ O3 D3 C3 U3 E3 K3 (Rle_trans _ _ _ N3 Hn)) as (a3 & A3 & B3).
  set (w := rv_sub (at_t O U x) C). set (a := V a1 a2 a3).
  assert (Cw : coords (23 * (u * M)) (rv_sub a w)) by (unfold coords, w, a, at_t, rv_add, rv_scale, rv_sub; cbn [vx vy vz]; auto).
  assert (W1 : 0 < u * M) by (apply Rmult_lt_0_compat; lra).
  assert (Nw : rv_norm (rv_sub a w) <= 39.9 * (u * M)) by (destruct Cw as (Q1 & Q2 & Q3); pose proof (norm_const (23 * (u * M)) _ ltac:(lra) Q1 Q2 Q3); lra).
  assert (Ew : rv_norm w * rv_norm w = power C r (at_t O U x) + r * r) by (rewrite rv_norm_sq; unfold power, w; ring).
  apply Rabs_le_inv in Hp. unfold power_err in Hp.
  assert (Rm : 32000 * (u * M) <= r).
  { apply sq_le_abs; [lra|]. replace (32000 * (u * M) * (32000 * (u * M))) with (1024 * (1000000 * u) * (u * M ^ 2)) by ring.
    assert (0 <= u * M ^ 2) by (apply Rmult_le_pos; [lra|apply pow_le; lra]).
    apply Rle_trans with (1024 * 1 * (u * M ^ 2)); [|lra]. apply Rmult_le_compat_r; [assumption|]. lra. }
  pose proof (rv_norm_nonneg w) as W0.
  assert (Lw : 0.86 * r <= rv_norm w) by (apply sq_le_abs; [exact W0|]; nra).
  assert (Hw : rv_norm w <= 1.2 * r) by (apply sq_le_abs; [lra|]; nra).
  pose proof (norm_sub_le a w) as Na. pose proof (norm_sub_le w a) as Na'. rewrite norm_sub_sym in Na'.
  assert (La : 0 < rv_norm a) by lra.
  assert (uM : u <= u * M) by (rewrite <- (Rmult_1_r u) at 1; apply Rmult_le_compat_l; lra).
  assert (Mu : 4 * M <= / u).
  { apply Rmult_le_reg_l with u; [exact U0|]. rewrite Rinv_r by lra. lra. }
  pose proof (unit_close a w _ _ ltac:(lra) La Cw Nw) as (Q1 & Q2 & Q3).
  assert (B : (23 * (u * M) + 39.9 * (u * M)) / rv_norm w + 5 * u <= 80 * (u * M / r)).
  { assert (R0 : 0 < r) by lra. apply Rle_trans with (74 * (u * M / r) + 5 * (u * M / r)); [apply Rplus_le_compat|].
    - apply Rmult_le_reg_r with (rv_norm w); [lra|]. assert (Z : u * M / r * r = u * M) by (field; lra).
      unfold Rdiv at 1. rewrite Rmult_assoc, Rinv_l, Rmult_1_r by lra.
      apply Rle_trans with (74 * (u * M / r) * (0.86 * r)).
      + lra.
      + apply Rmult_le_compat_l; [|exact Lw]. apply Rmult_le_pos; [lra|]. apply Rlt_le, Rdiv_lt_0_compat; lra.
    - apply Rmult_le_compat_l; [lra|]. apply Rmult_le_reg_r with r; [lra|]. replace (u * M / r * r) with (u * M) by (field; lra). apply Rmult_le_compat_l; lra.
    - assert (0 < u * M / r) by (apply Rdiv_lt_0_compat; lra). lra. }
  assert (Hv : visF prec emax (@vsub _ FN (@vadd _ FN o (@vscale _ FN fx d)) c) a) by (split; [|split]; cbn [vsub vadd vscale vmap vmap2 vx vy vz a]; assumption).
  destruct (normalize_near prec emax Hfmt _ _ Hv ltac:(lra)) as (_ & n & Hn' & X1 & X2 & X3).
  exists n. split; [exact Hn'|]. fold w. unfold rv_sub in *. cbn [vx vy vz] in *.
  assert (T : forall p b z e1 e2 e3, Rabs (p - b) <= e1 -> Rabs (b - z) <= e2 -> e2 + e1 <= e3 -> Rabs (p - z) <= e3).
  { intros p b z e1 e2 e3 X Y Z. apply Rabs_le_inv in X, Y. apply Rabs_le. lra. }
  unfold coords. cbn [vx vy vz]. split; [|split]; (eapply T; [eassumption|eassumption|exact B]).
Qed.
End F.
