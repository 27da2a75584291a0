(** A ray through a patch meets its box even if the box is a little too small (over the reals). *)

From Coq Require Import Reals Lra Lia Psatz.
From Flocq Require Import Core.
From Verif Require Import Num Vec SpecReal SpecIEEE SpecPlane SpecPlaneF.
From Verif Require Import PfX PfSphF PfPlane PfPlaneF3.
Local Open Scope R_scope.

Section Axis.
Variables (low high C wx wy wz hx hy lx ly e r k : R).
Notation s := (Rabs wx + Rabs wy).
Notation P := (C + (wx * lx + wy * ly)).
Hypothesis Hlow : low <= C - (Rabs wx * hx + Rabs wy * hy) + 19 * e.
Hypothesis Hhigh : C + (Rabs wx * hx + Rabs wy * hy) - 19 * e <= high.
Hypothesis Hmid : low <= C <= high.
Hypothesis Hx : Rabs lx + 256 * r <= hx.
Hypothesis Hy : Rabs ly + 256 * r <= hy.
Hypothesis Hr : 0 < r.
Hypothesis He : e = r * k.
Hypothesis Hk : 0 < k <= 1.

Lemma axis_reach : Rabs (wx * lx + wy * ly) <= Rabs wx * hx + Rabs wy * hy - 256 * r * s.
Proof.
  eapply Rle_trans; [apply Rabs_triang|]. rewrite !Rabs_mult.
  assert (Rabs wx * Rabs lx <= Rabs wx * (hx - 256 * r)) by (apply Rmult_le_compat_l; [apply Rabs_pos|lra]).
  assert (Rabs wy * Rabs ly <= Rabs wy * (hy - 256 * r)) by (apply Rmult_le_compat_l; [apply Rabs_pos|lra]). lra.
Qed.
Lemma axis_inside g : Rabs g <= 256 * r * s - 19 * e -> low <= P + g <= high.
Proof. intros H. pose proof axis_reach as A. apply Rabs_le_inv in H. apply Rabs_le_inv in A. lra. Qed.

Hypothesis Hrow : wx * wx + wy * wy + wz * wz = 1.
Lemma thin_z : s < k / 13 -> 0.99 <= wz * wz.
Proof.
  intros H. pose proof (Rabs_pos wx) as A. pose proof (Rabs_pos wy) as B.
  assert (Sq : forall x, x * x = Rabs x * Rabs x) by (intros x; rewrite <- Rabs_mult, Rabs_pos_eq by apply Rle_0_sqr; reflexivity).
  rewrite (Sq wx), (Sq wy) in Hrow. assert (s * s <= 1 / 13 * (1 / 13)) by (apply Rmult_le_compat; lra).
  assert (0 <= Rabs wx * Rabs wy) by (apply Rmult_le_pos; assumption). lra.
Qed.
Variables Wx Wy Wz : R.
Hypothesis HWx : Rabs Wx <= 1.
Hypothesis HWy : Rabs Wy <= 1.
Hypothesis HWz : Rabs Wz = k.
Notation g := (wx * Wx + wy * Wy + wz * Wz).
Lemma thin_speed : s < k / 13 -> 0.9 * k <= Rabs g.
Proof.
  intros H. pose proof (thin_z H) as Z. pose proof (Rabs_pos wx) as A. pose proof (Rabs_pos wy) as B. pose proof (Rabs_pos wz) as Cc.
  assert (Z2 : 0.99 <= Rabs wz).
  { assert (E : wz * wz = Rabs wz * Rabs wz) by (rewrite <- Rabs_mult, Rabs_pos_eq by apply Rle_0_sqr; reflexivity). nra. }
  assert (K : Rabs (wz * Wz) <= Rabs g + (Rabs wx * 1 + Rabs wy * 1)).
  { assert (E : wz * Wz = g + (- (wx * Wx) + - (wy * Wy))) by ring. rewrite E at 1. eapply Rle_trans; [apply Rabs_triang|]. apply Rplus_le_compat_l.
    eapply Rle_trans; [apply Rabs_triang|]. rewrite !Rabs_Ropp, !Rabs_mult. apply Rplus_le_compat; apply Rmult_le_compat_l; assumption. }
  rewrite Rabs_mult, HWz in K. assert (0.99 * k <= Rabs wz * k) by (apply Rmult_le_compat_r; lra). lra.
Qed.
Lemma axis_fix : s < k / 13 -> exists dl, Rabs dl <= 22 * r /\ low <= P + dl * g <= high.
Proof.
  intros H. pose proof (thin_speed H) as G. assert (Gn : g <> 0) by (intros E; rewrite E, Rabs_R0 in G; lra).
  pose proof axis_reach as A. apply Rabs_le_inv in A. pose proof (Rabs_pos wx) as A1. pose proof (Rabs_pos wy) as A2.
  assert (0 <= 256 * r * s) by (apply Rmult_le_pos; lra).
  assert (Div : forall x, Rabs x <= 19 * e -> Rabs (x / g) <= 22 * r).
  { intros x Hx'. apply Rmult_le_reg_r with (Rabs g); [lra|]. rewrite <- Rabs_mult. replace (x / g * g) with x by (field; exact Gn).
    apply Rle_trans with (22 * r * (0.9 * k)); [|apply Rmult_le_compat_l; lra]. assert (0 < r * k) by (apply Rmult_lt_0_compat; lra). lra. }
  destruct (Rlt_le_dec P low) as [L|L].
  - exists ((low - P) / g). split; [apply Div, Rabs_le; lra|]. replace ((low - P) / g * g) with (low - P) by (field; exact Gn). lra.
  - destruct (Rlt_le_dec high P) as [L'|L'].
    + exists ((high - P) / g). split; [apply Div, Rabs_le; lra|]. replace ((high - P) / g * g) with (high - P) by (field; exact Gn). lra.
    + exists 0. rewrite Rabs_R0. split; lra.
Qed.
End Axis.

(** If one axis is thin, the others are wide. *)
Lemma wide x y z z' : x * x + y * y + z * z = 1 -> 0.99 <= z' * z' -> z * z + z' * z' <= 1 -> 0.98 <= Rabs x + Rabs y.
Proof.
  intros H Hz Hc. assert (Sq : forall x, x * x = Rabs x * Rabs x) by (intros v; rewrite <- Rabs_mult, Rabs_pos_eq by apply Rle_0_sqr; reflexivity).
  rewrite (Sq x), (Sq y) in H. pose proof (Rabs_pos x) as A. pose proof (Rabs_pos y) as B. assert (0 <= Rabs x * Rabs y) by (apply Rmult_le_pos; assumption). nra.
Qed.

Section Box.
Variables (C O U : vec R) (Q : mat R) (hx hy e r k t0 : R) (low high : vec R).
Notation L0 := (local C Q O).
Notation W := (rv_mul (rv_trans Q) U).
Hypothesis HQ : orthogonal Q.
Hypothesis HU : rv_norm U = 1.
Definition axis_box l h c row := l <= c - (Rabs (vx row) * hx + Rabs (vy row) * hy) + 19 * e /\
  c + (Rabs (vx row) * hx + Rabs (vy row) * hy) - 19 * e <= h /\ l <= c <= h.
Hypothesis B1 : axis_box (vx low) (vx high) (vx C) (vx Q).
Hypothesis B2 : axis_box (vy low) (vy high) (vy C) (vy Q).
Hypothesis B3 : axis_box (vz low) (vz high) (vz C) (vz Q).
Hypothesis Hz : vz L0 + t0 * vz W = 0.
Hypothesis Hx : Rabs (vx L0 + t0 * vx W) + 256 * r <= hx.
Hypothesis Hy : Rabs (vy L0 + t0 * vy W) + 256 * r <= hy.
Hypothesis Hr : 0 < r.
Hypothesis He : e = r * k.
Hypothesis Hk : 0 < k <= 1.
Hypothesis HW : Rabs (vz W) = k.

Lemma local_point t : at_t O U t = rv_add C (rv_mul Q (at_t L0 W t)).
Proof. pose proof (from_local C Q (at_t O U t) HQ) as E. rewrite to_local_at in E. exact E. Qed.

Lemma box_point : exists t, Rabs (t - t0) <= 22 * r /\ in_box low high (at_t O U t).
Proof.
  destruct (rows_unit Q HQ) as (R1 & R2 & R3). destruct (cols_unit Q HQ) as (_ & _ & Cz).
  assert (Nu : forall v, rv_norm v = 1 -> vx v * vx v + vy v * vy v + vz v * vz v = 1).
  { intros v E. pose proof (rv_norm_sq v) as E'. rewrite E in E'. unfold rv_dot in E'. lra. }
  apply Nu in R1, R2, R3, Cz. unfold rv_trans in Cz. cbn [vx vy vz] in Cz.
  assert (NW : rv_norm W = 1) by (rewrite (orth_norm' Q _ HQ); exact HU). destruct (comp_norm W) as (W1 & W2 & _). rewrite NW in W1, W2.
  destruct B1 as (L1 & H1 & M1). destruct B2 as (L2 & H2 & M2). destruct B3 as (L3 & H3 & M3). clear B1 B2 B3.
  set (g := fun row : vec R => vx row * vx W + vy row * vy W + vz row * vz W).
  assert (Pt : forall t, at_t O U t = V
    (vx C + (vx (vx Q) * (vx L0 + t0 * vx W) + vy (vx Q) * (vy L0 + t0 * vy W)) + (t - t0) * g (vx Q))
    (vy C + (vx (vy Q) * (vx L0 + t0 * vx W) + vy (vy Q) * (vy L0 + t0 * vy W)) + (t - t0) * g (vy Q))
    (vz C + (vx (vz Q) * (vx L0 + t0 * vx W) + vy (vz Q) * (vy L0 + t0 * vy W)) + (t - t0) * g (vz Q))).
  { intros t. rewrite local_point. unfold g. set (w := W) in *. set (l := L0) in *. assert (Ez : vz l = - (t0 * vz w)) by lra. clearbody w l.
    unfold rv_add, rv_mul, rv_dot, at_t, rv_scale. unfold rv_add. cbn [vx vy vz]. rewrite Ez. f_equal; ring. }
  assert (Gb : forall row, vx row * vx row + vy row * vy row + vz row * vz row = 1 -> Rabs (g row) <= 1).
  { intros row E. pose proof (rv_cauchy row W) as Cs. rewrite <- (rv_norm_sq W), NW in Cs. unfold rv_dot in Cs. fold (g row) in Cs. rewrite E in Cs.
    apply Rabs_le. nra. }
  pose proof (Gb _ R1) as G1. pose proof (Gb _ R2) as G2. pose proof (Gb _ R3) as G3.
  assert (Ep : 0 < r * k) by (apply Rmult_lt_0_compat; lra).
  assert (Move : forall row dl, Rabs (g row) <= 1 -> Rabs dl <= 22 * r -> 0.98 <= Rabs (vx row) + Rabs (vy row) -> Rabs (dl * g row) <= 256 * r * (Rabs (vx row) + Rabs (vy row)) - 19 * e).
  { intros row dl A B S. assert (E' : r * k <= r * 1) by (apply Rmult_le_compat_l; lra).
    assert (F : r * 0.98 <= r * (Rabs (vx row) + Rabs (vy row))) by (apply Rmult_le_compat_l; lra). pose proof (Rabs_mul_le2 _ _ _ _ B A). lra. }
  assert (Stay : forall row, k / 13 <= Rabs (vx row) + Rabs (vy row) -> Rabs ((t0 - t0) * g row) <= 256 * r * (Rabs (vx row) + Rabs (vy row)) - 19 * e).
  { intros row S. rewrite Rminus_eq_0, Rmult_0_l, Rabs_R0. assert (r * (k / 13) <= r * (Rabs (vx row) + Rabs (vy row))) by (apply Rmult_le_compat_l; lra). lra. }
  assert (Pull : forall dl, t0 + dl - t0 = dl) by (intros; ring).
  unfold in_box.
  destruct (Rlt_le_dec (Rabs (vx (vx Q)) + Rabs (vy (vx Q))) (k / 13)) as [T1|T1].
  { destruct (axis_fix _ _ _ _ _ (vz (vx Q)) _ _ _ _ _ r k L1 H1 M1 Hx Hy Hr He Hk R1 _ _ _ W1 W2 HW T1) as (dl & D1 & D2).
    pose proof (thin_z _ _ _ k Hk R1 T1) as Z. pose proof (wide _ _ _ _ R2 Z ltac:(pose proof (Rle_0_sqr (vz (vz Q))) as X; unfold Rsqr in X; lra)) as S2.
    pose proof (wide _ _ _ _ R3 Z ltac:(pose proof (Rle_0_sqr (vz (vy Q))) as X; unfold Rsqr in X; lra)) as S3.
    exists (t0 + dl). rewrite Pt, !Pull. split; [exact D1|]. cbn [vx vy vz]. split; [exact D2|]. split.
    - apply (axis_inside _ _ _ _ _ _ _ _ _ _ r L2 H2 Hx Hy). apply Move; assumption.
    - apply (axis_inside _ _ _ _ _ _ _ _ _ _ r L3 H3 Hx Hy). apply Move; assumption. }
  destruct (Rlt_le_dec (Rabs (vx (vy Q)) + Rabs (vy (vy Q))) (k / 13)) as [T2|T2].
  { destruct (axis_fix _ _ _ _ _ (vz (vy Q)) _ _ _ _ _ r k L2 H2 M2 Hx Hy Hr He Hk R2 _ _ _ W1 W2 HW T2) as (dl & D1 & D2).
    pose proof (thin_z _ _ _ k Hk R2 T2) as Z. pose proof (wide _ _ _ _ R1 Z ltac:(pose proof (Rle_0_sqr (vz (vz Q))) as X; unfold Rsqr in X; lra)) as S2.
    pose proof (wide _ _ _ _ R3 Z ltac:(pose proof (Rle_0_sqr (vz (vx Q))) as X; unfold Rsqr in X; lra)) as S3.
    exists (t0 + dl). rewrite Pt, !Pull. split; [exact D1|]. cbn [vx vy vz]. split; [|split; [exact D2|]].
    - apply (axis_inside _ _ _ _ _ _ _ _ _ _ r L1 H1 Hx Hy). apply Move; assumption.
    - apply (axis_inside _ _ _ _ _ _ _ _ _ _ r L3 H3 Hx Hy). apply Move; assumption. }
  destruct (Rlt_le_dec (Rabs (vx (vz Q)) + Rabs (vy (vz Q))) (k / 13)) as [T3|T3].
  { destruct (axis_fix _ _ _ _ _ (vz (vz Q)) _ _ _ _ _ r k L3 H3 M3 Hx Hy Hr He Hk R3 _ _ _ W1 W2 HW T3) as (dl & D1 & D2).
    pose proof (thin_z _ _ _ k Hk R3 T3) as Z. pose proof (wide _ _ _ _ R1 Z ltac:(pose proof (Rle_0_sqr (vz (vy Q))) as X; unfold Rsqr in X; lra)) as S2.
    pose proof (wide _ _ _ _ R2 Z ltac:(pose proof (Rle_0_sqr (vz (vx Q))) as X; unfold Rsqr in X; lra)) as S3.
    exists (t0 + dl). rewrite Pt, !Pull. split; [exact D1|]. cbn [vx vy vz]. split; [|split; [|exact D2]].
    - apply (axis_inside _ _ _ _ _ _ _ _ _ _ r L1 H1 Hx Hy). apply Move; assumption.
    - apply (axis_inside _ _ _ _ _ _ _ _ _ _ r L2 H2 Hx Hy). apply Move; assumption. }
  exists t0. rewrite Pt. split; [rewrite Rminus_eq_0, Rabs_R0; lra|]. cbn [vx vy vz].
  split; [|split]; [apply (axis_inside _ _ _ _ _ _ _ _ _ _ r L1 H1 Hx Hy)|apply (axis_inside _ _ _ _ _ _ _ _ _ _ r L2 H2 Hx Hy)|apply (axis_inside _ _ _ _ _ _ _ _ _ _ r L3 H3 Hx Hy)]; apply Stay; assumption.
Qed.
End Box.
