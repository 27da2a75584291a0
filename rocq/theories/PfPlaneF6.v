(** Bounding boxes of patches in IEEE arithmetic, and how a ray meets them. *)

From Coq Require Import Reals ZArith List Bool Lra Lia Psatz Floats.SpecFloat.
From Flocq Require Import Core IEEE754.BinarySingleNaN.
From Verif Require Import Num NumR NumF Vec Ray Plane SpecReal SpecIEEE SpecTriF SpecSphF SpecPlane SpecPlaneF.
From Verif Require Import PfIEEE PfIEEE2 PfIEEE3 PfTriF PfTriF2 PfDirF PfX PfSphF PfSphF2 PfPlane PfPlaneF PfPlaneF3 PfPlaneF5.
Import ListNotations.
Local Open Scope R_scope.

(** One axis of a box. *)
Section Any.
Context {T : Type} {N : num T}.
Local Open Scope num_scope.
Definition six (f : T -> list T -> T) (fc fdx fdy : T) (row : vec T) : T :=
  let g v := fc + dot row v in
  f (g (V (- fdx / n2) (- fdy / n2) n0)) [g (V (fdx / n2) (- fdy / n2) n0); g (V (- fdx / n2) (fdy / n2) n0);
    g (V (fdx / n2) (fdy / n2) n0); g (V n0 n0 (- ntiny)); g (V n0 n0 ntiny)].
Lemma box_axes (c : vec T) (fdx fdy : T) (m : mat T) : plane_box c fdx fdy m =
  (V (six smin_list (vx c) fdx fdy (vx m)) (six smin_list (vy c) fdx fdy (vy m)) (six smin_list (vz c) fdx fdy (vz m)),
   V (six smax_list (vx c) fdx fdy (vx m)) (six smax_list (vy c) fdx fdy (vy m)) (six smax_list (vz c) fdx fdy (vz m))).
Proof. reflexivity. Qed.
End Any.

Section F.
Variables prec emax : Z.
Context {Hprec : Prec_gt_0 prec} {Hmax : Prec_lt_emax prec emax}.
Hypothesis Hfmt : usual_format prec emax.
Notation FN := (Fnum prec emax).
Notation isf := (isF prec emax).
Notation rd := (rnd prec emax).
Notation u := (ulpf prec).
Notation low0 := (least emax).
Notation hi0 := (top emax).
Notation q := (/ 1000000).

Lemma min_list_F xs : forall x r rs, isf x r -> Forall2 isf xs rs ->
  exists v, isf (@smin_list _ FN x xs) v /\ (v = r \/ In v rs) /\ v <= r /\ forall y, In y rs -> v <= y.
Proof.
  induction xs as [|y xs IH]; intros x r rs Hx H; inversion H as [|? b ? rs' Hy Hr]; subst; clear H.
  - exists r. split; [exact Hx|]. split; [auto|]. split; [lra|intros y []].
  - pose proof (isF_smin prec emax _ _ _ _ Hx Hy) as Hm. destruct (IH _ _ _ Hm Hr) as (v & I & E & L & A).
    exists v. split; [exact I|]. pose proof (Rmin_l b r). pose proof (Rmin_r b r). split; [|split; [lra|]].
    + destruct E as [-> |E]; [|right; right; exact E]. unfold Rmin. destruct (Rle_dec b r); [right; left; reflexivity|left; reflexivity].
    + intros z [<-|Hz]; [lra|apply A, Hz].
Qed.
Lemma max_list_F xs : forall x r rs, isf x r -> Forall2 isf xs rs ->
  exists v, isf (@smax_list _ FN x xs) v /\ (v = r \/ In v rs) /\ r <= v /\ forall y, In y rs -> y <= v.
Proof.
  induction xs as [|y xs IH]; intros x r rs Hx H; inversion H as [|? b ? rs' Hy Hr]; subst; clear H.
  - exists r. split; [exact Hx|]. split; [auto|]. split; [lra|intros y []].
  - pose proof (isF_smax prec emax _ _ _ _ Hx Hy) as Hm. destruct (IH _ _ _ Hm Hr) as (v & I & E & L & A).
    exists v. split; [exact I|]. pose proof (Rmax_l r b). pose proof (Rmax_r r b). split; [|split; [lra|]].
    + destruct E as [-> |E]; [|right; right; exact E]. unfold Rmax. destruct (Rle_dec r b); [right; left; reflexivity|left; reflexivity].
    + intros z [<-|Hz]; [lra|apply A, Hz].
Qed.
Lemma tiny_F : isf (@ntiny _ FN) low0.
Proof.
  pose proof (emax_big prec emax (p6 prec emax Hfmt)) as E. destruct Hfmt as [F1 F2].
  replace low0 with (IZR 1 * bpow radix2 (3 - emax - 1)) by (unfold least; apply Rmult_1_l). apply (isF_lit prec emax (p6 prec emax Hfmt)); [|lia].
  apply (Z.pow_lt_mono_r 2 0 prec); lia.
Qed.

Variable M : R.
Hypothesis HM : scale_ok prec emax M.
Notation vn := (vn prec emax M).

(** The corners. *)
Lemma corner_F x w fc C fa fb a b : vn 0 1 6.93 x w -> isf fc C -> Rabs C <= M -> isf fa a -> isf fb b -> Rabs a <= 1.001 * M -> Rabs b <= 1.001 * M ->
  exists v, isf (@nadd _ FN fc (@dot _ FN x (V fa fb (@n0 _ FN)))) v /\ Rabs (v - (C + (vx w * a + vy w * b))) <= 16.7 * (u * M) /\ Rabs v <= 3 * M.
Proof.
  intros K Hc Bc Ha Hb Ba Bb. destruct (uM_facts prec emax Hfmt M HM) as (U0 & U1 & V1 & UM & UM1 & UM2 & LP & LS & T1 & T2).
  assert (S : vn 1 1.416 0 (V fa fb (@n0 _ FN)) (V a b 0)).
  { split.
    - apply sq_le_abs; [rewrite pow_1; lra|]. rewrite rv_norm_sq. unfold rv_dot. cbn [vx vy vz]. rewrite pow_1.
      assert (Sq : forall x, Rabs x <= 1.001 * M -> x * x <= 1.001 * M * (1.001 * M)).
      { intros z H. assert (Rabs z * Rabs z <= 1.001 * M * (1.001 * M)) as J by (apply Rmult_le_compat; try apply Rabs_pos; assumption). rewrite <- Rabs_mult, Rabs_pos_eq in J by apply Rle_0_sqr. exact J. }
      pose proof (Sq _ Ba). pose proof (Sq _ Bb). assert (0 <= M * M) by apply Rle_0_sqr. lra.
    - exists (V a b 0). split; [split; [|split]; try assumption; apply (zero_isF prec emax)|].
      replace (rv_sub (V a b 0) (V a b 0)) with (V 0 0 0) by (unfold rv_sub; cbn [vx vy vz]; f_equal; ring).
      unfold rv_norm, rv_dot. cbn [vx vy vz]. replace (0 * 0 + 0 * 0 + 0 * 0) with 0 by ring. rewrite sqrt_0. lra. }
  pose proof (vn_dot prec emax Hfmt M HM 0 1 1 6.93 1.416 0 14.1 _ _ _ _ K S ltac:(lia) ltac:(lra) ltac:(lra) ltac:(lra) ltac:(lra) ltac:(lra) ltac:(lra) ltac:(lra)) as D.
  cbn [Nat.add] in D.
  assert (P1 : ap prec emax M 1 1 0 fc C) by (apply ap_exact; [exact Hc|]; rewrite pow_1; lra).
  destruct (ap_add prec emax Hfmt M HM 1 _ _ _ _ 16.7 _ _ _ _ P1 D ltac:(lia) ltac:(lra) ltac:(lra) ltac:(lra) ltac:(lra)) as (G & v & Hv & E).
  rewrite pow_1 in G, E. unfold rv_dot in G, E. cbn [vx vy vz] in G, E. exists v. split; [exact Hv|].
  replace (vx w * a + vy w * b + vz w * 0) with (vx w * a + vy w * b) in * by ring. split; [lra|].
  replace v with ((v - (C + (vx w * a + vy w * b))) + (C + (vx w * a + vy w * b))) by ring.
  eapply Rle_trans; [apply Rabs_two; [exact E|exact G]|]. lra.
Qed.
(** The ends of the thickness. *)
Lemma thick_F x w fc C fz z : vn 0 1 6.93 x w -> isf fc C -> Rabs C <= M -> isf fz z -> Rabs z <= 1 ->
  exists p, (exists A, visF prec emax x A /\ p = rd (vz A * z)) /\ isf (@nadd _ FN fc (@dot _ FN x (V (@n0 _ FN) (@n0 _ FN) fz))) (rd (C + p)) /\ Rabs (rd (C + p)) <= 3 * M.
Proof.
  intros (Nw & A & HA & EA) Hc Bc Hz Bz. destruct (uM_facts prec emax Hfmt M HM) as (U0 & U1 & V1 & UM & UM1 & UM2 & LP & LS & T1 & T2).
  rewrite pow_O in *. pose proof (norm_sub_le A w) as N1. destruct (comp_norm A) as (A1 & A2 & A3). destruct HA as (I1 & I2 & I3).
  assert (zero : isf (@n0 _ FN) 0) by apply (zero_isF prec emax).
  pose proof (hi0_big prec emax (p6 prec emax Hfmt)) as TT.
  assert (Zr : forall fx a, isf fx a -> isf (@nmul _ FN fx (@n0 _ FN)) 0).
  { intros fx a Ha. pose proof (isF_mul prec emax _ _ _ _ Ha zero) as P. rewrite Rmult_0_r, (rd_0 prec emax), Rabs_R0 in P. apply P. lra. }
  pose proof (isF_add prec emax _ _ _ _ (Zr _ _ I1) (Zr _ _ I2)) as P1. rewrite Rplus_0_l, (rd_0 prec emax), Rabs_R0 in P1. specialize (P1 ltac:(lra)).
  set (p := rd (vz A * z)). assert (Bp : Rabs (vz A * z) <= 1.001 * 1) by (apply Rabs_mul_le2; lra).
  assert (P2 : isf (@nmul _ FN (vz x) fz) p) by (apply (isF_mul prec emax); [assumption..|]; apply (rd_half_top prec emax (p6 prec emax Hfmt)); lra).
  assert (Bp' : Rabs p <= 1.01).
  { pose proof (rd_low prec emax (vz A * z)) as E. fold p in E. assert (u * Rabs (vz A * z) <= u * 2) by (apply Rmult_le_compat_l; lra).
    replace p with ((p - vz A * z) + vz A * z) by ring. eapply Rle_trans; [apply Rabs_two; [exact E|exact Bp]|]. lra. }
  pose proof (isF_add prec emax _ _ _ _ P1 P2) as P3. rewrite Rplus_0_l, (rd_id prec emax _ _ P2) in P3. specialize (P3 ltac:(lra)).
  assert (B4 : Rabs (C + p) <= 2.01 * M) by (eapply Rle_trans; [apply Rabs_two; [exact Bc|exact Bp']|]; lra).
  exists p. split; [exists A; split; [split; [|split]; assumption|reflexivity]|]. split.
  - apply (isF_add prec emax); [exact Hc|exact P3|]. apply (rd_half_top prec emax (p6 prec emax Hfmt)). lra.
  - pose proof (rd_add_rel prec emax _ _ _ _ Hc P2) as E. assert (u * Rabs (C + p) <= u * (2.01 * M)) by (apply Rmult_le_compat_l; lra).
    replace (rd (C + p)) with ((rd (C + p) - (C + p)) + (C + p)) by ring. eapply Rle_trans; [apply Rabs_two; [exact E|exact B4]|]. lra.
Qed.

Lemma axis_F x w fc C fdx fdy dx dy : vn 0 1 6.93 x w -> isf fc C -> Rabs C <= M -> isf fdx dx -> isf fdy dy -> 0 <= dx / 2 <= M -> 0 <= dy / 2 <= M ->
  exists lo hi, isf (@six _ FN (@smin_list _ FN) fc fdx fdy x) lo /\ isf (@six _ FN (@smax_list _ FN) fc fdx fdy x) hi /\
    Rabs lo <= 3 * M /\ Rabs hi <= 3 * M /\ lo <= C <= hi /\
    lo <= C - (Rabs (vx w) * (dx / 2) + Rabs (vy w) * (dy / 2)) + 19 * (u * M) /\
    C + (Rabs (vx w) * (dx / 2) + Rabs (vy w) * (dy / 2)) - 19 * (u * M) <= hi.
Proof.
  intros K Hc Bc Hdx Hdy Bdx Bdy. destruct (uM_facts prec emax Hfmt M HM) as (U0 & U1 & V1 & UM & UM1 & UM2 & LP & LS & T1 & T2).
  destruct (half_F prec emax Hfmt M HM _ _ Hdx Bdx) as (hx & X1 & X2 & X3 & X4).
  destruct (half_F prec emax Hfmt M HM _ _ Hdy Bdy) as (hy & Y1 & Y2 & Y3 & Y4).
  assert (Bx : Rabs hx <= 1.001 * M) by (rewrite Rabs_pos_eq; lra). assert (Bx' : Rabs (- hx) <= 1.001 * M) by (rewrite Rabs_Ropp; exact Bx).
  assert (By : Rabs hy <= 1.001 * M) by (rewrite Rabs_pos_eq; lra). assert (By' : Rabs (- hy) <= 1.001 * M) by (rewrite Rabs_Ropp; exact By).
  destruct (corner_F x w fc C _ _ _ _ K Hc Bc X2 Y2 Bx' By') as (v1 & I1 & E1 & B1).
  destruct (corner_F x w fc C _ _ _ _ K Hc Bc X1 Y2 Bx By') as (v2 & I2 & E2 & B2).
  destruct (corner_F x w fc C _ _ _ _ K Hc Bc X2 Y1 Bx' By) as (v3 & I3 & E3 & B3).
  destruct (corner_F x w fc C _ _ _ _ K Hc Bc X1 Y1 Bx By) as (v4 & I4 & E4 & B4).
  pose proof tiny_F as Ft. pose proof (isF_opp prec emax _ _ Ft) as Ft'.
  assert (Bt : Rabs low0 <= 1) by (rewrite Rabs_pos_eq; lra). assert (Bt' : Rabs (- low0) <= 1) by (rewrite Rabs_Ropp; exact Bt).
  destruct (thick_F x w fc C _ _ K Hc Bc Ft' Bt') as (p5 & (A5 & HA5 & Ep5) & I5 & B5).
  destruct (thick_F x w fc C _ _ K Hc Bc Ft Bt) as (p6' & (A6 & HA6 & Ep6) & I6 & B6).
  assert (Eop : p5 = - p6').
  { rewrite Ep5, Ep6, <- (rd_opp prec emax). f_equal.
    replace (vz A5) with (vz A6) by (apply (isF_fun prec emax (vz x)); [apply HA6|apply HA5]). ring. }
  set (rs := [v2; v3; v4; rd (C + p5); rd (C + p6')]).
  destruct (min_list_F _ _ v1 rs I1 ltac:(repeat (constructor; [eassumption|]); constructor)) as (l & Il & Ol & Ll & Al).
  destruct (max_list_F _ _ v1 rs I1 ltac:(repeat (constructor; [eassumption|]); constructor)) as (h & Ih & Oh & Lh & Ah).
  exists l, h. split; [exact Il|]. split; [exact Ih|].
  assert (Bd : forall v, v = v1 \/ In v rs -> Rabs v <= 3 * M).
  { intros v [-> |[<-|[<-|[<-|[<-|[<-|[]]]]]]]; assumption. }
  split; [apply Bd, Ol|]. split; [apply Bd, Oh|].
  pose proof (Al v2 ltac:(cbn; auto)) as L2. pose proof (Al v3 ltac:(cbn; auto)) as L3. pose proof (Al v4 ltac:(cbn; auto)) as L4.
  pose proof (Al (rd (C + p5)) ltac:(cbn; auto)) as L5. pose proof (Al (rd (C + p6')) ltac:(cbn; auto 7)) as L6.
  pose proof (Ah v2 ltac:(cbn; auto)) as H2. pose proof (Ah v3 ltac:(cbn; auto)) as H3. pose proof (Ah v4 ltac:(cbn; auto)) as H4.
  pose proof (Ah (rd (C + p5)) ltac:(cbn; auto)) as H5. pose proof (Ah (rd (C + p6')) ltac:(cbn; auto 7)) as H6.
  split.
  { pose proof (rd_id prec emax _ _ Hc) as Ec. destruct (Rle_lt_dec p6' 0) as [S|S].
    - assert (C <= rd (C + p5)) by (rewrite <- Ec at 1; apply (rd_mono prec emax); lra). assert (rd (C + p6') <= C) by (rewrite <- Ec at 2; apply (rd_mono prec emax); lra). lra.
    - assert (rd (C + p5) <= C) by (rewrite <- Ec at 2; apply (rd_mono prec emax); lra). assert (C <= rd (C + p6')) by (rewrite <- Ec at 1; apply (rd_mono prec emax); lra). lra. }
  destruct K as (Nw & _). rewrite pow_O in Nw. destruct (comp_norm w) as (W1 & W2 & _).
  apply Rabs_le_inv in X3, Y3, E1, E2, E3, E4.
  pose proof (Rabs_pos (vx w)) as P1. pose proof (Rabs_pos (vy w)) as P2.
  assert (Gx : Rabs (vx w) * (dx / 2) <= Rabs (vx w) * hx + 1.1 * (u * M)).
  { assert (Rabs (vx w) * (dx / 2 - hx) <= 1 * (1.1 * (u * M))); [|lra]. destruct (Rle_lt_dec 0 (dx / 2 - hx)); [apply Rmult_le_compat; lra|].
    assert (0 <= Rabs (vx w) * (hx - dx / 2)) by (apply Rmult_le_pos; lra). lra. }
  assert (Gy : Rabs (vy w) * (dy / 2) <= Rabs (vy w) * hy + 1.1 * (u * M)).
  { assert (Rabs (vy w) * (dy / 2 - hy) <= 1 * (1.1 * (u * M))); [|lra]. destruct (Rle_lt_dec 0 (dy / 2 - hy)); [apply Rmult_le_compat; lra|].
    assert (0 <= Rabs (vy w) * (hy - dy / 2)) by (apply Rmult_le_pos; lra). lra. }
  revert Gx Gy. clear - L2 L3 L4 H2 H3 H4 Ll Lh E1 E2 E3 E4 UM. unfold Rabs. intros Gx Gy.
  destruct (Rcase_abs (vx w)), (Rcase_abs (vy w)); lra.
Qed.
End F.
