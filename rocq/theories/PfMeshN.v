(** Normals of meshes with rounding: faces and vertices. *)

From Coq Require Import Reals ZArith List Bool Arith Lra Lia Psatz Floats.SpecFloat.
From Flocq Require Import Core IEEE754.BinarySingleNaN.
From Verif Require Import Num NumR NumF Vec Datatypes Ray Bvh Trimesh SpecReal SpecIEEE SpecTri SpecTriF SpecTubeN SpecMeshN.
From Verif Require Import PfIEEE PfIEEE2 PfIEEE3 PfTri2 PfTriF PfDirF PfX PfSphF PfSphN PfPlaneF3 PfMeshF.
Import ListNotations.
Local Open Scope R_scope.

Lemma cross_norm a b : rv_norm (rv_cross a b) <= rv_norm a * rv_norm b.
Proof.
  apply sq_le_abs; [apply Rmult_le_pos; apply rv_norm_nonneg|].
  replace (rv_norm a * rv_norm b * (rv_norm a * rv_norm b)) with ((rv_norm a * rv_norm a) * (rv_norm b * rv_norm b)) by ring.
  rewrite !rv_norm_sq. pose proof (Rle_0_sqr (rv_dot a b)) as H. unfold Rsqr, rv_dot, rv_cross in *. cbn [vx vy vz]. lra.
Qed.

Section F.
Variables prec emax : Z.
Context {Hprec : Prec_gt_0 prec} {Hmax : Prec_lt_emax prec emax}.
Hypothesis Hfmt : usual_format prec emax.
Notation FN := (Fnum prec emax).
Notation isf := (isF prec emax).
Notation rd := (rnd prec emax).
Notation u := (ulpf prec).
Notation low0 := (least emax).
Notation hi0 := (top emax).
Variable k : R.
Hypothesis K1 : 1 <= k.
Hypothesis K2 : 1024 * k * u <= 1.
Notation F := (face_err prec k).

Lemma U0 : 0 < u. Proof. apply (u_pos prec). Qed.
Lemma U1 : u <= / 1000000. Proof. apply (u_small prec emax Hfmt). Qed.
Lemma Iu : 1000000 <= / u.
Proof. rewrite <- (Rinv_inv 1000000). apply Rinv_le_contravar; [apply U0|apply U1]. Qed.

Section Face.
Variables (A B C : vec R) (a b c : vec spec_float).
Hypotheses (HA : visF prec emax a A) (HB : visF prec emax b B) (HC : visF prec emax c C).
Hypothesis St : stout prec k A B C.
Notation l1 := (rv_norm (rv_sub B A)).
Notation l2 := (rv_norm (rv_sub C A)).
Notation w := (tri_cross A B C).

Lemma lengths : 8192 * u <= l1 * l2 /\ 0 < l1 <= / u /\ 0 < l2 <= / u /\ 2 * low0 <= 0.003 * (u * l1) /\ 2 * low0 <= 0.003 * (u * l2) /\ 2 * low0 <= 0.001 * (u * (l1 * l2)) /\ l1 * l2 <= / u * / u.
Proof.
  destruct St as (S1 & S2 & S3 & S4). pose proof U0. pose proof U1. pose proof Iu as I.
  pose proof (rv_norm_nonneg (rv_sub B A)) as P1. pose proof (rv_norm_nonneg (rv_sub C A)) as P2.
  assert (W : rv_norm w <= l1 * l2) by apply cross_norm. assert (L12 : 8192 * u <= l1 * l2) by lra.
  assert (Q1 : l1 * l2 <= l1 * / u) by (apply Rmult_le_compat_l; lra). assert (Q2 : l1 * l2 <= / u * l2) by (apply Rmult_le_compat_r; lra).
  assert (V1 : 8192 * (u * u) <= l1).
  { apply Rmult_le_reg_r with (/ u); [lra|]. replace (8192 * (u * u) * / u) with (8192 * u * (u * / u)) by ring. rewrite Rinv_r by lra. lra. }
  assert (V2 : 8192 * (u * u) <= l2).
  { apply Rmult_le_reg_r with (/ u); [lra|]. replace (8192 * (u * u) * / u) with (8192 * u * (u * / u)) by ring. rewrite Rinv_r by lra. lra. }
  assert (UU : 0 < u * u) by (apply Rmult_lt_0_compat; lra). pose proof (low_uuu prec emax Hfmt) as Lw.
  assert (L3 : forall l, 8192 * (u * u) <= l -> 2 * low0 <= 0.003 * (u * l)).
  { intros l Hl. eapply Rle_trans; [exact Lw|]. replace (/ 1000000 * u * (4096 * u * (4096 * u))) with (/ 1000000 * 2048 * (u * (8192 * (u * u)))) by ring.
    assert (u * (8192 * (u * u)) <= u * l) by (apply Rmult_le_compat_l; lra). assert (0 < u * l) by (apply Rmult_lt_0_compat; lra). lra. }
  split; [exact L12|]. split; [lra|]. split; [lra|]. split; [apply L3, V1|]. split; [apply L3, V2|]. split.
  - eapply Rle_trans; [exact Lw|]. replace (/ 1000000 * u * (4096 * u * (4096 * u))) with (/ 1000000 * (2048 * u) * (u * (8192 * u))) by ring.
    assert (u * (8192 * u) <= u * (l1 * l2)) by (apply Rmult_le_compat_l; lra). assert (0 <= u * (l1 * l2)) by (apply Rmult_le_pos; lra).
    assert (/ 1000000 * (2048 * u) * (u * (8192 * u)) <= 0.001 * (u * (8192 * u))) by (apply Rmult_le_compat_r; [apply Rmult_le_pos; lra|lra]). lra.
  - apply Rmult_le_compat; lra.
Qed.
Lemma edge_F x y X Y l : isf x X -> isf y Y -> Rabs (X - Y) <= l -> l <= / u -> 2 * low0 <= 0.003 * (u * l) ->
  exists z, isf (@nsub _ FN x y) z /\ Rabs (z - (X - Y)) <= 1.003 * (u * l).
Proof.
  intros Hx Hy H Hl Lw. pose proof U0. pose proof Iu. pose proof (top_u prec emax Hfmt) as T. pose proof (Rabs_pos (X - Y)).
  assert (/ u * 1 <= / u * / u) by (apply Rmult_le_compat_l; lra).
  exists (rd (X - Y)). split; [apply (isF_sub prec emax); [assumption|assumption|apply (rd_half_top prec emax (p6 prec emax Hfmt)); lra]|].
  pose proof (rd_low prec emax (X - Y)). assert (u * Rabs (X - Y) <= u * l) by (apply Rmult_le_compat_l; lra). lra.
Qed.
Lemma cross_F : exists N, visF prec emax (@cross _ FN (@vsub _ FN b a) (@vsub _ FN c a)) N /\ coords (8.1 * (u * (l1 * l2))) (rv_sub N w).
Proof.
  destruct lengths as (L & (L1 & L1') & (L2 & L2') & W1 & W2 & W12 & T12). pose proof U0 as V0. pose proof U1 as V1. pose proof Iu. pose proof (top_u prec emax Hfmt) as T.
  destruct (comp_norm (rv_sub B A)) as (A1 & A2 & A3). destruct (comp_norm (rv_sub C A)) as (B1 & B2 & B3).
  destruct HA as (Ha1 & Ha2 & Ha3), HB as (Hb1 & Hb2 & Hb3), HC as (Hc1 & Hc2 & Hc3).
  destruct (edge_F _ _ _ _ _ Hb1 Ha1 A1 L1' W1) as (x1 & X1 & E1). destruct (edge_F _ _ _ _ _ Hb2 Ha2 A2 L1' W1) as (x2 & X2 & E2). destruct (edge_F _ _ _ _ _ Hb3 Ha3 A3 L1' W1) as (x3 & X3 & E3).
  destruct (edge_F _ _ _ _ _ Hc1 Ha1 B1 L2' W2) as (y1 & Y1 & G1). destruct (edge_F _ _ _ _ _ Hc2 Ha2 B2 L2' W2) as (y2 & Y2 & G2). destruct (edge_F _ _ _ _ _ Hc3 Ha3 B3 L2' W2) as (y3 & Y3 & G3).
  set (p := l1 * l2) in *. assert (P0 : 0 < p) by lra. assert (up : 0 < u * p) by (apply Rmult_lt_0_compat; lra). assert (uup : u * (u * p) <= / 1000000 * (u * p)) by (apply Rmult_le_compat_r; lra).
  assert (up' : u * p <= / 1000000 * p) by (apply Rmult_le_compat_r; lra).
  assert (MU : forall fx fy x y X Y, isf fx x -> isf fy y -> Rabs X <= l1 -> Rabs Y <= l2 -> Rabs (x - X) <= 1.003 * (u * l1) -> Rabs (y - Y) <= 1.003 * (u * l2) ->
    exists z, isf (@nmul _ FN fx fy) z /\ Rabs (z - X * Y) <= 3.02 * (u * p) /\ Rabs (X * Y) <= p).
  { intros fx fy x y X Y Fx Fy HX HY Dx Dy.
    assert (J1 : Rabs ((x - X) * Y) <= 1.003 * (u * l1) * l2) by (apply Rabs_mul_le2; assumption).
    assert (J2 : Rabs (X * (y - Y)) <= l1 * (1.003 * (u * l2))) by (apply Rabs_mul_le2; assumption).
    assert (J3 : Rabs ((x - X) * (y - Y)) <= 1.003 * (u * l1) * (1.003 * (u * l2))) by (apply Rabs_mul_le2; assumption).
    assert (J4 : Rabs (X * Y) <= p) by (apply Rabs_mul_le2; assumption).
    replace (1.003 * (u * l1) * l2) with (1.003 * (u * p)) in J1 by (unfold p; ring). replace (l1 * (1.003 * (u * l2))) with (1.003 * (u * p)) in J2 by (unfold p; ring).
    replace (1.003 * (u * l1) * (1.003 * (u * l2))) with (1.003 * 1.003 * (u * (u * p))) in J3 by (unfold p; ring).
    assert (D : Rabs (x * y - X * Y) <= 2.0061 * (u * p)).
    { replace (x * y - X * Y) with ((x - X) * Y + X * (y - Y) + (x - X) * (y - Y)) by ring. eapply Rle_trans; [apply Rabs_two; [apply Rabs_two; eassumption|exact J3]|]. lra. }
    assert (S : Rabs (x * y) <= 1.0001 * p).
    { replace (x * y) with ((x * y - X * Y) + X * Y) by ring. eapply Rle_trans; [apply Rabs_two; [exact D|exact J4]|]. lra. }
    exists (rd (x * y)). split; [apply (isF_mul prec emax); [assumption|assumption|apply (rd_half_top prec emax (p6 prec emax Hfmt)); lra]|]. split; [|exact J4].
    pose proof (rd_low prec emax (x * y)) as R. assert (u * Rabs (x * y) <= u * (1.0001 * p)) by (apply Rmult_le_compat_l; lra).
    replace (rd (x * y) - X * Y) with ((rd (x * y) - x * y) + (x * y - X * Y)) by ring. eapply Rle_trans; [apply Rabs_two; [exact R|exact D]|]. lra. }
  assert (CO : forall f1 f2 f3 f4 x1 x2 x3 x4 X1 X2 X3 X4, isf f1 x1 -> isf f2 x2 -> isf f3 x3 -> isf f4 x4 ->
    Rabs X1 <= l1 -> Rabs X2 <= l2 -> Rabs X3 <= l1 -> Rabs X4 <= l2 -> Rabs (x1 - X1) <= 1.003 * (u * l1) -> Rabs (x2 - X2) <= 1.003 * (u * l2) ->
    Rabs (x3 - X3) <= 1.003 * (u * l1) -> Rabs (x4 - X4) <= 1.003 * (u * l2) ->
    exists z, isf (@nsub _ FN (@nmul _ FN f1 f2) (@nmul _ FN f3 f4)) z /\ Rabs (z - (X1 * X2 - X3 * X4)) <= 8.1 * (u * p)).
  { intros f1 f2 f3 f4 z1 z2 z3 z4 Z1 Z2 Z3 Z4 I1 I2 I3 I4 N1 N2 N3 N4 D1 D2 D3 D4.
    destruct (MU _ _ _ _ _ _ I1 I2 N1 N2 D1 D2) as (p1 & Q1 & R1 & S1). destruct (MU _ _ _ _ _ _ I3 I4 N3 N4 D3 D4) as (p2 & Q2 & R2 & S2).
    apply Rabs_le_inv in R1. apply Rabs_le_inv in R2. apply Rabs_le_inv in S1. apply Rabs_le_inv in S2.
    assert (S : Rabs (p1 - p2) <= 2.001 * p) by (apply Rabs_le; lra). exists (rd (p1 - p2)).
    split; [apply (isF_sub prec emax); [assumption|assumption|apply (rd_half_top prec emax (p6 prec emax Hfmt)); lra]|].
    pose proof (rd_low prec emax (p1 - p2)) as R. assert (u * Rabs (p1 - p2) <= u * (2.001 * p)) by (apply Rmult_le_compat_l; lra).
    assert (R' : Rabs (rd (p1 - p2) - (p1 - p2)) <= 2.01 * (u * p)) by lra. apply Rabs_le_inv in R'. apply Rabs_le. lra. }
  cbn [rv_sub vx vy vz] in A1, A2, A3, B1, B2, B3.
  destruct (CO _ _ _ _ _ _ _ _ _ _ _ _ X2 Y3 X3 Y2 A2 B3 A3 B2 E2 G3 E3 G2) as (n1 & M1 & O1).
  destruct (CO _ _ _ _ _ _ _ _ _ _ _ _ X3 Y1 X1 Y3 A3 B1 A1 B3 E3 G1 E1 G3) as (n2 & M2 & O2).
  destruct (CO _ _ _ _ _ _ _ _ _ _ _ _ X1 Y2 X2 Y1 A1 B2 A2 B1 E1 G2 E2 G1) as (n3 & M3 & O3).
  exists (V n1 n2 n3). split; [split; [|split]; cbn [vx vy vz cross vsub]; assumption|].
  unfold coords, rv_sub, tri_cross, rv_cross. cbn [vx vy vz rv_sub]. split; [exact O1|split; [exact O2|exact O3]].
Qed.

Lemma face_F : vec_near prec emax F (@tri_normal _ FN a b c) (unit_of w).
Proof.
  destruct cross_F as (N & HN & Cn). destruct lengths as (L & (L1 & L1') & (L2 & L2') & _). destruct St as (S1 & S2 & _). pose proof U0 as V0. pose proof U1 as V1.
  set (p := l1 * l2) in *. set (g := rv_norm w) in *. assert (P0 : 0 < p) by lra. assert (G0 : 0 < g) by lra.
  assert (up : 0 < u * p) by (apply Rmult_lt_0_compat; lra). assert (ug : u * p <= u * (k * g)) by (apply Rmult_le_compat_l; lra).
  assert (kg : 1024 * k * u * g <= 1 * g) by (apply Rmult_le_compat_r; lra). replace (1024 * k * u * g) with (1024 * (u * (k * g))) in kg by ring.
  assert (Nd : rv_norm (rv_sub N w) <= 14.1 * (u * p)).
  { destruct Cn as (C1 & C2 & C3). eapply Rle_trans; [apply (norm_const (8.1 * (u * p))); [lra|assumption..]|]. lra. }
  pose proof (norm_sub_le N w) as T1. pose proof (norm_sub_le w N) as T2. rewrite norm_sub_sym in T2. fold g in T1, T2.
  assert (Hu : / (2 * u) = / u / 2) by (field; lra). rewrite Hu in S2. pose proof Iu as I.
  assert (NL : 4096 * u <= rv_norm N <= / u) by (split; lra).
  destruct (normalize_near prec emax Hfmt _ N HN NL) as (_ & D & HD & E1 & E2 & E3).
  destruct (unit_close N w _ _ G0 ltac:(lra) Cn Nd) as (F1 & F2 & F3). fold g in F1, F2, F3.
  exists D. split; [exact HD|].
  assert (Y : (8.1 * (u * p) + 14.1 * (u * p)) / g <= 22.2 * (u * k)).
  { apply Rmult_le_reg_r with g; [exact G0|]. unfold Rdiv. rewrite Rmult_assoc, Rinv_l by lra. replace (22.2 * (u * k) * g) with (22.2 * (u * (k * g))) by ring. lra. }
  assert (uk : u * 1 <= u * k) by (apply Rmult_le_compat_l; lra). unfold face_err.
  assert (J : forall x y z, Rabs (x - y) <= 5 * u -> Rabs (y - z) <= (8.1 * (u * p) + 14.1 * (u * p)) / g -> Rabs (x - z) <= 32 * k * u).
  { intros x y z H1 H2. replace (x - z) with ((x - y) + (y - z)) by ring. eapply Rle_trans; [apply Rabs_two; eassumption|]. lra. }
  unfold coords, rv_sub in *. cbn [vx vy vz] in *. split; [|split]; eapply J; eassumption.
Qed.
End Face.
End F.

(** Vertices: the sum so far after [m] corners. *)
Section G.
Variables prec emax : Z.
Context {Hprec : Prec_gt_0 prec} {Hmax : Prec_lt_emax prec emax}.
Hypothesis Hfmt : usual_format prec emax.
Notation FN := (Fnum prec emax).
Notation isf := (isF prec emax).
Notation rd := (rnd prec emax).
Notation u := (ulpf prec).
Variable k : R.
Hypothesis K1 : 1 <= k.
Hypothesis K2 : 1024 * k * u <= 1.
Notation F := (face_err prec k).
Notation E m := (vertex_err prec k m).
Variable m : R.
Hypothesis M1 : 1 <= m.
Hypothesis M2 : 1024 * m * u <= 1.

Definition summed (c s : R) (x : spec_float) : Prop := Rabs s <= c / 3 /\ exists y, isf x y /\ Rabs (y - s) <= E c.
Definition vsummed (c : R) (S : vec R) (x : vec spec_float) : Prop := summed c (vx S) (vx x) /\ summed c (vy S) (vy x) /\ summed c (vz S) (vz x).
Lemma F_facts : 32 * u <= F <= 0.0313.
Proof. pose proof (u_pos prec) as U0. unfold face_err. assert (1 * u <= k * u) by (apply Rmult_le_compat_r; lra). lra. Qed.
Lemma E_facts c : 0 <= c <= m -> 0 <= E c <= 0.0162 * c.
Proof.
  intros Hc. destruct F_facts as [F1 F2]. pose proof (u_pos prec) as U0. unfold vertex_err. assert (c * u <= m * u) by (apply Rmult_le_compat_r; lra). assert (0 <= c * u) by (apply Rmult_le_pos; lra).
  assert (c * (F + c * u) <= c * 0.0324) by (apply Rmult_le_compat_l; lra). assert (0 <= c * (F + c * u)) by (apply Rmult_le_pos; lra). lra.
Qed.
Lemma sum_step c s x n N : 0 <= c -> c + 1 <= m -> summed c s x -> (exists y, isf n y /\ Rabs (y - N) <= F) -> Rabs N <= 1 ->
  summed (c + 1) (s + / 3 * N) (@nadd _ FN x (@ndiv _ FN n (@nofZ _ FN 3))).
Proof.
  intros C0 Cm [S1 (y & Hy & Ey)] (w & Hw & Ew) HN. pose proof (u_pos prec) as U0. pose proof (u_small prec emax Hfmt) as U1. pose proof (top_u prec emax Hfmt) as T.
  assert (Iu : 1000000 <= / u). { rewrite <- (Rinv_inv 1000000). apply Rinv_le_contravar; lra. } assert (II : 1000000 * 1000000 <= / u * / u) by (apply Rmult_le_compat; lra).
  destruct F_facts as [F1 F2]. destruct (E_facts c ltac:(lra)) as [E0 E1]. pose proof (three_isF prec emax Hfmt) as H3.
  apply Rabs_le_inv in Ew. apply Rabs_le_inv in HN. apply Rabs_le_inv in S1. apply Rabs_le_inv in Ey.
  assert (W : Rabs (w / 3) <= 0.3438) by (apply Rabs_le; lra).
  pose proof (rd_abs prec emax Hfmt (w / 3)) as R1. assert (u * Rabs (w / 3) <= u * 0.3438) by (apply Rmult_le_compat_l; lra).
  assert (R1' : Rabs (rd (w / 3) - w / 3) <= 0.344 * u) by lra. apply Rabs_le_inv in R1'. set (t := rd (w / 3)) in *.
  assert (Ht : isf (@ndiv _ FN n (@nofZ _ FN 3)) t) by (apply (isF_div prec emax); [assumption|assumption|lra|apply (rd_half_top prec emax (p6 prec emax Hfmt)); lra]).
  assert (Z : Rabs (y + t) <= 0.36 * (c + 1)) by (apply Rabs_le; lra).
  assert (mu : u * m <= 0.001) by lra. assert (m6 : m * 1 <= / u). { apply Rmult_le_reg_r with u; [exact U0|]. rewrite Rinv_l by lra. lra. }
  assert (IT : / u * 1 <= / u * / u) by (apply Rmult_le_compat_l; lra).
  pose proof (rd_abs prec emax Hfmt (y + t)) as R2. assert (u * Rabs (y + t) <= u * (0.36 * (c + 1))) by (apply Rmult_le_compat_l; lra).
  assert (cu : 0 <= u * c) by (apply Rmult_le_pos; lra).
  split; [apply Rabs_le; lra|]. exists (rd (y + t)). split; [apply (isF_add prec emax); [assumption|assumption|apply (rd_half_top prec emax (p6 prec emax Hfmt)); lra]|].
  assert (R2' : Rabs (rd (y + t) - (y + t)) <= 0.361 * u + 0.36 * (u * c)) by lra. apply Rabs_le_inv in R2'.
  assert (EE : E (c + 1) = E c + F / 2 + u * c + u / 2) by (unfold vertex_err; field). rewrite EE. apply Rabs_le. lra.
Qed.

Definition sums_are (vns : list (vec spec_float)) (c : nat -> R) (S : nat -> vec R) : Prop :=
  forall j, (j < length vns)%nat -> exists x, nth_error vns j = Some x /\ vsummed (c j) (S j) x.
Definition once (v j : nat) : R := if Nat.eq_dec v j then 1 else 0.
Lemma add_normal_F fn vns v : (v < length vns)%nat ->
  exists vns', @add_normal _ FN fn vns v = Ok vns' /\ length vns' = length vns /\
    forall c S N, vec_near prec emax F fn N -> rv_norm N = 1 -> (forall j, 0 <= c j /\ c j + once v j <= m) -> sums_are vns c S ->
      sums_are vns' (fun j => c j + once v j) (fun j => rv_add (S j) (rv_scale (once v j / 3) N)).
Proof.
  intros Hv. unfold add_normal, at_. destruct (nth_error vns v) as [old|] eqn:E.
  2:{ apply nth_error_None in E. lia. }
  cbn [bind]. eexists. split; [reflexivity|]. split; [apply set_length|].
  intros c S N (K & (I1 & I2 & I3) & C1 & C2 & C3) HN Hc HW j Hj. rewrite set_length in Hj. destruct (HW j Hj) as (x & Ex & Vx). specialize (Hc j). unfold once in *.
  destruct (Nat.eq_dec v j) as [<-|Hne].
  - rewrite set_same by exact Hv. eexists. split; [reflexivity|]. rewrite E in Ex. injection Ex as <-. destruct Vx as (V1 & V2 & V3).
    destruct (comp_norm N) as (N1 & N2 & N3). rewrite HN in N1, N2, N3. unfold rv_sub in C1, C2, C3. cbn [vx vy vz] in C1, C2, C3.
    replace (1 / 3) with (/ 3) by field. split; [|split]; cbn [vx vy vz rv_add rv_scale vadd vdivs]; (apply sum_step; [lra|lra|assumption|eauto|assumption]).
  - rewrite set_other by exact Hne. exists x. split; [exact Ex|].
    replace (rv_add (S j) (rv_scale (0 / 3) N)) with (S j) by (apply vec_eq; cbn; field). rewrite Rplus_0_r. exact Vx.
Qed.
Lemma sums_ext vns c c' S S' : (forall j, c j = c' j) -> (forall j, S j = S' j) -> sums_are vns c S -> sums_are vns c' S'.
Proof. intros H H' HW j Hj. rewrite <- H, <- H'. apply HW, Hj. Qed.

Variables (vertices : list (vec spec_float)) (P : nat -> vec R).
Hypothesis Hverts : forall j, (j < length vertices)%nat -> exists x, nth_error vertices j = Some x /\ visF prec emax x (P j).
Lemma valence_pos faces j : 0 <= valence faces j.
Proof.
  induction faces as [|f fs IH]; cbn [valence]; [lra|]. unfold uses. destruct (Nat.eq_dec (vx f) j), (Nat.eq_dec (vy f) j), (Nat.eq_dec (vz f) j); lra.
Qed.
Lemma face_vertices_F f : (vx f < length vertices /\ vy f < length vertices /\ vz f < length vertices)%nat ->
  exists a b c, face_vertices vertices f = Ok (a, b, c) /\ visF prec emax a (P (vx f)) /\ visF prec emax b (P (vy f)) /\ visF prec emax c (P (vz f)).
Proof.
  intros (H1 & H2 & H3). destruct (Hverts _ H1) as (a & Ea & Va). destruct (Hverts _ H2) as (b & Eb & Vb).
  destruct (Hverts _ H3) as (c & Ec & Vc). exists a, b, c. unfold face_vertices, at_. rewrite Ea. cbn [bind]. rewrite Eb. cbn [bind]. rewrite Ec. cbn [bind]. auto.
Qed.
Lemma stout_unit A B C : stout prec k A B C -> rv_norm (unit_of (tri_cross A B C)) = 1.
Proof.
  intros (_ & H & _). pose proof (u_pos prec). unfold unit_of. rewrite rv_norm_scale, Rabs_pos_eq by (apply Rlt_le, Rinv_0_lt_compat; lra). apply Rinv_l. lra.
Qed.
Lemma mesh_loop_F faces : forall vns,
  (forall f, In f faces -> (vx f < length vertices /\ vy f < length vertices /\ vz f < length vertices)%nat) -> length vns = length vertices -> stout_faces prec k P faces ->
  exists cs bs fns vns', @mesh_loop _ FN vertices faces vns = Ok (cs, bs, fns, vns') /\ length vns' = length vertices /\
    (forall i f, nth_error faces i = Some f -> exists n, nth_error fns i = Some n /\ vec_near prec emax F n (face_normal P f)) /\
    forall c S, sums_are vns c S -> (forall j, 0 <= c j /\ c j + valence faces j <= m) ->
      sums_are vns' (fun j => c j + valence faces j) (fun j => rv_add (S j) (vertex_normal P faces j)).
Proof.
  induction faces as [|f fs IH]; intros vns Hf Hl Hs.
  - exists [], [], [], vns. split; [reflexivity|]. split; [exact Hl|]. split; [intros [|i] f0 E; discriminate|].
    intros c S HW _. revert HW. apply sums_ext; intros j; [cbn; ring|apply vec_eq; cbn; ring].
  - assert (Hff := Hf f (or_introl eq_refl)). destruct (face_vertices_F f Hff) as (a & b & c & Ev & Va & Vb & Vc).
    destruct Hff as (F1 & F2 & F3). rewrite <- Hl in F1, F2, F3.
    assert (Sf := Hs f (or_introl eq_refl)). assert (Hfn : vec_near prec emax F (@tri_normal _ FN a b c) (face_normal P f)) by (apply (face_F prec emax Hfmt k K1 K2); assumption).
    pose proof (stout_unit _ _ _ Sf) as N1. change (unit_of (tri_cross (P (vx f)) (P (vy f)) (P (vz f)))) with (face_normal P f) in N1.
    cbn [mesh_loop]. rewrite Ev. cbn [bind]. set (fn := @tri_normal _ FN a b c) in *.
    destruct (add_normal_F fn vns (vx f) F1) as (v1 & E1 & L1 & G1). rewrite E1. cbn [bind].
    rewrite <- L1 in F2. destruct (add_normal_F fn v1 (vy f) F2) as (v2 & E2 & L2 & G2). rewrite E2. cbn [bind].
    rewrite <- L1, <- L2 in F3. destruct (add_normal_F fn v2 (vz f) F3) as (v3 & E3 & L3 & G3). rewrite E3. cbn [bind].
    destruct (IH v3) as (cs & bs & fns & vns' & E & L & B1 & B2).
    { intros g Hg. apply Hf. right. exact Hg. } { congruence. } { intros g Hg. apply Hs. right. exact Hg. }
    rewrite E. cbn [bind]. do 4 eexists. split; [reflexivity|]. split; [exact L|]. split.
    + intros [|i] f0 E0; cbn in E0 |- *; [|apply B1, E0]. injection E0 as <-. eauto.
    + intros c0 S HW Hc.
      assert (O : forall v j, 0 <= once v j) by (intros v j; unfold once; destruct (Nat.eq_dec v j); lra).
      assert (Hc' : forall j, 0 <= c0 j /\ c0 j + once (vx f) j + once (vy f) j + once (vz f) j + valence fs j <= m).
      { intros j. specialize (Hc j). cbn [valence] in Hc. change (uses f j) with (once (vx f) j + once (vy f) j + once (vz f) j) in Hc. lra. }
      assert (Hv : forall j, 0 <= valence fs j) by apply valence_pos.
      assert (R1 := G1 c0 S _ Hfn N1 ltac:(intros j; specialize (Hc' j); specialize (Hv j); pose proof (O (vx f) j); pose proof (O (vy f) j); pose proof (O (vz f) j); lra) HW).
      assert (R2 := fun H => G2 _ _ _ Hfn N1 H R1). specialize (R2 ltac:(intros j; specialize (Hc' j); specialize (Hv j); pose proof (O (vx f) j); pose proof (O (vy f) j); pose proof (O (vz f) j); cbv beta; lra)).
      assert (R3 := fun H => G3 _ _ _ Hfn N1 H R2). specialize (R3 ltac:(intros j; specialize (Hc' j); specialize (Hv j); pose proof (O (vx f) j); pose proof (O (vy f) j); pose proof (O (vz f) j); cbv beta; lra)).
      assert (R4 := B2 _ _ R3). specialize (R4 ltac:(intros j; specialize (Hc' j); specialize (Hv j); pose proof (O (vx f) j); pose proof (O (vy f) j); pose proof (O (vz f) j); cbv beta; lra)).
      revert R4. apply sums_ext; intros j; cbn [vertex_normal valence].
      * change (uses f j) with (once (vx f) j + once (vy f) j + once (vz f) j). ring.
      * change (uses f j) with (once (vx f) j + once (vy f) j + once (vz f) j). apply vec_eq; cbn [vx vy vz rv_add rv_scale]; field.
Qed.

(** The mixture at a hit. *)
Lemma mix_F fu fv x0 x1 x2 wu wv s0 s1 s2 : isf fu wu -> isf fv wv -> Rabs wu <= 8 -> Rabs wv <= 8 ->
  summed m s0 x0 -> summed m s1 x1 -> summed m s2 x2 ->
  exists z, isf (@nadd _ FN (@nadd _ FN (@nmul _ FN (@nsub _ FN (@nsub _ FN (@n1 _ FN) fu) fv) x0) (@nmul _ FN fu x1)) (@nmul _ FN fv x2)) z /\
    Rabs (z - ((1 - wu - wv) * s0 + wu * s1 + wv * s2)) <= 20 * m * (32 * k + m) * u.
Proof.
  intros Hu Hv Bu Bv (S0 & y0 & Y0 & E0) (S1 & y1 & Y1 & E1) (S2 & y2 & Y2 & E2).
  pose proof (u_pos prec) as U0. pose proof (u_small prec emax Hfmt) as U1. pose proof (top_u prec emax Hfmt) as T.
  assert (Iu : 1000000 <= / u). { rewrite <- (Rinv_inv 1000000). apply Rinv_le_contravar; lra. } assert (II : 1000000 * 1000000 <= / u * / u) by (apply Rmult_le_compat; lra).
  assert (m6 : m * 1 <= / u). { apply Rmult_le_reg_r with u; [exact U0|]. rewrite Rinv_l by lra. lra. }
  assert (IT : / u * 1000000 <= / u * / u) by (apply Rmult_le_compat_l; lra).
  destruct (E_facts m ltac:(lra)) as [e0 e1]. destruct F_facts as [F1 F2].
  assert (um : u * 1 <= u * m) by (apply Rmult_le_compat_l; lra).
  assert (Ev : 16 * (u * m) <= E m).
  { unfold vertex_err. assert (m * (32 * u) <= m * (F + m * u)) by (apply Rmult_le_compat_l; [lra|]; assert (0 <= m * u) by (apply Rmult_le_pos; lra); lra). lra. }
  assert (ST : forall z, Rabs z <= 100 * m -> Rabs (rd z) < top emax /\ Rabs (rd z - z) <= u * Rabs z + / 1000000 * u).
  { intros z Hz. split; [apply (rd_half_top prec emax (p6 prec emax Hfmt)); lra|apply (rd_abs prec emax Hfmt)]. }
  apply Rabs_le_inv in Bu as Bu'. apply Rabs_le_inv in Bv as Bv'.
  (* the first weight *)
  assert (D1 : Rabs (1 - wu) <= 9) by (apply Rabs_le; lra). destruct (ST (1 - wu) ltac:(lra)) as [T1 R1].
  assert (u * Rabs (1 - wu) <= u * 9) by (apply Rmult_le_compat_l; lra).
  assert (I1 := isF_sub prec emax _ _ _ _ (one_isF prec emax (p6 prec emax Hfmt)) Hu T1). set (a1 := rd (1 - wu)) in *. assert (R1' : Rabs (a1 - (1 - wu)) <= 9.001 * u) by lra. apply Rabs_le_inv in R1'.
  assert (D2 : Rabs (a1 - wv) <= 17.001) by (apply Rabs_le; lra). destruct (ST (a1 - wv) ltac:(lra)) as [T2 R2].
  assert (u * Rabs (a1 - wv) <= u * 17.001) by (apply Rmult_le_compat_l; lra).
  assert (I2 := isF_sub prec emax _ _ _ _ I1 Hv T2). set (a2 := rd (a1 - wv)) in *. assert (R2' : Rabs (a2 - (a1 - wv)) <= 17.002 * u) by lra. apply Rabs_le_inv in R2'.
  assert (W0 : Rabs (a2 - (1 - wu - wv)) <= 26.01 * u) by (apply Rabs_le; lra).
  assert (B0 : Rabs (1 - wu - wv) <= 17) by (apply Rabs_le; lra).
  (* products *)
  assert (MU : forall fw fx w w' y s b n, isf fw w' -> isf fx y -> Rabs (w' - w) <= n * u -> Rabs w <= b -> 0 <= n <= 26.01 -> 0 <= b <= 17 -> Rabs s <= m / 3 -> Rabs (y - s) <= E m ->
    exists z, isf (@nmul _ FN fw fx) z /\ Rabs (z - w * s) <= 1.0001 * b * E m + (0.36 * n + 0.36 * b) * (u * m) + 0.01 * (u * m) /\ Rabs z <= 0.36 * b * m + 0.01 * m).
  { intros fw fx w w' y s b n Hw Hx Dw Bw Hn Hb Bs Ds.
    assert (By : Rabs y <= 0.35 * m).
    { replace y with ((y - s) + s) by ring. eapply Rle_trans; [apply Rabs_two; [exact Ds|exact Bs]|]. lra. }
    assert (J1 : Rabs ((w' - w) * y) <= n * u * (0.35 * m)) by (apply Rabs_mul_le2; assumption).
    assert (J2 : Rabs (w * (y - s)) <= b * E m) by (apply Rabs_mul_le2; assumption).
    assert (J3 : Rabs (w * s) <= b * (m / 3)) by (apply Rabs_mul_le2; assumption).
    assert (nm : 0 <= n * (u * m)) by (apply Rmult_le_pos; lra). assert (nm' : n * (u * m) <= 26.01 * (u * m)) by (apply Rmult_le_compat_r; lra).
    assert (um' : u * m <= / 1000000 * m) by (apply Rmult_le_compat_r; lra). assert (bm : 0 <= b * m) by (apply Rmult_le_pos; lra).
    assert (bm' : b * m <= 17 * m) by (apply Rmult_le_compat_r; lra).
    assert (bE : b * E m <= b * (0.0162 * m)) by (apply Rmult_le_compat_l; lra).
    assert (Z : Rabs (w' * y) <= 0.3497 * (b * m) + 0.001 * m).
    { replace (w' * y) with ((w' - w) * y + w * (y - s) + w * s) by ring. eapply Rle_trans; [apply Rabs_two; [apply Rabs_two; eassumption|exact J3]|].
      replace (n * u * (0.35 * m)) with (0.35 * (n * (u * m))) by ring. lra. }
    destruct (ST (w' * y) ltac:(lra)) as [S3 R3]. assert (X : u * Rabs (w' * y) <= u * (0.3497 * (b * m) + 0.001 * m)) by (apply Rmult_le_compat_l; lra).
    replace (u * (0.3497 * (b * m) + 0.001 * m)) with (0.3497 * (b * (u * m)) + 0.001 * (u * m)) in X by ring.
    assert (bum : 0 <= b * (u * m)) by (apply Rmult_le_pos; lra). assert (bum' : b * (u * m) <= 17 * (u * m)) by (apply Rmult_le_compat_r; lra).
    assert (bE0 : 0 <= b * E m) by (apply Rmult_le_pos; lra).
    exists (rd (w' * y)). split; [apply (isF_mul prec emax); assumption|]. split.
    - replace (rd (w' * y) - w * s) with ((rd (w' * y) - w' * y) + ((w' - w) * y + w * (y - s))) by ring.
      eapply Rle_trans; [apply Rabs_two; [exact R3|apply Rabs_two; [exact J1|exact J2]]|]. replace (n * u * (0.35 * m)) with (0.35 * (n * (u * m))) by ring. lra.
    - replace (rd (w' * y)) with ((rd (w' * y) - w' * y) + w' * y) by ring. eapply Rle_trans; [apply Rabs_two; [exact R3|exact Z]|]. lra. }
  destruct (MU _ _ (1 - wu - wv) _ _ s0 17 26.01 I2 Y0 W0 B0 ltac:(lra) ltac:(lra) S0 E0) as (p0 & P0 & Q0 & L0).
  assert (Zu : forall w, Rabs (w - w) <= 0 * u) by (intros w; rewrite Rminus_diag_eq by reflexivity; rewrite Rabs_R0; lra).
  destruct (MU _ _ wu _ _ s1 8 0 Hu Y1 (Zu wu) Bu ltac:(lra) ltac:(lra) S1 E1) as (p1 & P1 & Q1 & L1).
  destruct (MU _ _ wv _ _ s2 8 0 Hv Y2 (Zu wv) Bv ltac:(lra) ltac:(lra) S2 E2) as (p2 & P2 & Q2 & L2).
  apply Rabs_le_inv in L0. apply Rabs_le_inv in L1. apply Rabs_le_inv in L2.
  assert (um' : u * m <= / 1000000 * m) by (apply Rmult_le_compat_r; lra).
  assert (X1 : Rabs (p0 + p1) <= 9.1 * m) by (apply Rabs_le; lra). destruct (ST (p0 + p1) ltac:(lra)) as [A1 A2].
  assert (u * Rabs (p0 + p1) <= u * (9.1 * m)) by (apply Rmult_le_compat_l; lra).
  assert (I3 := isF_add prec emax _ _ _ _ P0 P1 A1). set (q1 := rd (p0 + p1)) in *. assert (A2' : Rabs (q1 - (p0 + p1)) <= 9.11 * (u * m)) by lra. apply Rabs_le_inv in A2'.
  assert (X2 : Rabs (q1 + p2) <= 12.1 * m) by (apply Rabs_le; lra). destruct (ST (q1 + p2) ltac:(lra)) as [A3 A4].
  assert (u * Rabs (q1 + p2) <= u * (12.1 * m)) by (apply Rmult_le_compat_l; lra).
  assert (I4 := isF_add prec emax _ _ _ _ I3 P2 A3). set (q2 := rd (q1 + p2)) in *. assert (A4' : Rabs (q2 - (q1 + p2)) <= 12.11 * (u * m)) by lra. apply Rabs_le_inv in A4'.
  exists q2. split; [exact I4|].
  assert (EE : 20 * m * (32 * k + m) * u = 40 * E m) by (unfold vertex_err, face_err; field). rewrite EE.
  apply Rabs_le_inv in Q0. apply Rabs_le_inv in Q1. apply Rabs_le_inv in Q2. apply Rabs_le. lra.
Qed.
End G.
