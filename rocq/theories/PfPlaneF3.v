(** The plane routine in IEEE arithmetic: rounding errors. *)

From Coq Require Import Reals ZArith Bool Lra Lia Psatz Floats.SpecFloat.
From Flocq Require Import Core IEEE754.BinarySingleNaN.
From Verif Require Import Num NumR NumF Vec Ray Plane SpecReal SpecIEEE SpecTriF SpecSphF SpecPlane SpecPlaneF.
From Verif Require Import PfIEEE PfIEEE2 PfIEEE3 PfTriF PfTriF2 PfDirF PfX PfSphF PfSphF2 PfPlane PfPlaneF PfPlaneF2.
Local Open Scope R_scope.

Lemma orth_norm Q v : orthogonal Q -> rv_norm (rv_mul Q v) = rv_norm v.
Proof. intros H. unfold rv_norm. rewrite (orth_dot Q v v H). reflexivity. Qed.
Lemma orth_norm' Q v : orthogonal Q -> rv_norm (rv_mul (rv_trans Q) v) = rv_norm v.
Proof. intros H. unfold rv_norm. rewrite (orth_dot' Q v v H). reflexivity. Qed.
Lemma axis_norm : rv_norm (V 1 0 0) = 1 /\ rv_norm (V 0 1 0) = 1 /\ rv_norm (V 0 0 1) = 1.
Proof. unfold rv_norm, rv_dot. cbn [vx vy vz]. repeat split; (eapply eq_trans; [|apply sqrt_1]; f_equal; ring). Qed.
Lemma rows_unit Q : orthogonal Q -> rv_norm (vx Q) = 1 /\ rv_norm (vy Q) = 1 /\ rv_norm (vz Q) = 1.
Proof.
  intros H. destruct axis_norm as (A1 & A2 & A3). destruct Q as [[a b c] [d e f] [g h k]]. cbn [vx vy vz].
  split; [|split]; [rewrite <- A1, <- (orth_norm' _ (V 1 0 0) H)|rewrite <- A2, <- (orth_norm' _ (V 0 1 0) H)|rewrite <- A3, <- (orth_norm' _ (V 0 0 1) H)]; f_equal;
    unfold rv_mul, rv_trans, rv_dot; cbn [vx vy vz]; f_equal; ring.
Qed.
Lemma cols_unit Q : orthogonal Q -> rv_norm (vx (rv_trans Q)) = 1 /\ rv_norm (vy (rv_trans Q)) = 1 /\ rv_norm (vz (rv_trans Q)) = 1.
Proof.
  intros H. destruct axis_norm as (A1 & A2 & A3). destruct Q as [[a b c] [d e f] [g h k]]. unfold rv_trans. cbn [vx vy vz].
  split; [|split]; [rewrite <- A1, <- (orth_norm _ (V 1 0 0) H)|rewrite <- A2, <- (orth_norm _ (V 0 1 0) H)|rewrite <- A3, <- (orth_norm _ (V 0 0 1) H)]; f_equal;
    unfold rv_mul, rv_trans, rv_dot; cbn [vx vy vz]; f_equal; ring.
Qed.
Lemma Rabs_mul_le2 x y a b : Rabs x <= a -> Rabs y <= b -> Rabs (x * y) <= a * b.
Proof. intros H1 H2. rewrite Rabs_mult. apply Rmult_le_compat; try apply Rabs_pos; assumption. Qed.
Lemma Rabs_two x y a b : Rabs x <= a -> Rabs y <= b -> Rabs (x + y) <= a + b.
Proof. intros. eapply Rle_trans; [apply Rabs_triang|]. lra. Qed.

Section F.
Variables prec emax : Z.
Context {Hprec : Prec_gt_0 prec} {Hmax : Prec_lt_emax prec emax}.
Hypothesis Hfmt : usual_format prec emax.
Notation FN := (Fnum prec emax).
Notation isf := (isF prec emax).
Notation rd := (rnd prec emax).
Notation u := (ulpf prec).
Notation low0 := (least emax).
Notation hi0 := (top emax).
Notation q := (/ 1000000).
Variable M : R.
Hypothesis HM : scale_ok prec emax M.

Lemma uM_facts : 0 < u /\ u <= q /\ 1 <= M /\ 0 < u * M /\ u <= u * M /\ u * M <= q * M /\ 0 < low0 /\ 2 * low0 <= q * u /\ 128 * M <= hi0 / 2 /\ 128 * M ^ 2 <= hi0 / 2.
Proof.
  pose proof (u_pos prec) as U0. pose proof (u_small prec emax Hfmt) as U1. assert (V1 : 1 <= M) by apply HM.
  pose proof (low_small prec emax Hfmt) as L1. pose proof (low_pos emax) as L0.
  pose proof (Mk_top prec emax M HM 1 ltac:(lia)) as T. rewrite pow_1 in T. pose proof (Mk_top prec emax M HM 2 ltac:(lia)) as T2.
  assert (u * M <= q * M) by (apply Rmult_le_compat_r; lra). assert (u <= u * M) by (rewrite <- (Rmult_1_r u) at 1; apply Rmult_le_compat_l; lra).
  repeat split; lra.
Qed.

(** Rows and columns of the stored matrix. *)
Section Mat.
Variables (m : mat spec_float) (Q : mat R).
Hypothesis HQ : rot_near prec emax m Q.
Lemma line_near x A w : visF prec emax x A -> coords (4 * u) (rv_sub A w) -> rv_norm w = 1 -> vn prec emax M 0 1 6.93 x w.
Proof.
  intros HA (E1 & E2 & E3) Hw. pose proof (u_pos prec) as U0. split; [rewrite pow_O; lra|]. exists A. split; [exact HA|]. rewrite pow_O.
  eapply Rle_trans; [apply (norm_const (4 * u)); [lra|assumption..]|]. lra.
Qed.
Lemma rows_near : vn prec emax M 0 1 6.93 (vx m) (vx Q) /\ vn prec emax M 0 1 6.93 (vy m) (vy Q) /\ vn prec emax M 0 1 6.93 (vz m) (vz Q).
Proof.
  destruct HQ as (H & A & (A1 & A2 & A3) & E1 & E2 & E3). destruct (rows_unit Q H) as (R1 & R2 & R3).
  split; [|split]; eapply line_near; eassumption.
Qed.
Lemma cols_near : vn prec emax M 0 1 6.93 (vx (trans m)) (vx (rv_trans Q)) /\ vn prec emax M 0 1 6.93 (vy (trans m)) (vy (rv_trans Q)) /\
  vn prec emax M 0 1 6.93 (vz (trans m)) (vz (rv_trans Q)).
Proof.
  destruct HQ as (H & A & ((X1 & X2 & X3) & (Y1 & Y2 & Y3) & (Z1 & Z2 & Z3)) & (E1 & E2 & E3) & (F1 & F2 & F3) & (G1 & G2 & G3)).
  destruct (cols_unit Q H) as (R1 & R2 & R3).
  split; [|split]; [apply (line_near _ (vx (rv_trans A)))|apply (line_near _ (vy (rv_trans A)))|apply (line_near _ (vz (rv_trans A)))];
    try assumption; (split; [|split]; assumption).
Qed.
End Mat.

Variables (o c d : vec spec_float) (fdx fdy : spec_float) (m : mat spec_float) (O C U : vec R) (dx dy : R) (Q : mat R).
Hypothesis Ho : visF prec emax o O.
Hypothesis Hd : unit_near prec emax d U.
Hypothesis Hp : plane_isF prec emax M O c fdx fdy m C dx dy Q.
Notation L0 := (local C Q O).
Notation W := (rv_mul (rv_trans Q) U).

Lemma HQ : rot_near prec emax m Q. Proof. apply Hp. Qed.
Lemma Qorth : orthogonal Q. Proof. apply HQ. Qed.
Lemma W_norm : rv_norm W = 1. Proof. rewrite (orth_norm' Q U Qorth). apply Hd. Qed.
Lemma W_le : Rabs (vx W) <= 1 /\ Rabs (vy W) <= 1 /\ Rabs (vz W) <= 1.
Proof. rewrite <- W_norm. apply comp_norm. Qed.
Lemma L0_norm : rv_norm L0 <= M. Proof. unfold local. rewrite (orth_norm' Q _ Qorth). apply Hp. Qed.
Lemma L0_le : Rabs (vx L0) <= M /\ Rabs (vy L0) <= M /\ Rabs (vz L0) <= M.
Proof. pose proof L0_norm. destruct (comp_norm L0) as (A & B & D). lra. Qed.
Lemma local_at t : local C Q (at_t O U t) = at_t L0 W t.
Proof. apply to_local_at. Qed.
Lemma at_parts (a b : vec R) t : vx (at_t a b t) = vx a + t * vx b /\ vy (at_t a b t) = vy a + t * vy b /\ vz (at_t a b t) = vz a + t * vz b.
Proof. repeat split. Qed.

(** The ray in the patch's coordinates. *)
Definition forg := @mulmv _ FN (trans m) (@vsub _ FN o c).
Definition fdir := @mulmv _ FN (trans m) d.
Definition off (k : R) (a v : vec R) : Prop := Rabs (vx a - vx v) <= k /\ Rabs (vy a - vy v) <= k /\ Rabs (vz a - vz v) <= k.
Lemma org_F : exists A, visF prec emax forg A /\ off (11 * (u * M)) A L0.
Proof.
  destruct (cols_near m Q HQ) as (K1 & K2 & K3).
  assert (S : vn prec emax M 1 1 1 (@vsub _ FN o c) (rv_sub O C)) by (apply (vn_sub prec emax Hfmt M HM); [exact Ho|apply Hp|apply Hp]).
  assert (G : forall x v, vn prec emax M 0 1 6.93 x v -> exists a, isf (@dot _ FN x (@vsub _ FN o c)) a /\ Rabs (a - rv_dot v (rv_sub O C)) <= 11 * (u * M)).
  { intros x v K. destruct (vn_dot prec emax Hfmt M HM 0 1 1 6.93 1 1 11 _ _ _ _ K S ltac:(lia) ltac:(lra) ltac:(lra) ltac:(lra) ltac:(lra) ltac:(lra) ltac:(lra) ltac:(lra)) as (_ & a & Ha & E).
    exists a. split; [exact Ha|]. cbn [Nat.add] in E. rewrite pow_1 in E. lra. }
  destruct (G _ _ K1) as (a1 & I1 & E1). destruct (G _ _ K2) as (a2 & I2 & E2). destruct (G _ _ K3) as (a3 & I3 & E3).
  exists (V a1 a2 a3). split; (split; [|split]); assumption.
Qed.
Lemma dir_F : exists B, visF prec emax fdir B /\ off (19 * u) B W.
Proof.
  destruct (cols_near m Q HQ) as (K1 & K2 & K3). destruct Hd as [H1 Hn].
  pose proof (vn_dir prec emax M d U H1 Hn) as S.
  assert (G : forall x v, vn prec emax M 0 1 6.93 x v -> exists a, isf (@dot _ FN x d) a /\ Rabs (a - rv_dot v U) <= 19 * u).
  { intros x v K. destruct (vn_dot prec emax Hfmt M HM 0 0 1 6.93 1 8.67 19 _ _ _ _ K S ltac:(lia) ltac:(lra) ltac:(lra) ltac:(lra) ltac:(lra) ltac:(lra) ltac:(lra) ltac:(lra)) as (_ & a & Ha & E).
    exists a. split; [exact Ha|]. cbn [Nat.add] in E. rewrite pow_O in E. lra. }
  destruct (G _ _ K1) as (a1 & I1 & E1). destruct (G _ _ K2) as (a2 & I2 & E2). destruct (G _ _ K3) as (a3 & I3 & E3).
  exists (V a1 a2 a3). split; (split; [|split]); assumption.
Qed.

(** Half a side. *)
Lemma half_F fx x : isf fx x -> 0 <= x / 2 <= M -> exists h, isf (@ndiv _ FN fx (@n2 _ FN)) h /\ isf (@ndiv _ FN (@nopp _ FN fx) (@n2 _ FN)) (- h) /\
  Rabs (h - x / 2) <= 2 * low0 + u * M /\ 0 <= h <= 1.001 * M.
Proof.
  intros Hx Hb. destruct uM_facts as (U0 & U1 & V1 & UM & UM1 & UM2 & LP & LS & T1 & T2).
  exists (rd (x / 2)). pose proof (rd_low prec emax (x / 2)) as E. rewrite (Rabs_pos_eq (x / 2)) in E by lra.
  assert (u * (x / 2) <= u * M) by (apply Rmult_le_compat_l; lra).
  assert (T : Rabs (rd (x / 2)) < hi0) by (apply (rd_half_top prec emax (p6 prec emax Hfmt)); rewrite Rabs_pos_eq; lra).
  assert (P : 0 <= rd (x / 2)) by (apply (rd_pos prec emax); lra).
  split; [apply (isF_div prec emax); [exact Hx|apply (two_isF prec emax Hfmt)|lra|exact T]|]. split.
  - rewrite <- (rd_opp prec emax). replace (- (x / 2)) with (- x / 2) by lra.
    apply (isF_div prec emax); [apply (isF_opp prec emax), Hx|apply (two_isF prec emax Hfmt)|lra|]. replace (- x / 2) with (- (x / 2)) by lra. rewrite (rd_opp prec emax), Rabs_Ropp. exact T.
  - split; [lra|]. apply Rabs_le_inv in E. lra.
Qed.

(** A coordinate of the point that the routine tests, when it lies between the sides. *)
Lemma coord_F fo fd ft a b t h : isf fo a -> isf fd b -> isf ft t -> Rabs a <= 1.001 * M -> 0 <= h <= 1.001 * M ->
  is_finite_SF (@nadd _ FN fo (@nmul _ FN ft fd)) = true ->
  exists x, isf (@nadd _ FN fo (@nmul _ FN ft fd)) x /\
    (- h <= x <= h -> Rabs (t * b) <= 2.01 * M /\ Rabs (x - (a + t * b)) <= 3.1 * (u * M)).
Proof.
  intros Ho' Hd' Ht Ha Hh Hf. destruct uM_facts as (U0 & U1 & V1 & UM & UM1 & UM2 & LP & LS & T1 & T2).
  pose proof (mul_fin prec emax _ _ _ _ Ht Hd' (add_fin_r prec emax _ _ _ Ho' Hf)) as Hm.
  pose proof (add_fin prec emax _ _ _ _ Ho' Hm Hf) as Hs. exists (rd (a + rd (t * b))). split; [exact Hs|]. intros Hx.
  pose proof (rd_add_rel prec emax _ _ _ _ Ho' Hm) as E1. pose proof (rd_low prec emax (t * b)) as E2. set (p := rd (t * b)) in *. set (x := rd (a + p)) in *.
  assert (X : Rabs x <= 1.001 * M) by (apply Rabs_le; lra).
  pose proof (Rabs_pos (a + p)) as P1. pose proof (Rabs_pos (t * b)) as P2.
  assert (Q1 : u * Rabs (a + p) <= q * Rabs (a + p)) by (apply Rmult_le_compat_r; lra).
  assert (Q2 : u * Rabs (t * b) <= q * Rabs (t * b)) by (apply Rmult_le_compat_r; lra).
  assert (S1 : Rabs (a + p) <= 1.002 * M).
  { pose proof (Rabs_triang x (a + p - x)) as T. replace (x + (a + p - x)) with (a + p) in T by ring. rewrite (Rabs_minus_sym (a + p) x) in T. lra. }
  assert (S2 : Rabs p <= 2.003 * M).
  { pose proof (Rabs_triang (a + p) (- a)) as T. replace (a + p + - a) with p in T by ring. rewrite Rabs_Ropp in T. lra. }
  assert (S3 : Rabs (t * b) <= 2.01 * M).
  { pose proof (Rabs_triang p (t * b - p)) as T. replace (p + (t * b - p)) with (t * b) in T by ring. rewrite (Rabs_minus_sym (t * b) p) in T. lra. }
  split; [exact S3|]. replace (x - (a + t * b)) with ((x - (a + p)) + (p - t * b)) by ring.
  assert (u * Rabs (a + p) <= u * (1.002 * M)) by (apply Rmult_le_compat_l; lra).
  assert (u * Rabs (t * b) <= u * (2.01 * M)) by (apply Rmult_le_compat_l; lra).
  eapply Rle_trans; [apply Rabs_two; [exact E1|exact E2]|]. lra.
Qed.
(** A coordinate, when the parameter is moderate. *)
Lemma coord_small fo fd ft a b t : isf fo a -> isf fd b -> isf ft t -> Rabs a <= 1.001 * M -> Rabs b <= 1.001 -> Rabs t <= 3.35 * M ->
  exists x, isf (@nadd _ FN fo (@nmul _ FN ft fd)) x /\ Rabs (x - (a + t * b)) <= 8 * (u * M).
Proof.
  intros Ho' Hd' Ht Ha Hb Htm. destruct uM_facts as (U0 & U1 & V1 & UM & UM1 & UM2 & LP & LS & T1 & T2).
  assert (P : Rabs (t * b) <= 3.36 * M) by (eapply Rle_trans; [apply Rabs_mul_le2; eassumption|]; lra).
  pose proof (rd_low prec emax (t * b)) as E2. assert (u * Rabs (t * b) <= u * (3.36 * M)) by (apply Rmult_le_compat_l; lra).
  assert (Hm : isf (@nmul _ FN ft fd) (rd (t * b))) by (apply (isF_mul prec emax); [assumption..|]; apply (rd_half_top prec emax (p6 prec emax Hfmt)); lra).
  set (p := rd (t * b)) in *.
  assert (S : Rabs p <= 3.37 * M). { pose proof (Rabs_triang (p - t * b) (t * b)) as T. replace (p - t * b + t * b) with p in T by ring. lra. }
  assert (S1 : Rabs (a + p) <= 4.38 * M) by (eapply Rle_trans; [apply Rabs_two; eassumption|]; lra).
  pose proof (rd_add_rel prec emax _ _ _ _ Ho' Hm) as E1. assert (u * Rabs (a + p) <= u * (4.38 * M)) by (apply Rmult_le_compat_l; lra).
  exists (rd (a + p)). split; [apply (isF_add prec emax); [assumption..|]; apply (rd_half_top prec emax (p6 prec emax Hfmt)); lra|].
  replace (rd (a + p) - (a + t * b)) with ((rd (a + p) - (a + p)) + (p - t * b)) by ring.
  eapply Rle_trans; [apply Rabs_two; [exact E1|exact E2]|]. lra.
Qed.
(** The reported distance. *)
Lemma far_F ft t : isf ft t -> Rabs t <= 3.35 * M -> exists x, isf (@norm _ FN (@vscale _ FN ft fdir)) x /\ 0 <= x /\ Rabs (x - Rabs t) <= 125 * (u * M).
Proof.
  intros Ht Hl. destruct dir_F as (B & (B1 & B2 & B3) & E1 & E2 & E3).
  destruct uM_facts as (U0 & U1 & V1 & UM & UM1 & UM2 & LP & LS & T1 & T2).
  assert (NB : rv_norm (rv_sub B W) <= 33 * u) by (eapply Rle_trans; [apply (norm_const (19 * u)); [lra|assumption..]|]; lra).
  pose proof (norm_sub_le B W) as N1. pose proof (norm_sub_le W B) as N2. rewrite norm_sub_sym in N2. rewrite W_norm in N1, N2.
  destruct (comp_norm B) as (C1 & C2 & C3).
  assert (Cp : forall fx x, isf fx x -> Rabs x <= rv_norm B -> isf (@nmul _ FN ft fx) (rd (t * x)) /\ Rabs (rd (t * x) - t * x) <= 3.36 * (u * M)).
  { intros fx x Hx Hlx. assert (A : Rabs (t * x) <= 3.35 * M * 1.0001) by (apply Rabs_mul_le2; lra).
    pose proof (rd_low prec emax (t * x)) as R. assert (u * Rabs (t * x) <= u * (3.35 * M * 1.0001)) by (apply Rmult_le_compat_l; lra).
    split; [|lra]. apply (isF_mul prec emax); try assumption. apply (rd_half_top prec emax (p6 prec emax Hfmt)). lra. }
  destruct (Cp _ _ B1 C1) as [I1 F1]. destruct (Cp _ _ B2 C2) as [I2 F2]. destruct (Cp _ _ B3 C3) as [I3 F3].
  set (S := V (rd (t * vx B)) (rd (t * vy B)) (rd (t * vz B))).
  assert (NS : rv_norm (rv_sub S (rv_scale t B)) <= 5.82 * (u * M)).
  { eapply Rle_trans; [apply (norm_const (3.36 * (u * M))); [lra|assumption..]|]. lra. }
  pose proof (norm_sub_le S (rv_scale t B)) as G1. pose proof (norm_sub_le (rv_scale t B) S) as G2. rewrite norm_sub_sym in G2.
  rewrite rv_norm_scale in G1, G2. pose proof (Rabs_pos t) as T0.
  assert (G3 : Rabs t * rv_norm B <= Rabs t * (1 + 33 * u)) by (apply Rmult_le_compat_l; lra).
  assert (G4 : Rabs t * (1 - 33 * u) <= Rabs t * rv_norm B) by (apply Rmult_le_compat_l; lra).
  assert (G5 : Rabs t * u <= 3.35 * (u * M)) by (replace (3.35 * (u * M)) with (3.35 * M * u) by ring; apply Rmult_le_compat_r; lra).
  assert (G6 : rv_norm S <= 3.36 * M) by lra. pose proof (rv_norm_nonneg S) as S0.
  assert (G7 : rv_norm S * rv_norm S <= 12 * M ^ 2).
  { replace (12 * M ^ 2) with (12 * (M * M)) by ring. assert (rv_norm S * rv_norm S <= 3.36 * M * (3.36 * M)) by (apply Rmult_le_compat; assumption).
    assert (0 <= M * M) by apply Rle_0_sqr. lra. }
  assert (G8 : 1 <= 12 * M ^ 2) by (assert (1 <= M ^ 2) by (apply (Mk_pos prec emax M HM)); lra).
  destruct (norm_F prec emax Hfmt (@vscale _ FN ft fdir) S (12 * M ^ 2)) as (x & Hx & X0 & Ex); [split; [|split]; assumption|exact G7|exact G8|lra|].
  exists x. split; [exact Hx|]. split; [exact X0|].
  assert (u * rv_norm S <= u * (3.36 * M)) by (apply Rmult_le_compat_l; lra). apply Rabs_le_inv in Ex. apply Rabs_le. lra.
Qed.
End F.
