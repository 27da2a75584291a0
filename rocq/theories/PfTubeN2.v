(** Normals of cylinders with rounding. *)

From Coq Require Import Reals ZArith Bool Lra Lia Psatz Floats.SpecFloat.
From Flocq Require Import Core IEEE754.BinarySingleNaN Mult_error.
From Verif Require Import Num NumR NumF Vec Ray Traverse Cylinder SpecReal SpecIEEE SpecTri SpecTriF SpecSphF SpecPlane SpecPlaneF SpecTubeF SpecTubeN.
From Verif Require Import PfIEEE PfIEEE2 PfIEEE3 PfTriF PfDirF PfX PfSphF PfSphF2 PfSphN PfPlane PfPlaneF PfPlaneF2 PfPlaneF3 PfTubeF PfTubeF2 PfTubeF3 PfTubeF5 PfTubeF6 PfTubeF7 PfTubeF8 PfTubeF9 PfTubeG PfTubeN.
Local Open Scope R_scope.

Section F.
Variables prec emax : Z.
Context {Hprec : Prec_gt_0 prec} {Hmax : Prec_lt_emax prec emax}.
Notation FN := (Fnum prec emax).
Notation isf := (isF prec emax).
Notation rd := (rnd prec emax).
Notation u := (ulpf prec).
Notation low0 := (least emax).
Notation hi0 := (top emax).
Notation q := (/ 1000000).

Lemma double_exact x p : isf x p -> rd (2 * p) = 2 * p.
Proof.
  intros Hx. apply round_generic; [typeclasses eauto|]. replace (2 * p) with (p * bpow radix2 1) by (cbn; lra).
  apply (mult_bpow_pos_exact_FLT radix2 (SpecFloat.emin prec emax) prec); [|lia].
  change (generic_format radix2 (SpecFloat.fexp prec emax) p). rewrite <- (rd_id prec emax _ _ Hx). apply generic_format_round; typeclasses eauto.
Qed.

Variables (M r v : R) (o d c : vec spec_float) (fa fb fh : spec_float) (m : mat spec_float) (O U C : vec R) (a b h : R) (Q : mat R) (B : vec R).
Hypothesis Ht : tube_ray prec emax M r v o d c fa fb fh m O U C a b h Q B.
Hypothesis Mu : M <= / (4096 * u).
Notation Hfmt := (Hfmt prec emax M r v o d c fa fb fh m O U C a b h Q B Ht).
Notation HM := (HM prec emax M r v o d c fa fb fh m O U C a b h Q B Ht).
Definition sizes := sizes prec emax M r v o d c fa fb fh m O U C a b h Q B Ht.
Definition k_facts := k_facts prec emax M r v o d c fa fb fh m O U C a b h Q B Ht.
Definition el_le := el_le prec emax M r v o d c fa fb fh m O U C a b h Q B Ht.
Notation forg := (PfTubeG.forg prec emax o c m).
Notation fdir := (PfTubeG.fdir prec emax d m).
Notation k := (M / r).
Notation kap := (u * M * (/ r * / r)).
Lemma small : 0 < / r /\ 0 < / M /\ / M <= / r /\ 4096 * u <= / M /\ 3 * u <= r /\ / r <= / u / 3 /\ u * M <= r / 8192 /\ u * / r <= kap /\ 2 * low0 <= q * kap /\ kap <= / M / 8192 /\ kap * M = u * (k * k).
Proof.
  destruct sizes as (U0 & U1 & V1 & UM & UM1 & UM2 & LP & LS & T1 & T2). destruct k_facts as (r0 & k0 & k1 & k2 & k3).
  destruct (tu_sizes _ _ _ _ _ _ _ _ _ _ _ _ _ _ _ _ _ _ _ _ Ht) as (Sa & Sb & Sh). pose proof (tu_large _ _ _ _ _ _ _ _ _ _ _ _ _ _ _ _ _ _ _ _ Ht) as Lg.
  assert (I0 : 0 < / r) by (apply Rinv_0_lt_compat, r0). assert (I1 : 0 < / M) by (apply Rinv_0_lt_compat; lra).
  assert (I2 : / M <= / r) by (apply Rinv_le; lra).
  assert (I3 : 4096 * u <= / M). { rewrite <- (Rinv_inv (4096 * u)). apply Rinv_le; [lra|exact Mu]. }
  assert (I4 : 3 * u <= r).
  { apply Rnot_lt_le. intros N. assert (r * r <= 3 * u * (3 * u)) by (apply Rmult_le_compat; lra). assert (u * u <= q * u) by (apply Rmult_le_compat_r; lra).
    assert (u * 1 <= u * (M * M)) by (apply Rmult_le_compat_l; [lra|]; rewrite <- (Rmult_1_l 1); apply Rmult_le_compat; lra). lra. }
  assert (I5 : / r <= / u / 3). { replace (/ u / 3) with (/ (3 * u)) by (field; lra). apply Rinv_le; lra. }
  assert (I6 : u * M <= r / 8192).
  { replace (u * M) with (u * k * r) by (field; lra). replace (r / 8192) with (/ 8192 * r) by field. apply Rmult_le_compat_r; lra. }
  assert (I7 : u * / r <= kap).
  { rewrite !Rmult_assoc. apply Rmult_le_compat_l; [lra|]. rewrite <- Rmult_assoc. rewrite <- (Rmult_1_l (/ r)) at 1. apply Rmult_le_compat_r; lra. }
  assert (I8 : kap * M = u * (k * k)) by (field; lra).
  assert (I9 : kap <= / M / 8192). { apply Rmult_le_reg_r with M; [lra|]. rewrite I8. replace (/ M / 8192 * M) with (/ 8192) by (field; lra). lra. }
  repeat (split; [assumption|]). split; [|split; assumption].
  pose proof (low_uuu prec emax Hfmt) as X. eapply Rle_trans; [exact X|]. rewrite Rmult_assoc. apply Rmult_le_compat_l; [lra|].
  apply Rle_trans with (u * / r); [|exact I7]. apply Rmult_le_compat_l; [lra|]. apply Rle_trans with (4096 * u * 1); [apply Rmult_le_compat_l; lra|lra].
Qed.

(** A component of the gradient. *)
Lemma grad_part c' fc fo fg ft p g t l : r <= c' <= M -> isf fc c' -> isf fo p -> isf fg g -> isf ft t -> Rabs p <= 1.001 * M -> Rabs g <= 1.001 -> Rabs t <= 2.5 * M ->
  Rabs (l - (p + t * g)) <= 200 * (u * M) -> Rabs (l / c') <= 1.12 ->
  exists y, isf (@ndiv _ FN (@nmul _ FN (@n2 _ FN) (@nadd _ FN fo (@nmul _ FN fg ft))) (@nmul _ FN fc fc)) y /\ Rabs (y - 2 * l / (c' * c')) <= 425 * kap.
Proof.
  intros Hc Fc Fo Fg Ft Lp Lg Lt Ll Lc. destruct sizes as (U0 & U1 & V1 & UM & UM1 & UM2 & LP & LS & T1 & T2). destruct k_facts as (r0 & k0 & k1 & k2 & k3).
  destruct small as (I0 & I1 & I2 & I3 & I4 & I5 & I6 & I7 & I8 & I9 & I10).
  assert (P : Rabs (g * t) <= 2.51 * M) by (eapply Rle_trans; [apply Rabs_mul_le2; eassumption|]; lra).
  pose proof (rd_low prec emax (g * t)) as E2. assert (u * Rabs (g * t) <= u * (2.51 * M)) by (apply Rmult_le_compat_l; lra).
  assert (Hm : isf (@nmul _ FN fg ft) (rd (g * t))) by (apply (isF_mul prec emax); [assumption..|]; apply (rd_half_top prec emax (p6 prec emax Hfmt)); lra).
  set (w0 := rd (g * t)) in *.
  assert (S : Rabs w0 <= 2.52 * M). { pose proof (Rabs_triang (w0 - g * t) (g * t)) as T. replace (w0 - g * t + g * t) with w0 in T by ring. lra. }
  assert (S1 : Rabs (p + w0) <= 3.53 * M) by (eapply Rle_trans; [apply Rabs_two; eassumption|]; lra).
  pose proof (rd_add_rel prec emax _ _ _ _ Fo Hm) as E1. assert (u * Rabs (p + w0) <= u * (3.53 * M)) by (apply Rmult_le_compat_l; lra).
  assert (Hi : isf (@nadd _ FN fo (@nmul _ FN fg ft)) (rd (p + w0))) by (apply (isF_add prec emax); [assumption..|]; apply (rd_half_top prec emax (p6 prec emax Hfmt)); lra).
  set (i := rd (p + w0)) in *.
  assert (Ei : Rabs (i - l) <= 208 * (u * M)).
  { replace (i - l) with ((i - (p + w0)) + ((w0 - g * t) + - (l - (p + t * g)))) by ring.
    assert (Ll' : Rabs (- (l - (p + t * g))) <= 200 * (u * M)) by (rewrite Rabs_Ropp; exact Ll).
    eapply Rle_trans; [apply Rabs_two; [exact E1|apply Rabs_two; [exact E2|exact Ll']]|]. lra. }
  assert (Jc : 0 < / c') by (apply Rinv_0_lt_compat; lra). assert (Jr : / c' <= / r) by (apply Rinv_le; lra).
  assert (Al : Rabs l <= 1.12 * c').
  { replace l with (l / c' * c') by (field; lra). rewrite Rabs_mult, (Rabs_pos_eq c') by lra. apply Rmult_le_compat_r; lra. }
  assert (Ai : Rabs i <= 1.15 * c').
  { pose proof (Rabs_triang (i - l) l) as T. replace (i - l + l) with i in T by ring. lra. }
  pose proof (double_exact _ _ Hi) as D2.
  assert (Hd : isf (@nmul _ FN (@n2 _ FN) (@nadd _ FN fo (@nmul _ FN fg ft))) (2 * i)).
  { rewrite <- D2. apply (isF_mul prec emax); [apply (two_isF prec emax Hfmt)|exact Hi|]. rewrite D2, Rabs_mult, (Rabs_pos_eq 2) by lra. lra. }
  assert (cc : c' * c' <= M * M) by (apply Rmult_le_compat; lra). assert (cc0 : 0 < c' * c') by (apply Rmult_lt_0_compat; lra).
  assert (Hw : isf (@nmul _ FN fc fc) (rd (c' * c'))).
  { apply (isF_mul prec emax); [assumption..|]. apply (rd_half_top prec emax (p6 prec emax Hfmt)). rewrite Rabs_pos_eq by lra. cbn [pow] in T2. lra. }
  assert (Ew : Rabs (rd (c' * c') - c' * c') <= u * (c' * c')).
  { rewrite <- (Rabs_pos_eq (c' * c')) at 3 by lra. apply (rd_rel prec emax). rewrite Rabs_pos_eq by lra. pose proof (low_u prec emax Hfmt) as Lu.
    assert (r * r <= c' * c') by (apply Rmult_le_compat; lra). pose proof (tu_large _ _ _ _ _ _ _ _ _ _ _ _ _ _ _ _ _ _ _ _ Ht) as Lg'.
    assert (u * 1 <= u * (M * M)) by (apply Rmult_le_compat_l; [lra|]; rewrite <- (Rmult_1_l 1); apply Rmult_le_compat; lra). lra. }
  set (w := rd (c' * c')) in *. apply Rabs_le_inv in Ew.
  assert (uc : u * (c' * c') <= q * (c' * c')) by (apply Rmult_le_compat_r; lra). assert (w0' : 0 < w) by lra.
  assert (Jw : / w <= 1.001 * (/ c' * / c')).
  { rewrite <- Rinv_mult. apply Rmult_le_reg_r with (w * (c' * c')); [apply Rmult_lt_0_compat; lra|]. replace (/ w * (w * (c' * c'))) with (c' * c') by (field; lra).
    replace (1.001 * / (c' * c') * (w * (c' * c'))) with (1.001 * w * (c' * c' * / (c' * c'))) by ring. rewrite Rinv_r by lra. lra. }
  assert (Jw0 : 0 < / w) by (apply Rinv_0_lt_compat; lra).
  assert (X2 : Rabs (2 * i) <= 2.3 * c') by (rewrite Rabs_mult, (Rabs_pos_eq 2) by lra; lra).
  assert (Z1 : Rabs (2 * i / w) <= 2.31 * / r).
  { unfold Rdiv. rewrite Rabs_mult, (Rabs_pos_eq (/ w)) by lra. apply Rle_trans with (2.3 * c' * (1.001 * (/ c' * / c'))); [apply Rmult_le_compat; [apply Rabs_pos|lra|exact X2|exact Jw]|].
    replace (2.3 * c' * (1.001 * (/ c' * / c'))) with (2.3 * 1.001 * / c' * (c' * / c')) by ring. rewrite Rinv_r by lra. lra. }
  assert (Z2 : Rabs (2 * i / w - 2 * i / (c' * c')) <= 2.31 * (u * / r)).
  { replace (2 * i / w - 2 * i / (c' * c')) with (2 * i / w * ((c' * c' - w) * (/ c' * / c'))) by (field; lra).
    apply Rle_trans with (2.31 * / r * (u * 1)); [|lra]. apply Rabs_mul_le2; [exact Z1|]. rewrite Rabs_mult, (Rabs_pos_eq (/ c' * / c')) by (apply Rmult_le_pos; lra).
    replace (u * 1) with (u * (c' * c') * (/ c' * / c')) by (field; lra). apply Rmult_le_compat_r; [apply Rmult_le_pos; lra|]. apply Rabs_le. lra. }
  assert (Z3 : Rabs (2 * i / (c' * c') - 2 * l / (c' * c')) <= 416 * kap).
  { replace (2 * i / (c' * c') - 2 * l / (c' * c')) with (2 * (i - l) * (/ c' * / c')) by (field; lra). rewrite Rabs_mult, (Rabs_pos_eq (/ c' * / c')) by (apply Rmult_le_pos; lra).
    replace (416 * kap) with (416 * (u * M) * (/ r * / r)) by ring. apply Rmult_le_compat; [apply Rabs_pos|apply Rmult_le_pos; lra| |apply Rmult_le_compat; lra]. rewrite Rabs_mult, (Rabs_pos_eq 2) by lra. lra. }
  pose proof (rd_low prec emax (2 * i / w)) as Z4. assert (u * Rabs (2 * i / w) <= u * (2.31 * / r)) by (apply Rmult_le_compat_l; lra).
  assert (kap0 : 0 < kap) by (apply Rmult_lt_0_compat; [lra|apply Rmult_lt_0_compat; lra]).
  exists (rd (2 * i / w)). split.
  - apply (isF_div prec emax); [exact Hd|exact Hw|lra|]. apply (rd_half_top prec emax (p6 prec emax Hfmt)). pose proof (top_u prec emax Hfmt) as Tp.
    assert (Iu : 1000000 <= / u). { rewrite <- (Rinv_inv 1000000). apply Rinv_le_contravar; lra. } assert (/ u * 1 <= / u * / u) by (apply Rmult_le_compat_l; lra). lra.
  - replace (rd (2 * i / w) - 2 * l / (c' * c')) with ((rd (2 * i / w) - 2 * i / w) + ((2 * i / w - 2 * i / (c' * c')) + (2 * i / (c' * c') - 2 * l / (c' * c')))) by ring.
    eapply Rle_trans; [apply Rabs_two; [exact Z4|apply Rabs_two; [exact Z2|exact Z3]]|]. lra.
Qed.

Lemma uphill_norm X : 0.75 <= radial a b X <= 1.25 -> 1.73 * / M <= rv_norm (uphill a b X) <= 2.24 * / r.
Proof.
  intros Hr. destruct k_facts as (r0 & k0 & k1 & k2 & k3). destruct small as (I0 & I1 & I2 & _). destruct (tu_sizes _ _ _ _ _ _ _ _ _ _ _ _ _ _ _ _ _ _ _ _ Ht) as (Sa & Sb & Sh).
  pose proof (rv_norm_sq (uphill a b X)) as E. pose proof (rv_norm_nonneg (uphill a b X)) as N0. set (n := rv_norm (uphill a b X)) in *.
  unfold radial in Hr. unfold rv_dot, uphill in E. cbn [vx vy vz] in E.
  assert (G : forall c' x, r <= c' <= M -> 4 * (x / c' * (x / c')) * (/ M * / M) <= 2 * x / (c' * c') * (2 * x / (c' * c')) <= 4 * (x / c' * (x / c')) * (/ r * / r)).
  { intros c' x Hc. replace (2 * x / (c' * c') * (2 * x / (c' * c'))) with (4 * (x / c' * (x / c')) * (/ c' * / c')) by (field; lra).
    pose proof (Rle_0_sqr (x / c')) as S. unfold Rsqr in S. assert (0 < / c') by (apply Rinv_0_lt_compat; lra). assert (/ c' <= / r) by (apply Rinv_le; lra). assert (/ M <= / c') by (apply Rinv_le; lra).
    split; (apply Rmult_le_compat_l; [lra|]; apply Rmult_le_compat; lra). }
  destruct (G a (vx X) Sa) as [G1 G2]. destruct (G b (vy X) Sb) as [G3 G4]. set (x := vx X / a * (vx X / a)) in *. set (y := vy X / b * (vy X / b)) in *.
  assert (m1 : 0 < / M * / M) by (apply Rmult_lt_0_compat; lra). assert (m2 : 0 < / r * / r) by (apply Rmult_lt_0_compat; lra).
  assert (L1 : 3 * (/ M * / M) <= n * n). { rewrite E. assert (0.75 * (/ M * / M) <= (x + y) * (/ M * / M)) by (apply Rmult_le_compat_r; lra). lra. }
  assert (L2 : n * n <= 5 * (/ r * / r)). { rewrite E. assert ((x + y) * (/ r * / r) <= 1.25 * (/ r * / r)) by (apply Rmult_le_compat_r; lra). lra. }
  split.
  - rewrite <- (Rabs_pos_eq (1.73 * / M)) by lra. apply sq_abs; [exact N0|]. lra.
  - rewrite <- (Rabs_pos_eq n) by exact N0. apply sq_abs; [lra|]. lra.
Qed.

Notation e := (tube_err prec M r).
Notation ez := (cap_err prec M).
Notation X t := (local C Q (at_t O U t)).
Section Here.
Variable A : vec R.
Hypothesis HA : visF prec emax forg A.
Hypothesis OA : off (11 * (u * M)) A (local C Q O).
Hypothesis NA : rv_norm A <= 1.001 * M.
Notation P t := (at_t A B t).
Notation ih := (PfTubeF8.in_hit prec a b h (vx A) (vy A) (vz A) (vx B) (vy B) (vz B) (Rm M r)).
Definition TL := tame_here prec emax M r v o d c fa fb fh m O U C a b h Q B Ht A HA NA.

Lemma side_grad ft t Y : isf ft t -> 0 <= t <= 2.5 * M -> near3 prec M (P t) Y -> Rabs (radial a b Y - 1) <= e ->
  exists g, visF prec emax (@cyl_side_normal _ FN fa fb (@vadd _ FN forg (@vscaler _ FN fdir ft))) g /\ 4096 * u <= rv_norm g <= / u /\ 0 < rv_norm (uphill a b Y) /\
    coords (672 * (u * (k * k))) (rv_sub (unit_of g) (unit_of (uphill a b Y))).
Proof.
  intros Hft Tl (N1 & N2 & N3) Hr. destruct el_le as (E1 & E2 & E3). apply Rabs_le_inv in Hr.
  destruct sizes as (U0 & U1 & V1 & UM & UM1 & UM2 & LP & LS & T1 & T2). destruct k_facts as (r0 & k0 & k1 & k2 & k3).
  destruct small as (I0 & I1 & I2 & I3 & I4 & I5 & I6 & I7 & I8 & I9 & I10). destruct (tu_sizes _ _ _ _ _ _ _ _ _ _ _ _ _ _ _ _ _ _ _ _ Ht) as (Sa & Sb & Sh).
  destruct (dir_off prec emax M r v o d c fa fb fh m O U C a b h Q B Ht) as (_ & _ & NB). destruct (comp_norm A) as (A1 & A2 & _). destruct (comp_norm B) as (B1 & B2 & _).
  destruct HA as (F1 & F2 & _). destruct (tu_local _ _ _ _ _ _ _ _ _ _ _ _ _ _ _ _ _ _ _ _ Ht) as (F3 & F4 & _).
  assert (At : Rabs t <= 2.5 * M) by (rewrite Rabs_pos_eq; lra). pose proof (uphill_norm Y ltac:(lra)) as NU. unfold radial in Hr.
  pose proof (Rle_0_sqr (vx Y / a)) as Q1. pose proof (Rle_0_sqr (vy Y / b)) as Q2. unfold Rsqr in Q1, Q2.
  destruct (grad_part a fa _ _ ft _ _ t (vx Y) Sa (tu_a _ _ _ _ _ _ _ _ _ _ _ _ _ _ _ _ _ _ _ _ Ht) F1 F3 Hft ltac:(lra) ltac:(lra) At N1 ltac:(apply sq_abs; lra)) as (g1 & K1 & L1).
  destruct (grad_part b fb _ _ ft _ _ t (vy Y) Sb (tu_b _ _ _ _ _ _ _ _ _ _ _ _ _ _ _ _ _ _ _ _ Ht) F2 F4 Hft ltac:(lra) ltac:(lra) At N2 ltac:(apply sq_abs; lra)) as (g2 & K2 & L2).
  set (w := uphill a b Y) in *. set (g := V g1 g2 0).
  assert (kap0 : 0 < kap) by (apply Rmult_lt_0_compat; [lra|apply Rmult_lt_0_compat; lra]).
  assert (Cw : coords (425 * kap) (rv_sub g w)).
  { unfold coords, w, g, uphill, rv_sub. cbn [vx vy vz]. split; [exact L1|]. split; [exact L2|]. rewrite Rminus_0_r, Rabs_R0. lra. }
  assert (Nw : rv_norm (rv_sub g w) <= 737 * kap) by (destruct Cw as (C1 & C2 & C3); pose proof (norm_const (425 * kap) _ ltac:(lra) C1 C2 C3); lra).
  pose proof (norm_sub_le g w) as M1. pose proof (norm_sub_le w g) as M2. rewrite norm_sub_sym in M2.
  assert (Iu : 1000000 <= / u). { rewrite <- (Rinv_inv 1000000). apply Rinv_le_contravar; lra. }
  assert (W0 : 0 < rv_norm w) by lra. assert (G0 : 4096 * u <= rv_norm g) by lra.
  exists g. split; [split; [exact K1|split; [exact K2|apply (zero_isF prec emax)]]|]. split; [lra|]. split; [exact W0|].
  pose proof (unit_close g w _ _ W0 ltac:(lra) Cw Nw) as (D1 & D2 & D3).
  assert (Bd : (425 * kap + 737 * kap) / rv_norm w <= 672 * (u * (k * k))).
  { apply Rmult_le_reg_r with (rv_norm w); [exact W0|]. replace ((425 * kap + 737 * kap) / rv_norm w * rv_norm w) with (425 * kap + 737 * kap) by (field; lra). rewrite <- I10.
    apply Rle_trans with (672 * (kap * M) * (1.73 * / M)).
    - replace (672 * (kap * M) * (1.73 * / M)) with (672 * 1.73 * kap * (M * / M)) by ring. rewrite Rinv_r by lra. lra.
    - apply Rmult_le_compat_l; [|lra]. apply Rmult_le_pos; [lra|]. apply Rmult_le_pos; lra. }
  split; [|split]; (eapply Rle_trans; [eassumption|exact Bd]).
Qed.

Lemma turn_close v1 v2 b1 : orthogonal Q -> 0 <= b1 -> coords b1 (rv_sub v1 v2) -> coords (1.7321 * b1) (rv_sub (rv_mul Q v1) (rv_mul Q v2)).
Proof.
  intros HQ B0 (C1 & C2 & C3). replace (rv_sub (rv_mul Q v1) (rv_mul Q v2)) with (rv_mul Q (rv_sub v1 v2)) by (unfold rv_mul, rv_sub, rv_dot; cbn [vx vy vz]; f_equal; ring).
  destruct (comp_norm (rv_mul Q (rv_sub v1 v2))) as (D1 & D2 & D3). rewrite (orth_norm Q _ HQ) in D1, D2, D3.
  pose proof (norm_const b1 _ B0 C1 C2 C3). split; [|split]; lra.
Qed.
Lemma coords_add (v1 v2 v3 : vec R) b1 b2 b3 : coords b1 (rv_sub v1 v2) -> coords b2 (rv_sub v2 v3) -> b1 + b2 <= b3 -> coords b3 (rv_sub v1 v3).
Proof.
  intros (C1 & C2 & C3) (D1 & D2 & D3) Hb. unfold coords, rv_sub in *. cbn [vx vy vz] in *.
  assert (G : forall x y z, Rabs (x - y) <= b1 -> Rabs (y - z) <= b2 -> Rabs (x - z) <= b3).
  { intros x y z H1 H2. replace (x - z) with ((x - y) + (y - z)) by ring. eapply Rle_trans; [apply Rabs_two; eassumption|exact Hb]. }
  split; [|split]; eapply G; eassumption.
Qed.
Lemma e_big : 80 * u + 1.7321 * (672 * (u * (k * k))) <= e /\ 5 * u + 672 * (u * (k * k)) <= e /\ 80 * u <= e.
Proof.
  destruct sizes as (U0 & U1 & _). destruct k_facts as (r0 & k0 & k1 & k2 & k3). unfold tube_err.
  assert (1 * 1 <= k * k) by (apply Rmult_le_compat; lra). assert (u * 1 <= u * (k * k)) by (apply Rmult_le_compat_l; lra). lra.
Qed.
Lemma turned_side ft t Y : isf ft t -> 0 <= t <= 2.5 * M -> near3 prec M (P t) Y -> Rabs (radial a b Y - 1) <= e ->
  side_normal prec emax e a b Q (@normalize _ FN (@cyl_rot_normal _ FN m (@cyl_side_normal _ FN fa fb (@vadd _ FN forg (@vscaler _ FN fdir ft))))) Y.
Proof.
  intros Hft Tl Nr Hr. destruct (side_grad ft t Y Hft Tl Nr Hr) as (g & Hg & Lg & W0 & Cu). split; [exact Hr|].
  pose proof (tu_rot _ _ _ _ _ _ _ _ _ _ _ _ _ _ _ _ _ _ _ _ Ht) as HQ. destruct (turned_near prec emax Hfmt m Q _ g HQ Hg Lg) as (K & HK & CK).
  pose proof (u_pos prec) as U0. destruct k_facts as (r0 & k0 & k1 & k2 & k3). destruct HQ as [HQ _].
  assert (W1 : rv_norm (rv_mul Q (unit_of g)) = 1) by (rewrite (orth_norm Q _ HQ); apply unit_norm; lra).
  destruct (renormalized prec emax Hfmt _ K _ HK CK W1) as (N & HN & CN). exists N. split; [exact HN|].
  assert (0 <= u * (k * k)) by (apply Rmult_le_pos; [lra|apply Rmult_le_pos; lra]).
  eapply coords_add; [exact CN|apply (turn_close _ _ (672 * (u * (k * k))) HQ); [lra|exact Cu]|apply e_big].
Qed.
Lemma unturned_side ft t Y : isf ft t -> 0 <= t <= 2.5 * M -> near3 prec M (P t) Y -> Rabs (radial a b Y - 1) <= e ->
  local_normal prec emax e a b (@normalize _ FN (@cyl_side_normal _ FN fa fb (@vadd _ FN forg (@vscaler _ FN fdir ft)))) Y.
Proof.
  intros Hft Tl Nr Hr. destruct (side_grad ft t Y Hft Tl Nr Hr) as (g & Hg & Lg & W0 & Cu). split; [exact Hr|].
  destruct (normalize_near prec emax Hfmt _ g Hg Lg) as (_ & N & HN & CN). exists N. split; [exact HN|].
  eapply coords_add; [exact CN|exact Cu|apply e_big].
Qed.
Lemma capped nz s Y : isf nz s -> s = 1 \/ s = -1 -> Rabs (vz Y - s * h) <= ez -> cap_normal prec emax e ez h Q (@normalize _ FN (@cyl_rot_normal _ FN m (V (@n0 _ FN) (@n0 _ FN) nz))) Y.
Proof.
  intros Hn Hs Hz. exists s. split; [exact Hs|]. split; [exact Hz|]. pose proof (u_pos prec) as U0. pose proof (u_small prec emax Hfmt) as U1.
  assert (N1 : rv_norm (V 0 0 s) = 1).
  { unfold rv_norm, rv_dot. cbn [vx vy vz]. eapply eq_trans; [|apply sqrt_1]. f_equal. destruct Hs as [-> | ->]; ring. }
  assert (Iu : 1000000 <= / u). { rewrite <- (Rinv_inv 1000000). apply Rinv_le_contravar; lra. }
  pose proof (tu_rot _ _ _ _ _ _ _ _ _ _ _ _ _ _ _ _ _ _ _ _ Ht) as HQ.
  destruct (turned_near prec emax Hfmt m Q (V (@n0 _ FN) (@n0 _ FN) nz) (V 0 0 s) HQ) as (K & HK & CK); [split; [apply (zero_isF prec emax)|split; [apply (zero_isF prec emax)|exact Hn]]|lra|].
  rewrite (unit_same _ N1) in CK. destruct HQ as [HQ _].
  destruct (renormalized prec emax Hfmt _ K _ HK CK) as (N & HN & C1 & C2 & C3); [rewrite (orth_norm Q _ HQ); exact N1|]. exists N. split; [exact HN|].
  destruct e_big as (_ & _ & E). split; [|split]; (eapply Rle_trans; [eassumption|exact E]).
Qed.

Lemma side_t ft t : on_side (N := FN) fa fb fh forg fdir ft -> isf ft t -> Rabs (radial a b (P t) - 1) <= 192 * u * (Rm M r * Rm M r).
Proof.
  intros (S1 & S2 & S3 & _) Hft. pose proof TL as H. pose proof (zero_isF prec emax) as Z0.
  destruct (R_facts prec emax Hfmt _ _ _ _ _ _ _ _ _ _ _ _ _ _ _ _ _ _ _ _ _ H) as (R1 & R2 & R3 & R4 & R5 & R6 & pa & pb).
  assert (D : (vx B = 0 /\ vy B = 0) \/ ~ (vx B = 0 /\ vy B = 0)) by (destruct (Req_dec (vx B) 0); destruct (Req_dec (vy B) 0); tauto).
  destruct D as [[Zj Zk]|N].
  { destruct (parallel_root prec emax Hfmt _ _ _ _ _ _ _ _ _ _ _ _ _ _ _ _ _ _ _ _ _ H Zj Zk) as [T0 T1].
    destruct S2 as [E|E]; rewrite E in S3; [rewrite T0 in S3|rewrite T1 in S3]; rewrite (proj1 (nan_ltb prec emax _)) in S3; discriminate S3. }
  destruct (lat prec emax _ _ _ _ _ _ _ _ _ _ _ _ _ _ _ _ _ _ _ _ _ H N) as (s & S0 & S4 & Tm). pose proof H as H'. destruct H'.
  destruct (lateral prec emax Hfmt _ _ _ _ _ _ _ _ a b (vx A) (vy A) (vx B) (vy B) (Rm M r) s Tm tl_fa tl_fb tl_fx tl_fy tl_fj tl_fk) as (c0 & Hc & _ & Pos).
  pose proof (ltb_not prec emax _ _ _ _ Hc Z0 S1) as C0. destruct (Pos C0) as (t0 & t1 & F0 & F1 & O10 & _ & _ & Q0 & Q1 & _).
  destruct S2 as [E|E]; rewrite E in Hft; [rewrite (isF_fun prec emax _ _ _ Hft F0)|rewrite (isF_fun prec emax _ _ _ Hft F1)];
    (eapply Rle_trans; [first [exact Q0|exact Q1]|]; lra).
Qed.
Lemma side_Y t Y : near3 prec M (P t) Y -> Rabs (radial a b (P t) - 1) <= 192 * u * (Rm M r * Rm M r) -> Rabs (radial a b Y - 1) <= e.
Proof.
  intros Nr Hr. apply Rabs_le_inv in Hr. destruct el_le as (E1 & E2 & E3). apply Rabs_le. split.
  - apply Rnot_lt_le. intros Lt. pose proof (to_deep prec emax M r v o d c fa fb fh m O U C a b h Q B Ht _ _ (near3_sym prec M _ _ Nr) ltac:(lra)). lra.
  - pose proof (to_in prec emax M r v o d c fa fb fh m O U C a b h Q B Ht _ _ Nr ltac:(lra)). lra.
Qed.
Notation T1f := (@cyl_t1 _ FN fa fb (vx forg) (vy forg) (vx fdir) (vy fdir)).
Lemma normal_here n ft t x : @cyl_local _ FN fa fb fh m forg fdir = Some (n, ft) -> isf ft t -> ih t -> near3 prec M (P t) (X x) ->
  cap_normal prec emax e ez h Q (@normalize _ FN n) (X x) \/
  (side_normal prec emax e a b Q (@normalize _ FN n) (X x) /\ on_side (N := FN) fa fb fh forg fdir ft /\
     (ft = T1f \/ @neqb _ FN (vz fdir) (@n0 _ FN) = true \/ beyond (N := FN) fa fb fh forg)) \/
  (local_normal prec emax e a b (@normalize _ FN n) (X x) /\ @neqb _ FN (vz fdir) (@n0 _ FN) = false /\ within (N := FN) fa fb fh forg).
Proof.
  intros E Hft Hit Nr. pose proof (hit_far prec emax M r v o d c fa fb fh m O U C a b h Q B Ht A NA t Hit) as Tl. pose proof TL as H.
  destruct (local_forms (N := FN) _ _ _ _ _ _ _ _ E) as [(nz & zc & Z & -> & Et)|[[[S ->] W]|(S & -> & El & W)]].
  - left. destruct (ezl_le prec emax M r v o d c fa fb fh m O U C a b h Q B Ht A NA) as (Z0 & Z1 & Z2).
    assert (one : isf (@n1 _ FN) 1) by apply (one_isF prec emax (p6 prec emax Hfmt)).
    assert (Gs : exists s, isf nz s /\ (s = 1 \/ s = -1) /\ isf zc (s * h)).
    { pose proof H as H'. destruct H'. destruct Z as [[-> ->]|[-> ->]].
      - exists 1. split; [exact one|]. split; [auto|]. rewrite Rmult_1_l. exact tl_fh.
      - exists (-1). split; [replace (-1) with (- (1)) by ring; apply (isF_opp prec emax), one|]. split; [auto|]. replace (-1 * h) with (- h) by ring. exact tl_fn. }
    destruct Gs as (s & Hn & Hs & Hz). assert (Ac : Rabs (s * h) = h).
    { destruct (tu_sizes _ _ _ _ _ _ _ _ _ _ _ _ _ _ _ _ _ _ _ _ Ht) as (Sa & Sb & Sh). destruct k_facts as (r0 & _).
      rewrite Rabs_mult, (Rabs_pos_eq h) by lra. destruct Hs as [-> | ->]; [rewrite Rabs_pos_eq by lra|rewrite (Rabs_left (-1)) by lra]; ring. }
    destruct (cap_height prec emax Hfmt _ _ _ _ _ _ _ _ _ _ _ _ _ _ _ _ _ _ _ _ _ H zc (s * h) ft Hz Ac Et (proj1 (proj2 Hft))) as (t' & Ht' & _ & _ & Eh).
    rewrite (isF_fun prec emax _ _ _ Ht' Hft) in Eh. apply (capped nz s _ Hn Hs).
    destruct Nr as (_ & _ & N3). replace (vz (X x) - s * h) with ((vz (X x) - vz (P t)) + (vz A + t * vz B - s * h)) by (cbn [at_t rv_add rv_scale vz]; ring).
    eapply Rle_trans; [apply Rabs_two; [exact N3|exact Eh]|]. lra.
  - right. left. split; [|split; assumption]. apply (turned_side ft t _ Hft Tl Nr). apply (side_Y t _ Nr), (side_t ft t S Hft).
  - right. right. split; [|split; assumption]. apply (unturned_side ft t _ Hft Tl Nr). apply (side_Y t _ Nr), (side_t ft t S Hft).
Qed.
End Here.

Lemma normal_outside st ray id st' rh out : ci_org st = o -> ci_dir st = d -> @cylinder_intersect _ FN st (Cylinder c fa fb fh m id) ray = (true, st') ->
  outside e ez a b h (local C Q O) -> @cylinder_post _ FN st' rh = Ok out ->
  exists x, isf (h_distance out) x /\ (cap_normal prec emax e ez h Q (h_normal out) (X x) \/ side_normal prec emax e a b Q (h_normal out) (X x)).
Proof.
  intros So Sd. rewrite (isect_shape prec emax o d c fa fb fh m st ray id So Sd). destruct (@cyl_local _ FN fa fb fh m forg fdir) as [[n ft]|] eqn:E; [|discriminate].
  intros I Out Po. apply (f_equal snd) in I. cbn [snd] in I. rewrite <- I in Po. unfold cylinder_post in Po. injection Po as <-. cbn [ci_normal ci_hd h_normal h_distance].
  destruct (org_off prec emax M r v o d c fa fb fh m O U C a b h Q B Ht) as (A & HA & OA & NA). pose proof E as E'. rewrite <- (V_eta forg), <- (V_eta fdir) in E'.
  pose proof (out_org prec emax M r v o d c fa fb fh m O U C a b h Q B Ht A OA NA Out) as OO.
  destruct (local_out prec emax Hfmt _ _ _ _ _ _ _ _ _ _ _ _ _ _ _ _ _ _ _ _ _ (TL A HA NA) m n ft OO E') as (t & Htt & Hit & _).
  pose proof (hit_far prec emax M r v o d c fa fb fh m O U C a b h Q B Ht A NA t Hit) as Tl.
  destruct (far_here prec emax M r v o d c fa fb fh m O U C a b h Q B Ht ft t Htt Tl) as (x & Hx & Xl & Ex).
  exists x. split; [exact Hx|].
  destruct (normal_here A HA NA n ft t x E Htt Hit) as [K|[[K _]|(_ & _ & W1 & W2 & W3)]]; [apply (X_dist prec emax M r v o d c fa fb fh m O U C a b h Q B Ht A OA); [lra|lra|exact Ex]|left; exact K|right; exact K|].
  exfalso. pose proof (TL A HA NA) as H. destruct (org_dec prec emax Hfmt _ _ _ _ _ _ _ _ _ _ _ _ _ _ _ _ _ _ _ _ _ H) as (T1 & _ & _). specialize (T1 W3). destruct H.
  pose proof (leb_val prec emax _ _ _ _ tl_fn tl_fz W1). pose proof (leb_val prec emax _ _ _ _ tl_fz tl_fh W2). assert (Rabs (vz A) <= h) by (apply Rabs_le; lra). lra.
Qed.
Lemma normal_inside st ray id : ci_org st = o -> ci_dir st = d -> deep_in e ez a b h (local C Q O) ->
  exists st', @cylinder_intersect _ FN st (Cylinder c fa fb fh m id) ray = (true, st') /\ forall rh out, @cylinder_post _ FN st' rh = Ok out ->
  exists x, isf (h_distance out) x /\ (cap_normal prec emax e ez h Q (h_normal out) (X x) \/
    (vz B = 0 /\ side_normal prec emax e a b Q (h_normal out) (X x)) \/ (vz B <> 0 /\ local_normal prec emax e a b (h_normal out) (X x))).
Proof.
  intros So Sd Dp. rewrite (isect_shape prec emax o d c fa fb fh m st ray id So Sd). destruct (org_off prec emax M r v o d c fa fb fh m O U C a b h Q B Ht) as (A & HA & OA & NA).
  destruct (deep_org prec emax M r v o d c fa fb fh m O U C a b h Q B Ht A OA NA Dp) as (D1 & D2 & D3).
  destruct (dir_off prec emax M r v o d c fa fb fh m O U C a b h Q B Ht) as (_ & _ & NB). destruct sizes as (U0 & U1 & V1 & UM & UM1 & UM2 & _).
  destruct (local_in prec emax Hfmt _ _ _ _ _ _ _ _ _ _ _ _ _ _ _ _ _ _ _ _ _ (TL A HA NA) m D1 D2) as (n & ft & t & E & Htt & Hit).
  { intros [Z [Z1|[Z1 Z2]]]; [lra|]. assert (N0 : rv_norm B = 0) by (unfold rv_norm, rv_dot; rewrite Z, Z1, Z2; replace (0 * 0 + 0 * 0 + 0 * 0) with 0 by ring; apply sqrt_0). lra. }
  rewrite !V_eta in E. rewrite E. eexists. split; [reflexivity|]. intros rh out Po. unfold cylinder_post in Po. injection Po as <-. cbn [ci_normal ci_hd h_normal h_distance].
  pose proof (hit_far prec emax M r v o d c fa fb fh m O U C a b h Q B Ht A NA t Hit) as Tl.
  destruct (far_here prec emax M r v o d c fa fb fh m O U C a b h Q B Ht ft t Htt Tl) as (x & Hx & Xl & Ex).
  exists x. split; [exact Hx|]. pose proof (TL A HA NA) as H. pose proof (zero_isF prec emax) as Zf.
  destruct (normal_here A HA NA n ft t x E Htt Hit) as [K|[(K & S & W)|(K & El & W)]]; [apply (X_dist prec emax M r v o d c fa fb fh m O U C a b h Q B Ht A OA); [lra|lra|exact Ex]|left; exact K| |].
  - right. left. split; [|exact K]. destruct W as [W|[W|W]].
    + exfalso. destruct S as (_ & S2 & S3 & _). rewrite W in S3.
      assert (Njk : ~ (vx B = 0 /\ vy B = 0)).
      { intros [Zj Zk]. destruct (parallel_root prec emax Hfmt _ _ _ _ _ _ _ _ _ _ _ _ _ _ _ _ _ _ _ _ _ H Zj Zk) as [_ T1]. rewrite T1, (proj1 (nan_ltb prec emax _)) in S3. discriminate S3. }
      destruct (inside_root prec emax Hfmt _ _ _ _ _ _ _ _ _ _ _ _ _ _ _ _ _ _ _ _ _ H D2 Njk) as (s & c0 & t0 & t1 & _ & _ & _ & _ & _ & _ & F1 & (T1 & _) & _).
      pose proof (ltb_val prec emax _ _ _ _ Zf F1 S3). lra.
    + destruct H. apply (isF_eqb prec emax _ _ _ _ tl_fl Zf W).
    + exfalso. destruct (org_dec prec emax Hfmt _ _ _ _ _ _ _ _ _ _ _ _ _ _ _ _ _ _ _ _ _ H) as (_ & T2 & T3). apply Rabs_le_inv in D1. destruct H. destruct W as [W|[W|W]].
      * pose proof (ltb_val prec emax _ _ _ _ tl_fh tl_fz W). lra.
      * pose proof (ltb_val prec emax _ _ _ _ tl_fz tl_fn W). lra.
      * change (@nltb _ FN (fK prec emax fa fb) (org_sum prec emax fa fb (vx forg) (vy forg)) = true) in W. rewrite T3 in W. apply negb_true_iff in W. specialize (T2 W). lra.
  - right. right. split; [|exact K]. destruct H. apply (eqb_zero prec emax _ _ tl_fl El).
Qed.
End F.
