(** The cylinder routine's tests of the disc, with rounding. *)

From Coq Require Import Reals ZArith Bool Lra Lia Psatz Floats.SpecFloat.
From Flocq Require Import Core IEEE754.BinarySingleNaN.
From Verif Require Import Num NumR NumF Vec Cylinder SpecReal SpecIEEE SpecTri SpecTriF SpecTubeF PfIEEE PfIEEE2 PfIEEE3 PfTriF PfDirF PfSphF2 PfPlaneF PfTubeF PfTubeF2 PfTubeF3 PfTubeF4.
Local Open Scope R_scope.

Section F.
Variables prec emax : Z.
Context {Hprec : Prec_gt_0 prec} {Hmax : Prec_lt_emax prec emax}.
Hypothesis Hfmt : usual_format prec emax.
Notation FN := (Fnum prec emax).
Notation isf := (isF prec emax).
Notation rd := (rnd prec emax).
Notation u := (ulpf prec).
Notation low0 := (least emax).
Notation hi0 := (top emax).
Notation q := (/ 1000000).
Notation fin := is_finite_SF.
Notation nr := (nr prec emax).

Variables v W : R.
Hypothesis Hv : 0 < v <= 1.
Hypothesis HW : 1 <= W.
Hypothesis Hlow : low0 <= v ^ 4.
Hypothesis Htop : 1024 * W ^ 4 <= hi0.
Variables (fa fb : spec_float) (a b : R).
Hypothesis Ha : isf fa a. Hypothesis Hb : isf fb b.
Hypothesis Aa : v <= a <= W. Hypothesis Ab : v <= b <= W.

Notation mul := (@nmul _ FN).
Notation prod4 x y z t := (mul (mul (mul x y) z) t).

Lemma W_four : 1 <= W ^ 4. Proof. apply pow_R1_Rle, HW. Qed.
Lemma top64 : 64 * W ^ 4 <= hi0. Proof. pose proof W_four. lra. Qed.
Lemma top64' : 64 * (2 * W) ^ 4 <= hi0. Proof. replace (64 * (2 * W) ^ 4) with (1024 * W ^ 4) by ring. exact Htop. Qed.

(** A sum of two products of four with the same magnitude. *)
Lemma two_terms w (Hw : 1 <= w) (Tw : 64 * w ^ 4 <= hi0) f1 f2 f3 f4 g1 g2 g3 g4 r1 r2 r3 r4 s1 s2 s3 s4 X1 X2 X3 X4 Y1 Y2 Y3 Y4 :
  atom v w X1 -> atom v w X2 -> atom v w X3 -> atom v w X4 -> atom v w Y1 -> atom v w Y2 -> atom v w Y3 -> atom v w Y4 ->
  nr 0 X1 f1 r1 -> nr 0 X2 f2 r2 -> nr 0 X3 f3 r3 -> nr 0 X4 f4 r4 -> nr 0 Y1 g1 s1 -> nr 0 Y2 g2 s2 -> nr 0 Y3 g3 s3 -> nr 0 Y4 g4 s4 ->
  forall K, X1 * X2 * X3 * X4 = K -> Y1 * Y2 * Y3 * Y4 = K ->
  nr 4.05 (2 * K) (@nadd _ FN (prod4 f1 f2 f3 f4) (prod4 g1 g2 g3 g4)) (r1 * r2 * r3 * r4 + s1 * s2 * s3 * s4).
Proof.
  intros A1 A2 A3 A4 B1 B2 B3 B4 F1 F2 F3 F4 G1 G2 G3 G4 K <- E2.
  assert (Sz : size v w 4 (X1 * X2 * X3 * X4)) by (repeat apply size_mul; try assumption; apply size1; assumption).
  rewrite double. apply (nr_add prec emax Hfmt 3.04 3.04) with (n0 := 3.04); try lra.
  - apply (nr4 prec emax Hfmt v w); assumption.
  - rewrite <- E2. apply (nr4 prec emax Hfmt v w); assumption.
  - rewrite <- double. apply (size_mag emax v w Hv Hw Hlow Tw 4); [lia|exact Sz|lra].
Qed.

Lemma ab_pos : 0 < a /\ 0 < b. Proof. lra. Qed.
Notation K := (a * a * b * b).
Definition fK := prod4 fa fa fb fb.
Lemma K_pos : 0 < K. Proof. destruct ab_pos. repeat apply Rmult_lt_0_compat; assumption. Qed.
Lemma a_nr : nr 0 a fa a. Proof. apply nr_exact; [exact Ha|]. rewrite Rabs_pos_eq; lra. Qed.
Lemma b_nr : nr 0 b fb b. Proof. apply nr_exact; [exact Hb|]. rewrite Rabs_pos_eq; lra. Qed.
Lemma K_val : exists k, isf fK k /\ Rabs (k - K) <= 3.04 * u * K.
Proof.
  destruct (nr4 prec emax Hfmt v W Hv HW Hlow top64 fa fa fb fb a a b b a a b b Aa Aa Ab Ab a_nr a_nr b_nr b_nr) as [_ (k & Hk & Ek)]. exists k. split; assumption.
Qed.

(** The value of the ellipse's equation, in the two orders in which the code multiplies. *)
Definition cap_sum (fx fy : spec_float) := @nadd _ FN (prod4 fb fb fx fx) (prod4 fa fa fy fy).
Definition org_sum (fx fy : spec_float) := @nadd _ FN (prod4 fx fx fb fb) (prod4 fy fy fa fa).
Lemma sum_is x y : b * b * x * x + a * a * y * y = K * rr a b x y.
Proof. destruct ab_pos. unfold rr. field. lra. Qed.
Lemma cap_val m w fx fy x y : 1 <= w -> 64 * w ^ 4 <= hi0 -> W <= w -> 1 <= m -> a * m <= w -> b * m <= w -> isf fx x -> isf fy y -> Rabs x <= a * m -> Rabs y <= b * m ->
  exists s, isf (cap_sum fx fy) s /\ Rabs (s - K * rr a b x y) <= 8.1 * u * (K * (m * m)).
Proof.
  intros Hw Tw Ww Hm Am Bm Hx Hy Lx Ly. destruct ab_pos as [pa pb].
  destruct (two_terms w Hw Tw fb fb fx fx fa fa fy fy b b x x a a y y b b (a * m) (a * m) a a (b * m) (b * m)) with (K := K * (m * m)) as [_ (s & Hs & Es)];
    try (split; nra); try apply a_nr; try apply b_nr; try (apply nr_exact; assumption); try ring.
  exists s. split; [exact Hs|]. rewrite sum_is in Es. lra.
Qed.
Lemma org_val m w fx fy x y : 1 <= w -> 64 * w ^ 4 <= hi0 -> W <= w -> 1 <= m -> a * m <= w -> b * m <= w -> isf fx x -> isf fy y -> Rabs x <= a * m -> Rabs y <= b * m ->
  exists s, isf (org_sum fx fy) s /\ Rabs (s - K * rr a b x y) <= 8.1 * u * (K * (m * m)).
Proof.
  intros Hw Tw Ww Hm Am Bm Hx Hy Lx Ly. destruct ab_pos as [pa pb].
  destruct (two_terms w Hw Tw fx fx fb fb fy fy fa fa x x b b y y a a (a * m) (a * m) b b (b * m) (b * m) a a) with (K := K * (m * m)) as [_ (s & Hs & Es)];
    try (split; nra); try apply a_nr; try apply b_nr; try (apply nr_exact; assumption); try ring.
  exists s. split; [exact Hs|]. rewrite <- sum_is. replace (x * x * b * b + y * y * a * a) with (b * b * x * x + a * a * y * y) in Es by ring. lra.
Qed.

(** The origin's test. *)
Lemma org_test Rm fx fy x y : 1 <= Rm -> a * Rm <= W -> b * Rm <= W -> isf fx x -> isf fy y -> rr a b x y <= Rm * Rm ->
  (@nleb _ FN (org_sum fx fy) fK = true -> rr a b x y <= 1 + 12 * u * (Rm * Rm)) /\
  (@nleb _ FN (org_sum fx fy) fK = false -> 1 - 12 * u * (Rm * Rm) <= rr a b x y) /\
  (@nltb _ FN fK (org_sum fx fy) = negb (@nleb _ FN (org_sum fx fy) fK)).
Proof.
  intros HR Am Bm Hx Hy Hr. destruct ab_pos as [pa pb].
  assert (Lx : Rabs x <= a * Rm) by (apply scaled_le with (y / b); [exact pa|exact Hr|lra]).
  assert (Ly : Rabs y <= b * Rm) by (apply scaled_le with (x / a); [exact pb|rewrite Rplus_comm; exact Hr|lra]).
  destruct (org_val Rm W fx fy x y HW top64 (Rle_refl _) HR Am Bm Hx Hy Lx Ly) as (s & Hs & Es).
  destruct K_val as (k & Hk & Ek). pose proof (u_pos prec) as U0. pose proof K_pos as KP.
  assert (R1 : 1 <= Rm * Rm) by nra. assert (uK : 0 < u * K) by (apply Rmult_lt_0_compat; lra).
  assert (uKR : u * K <= u * K * (Rm * Rm)) by nra.
  apply Rabs_le_inv in Es, Ek. rewrite (isF_leb prec emax _ _ _ _ Hs Hk), (isF_ltb prec emax _ _ _ _ Hk Hs). unfold Rleb, Rltb.
  destruct (Rle_dec s k) as [L|L]; destruct (Rlt_dec k s) as [L'|L']; try lra; (split; [|split]); try discriminate; try reflexivity; intros _.
  - apply Rmult_le_reg_l with K; [exact KP|]. replace (K * (1 + 12 * u * (Rm * Rm))) with (K + 12 * (u * K * (Rm * Rm))) by ring. lra.
  - apply Rmult_le_reg_l with K; [exact KP|]. replace (K * (1 - 12 * u * (Rm * Rm))) with (K - 12 * (u * K * (Rm * Rm))) by ring. lra.
Qed.
(** Equality of the two sides. *)
Lemma org_eq_test Rm fx fy x y : 1 <= Rm -> a * Rm <= W -> b * Rm <= W -> isf fx x -> isf fy y -> rr a b x y <= Rm * Rm ->
  @neqb _ FN (cap_sum fx fy) fK = true -> 1 - 12 * u * (Rm * Rm) <= rr a b x y.
Proof.
  intros HR Am Bm Hx Hy Hr He. destruct ab_pos as [pa pb].
  assert (Lx : Rabs x <= a * Rm) by (apply scaled_le with (y / b); [exact pa|exact Hr|lra]).
  assert (Ly : Rabs y <= b * Rm) by (apply scaled_le with (x / a); [exact pb|rewrite Rplus_comm; exact Hr|lra]).
  destruct (cap_val Rm W fx fy x y HW top64 (Rle_refl _) HR Am Bm Hx Hy Lx Ly) as (s & Hs & Es).
  destruct K_val as (k & Hk & Ek). pose proof (u_pos prec) as U0. pose proof K_pos as KP.
  assert (R1 : 1 <= Rm * Rm) by nra. assert (uK : 0 < u * K) by (apply Rmult_lt_0_compat; lra).
  assert (uKR : u * K <= u * K * (Rm * Rm)) by nra.
  apply (isF_eqb prec emax _ _ _ _ Hs Hk) in He. subst k. apply Rabs_le_inv in Es, Ek.
  apply Rmult_le_reg_l with K; [exact KP|]. replace (K * (1 - 12 * u * (Rm * Rm))) with (K - 12 * (u * K * (Rm * Rm))) by ring. lra.
Qed.

(** The cap's test: what is accepted, and what is not rejected. *)
Lemma rd_below y : low0 <= y -> (1 - u) * y <= rd y.
Proof. intros H. pose proof (low_pos emax). pose proof (rd_rel prec emax y) as E. rewrite Rabs_pos_eq in E by lra. specialize (E H). apply Rabs_le_inv in E. lra. Qed.
Lemma far_coord c z x : v <= c <= W -> v <= z <= W -> 2 * c < Rabs x -> 3.9 * (z * z * c * c) <= rd (rd (rd (z * z) * x) * x).
Proof.
  intros Ac Az L. pose proof (u_small prec emax Hfmt) as U1. pose proof (u_pos prec) as U0. pose proof (v_pow v Hv) as (V1 & V2 & V3 & V4).
  assert (E : rd (rd (rd (z * z) * x) * x) = rd (rd (rd (z * z) * Rabs x) * Rabs x)).
  { unfold Rabs. destruct (Rcase_abs x); [|reflexivity]. replace (rd (z * z) * - x) with (- (rd (z * z) * x)) by ring. rewrite (rd_opp prec emax). f_equal. ring. }
  rewrite E. set (p := Rabs x) in *. clearbody p. clear E.
  assert (S2 : v ^ 2 <= z * z) by (cbn; nra).
  assert (B1 : (1 - u) * (z * z) <= rd (z * z)) by (apply rd_below; lra).
  assert (Z2 : 0 < z * z) by nra. assert (Zr : 0.999 * (z * z) <= rd (z * z)) by nra.
  assert (S3 : v ^ 3 <= z * z * c) by (replace (v ^ 3) with (v ^ 2 * v) by ring; apply Rmult_le_compat; lra).
  assert (B2 : 1.99 * (z * z * c) <= rd (z * z) * p).
  { apply Rle_trans with (0.999 * (z * z) * (2 * c)); [lra|]. apply Rmult_le_compat; lra. }
  assert (B3 : 1.98 * (z * z * c) <= rd (rd (z * z) * p)).
  { apply Rle_trans with ((1 - u) * (rd (z * z) * p)); [|apply rd_below; lra]. apply Rle_trans with (0.999 * (1.99 * (z * z * c))); [lra|]. apply Rmult_le_compat; lra. }
  assert (S4 : v ^ 4 <= z * z * c * c) by (replace (v ^ 4) with (v ^ 3 * v) by ring; apply Rmult_le_compat; lra).
  assert (B4 : 3.95 * (z * z * c * c) <= rd (rd (z * z) * p) * p).
  { apply Rle_trans with (1.98 * (z * z * c) * (2 * c)); [lra|]. apply Rmult_le_compat; lra. }
  apply Rle_trans with ((1 - u) * (rd (rd (z * z) * p) * p)); [|apply rd_below; lra].
  apply Rle_trans with (0.999 * (3.95 * (z * z * c * c))); [lra|]. apply Rmult_le_compat; lra.
Qed.
Lemma cap_accepts fx fy x y : isf fx x -> isf fy y -> rr a b x y <= 1 - 12 * u -> @nleb _ FN (cap_sum fx fy) fK = true.
Proof.
  intros Hx Hy Hr. destruct ab_pos as [pa pb]. pose proof (u_pos prec) as U0.
  assert (Lx : Rabs x <= a * 1) by (apply scaled_le with (y / b); [exact pa|unfold rr in Hr; lra|lra]).
  assert (Ly : Rabs y <= b * 1) by (apply scaled_le with (x / a); [exact pb|rewrite Rplus_comm; unfold rr in Hr; lra|lra]).
  destruct (cap_val 1 W fx fy x y HW top64 (Rle_refl _) ltac:(lra) ltac:(lra) ltac:(lra) Hx Hy Lx Ly) as (s & Hs & Es).
  destruct K_val as (k & Hk & Ek). pose proof K_pos as KP. assert (uK : 0 < u * K) by (apply Rmult_lt_0_compat; lra).
  apply Rabs_le_inv in Es, Ek. rewrite (isF_leb prec emax _ _ _ _ Hs Hk). unfold Rleb. destruct (Rle_dec s k) as [L|L]; [reflexivity|exfalso]. apply L.
  assert (K * rr a b x y <= K * (1 - 12 * u)) by (apply Rmult_le_compat_l; lra). lra.
Qed.
Lemma cap_accepted fx fy : some_F prec emax fx -> some_F prec emax fy -> @nleb _ FN (cap_sum fx fy) fK = true ->
  exists x y, isf fx x /\ isf fy y /\ rr a b x y <= 1 + 36 * u /\ Rabs x <= 2 * a /\ Rabs y <= 2 * b.
Proof.
  intros Sx Sy Ht. destruct ab_pos as [pa pb]. pose proof (u_pos prec) as U0. pose proof (u_small prec emax Hfmt) as U1. pose proof (v_pow v Hv) as (V1 & V2 & V3 & V4).
  destruct K_val as (k & Hk & Ek). pose proof K_pos as KP. assert (uK : 0 < u * K) by (apply Rmult_lt_0_compat; lra). assert (uK' : u * K <= q * K) by (apply Rmult_le_compat_r; lra).
  assert (Sq : forall f z, isf f z -> v <= z <= W -> exists zz, isf (mul f f) zz /\ 0 < zz /\ zz = rd (z * z)).
  { intros f z Hz Az. exists (rd (z * z)). assert (S2 : v ^ 2 <= z * z) by (cbn; nra). split; [|split; [|reflexivity]].
    - apply (isF_mul prec emax); [assumption..|]. apply (rd_half_top prec emax (p6 prec emax Hfmt)). rewrite Rabs_pos_eq by nra.
      pose proof (W_pow v W Hv HW) as (W1 & W2 & W3 & W4). assert (z * z <= W ^ 2) by (cbn; nra). pose proof Htop. lra.
    - pose proof (rd_below (z * z)). assert (0 < (1 - u) * (z * z)) by nra. lra. }
  destruct (Sq fa a Ha Aa) as (aa & Haa & Paa & Eaa). destruct (Sq fb b Hb Ab) as (bb & Hbb & Pbb & Ebb).
  pose proof (square_nonneg prec emax _ _ _ Hbb Pbb Sx) as N1. pose proof (square_nonneg prec emax _ _ _ Haa Paa Sy) as N2.
  pose proof (nonneg_leb_fin prec emax _ _ _ (nonneg_sum prec emax _ _ N1 N2) Hk Ht) as F.
  destruct (add_fin_lr prec emax _ _ F) as [F1 F2].
  destruct (mul_fin_lr prec emax _ _ F1) as [F3 F4]. destruct (mul_fin_lr prec emax _ _ F2) as [F5 F6].
  assert (G : forall f, some_F prec emax f -> fin f = true -> exists z, isf f z).
  { intros f [->|[(s & ->)|Hz]] Ff; try discriminate Ff; exact Hz. }
  destruct (G _ Sx F4) as (x & Hx). destruct (G _ Sy F6) as (y & Hy). exists x, y. split; [exact Hx|]. split; [exact Hy|].
  pose proof (mul_fin prec emax _ _ _ _ Hbb Hx F3) as I1. pose proof (mul_fin prec emax _ _ _ _ Haa Hy F5) as I2.
  pose proof (mul_fin prec emax _ _ _ _ I1 Hx F1) as I3. pose proof (mul_fin prec emax _ _ _ _ I2 Hy F2) as I4.
  pose proof (add_fin prec emax _ _ _ _ I3 I4 F) as I5.
  assert (T : rd (rd (rd (bb * x) * x) + rd (rd (aa * y) * y)) <= k).
  { unfold cap_sum in Ht. rewrite (isF_leb prec emax _ _ _ _ I5 Hk) in Ht. revert Ht. unfold Rleb. destruct (Rle_dec _ k) as [L|L]; [intros _; exact L|discriminate]. }
  assert (NN : forall f z, nonneg_F prec emax f -> isf f z -> 0 <= z).
  { intros f z [->|[->|(z' & Hz' & P)]] Hz; [destruct Hz as (_ & F0 & _); discriminate F0..|]. rewrite (isF_fun prec emax _ _ _ Hz Hz'). exact P. }
  pose proof (NN _ _ N1 I3) as P1. pose proof (NN _ _ N2 I4) as P2.
  apply Rabs_le_inv in Ek.
  assert (T1 : rd (rd (bb * x) * x) <= k).
  { eapply Rle_trans; [|exact T]. rewrite <- (rd_id prec emax _ _ I3) at 1. apply (rd_mono prec emax). lra. }
  assert (T2 : rd (rd (aa * y) * y) <= k).
  { eapply Rle_trans; [|exact T]. rewrite <- (rd_id prec emax _ _ I4) at 1. apply (rd_mono prec emax). lra. }
  assert (Lx : Rabs x <= 2 * a).
  { destruct (Rle_lt_dec (Rabs x) (2 * a)) as [L|L]; [exact L|exfalso]. pose proof (far_coord a b x Aa Ab L) as Fc. rewrite <- Ebb in Fc.
    replace (b * b * a * a) with K in Fc by ring. lra. }
  assert (Ly : Rabs y <= 2 * b).
  { destruct (Rle_lt_dec (Rabs y) (2 * b)) as [L|L]; [exact L|exfalso]. pose proof (far_coord b a y Ab Aa L) as Fc. rewrite <- Eaa in Fc. lra. }
  split; [|split; assumption].
  destruct (cap_val 2 (2 * W) fx fy x y ltac:(lra) top64' ltac:(lra) ltac:(lra) ltac:(lra) ltac:(lra) Hx Hy ltac:(lra) ltac:(lra)) as (s & Hs & Es).
  pose proof (isF_fun prec emax _ _ _ Hs I5) as E. rewrite <- E in T. apply Rabs_le_inv in Es.
  apply Rmult_le_reg_l with K; [exact KP|]. lra.
Qed.
End F.
