(** Products and lengths of vectors in IEEE arithmetic, with errors in proportion to lengths. *)

From Coq Require Import Reals ZArith Bool Lra Lia Psatz Floats.SpecFloat.
From Flocq Require Import Core IEEE754.BinarySingleNaN.
From Verif Require Import Num NumR NumF Vec SpecReal SpecIEEE SpecTriF PfIEEE PfIEEE2 PfIEEE3 PfTriF PfDirF PfX.
Local Open Scope R_scope.

Definition vabs (a : vec R) : vec R := V (Rabs (vx a)) (Rabs (vy a)) (Rabs (vz a)).
Definition wsum (a b : vec R) : R := Rabs (vx a * vx b) + Rabs (vy a * vy b) + Rabs (vz a * vz b).
Lemma vabs_norm a : rv_norm (vabs a) = rv_norm a.
Proof.
  unfold rv_norm, rv_dot, vabs. cbn [vx vy vz]. f_equal. rewrite <- !Rabs_mult.
  rewrite !Rabs_pos_eq; try reflexivity; apply Rle_0_sqr.
Qed.
Lemma wsum_norm a b : wsum a b <= rv_norm a * rv_norm b.
Proof.
  rewrite <- (vabs_norm a), <- (vabs_norm b). pose proof (rv_dot_le_norm (vabs a) (vabs b)) as H.
  unfold rv_dot, vabs in H. cbn [vx vy vz] in H. unfold wsum. rewrite !Rabs_mult. exact H.
Qed.
Lemma wsum_self a : wsum a a = rv_norm a * rv_norm a.
Proof.
  rewrite rv_norm_sq. unfold wsum, rv_dot. rewrite !Rabs_pos_eq; try reflexivity; apply Rle_0_sqr.
Qed.
Lemma norm_le k a b : 0 <= k -> Rabs (vx a) <= k * Rabs (vx b) -> Rabs (vy a) <= k * Rabs (vy b) -> Rabs (vz a) <= k * Rabs (vz b) ->
  rv_norm a <= k * rv_norm b.
Proof.
  intros Hk H1 H2 H3. assert (S : forall x y, Rabs x <= k * Rabs y -> x * x <= k * k * (y * y)).
  { intros x y H. assert (Rabs x * Rabs x <= k * Rabs y * (k * Rabs y)) as Q by (apply Rmult_le_compat; try apply Rabs_pos; assumption).
    replace (k * Rabs y * (k * Rabs y)) with (k * k * (Rabs y * Rabs y)) in Q by ring. rewrite <- !Rabs_mult in Q.
    rewrite !Rabs_pos_eq in Q by apply Rle_0_sqr. exact Q. }
  apply sq_le_abs; [apply Rmult_le_pos; [exact Hk|apply rv_norm_nonneg]|].
  replace (k * rv_norm b * (k * rv_norm b)) with (k * k * (rv_norm b * rv_norm b)) by ring. rewrite !rv_norm_sq.
  unfold rv_dot. pose proof (S _ _ H1). pose proof (S _ _ H2). pose proof (S _ _ H3). lra.
Qed.
Lemma norm_const k a : 0 <= k -> Rabs (vx a) <= k -> Rabs (vy a) <= k -> Rabs (vz a) <= k -> rv_norm a <= 1.7321 * k.
Proof.
  intros Hk H1 H2 H3. assert (S : forall x, Rabs x <= k -> x * x <= k * k).
  { intros x H. assert (Rabs x * Rabs x <= k * k) as Q by (apply Rmult_le_compat; try apply Rabs_pos; assumption).
    rewrite <- Rabs_mult, Rabs_pos_eq in Q by apply Rle_0_sqr. exact Q. }
  apply sq_le_abs; [lra|]. rewrite rv_norm_sq. unfold rv_dot. pose proof (S _ H1). pose proof (S _ H2). pose proof (S _ H3).
  assert (0 <= k * k) by apply Rle_0_sqr. lra.
Qed.
Lemma comp_norm a : Rabs (vx a) <= rv_norm a /\ Rabs (vy a) <= rv_norm a /\ Rabs (vz a) <= rv_norm a.
Proof.
  pose proof (rv_norm_sq a) as E. pose proof (rv_norm_nonneg a) as N. unfold rv_dot in E.
  pose proof (Rle_0_sqr (vx a)). pose proof (Rle_0_sqr (vy a)). pose proof (Rle_0_sqr (vz a)). unfold Rsqr in *.
  repeat split; (apply sq_le_abs; [exact N|]); rewrite <- Rabs_mult, Rabs_pos_eq by apply Rle_0_sqr; lra.
Qed.
Lemma norm_sub_le a b : rv_norm a <= rv_norm b + rv_norm (rv_sub a b).
Proof.
  replace a with (rv_add b (rv_sub a b)) at 1; [apply rv_norm_triangle|].
  destruct a as [a1 a2 a3], b as [b1 b2 b3]. unfold rv_add, rv_sub. cbn [vx vy vz]. f_equal; ring.
Qed.
Lemma norm_sub_sym a b : rv_norm (rv_sub a b) = rv_norm (rv_sub b a).
Proof. unfold rv_norm, rv_dot, rv_sub. cbn [vx vy vz]. f_equal. ring. Qed.

Section F.
Variables prec emax : Z.
Context {Hprec : Prec_gt_0 prec} {Hmax : Prec_lt_emax prec emax}.
Hypothesis Hfmt : usual_format prec emax.
Notation FN := (Fnum prec emax).
Notation isf := (isF prec emax).
Notation rd := (rnd prec emax).
Notation u := (ulpf prec).
Notation low0 := (least emax).
Notation hi0 := (top emax).
Notation q := (/ 1000000).

(** A product of vectors. *)
Lemma dot_F x y a b m : visF prec emax x a -> visF prec emax y b -> wsum a b <= m -> 1 <= m -> 4 * m <= hi0 / 2 ->
  exists s, isf (@dot _ FN x y) s /\ Rabs (s - rv_dot a b) <= 3.001 * u * wsum a b + 7 * low0.
Proof.
  intros (X1 & X2 & X3) (Y1 & Y2 & Y3) Hw H1 Ht.
  pose proof (u_pos prec) as U0. pose proof (u_small prec emax Hfmt) as U1. pose proof (low_small prec emax Hfmt) as L1. pose proof (low_pos emax) as L0.
  unfold wsum in *. set (w1 := vx a * vx b) in *. set (w2 := vy a * vy b) in *. set (w3 := vz a * vz b) in *.
  pose proof (Rabs_pos w1) as W1. pose proof (Rabs_pos w2) as W2. pose proof (Rabs_pos w3) as W3.
  pose proof (rd_low prec emax w1) as E1. pose proof (rd_low prec emax w2) as E2. pose proof (rd_low prec emax w3) as E3.
  assert (Hu : forall w, 0 <= w -> u * w <= q * w) by (intros w Hw0; apply Rmult_le_compat_r; lra).
  pose proof (Hu _ W1) as V1. pose proof (Hu _ W2) as V2. pose proof (Hu _ W3) as V3.
  assert (T : forall p w, Rabs (p - w) <= u * Rabs w + 2 * low0 -> Rabs p <= 1.01 * Rabs w + 2 * low0).
  { intros p w E. pose proof (Rabs_triang (p - w) w) as Q. replace (p - w + w) with p in Q by ring. pose proof (Rabs_pos w) as Pw. pose proof (Hu _ Pw). lra. }
  assert (T' : forall p w, Rabs (p - w) <= u * Rabs w + 2 * low0 -> Rabs p <= (1 + u) * Rabs w + 2 * low0).
  { intros p w E. pose proof (Rabs_triang (p - w) w) as Q. replace (p - w + w) with p in Q by ring. lra. }
  pose proof (T _ _ E1) as G1. pose proof (T _ _ E2) as G2. pose proof (T _ _ E3) as G3.
  pose proof (T' _ _ E1) as K1. pose proof (T' _ _ E2) as K2. pose proof (T' _ _ E3) as K3.
  assert (P1 : isf (@nmul _ FN (vx x) (vx y)) (rd w1)) by (apply (isF_mul prec emax); [assumption..|]; fold w1; lra).
  assert (P2 : isf (@nmul _ FN (vy x) (vy y)) (rd w2)) by (apply (isF_mul prec emax); [assumption..|]; fold w2; lra).
  assert (P3 : isf (@nmul _ FN (vz x) (vz y)) (rd w3)) by (apply (isF_mul prec emax); [assumption..|]; fold w3; lra).
  set (p1 := rd w1) in *. set (p2 := rd w2) in *. set (p3 := rd w3) in *.
  pose proof (rd_add_rel prec emax _ _ _ _ P1 P2) as F1. pose proof (Rabs_triang p1 p2) as S1.
  pose proof (Rabs_pos (p1 + p2)) as S0.
  assert (N1 : Rabs (rd (p1 + p2)) <= (1 + u) * Rabs (p1 + p2)).
  { pose proof (Rabs_triang (rd (p1 + p2) - (p1 + p2)) (p1 + p2)) as Q. replace (rd (p1 + p2) - (p1 + p2) + (p1 + p2)) with (rd (p1 + p2)) in Q by ring. lra. }
  pose proof (Hu _ S0) as V12.
  assert (P12 := isF_add prec emax _ _ _ _ P1 P2 ltac:(lra)). set (s1 := rd (p1 + p2)) in *.
  pose proof (rd_add_rel prec emax _ _ _ _ P12 P3) as F2. pose proof (Rabs_triang s1 p3) as S2.
  pose proof (Rabs_pos (s1 + p3)) as S3. pose proof (Hu _ S3) as V123.
  assert (N2 : Rabs (rd (s1 + p3)) <= (1 + u) * Rabs (s1 + p3)).
  { pose proof (Rabs_triang (rd (s1 + p3) - (s1 + p3)) (s1 + p3)) as Q. replace (rd (s1 + p3) - (s1 + p3) + (s1 + p3)) with (rd (s1 + p3)) in Q by ring. lra. }
  assert (P123 := isF_add prec emax _ _ _ _ P12 P3 ltac:(lra)). set (s2 := rd (s1 + p3)) in *.
  exists s2. split; [exact P123|].
  replace (s2 - rv_dot a b) with ((s2 - (s1 + p3)) + ((s1 - (p1 + p2)) + ((p1 - w1) + ((p2 - w2) + (p3 - w3))))) by (unfold rv_dot, w1, w2, w3; ring).
  eapply Rle_trans; [apply Rabs_triang|]. eapply Rle_trans; [apply Rplus_le_compat_l, Rabs_triang|].
  eapply Rle_trans; [apply Rplus_le_compat_l, Rplus_le_compat_l, Rabs_triang|].
  eapply Rle_trans; [apply Rplus_le_compat_l, Rplus_le_compat_l, Rplus_le_compat_l, Rabs_triang|].
  set (A1 := Rabs w1) in *. set (A2 := Rabs w2) in *. set (A3 := Rabs w3) in *.
  set (B12 := Rabs (p1 + p2)) in *. set (B123 := Rabs (s1 + p3)) in *.
  assert (Q12 : B12 <= (1 + u) * (A1 + A2) + 4 * low0) by lra.
  assert (Q123 : B123 <= (1 + u) * B12 + (1 + u) * A3 + 2 * low0) by lra.
  assert (ua1 : u * (u * A1) <= q * (u * A1)) by (apply Rmult_le_compat_r; [apply Rmult_le_pos; lra|lra]).
  assert (ua2 : u * (u * A2) <= q * (u * A2)) by (apply Rmult_le_compat_r; [apply Rmult_le_pos; lra|lra]).
  assert (ua3 : u * (u * A3) <= q * (u * A3)) by (apply Rmult_le_compat_r; [apply Rmult_le_pos; lra|lra]).
  assert (ul : u * low0 <= q * low0) by (apply Rmult_le_compat_r; lra).
  assert (va1 : 0 <= u * A1) by (apply Rmult_le_pos; lra). assert (va2 : 0 <= u * A2) by (apply Rmult_le_pos; lra). assert (va3 : 0 <= u * A3) by (apply Rmult_le_pos; lra).
  assert (R12 : u * B12 <= u * ((1 + u) * (A1 + A2) + 4 * low0)) by (apply Rmult_le_compat_l; lra).
  assert (R12' : u * B12 <= 1.00001 * (u * A1 + u * A2) + 0.0001 * low0) by lra.
  assert (R123 : u * B123 <= u * ((1 + u) * B12 + (1 + u) * A3 + 2 * low0)) by (apply Rmult_le_compat_l; lra).
  assert (uB : u * (u * B12) <= q * (u * B12)) by (apply Rmult_le_compat_r; [apply Rmult_le_pos; lra|lra]).
  assert (R123' : u * B123 <= 1.00002 * (u * A1 + u * A2 + u * A3) + 0.001 * low0) by lra.
  lra.
Qed.
Lemma dot_nonneg x a s : visF prec emax x a -> wsum a a <= hi0 / 8 -> isf (@dot _ FN x x) s -> 0 <= s.
Proof.
  intros (X1 & X2 & X3) Hw Hs. unfold wsum in Hw.
  pose proof (Rabs_pos (vx a * vx a)). pose proof (Rabs_pos (vy a * vy a)). pose proof (Rabs_pos (vz a * vz a)).
  assert (P : forall z v, isf z v -> Rabs (v * v) <= hi0 / 8 -> isf (@nmul _ FN z z) (rd (v * v)) /\ 0 <= rd (v * v) <= 2 * (hi0 / 8)).
  { intros z v Hz Hv. pose proof (rd_double prec emax (v * v)) as R. pose proof (rd_pos prec emax (v * v) (Rle_0_sqr v)) as R0.
    rewrite (Rabs_pos_eq (rd (v * v))) in R by exact R0.
    assert (0 < hi0) by apply bpow_gt_0. split; [|lra]. apply (isF_mul prec emax); try assumption. rewrite Rabs_pos_eq by exact R0. lra. }
  destruct (P _ _ X1 ltac:(lra)) as [I1 J1]. destruct (P _ _ X2 ltac:(lra)) as [I2 J2]. destruct (P _ _ X3 ltac:(lra)) as [I3 J3].
  set (p1 := rd (vx a * vx a)) in *. set (p2 := rd (vy a * vy a)) in *. set (p3 := rd (vz a * vz a)) in *.
  assert (W : p1 + p2 + p3 <= 3 / 8 * hi0).
  { pose proof (rd_double prec emax (vx a * vx a)) as R1. pose proof (rd_double prec emax (vy a * vy a)) as R2.
    pose proof (rd_double prec emax (vz a * vz a)) as R3. fold p1 in R1. fold p2 in R2. fold p3 in R3.
    rewrite (Rabs_pos_eq p1) in R1 by lra. rewrite (Rabs_pos_eq p2) in R2 by lra. rewrite (Rabs_pos_eq p3) in R3 by lra.
    assert (0 < hi0) by apply bpow_gt_0. lra. }
  assert (T0 : 0 < hi0) by apply bpow_gt_0.
  assert (I12 := isF_add prec emax _ _ _ _ I1 I2 ltac:(apply (rd_half_top prec emax (p6 prec emax Hfmt)); rewrite Rabs_pos_eq; lra)).
  assert (S0 : 0 <= rd (p1 + p2)) by (apply (rd_pos prec emax); lra).
  pose proof (rd_add_rel prec emax _ _ _ _ I1 I2) as F. rewrite (Rabs_pos_eq (p1 + p2)) in F by lra. apply Rabs_le_inv in F.
  pose proof (u_small prec emax Hfmt) as U1. assert (u * (p1 + p2) <= q * (p1 + p2)) by (apply Rmult_le_compat_r; lra).
  assert (I123 := isF_add prec emax _ _ _ _ I12 I3 ltac:(apply (rd_half_top prec emax (p6 prec emax Hfmt)); rewrite Rabs_pos_eq; lra)).
  rewrite (isF_fun prec emax _ _ _ Hs I123). apply (rd_pos prec emax). lra.
Qed.
(** The length of a vector. *)
Lemma sqrt_low : sqrt (8 * low0) <= 0.01 * u.
Proof.
  rewrite <- (sqrt_Rsqr (0.01 * u)) by (pose proof (u_pos prec); lra). apply sqrt_le_1_alt. unfold Rsqr, least, ulpf.
  replace (0.01 * bpow radix2 (- prec) * (0.01 * bpow radix2 (- prec))) with (0.0001 * (bpow radix2 (- prec) * bpow radix2 (- prec))) by lra.
  apply Rle_trans with (bpow radix2 (-14) * (bpow radix2 (- prec) * bpow radix2 (- prec))).
  - replace 8 with (bpow radix2 3) by reflexivity. rewrite <- !bpow_plus. apply bpow_le. destruct Hfmt. lia.
  - apply Rmult_le_compat_r; [apply Rmult_le_pos; apply bpow_ge_0|]. cbn. lra.
Qed.
Lemma norm_F x a m : visF prec emax x a -> rv_norm a * rv_norm a <= m -> 1 <= m -> 8 * m <= hi0 ->
  exists h, isf (@norm _ FN x) h /\ 0 <= h /\ Rabs (h - rv_norm a) <= 2.51 * u * rv_norm a + 0.02 * u.
Proof.
  intros Hx Hm H1 Ht. pose proof (u_pos prec) as U0. pose proof (u_small prec emax Hfmt) as U1. pose proof (low_pos emax) as L0. pose proof (low_small prec emax Hfmt) as L1.
  pose proof (rv_norm_nonneg a) as N0. set (n := rv_norm a) in *.
  assert (W : wsum a a = n * n) by apply wsum_self.
  destruct (dot_F x x a a m Hx Hx ltac:(lra) H1 ltac:(lra)) as (s & Hs & E).
  assert (S0 : 0 <= s) by (apply (dot_nonneg x a s Hx); [lra|exact Hs]).
  pose proof (isF_sqrt prec emax _ _ Hs S0) as I.
  assert (Ed : rv_dot a a = n * n) by (unfold n; rewrite rv_norm_sq; reflexivity).
  rewrite W, Ed in E. apply Rabs_le_inv in E.
  assert (NN : 0 <= n * n) by apply Rle_0_sqr. pose proof sqrt_low as SL. set (e := sqrt (8 * low0)) in *.
  assert (e0 : 0 <= e) by apply sqrt_pos. assert (ee : e * e = 8 * low0) by (apply sqrt_sqrt; lra).
  assert (un : u * (n * n) <= q * (n * n)) by (apply Rmult_le_compat_r; lra).
  assert (un0 : 0 <= u * (n * n)) by (apply Rmult_le_pos; lra).
  assert (uun : 0 <= u * (u * (n * n)) <= q * (u * (n * n))) by (split; [apply Rmult_le_pos; lra|apply Rmult_le_compat_r; lra]).
  assert (Q0 : 0 <= sqrt s) by apply sqrt_pos. assert (QQ : sqrt s * sqrt s = s) by (apply sqrt_sqrt, S0).
  assert (nu0 : 0 <= n * u) by (apply Rmult_le_pos; lra).
  assert (Q1 : sqrt s <= n * (1 + 1.501 * u) + e).
  { apply sq_le_abs; [nra|]. rewrite QQ.
    replace ((n * (1 + 1.501 * u) + e) * (n * (1 + 1.501 * u) + e)) with
      (n * n + 3.002 * (u * (n * n)) + 1.501 * 1.501 * (u * (u * (n * n))) + e * e + 2 * (n * (1 + 1.501 * u) * e)) by lra.
    assert (0 <= n * (1 + 1.501 * u) * e) by (apply Rmult_le_pos; [nra|exact e0]). lra. }
  assert (Q2 : n * (1 - 1.501 * u) <= sqrt s + e).
  { apply sq_le_abs; [lra|]. replace ((sqrt s + e) * (sqrt s + e)) with (sqrt s * sqrt s + e * e + 2 * (sqrt s * e)) by lra. rewrite QQ.
    replace (n * (1 - 1.501 * u) * (n * (1 - 1.501 * u))) with (n * n - 3.002 * (u * (n * n)) + 1.501 * 1.501 * (u * (u * (n * n)))) by lra.
    assert (0 <= sqrt s * e) by (apply Rmult_le_pos; lra). lra. }
  pose proof (rd_low prec emax (sqrt s)) as R. rewrite (Rabs_pos_eq (sqrt s)) in R by exact Q0.
  exists (rd (sqrt s)). split; [exact I|]. split; [apply (rd_pos prec emax), Q0|]. apply Rabs_le_inv in R.
  assert (uQ : u * sqrt s <= u * (n * (1 + 1.501 * u) + e)) by (apply Rmult_le_compat_l; lra).
  assert (uun' : u * (u * n) <= q * (u * n)) by (apply Rmult_le_compat_r; [apply Rmult_le_pos|]; lra).
  assert (ue : u * e <= q * u) by (rewrite (Rmult_comm q); apply Rmult_le_compat_l; lra).
  assert (uu : q * u <= 0.001 * u) by lra.
  apply Rabs_le. split; lra.
Qed.
End F.

(** Approximate vectors. *)
Section V.
Variables prec emax : Z.
Context {Hprec : Prec_gt_0 prec} {Hmax : Prec_lt_emax prec emax}.
Hypothesis Hfmt : usual_format prec emax.
Notation FN := (Fnum prec emax).
Notation isf := (isF prec emax).
Notation rd := (rnd prec emax).
Notation u := (ulpf prec).
Notation low0 := (least emax).
Notation hi0 := (top emax).
Notation q := (/ 1000000).
Variable M : R.
Hypothesis HM : scale_ok prec emax M.
Notation ap := (ap prec emax M).

Definition vn (k : nat) (c n : R) (x : vec spec_float) (v : vec R) : Prop :=
  rv_norm v <= c * M ^ k /\ exists a, visF prec emax x a /\ rv_norm (rv_sub a v) <= n * u * M ^ k.

Lemma ap_cap k c c' n x v : ap k c n x v -> Rabs v <= c' * M ^ k -> ap k c' n x v.
Proof. intros [_ H] Hc. split; assumption. Qed.
Lemma rv_dot_abs a b : Rabs (rv_dot a b) <= rv_norm a * rv_norm b.
Proof.
  eapply Rle_trans; [|apply wsum_norm]. unfold rv_dot, wsum. eapply Rle_trans; [apply Rabs_triang|].
  pose proof (Rabs_triang (vx a * vx b) (vy a * vy b)). lra.
Qed.
Lemma vn_dot j k c1 n1 c2 n2 n x y v w : vn j c1 n1 x v -> vn k c2 n2 y w -> (j + k <= 3)%nat -> 0 <= c1 -> 0 <= c2 -> 0 <= n1 -> 0 <= n2 ->
  1 <= c1 * c2 -> c1 * c2 + (c1 * n2 + c2 * n1 + n1 * n2 * q) * q <= 16 ->
  (c1 * n2 + c2 * n1 + n1 * n2 * q) + 3.002 * (c1 * c2 + (c1 * n2 + c2 * n1 + n1 * n2 * q) * q) + 5 * q <= n ->
  ap (j + k) (c1 * c2) n (@dot _ FN x y) (rv_dot v w).
Proof.
  intros (V1 & a & Ha & Ea) (W1 & b & Hb & Eb) Hk C1 C2 N1 N2 Hc Hcap Hn.
  pose proof (u_pos prec) as U0. pose proof (u_small prec emax Hfmt) as U1. pose proof (low_pos emax) as L0. pose proof (low_small prec emax Hfmt) as L1.
  pose proof (Mk_pos prec emax M HM j) as Mj. pose proof (Mk_pos prec emax M HM k) as Mk. pose proof (Mk_pos prec emax M HM (j + k)) as Mjk.
  pose proof (Mk_top prec emax M HM (j + k) Hk) as Mt. rewrite pow_add in *. set (m := M ^ j) in *. set (m' := M ^ k) in *.
  pose proof (rv_norm_nonneg v) as v0. pose proof (rv_norm_nonneg w) as w0. pose proof (rv_norm_nonneg a) as a0. pose proof (rv_norm_nonneg b) as b0.
  pose proof (norm_sub_le a v) as Na. pose proof (norm_sub_le b w) as Nb.
  set (e := c1 * n2 + c2 * n1 + n1 * n2 * q) in *.
  assert (A : rv_norm a <= (c1 + n1 * u) * m) by lra. assert (B : rv_norm b <= (c2 + n2 * u) * m') by lra.
  assert (AB : rv_norm a * rv_norm b <= (c1 * c2 + e * u) * (m * m')).
  { apply Rle_trans with ((c1 + n1 * u) * m * ((c2 + n2 * u) * m')); [apply Rmult_le_compat; assumption|].
    replace ((c1 + n1 * u) * m * ((c2 + n2 * u) * m')) with ((c1 * c2 + (c1 * n2 + c2 * n1 + n1 * n2 * u) * u) * (m * m')) by ring.
    apply Rmult_le_compat_r; [lra|]. apply Rplus_le_compat_l. apply Rmult_le_compat_r; [lra|]. unfold e. apply Rplus_le_compat_l.
    apply Rmult_le_compat_l; [apply Rmult_le_pos; assumption|exact U1]. }
  assert (e0 : 0 <= e).
  { unfold e. assert (0 <= c1 * n2) by (apply Rmult_le_pos; assumption). assert (0 <= c2 * n1) by (apply Rmult_le_pos; assumption).
    assert (0 <= n1 * n2) by (apply Rmult_le_pos; assumption). lra. }
  assert (eu : e * u <= e * q) by (apply Rmult_le_compat_l; assumption).
  pose proof (wsum_norm a b) as Wn.
  assert (AB' : rv_norm a * rv_norm b <= (c1 * c2 + e * q) * (m * m')).
  { eapply Rle_trans; [exact AB|]. apply Rmult_le_compat_r; lra. }
  assert (Big : (c1 * c2 + e * q) * (m * m') <= 16 * (m * m')) by (apply Rmult_le_compat_r; lra).
  assert (Sm : 1 <= (c1 * c2 + e * q) * (m * m')).
  { apply Rle_trans with (1 * (m * m')); [lra|]. apply Rmult_le_compat_r; [lra|]. assert (0 <= e * q) by (apply Rmult_le_pos; lra). lra. }
  destruct (dot_F prec emax Hfmt x y a b ((c1 * c2 + e * q) * (m * m')) Ha Hb ltac:(lra) Sm ltac:(lra)) as (s & Hs & Es).
  split.
  { eapply Rle_trans; [apply rv_dot_abs|]. replace (c1 * c2 * M ^ (j + k)) with (c1 * m * (c2 * m')) by (rewrite pow_add; unfold m, m'; ring). apply Rmult_le_compat; assumption. }
  exists s. split; [exact Hs|]. rewrite pow_add. fold m m'.
  assert (Ex : Rabs (rv_dot a b - rv_dot v w) <= e * u * (m * m')).
  { replace (rv_dot a b - rv_dot v w) with (rv_dot (rv_sub a v) (rv_sub b w) + (rv_dot (rv_sub a v) w + rv_dot v (rv_sub b w)))
      by (unfold rv_dot, rv_sub; cbn [vx vy vz]; ring).
    eapply Rle_trans; [apply Rabs_triang|]. eapply Rle_trans; [apply Rplus_le_compat_l, Rabs_triang|].
    pose proof (rv_dot_abs (rv_sub a v) (rv_sub b w)) as X1. pose proof (rv_dot_abs (rv_sub a v) w) as X2. pose proof (rv_dot_abs v (rv_sub b w)) as X3.
    pose proof (rv_norm_nonneg (rv_sub a v)) as z1. pose proof (rv_norm_nonneg (rv_sub b w)) as z2.
    pose proof (Rmult_le_compat _ _ _ _ z1 z2 Ea Eb) as Y1. pose proof (Rmult_le_compat _ _ _ _ z1 w0 Ea W1) as Y2. pose proof (Rmult_le_compat _ _ _ _ v0 z2 V1 Eb) as Y3.
    assert (Y4 : n1 * u * m * (n2 * u * m') <= n1 * n2 * q * (u * (m * m'))).
    { replace (n1 * u * m * (n2 * u * m')) with (u * (n1 * n2 * (u * (m * m')))) by ring.
      replace (n1 * n2 * q * (u * (m * m'))) with (q * (n1 * n2 * (u * (m * m')))) by ring.
      apply Rmult_le_compat_r; [|exact U1]. apply Rmult_le_pos; [apply Rmult_le_pos; assumption|]. apply Rmult_le_pos; lra. }
    replace (e * u * (m * m')) with (n1 * n2 * q * (u * (m * m')) + (n1 * u * m * (c2 * m') + c1 * m * (n2 * u * m'))) by (unfold e; ring). lra. }
  replace (s - rv_dot v w) with ((s - rv_dot a b) + (rv_dot a b - rv_dot v w)) by ring. eapply Rle_trans; [apply Rabs_triang|].
  assert (Es' : 3.001 * u * wsum a b <= 3.001 * u * ((c1 * c2 + e * q) * (m * m'))) by (apply Rmult_le_compat_l; lra).
  assert (Um : u <= u * (m * m')) by (rewrite <- (Rmult_1_r u) at 1; apply Rmult_le_compat_l; lra).
  assert (um0 : 0 <= u * (m * m')) by (apply Rmult_le_pos; lra).
  set (f := c1 * c2 + e * q) in *.
  apply Rle_trans with ((e + 3.002 * f + 5 * q) * (u * (m * m'))).
  - assert (3.001 * u * (f * (m * m')) <= 3.002 * f * (u * (m * m'))).
    { replace (3.001 * u * (f * (m * m'))) with (3.001 * (f * (u * (m * m')))) by ring.
      assert (0 <= f * (u * (m * m'))) by (apply Rmult_le_pos; [unfold f; assert (0 <= e * q) by (apply Rmult_le_pos; lra); lra|exact um0]). lra. }
    lra.
  - replace (n * u * (m * m')) with (n * (u * (m * m'))) by ring. apply Rmult_le_compat_r; [exact um0|]. lra.
Qed.
Lemma vn_dir d U : rv_norm U = 1 -> near_dir prec emax d U -> vn 0 1 8.67 d U.
Proof.
  intros H1 (_ & D & HD & K1 & K2 & K3). pose proof (u_pos prec) as U0. split; [rewrite H1, pow_O; lra|]. exists D. split; [exact HD|].
  rewrite pow_O. eapply Rle_trans; [apply (norm_const (5 * u)); [lra|assumption..]|]. lra.
Qed.
Lemma vn_sub x y a b : visF prec emax x a -> visF prec emax y b -> rv_norm (rv_sub a b) <= M -> vn 1 1 1 (@vsub _ FN x y) (rv_sub a b).
Proof.
  intros (X1 & X2 & X3) (Y1 & Y2 & Y3) Hn. pose proof (u_pos prec) as U0. rewrite <- (Rmult_1_l M) in Hn. rewrite <- (pow_1 M) in Hn. split; [exact Hn|].
  destruct (comp_norm (rv_sub a b)) as (N1 & N2 & N3). pose proof (Mk_top prec emax M HM 1 ltac:(lia)) as T. pose proof (Mk_pos prec emax M HM 1) as P.
  exists (V (rd (vx a - vx b)) (rd (vy a - vy b)) (rd (vz a - vz b))). split.
  - split; [|split]; cbn [vsub vmap2 vx vy vz]; (apply (isF_sub prec emax); [assumption..|]; apply (rd_half_top prec emax (p6 prec emax Hfmt));
      unfold rv_sub in *; cbn [vx vy vz] in *; lra).
  - eapply Rle_trans; [apply (norm_le u _ (rv_sub a b)); [lra|..]|];
      [..|replace (1 * u * M ^ 1) with (u * (1 * M ^ 1)) by ring; apply Rmult_le_compat_l; [lra|exact Hn]];
      unfold rv_sub; cbn [vx vy vz]; eapply (rd_sub_rel prec emax); eassumption.
Qed.
End V.
