(** The roots that the sphere routine computes, in IEEE arithmetic. *)

From Coq Require Import Reals ZArith Bool Lra Lia Psatz Floats.SpecFloat.
From Flocq Require Import Core IEEE754.BinarySingleNaN.
From Verif Require Import Num NumR NumF Vec Ray Sphere SpecReal SpecIEEE SpecTriF SpecSphF PfIEEE PfIEEE2 PfIEEE3 PfTriF PfDirF PfX PfSphF.
Local Open Scope R_scope.

Lemma Rabs_add_le a b x y : Rabs a <= x -> Rabs b <= y -> Rabs (a + b) <= x + y.
Proof. intros. eapply Rle_trans; [apply Rabs_triang|]. lra. Qed.
Lemma Rabs_mul_le a b x y : Rabs a <= x -> Rabs b <= y -> Rabs (a * b) <= x * y.
Proof. intros. rewrite Rabs_mult. apply Rmult_le_compat; try apply Rabs_pos; assumption. Qed.

(** How far the polynomial is from zero at a computed root. *)
Lemma root_residual (e M B C b s t D : R) : 0 <= e -> e <= / 1000000 -> 1 <= M ->
  Rabs (b - B) <= 27.5 * (e * M) -> Rabs B <= 2 * M -> Rabs (D - (b * b - 4 * C)) <= 134.4 * (e * M ^ 2) ->
  Rabs (s * s - D) <= 8.1 * (e * M ^ 2) -> 0 <= s <= 2.01 * M ->
  Rabs (t - (- b - s) / 2) <= 50.1 * (e * M) \/ Rabs (t - (- b + s) / 2) <= 50.1 * (e * M) ->
  Rabs (t * t + B * t + C) <= 193 * (e * M ^ 2).
Proof.
  intros He He1 HM Hb HB HD Hs [S0 S1] Ht.
  assert (em0 : 0 <= e * M) by (apply Rmult_le_pos; lra).
  assert (em : e * M <= / 1000000 * M) by (apply Rmult_le_compat_r; lra).
  assert (X : exists s', Rabs s' <= 2.01 * M /\ s' * s' = s * s /\ Rabs (t - (- b - s') / 2) <= 50.1 * (e * M)).
  { destruct Ht as [Ht|Ht].
    - exists s. split; [rewrite Rabs_pos_eq by lra; lra|]. auto.
    - exists (- s). split; [rewrite Rabs_Ropp, Rabs_pos_eq by lra; lra|]. split; [ring|]. replace (- b - - s) with (- b + s) by ring. exact Ht. }
  clear Ht S0 S1. destruct X as (s' & S1 & S2 & Ht). rewrite <- S2 in Hs. clear S2.
  set (t' := (- b - s') / 2) in *.
  assert (E : t * t + B * t + C = ((s' * s' - D) + (D - (b * b - 4 * C))) / 4 + (- (b - B)) * t' + (t - t') * (- s' + (- (b - B)) + (t - t'))).
  { unfold t'. field. }
  rewrite E. assert (E2 : e * M ^ 2 = e * M * M) by ring. rewrite E2 in *.
  assert (W1 : Rabs (((s' * s' - D) + (D - (b * b - 4 * C))) / 4) <= 36 * (e * M * M)).
  { unfold Rdiv. rewrite Rabs_mult, (Rabs_pos_eq (/ 4)) by lra. pose proof (Rabs_add_le _ _ _ _ Hs HD).
    assert (0 <= e * M * M) by (apply Rmult_le_pos; lra). lra. }
  assert (Hb' : Rabs (- (b - B)) <= 27.5 * (e * M)) by (rewrite Rabs_Ropp; exact Hb).
  assert (Bb : Rabs b <= 2.001 * M).
  { replace b with ((b - B) + B) by ring. eapply Rle_trans; [apply (Rabs_add_le _ _ _ _ Hb HB)|]. lra. }
  assert (T' : Rabs t' <= 2.006 * M).
  { unfold t', Rdiv. rewrite Rabs_mult, (Rabs_pos_eq (/ 2)) by lra. unfold Rminus.
    assert (Rabs (- b + - s') <= 2.001 * M + 2.01 * M) by (apply Rabs_add_le; rewrite Rabs_Ropp; assumption). lra. }
  pose proof (Rabs_mul_le _ _ _ _ Hb' T') as W2.
  assert (W3 : Rabs (- s' + (- (b - B)) + (t - t')) <= 2.0101 * M).
  { eapply Rle_trans; [apply (Rabs_add_le _ _ (2.01 * M + 27.5 * (e * M)) (50.1 * (e * M))); [apply Rabs_add_le; [rewrite Rabs_Ropp; exact S1|exact Hb']|exact Ht]|]. lra. }
  pose proof (Rabs_mul_le _ _ _ _ Ht W3) as W4.
  eapply Rle_trans; [apply Rabs_add_le; [apply Rabs_add_le; [exact W1|exact W2]|exact W4]|].
  assert (0 <= e * M * M) by (apply Rmult_le_pos; lra). lra.
Qed.

Section F.
Variables prec emax : Z.
Context {Hprec : Prec_gt_0 prec} {Hmax : Prec_lt_emax prec emax}.
Hypothesis Hfmt : usual_format prec emax.
Notation FN := (Fnum prec emax).
Notation isf := (isF prec emax).
Notation rd := (rnd prec emax).
Notation u := (ulpf prec).
Notation low0 := (least emax).
Notation hi0 := (top emax).
Notation q := (/ 1000000).
Variable M : R.
Hypothesis HM : scale_ok prec emax M.
Notation ap := (ap prec emax M).

Lemma two_isF : isf (@n2 _ FN) 2.
Proof.
  assert (E : rd 2 = 2).
  { replace 2 with (bpow radix2 1) by (cbn; lra). apply (rd_bpow prec emax). pose proof (emax_big prec emax (p6 prec emax Hfmt)). unfold Prec_gt_0 in Hprec. lia. }
  rewrite <- E. apply (isF_ofZ prec emax). change (IZR 2) with 2. rewrite E, Rabs_pos_eq by lra. pose proof (hi0_big prec emax (p6 prec emax Hfmt)). lra.
Qed.
Lemma half_isF : isf (@nhalf _ FN) (/ 2).
Proof.
  assert (E : rd (1 / 2) = / 2).
  { replace (1 / 2) with (bpow radix2 (-1)) by (cbn; lra). rewrite (rd_bpow prec emax); [cbn; lra|]. pose proof (emax_big prec emax (p6 prec emax Hfmt)). unfold Prec_gt_0 in Hprec. lia. }
  rewrite <- E. unfold nhalf. apply (isF_div prec emax); [apply (one_isF prec emax (p6 prec emax Hfmt))|exact two_isF|lra|].
  rewrite E, Rabs_pos_eq by lra. pose proof (hi0_big prec emax (p6 prec emax Hfmt)). lra.
Qed.

Variables (o c d : vec spec_float) (fr : spec_float) (O C U : vec R) (r : R).
Hypothesis Ho : visF prec emax o O.
Hypothesis Hd : unit_near prec emax d U.
Hypothesis Hs : sphere_isF prec emax M O c fr C r.
Notation v := (rv_sub O C).
Definition lin : R := 2 * rv_dot v U.
Definition cst : R := rv_dot v v - r * r.
Lemma power_poly t : power C r (at_t O U t) = t * t + lin * t + cst.
Proof.
  destruct Hd as [H1 _]. assert (E : rv_dot U U = 1) by (rewrite <- rv_norm_sq, H1; ring).
  unfold power, lin, cst, at_t. transitivity (t * t * rv_dot U U + 2 * rv_dot v U * t + (rv_dot v v - r * r)); [|rewrite E; ring].
  unfold rv_dot, rv_sub, rv_add, rv_scale. cbn [vx vy vz]. ring.
Qed.
Local Notation fv := (@vsub _ FN o c).
Definition fA : spec_float := @dot _ FN d d.
Definition fB : spec_float := @nmul _ FN (@n2 _ FN) (@dot _ FN fv d).
Definition fC : spec_float := @nsub _ FN (@dot _ FN fv fv) (@nmul _ FN fr fr).
Definition fD : spec_float := @nsub _ FN (@nmul _ FN fB fB) (@nmul _ FN (@nmul _ FN (@n4 _ FN) fA) fC).
Definition fh : spec_float := @nmul _ FN (@nhalf _ FN) (@ndiv _ FN (@n1 _ FN) fA).
Definition ft0 : spec_float := @nmul _ FN fh (@nsub _ FN (@nopp _ FN fB) (@nsqrt _ FN fD)).
Definition ft1 : spec_float := @nmul _ FN fh (@nadd _ FN (@nopp _ FN fB) (@nsqrt _ FN fD)).

Lemma M1' : 1 <= M. Proof. apply HM. Qed.
Lemma vv_le : 0 <= rv_dot v v <= M ^ 2.
Proof.
  destruct Hs as (_ & _ & _ & Hn). rewrite <- rv_norm_sq. pose proof (rv_norm_nonneg v). split; [apply Rle_0_sqr|].
  replace (M ^ 2) with (M * M) by ring. apply Rmult_le_compat; lra.
Qed.
Lemma rr_le : 0 <= r * r <= M ^ 2.
Proof.
  destruct Hs as (_ & _ & Hr & _). split; [apply Rle_0_sqr|]. replace (M ^ 2) with (M * M) by ring. apply Rmult_le_compat; lra.
Qed.
Lemma vU_le : Rabs (rv_dot v U) <= M.
Proof.
  destruct Hs as (_ & _ & _ & Hn). destruct Hd as [H1 _]. eapply Rle_trans; [apply rv_dot_abs|]. rewrite H1. lra.
Qed.
Lemma vU_sq : rv_dot v U * rv_dot v U <= rv_dot v v.
Proof.
  destruct Hd as [H1 _]. pose proof (rv_cauchy v U) as H. rewrite <- (rv_norm_sq U), H1 in H. lra.
Qed.
Lemma A_ap : ap 0 1 20.4 fA 1.
Proof.
  destruct Hd as [H1 Hn]. pose proof (vn_dir prec emax M d U H1 Hn) as Hv.
  assert (E : rv_dot U U = 1) by (rewrite <- rv_norm_sq, H1; ring). 
  assert (X : ap (0 + 0) (1 * 1) 20.4 fA (rv_dot U U)).
  { apply (vn_dot prec emax Hfmt M HM 0 0 1 8.67 1 8.67); try assumption; try lra. lia. }
  rewrite E, Rmult_1_r in X. exact X.
Qed.
Lemma B_ap : ap 1 2 27.5 fB lin.
Proof.
  destruct Hs as (Hc & _ & _ & Hn). destruct Hd as [H1 Hnd]. pose proof (vn_dir prec emax M d U H1 Hnd) as Hv. pose proof (vn_sub prec emax Hfmt M HM _ _ _ _ Ho Hc Hn) as Hw.
  assert (X : ap (1 + 0) (1 * 1) 12.7 (@dot _ FN fv d) (rv_dot v U)).
  { apply (vn_dot prec emax Hfmt M HM 1 0 1 1 1 8.67); try assumption; try lra. lia. }
  unfold fB, lin. rewrite <- (Rmult_1_r 2) at 1. apply (ap_mul prec emax Hfmt M HM 0 1 2 0 1 12.7); try lra; try lia.
  - apply ap_exact; [exact two_isF|]. rewrite pow_O, Rabs_pos_eq; lra.
  - rewrite Rmult_1_r in X. exact X.
Qed.
Lemma C_ap : ap 2 1 8.12 fC cst.
Proof.
  destruct Hs as (Hc & Hr & Hrm & Hn). pose proof (vn_sub prec emax Hfmt M HM _ _ _ _ Ho Hc Hn) as Hw.
  assert (X : ap (1 + 1) (1 * 1) 5.1 (@dot _ FN fv fv) (rv_dot v v)).
  { apply (vn_dot prec emax Hfmt M HM 1 1 1 1 1 1); try assumption; try lra. lia. }
  assert (Y : ap (1 + 1) (1 * 1) 1.00001 (@nmul _ FN fr fr) (r * r)).
  { assert (Z : ap 1 1 0 fr r) by (apply ap_exact; [exact Hr|]; rewrite pow_1, Rabs_pos_eq; lra).
    apply (ap_mul prec emax Hfmt M HM 1 1 1 0 1 0); try assumption; try lra. lia. }
  unfold fC, cst. pose proof vv_le. pose proof rr_le. apply ap_cap with (c := 1 * 1 + 1 * 1).
  - apply (ap_sub prec emax Hfmt M HM (1 + 1) (1 * 1) 5.1 (1 * 1) 1.00001); try assumption; try lra. lia.
  - apply Rabs_le. lra.
Qed.
Lemma AC_ap : ap 2 4 122.3 (@nmul _ FN (@nmul _ FN (@n4 _ FN) fA) fC) (4 * cst).
Proof.
  assert (X : ap (0 + 0) (4 * 1) 85.7 (@nmul _ FN (@n4 _ FN) fA) (4 * 1)).
  { apply (ap_mul prec emax Hfmt M HM 0 0 4 0 1 20.4); try lra; try lia; [|exact A_ap].
    apply ap_exact; [apply (four_isF prec emax (p6 prec emax Hfmt))|]. rewrite pow_O, Rabs_pos_eq; lra. }
  rewrite !Rmult_1_r in X. rewrite <- (Rmult_1_r 4) at 1. apply (ap_mul prec emax Hfmt M HM 0 2 4 85.7 1 8.12); try lra; try lia; [exact X|exact C_ap].
Qed.
(** The discriminant, compared with the exact one. *)
Lemma D_exact : ap 2 4 244.5 fD (lin * lin - 4 * cst).
Proof.
  assert (X : ap (1 + 1) (2 * 2) 114.1 (@nmul _ FN fB fB) (lin * lin)).
  { apply (ap_mul prec emax Hfmt M HM 1 1 2 27.5 2 27.5); try lra; try lia; exact B_ap. }
  pose proof AC_ap as Y. unfold fD. apply ap_cap with (c := 2 * 2 + 4).
  - apply (ap_sub prec emax Hfmt M HM 2 (2 * 2) 114.1 4 122.3); try assumption; try lra. lia.
  - unfold lin, cst. pose proof vU_sq. pose proof rr_le. pose proof vv_le. pose proof (Rle_0_sqr (rv_dot v U)) as S. unfold Rsqr in S. apply Rabs_le. lra.
Qed.
(** The same, compared with the one for the computed [fB]. *)
Lemma D_own : exists b D, isf fB b /\ isf fD D /\ Rabs (b - lin) <= 27.5 * (u * M) /\ Rabs b <= 2.001 * M /\
  Rabs (D - (b * b - 4 * cst)) <= 134.4 * (u * M ^ 2) /\ Rabs (D - (lin * lin - 4 * cst)) <= 244.5 * (u * M ^ 2) /\ Rabs D <= 4.001 * M ^ 2.
Proof.
  destruct B_ap as [Bl (b & Hb & Eb)]. rewrite pow_1 in Bl, Eb. pose proof M1' as V1. pose proof (u_pos prec) as U0. pose proof (u_small prec emax Hfmt) as U1.
  assert (uM : u * M <= q * M) by (apply Rmult_le_compat_r; lra).
  assert (Bb : Rabs b <= 2.001 * M).
  { replace b with ((b - lin) + lin) by ring. eapply Rle_trans; [apply Rabs_add_le; [exact Eb|exact Bl]|]. lra. }
  assert (Z : ap 1 2.001 0 fB b) by (apply ap_exact; [exact Hb|]; rewrite pow_1; exact Bb).
  assert (X : ap (1 + 1) (2.001 * 2.001) 4.01 (@nmul _ FN fB fB) (b * b)).
  { apply (ap_mul prec emax Hfmt M HM 1 1 2.001 0 2.001 0); try assumption; try lra. lia. }
  pose proof AC_ap as Y.
  assert (W : ap 2 (2.001 * 2.001 + 4) 134.4 fD (b * b - 4 * cst)).
  { unfold fD. apply (ap_sub prec emax Hfmt M HM 2 (2.001 * 2.001) 4.01 4 122.3); try assumption; try lra. lia. }
  destruct W as [_ (D & HD & ED)]. destruct D_exact as [Dl (D' & HD' & ED')]. rewrite <- (isF_fun prec emax _ _ _ HD HD') in ED'.
  exists b, D. split; [exact Hb|]. split; [exact HD|]. split; [lra|]. split; [exact Bb|]. split; [lra|]. split; [lra|].
  replace D with ((D - (lin * lin - 4 * cst)) + (lin * lin - 4 * cst)) by ring. eapply Rle_trans; [apply Rabs_add_le; [exact ED'|exact Dl]|].
  assert (u * M ^ 2 <= q * M ^ 2) by (apply Rmult_le_compat_r; [apply pow_le; lra|lra]). assert (0 <= M ^ 2) by (apply pow_le; lra). lra.
Qed.
Lemma h_near : exists h, isf fh h /\ Rabs (h - / 2) <= 11.4 * u.
Proof.
  pose proof (u_pos prec) as U0. pose proof (u_small prec emax Hfmt) as U1. pose proof (hi0_big prec emax (p6 prec emax Hfmt)) as T.
  destruct A_ap as [_ (a & Ha & Ea)]. rewrite pow_O in Ea. apply Rabs_le_inv in Ea.
  assert (a0 : 0.999 <= a <= 1.001) by lra.
  assert (E1 : Rabs (1 / a - 1) <= 20.5 * u).
  { replace (1 / a - 1) with ((1 - a) / a) by (field; lra). unfold Rdiv. rewrite Rabs_mult, (Rabs_pos_eq (/ a)) by (apply Rlt_le, Rinv_0_lt_compat; lra).
    apply Rmult_le_reg_r with a; [lra|]. rewrite Rmult_assoc, Rinv_l, Rmult_1_r by lra. apply Rle_trans with (20.4 * u); [apply Rabs_le; lra|]. assert (20.5 * u * (1 - 21 * u) <= 20.5 * u * a) by (apply Rmult_le_compat_l; lra). nra. }
  apply Rabs_le_inv in E1. pose proof (rd_abs prec emax Hfmt (1 / a)) as R1.
  assert (A1 : Rabs (1 / a) <= 1.001) by (apply Rabs_le; lra).
  assert (u * Rabs (1 / a) <= u * 1.001) by (apply Rmult_le_compat_l; lra). apply Rabs_le_inv in R1.
  assert (I1 : isf (@ndiv _ FN (@n1 _ FN) fA) (rd (1 / a))).
  { apply (isF_div prec emax); [apply (one_isF prec emax (p6 prec emax Hfmt))|exact Ha|lra|]. apply Rabs_lt. lra. }
  set (p := rd (1 / a)) in *. pose proof (rd_abs prec emax Hfmt (/ 2 * p)) as R2.
  assert (A2 : Rabs (/ 2 * p) <= 0.51) by (apply Rabs_le; lra).
  assert (u * Rabs (/ 2 * p) <= u * 0.51) by (apply Rmult_le_compat_l; lra). apply Rabs_le_inv in R2.
  exists (rd (/ 2 * p)). split.
  - apply (isF_mul prec emax); [exact half_isF|exact I1|]. apply Rabs_lt. lra.
  - apply Rabs_le. lra.
Qed.

(** The roots. *)
Lemma roots : exists D, isf fD D /\ Rabs (D - (lin * lin - 4 * cst)) <= 244.5 * (u * M ^ 2) /\
  (0 <= D -> exists t0 t1, isf ft0 t0 /\ isf ft1 t1 /\ t0 <= t1 /\ Rabs t0 <= 2.1 * M /\ Rabs t1 <= 2.1 * M /\
     Rabs (2 * t0 + lin) <= 2.02 * M /\ Rabs (2 * t1 + lin) <= 2.02 * M /\
     Rabs (power C r (at_t O U t0)) <= 193 * (u * M ^ 2) /\ Rabs (power C r (at_t O U t1)) <= 193 * (u * M ^ 2) /\
     t0 <= - lin / 2 + 64 * (u * M) /\ - lin / 2 - 64 * (u * M) <= t1).
Proof.
  destruct D_own as (b & D & Hb & HD & Eb & Bb & ED & ED' & Db). exists D. split; [exact HD|]. split; [exact ED'|]. intros D0.
  pose proof (u_pos prec) as U0. pose proof (u_small prec emax Hfmt) as U1. pose proof M1' as V1. pose proof (Mk_top prec emax M HM 1 ltac:(lia)) as T. rewrite pow_1 in T.
  assert (uM : u * M <= q * M) by (apply Rmult_le_compat_r; lra). assert (uM0 : u <= u * M) by (rewrite <- (Rmult_1_r u) at 1; apply Rmult_le_compat_l; lra).
  pose proof (isF_sqrt prec emax _ _ HD D0) as Is.
  assert (q0 : 0 <= sqrt D) by apply sqrt_pos. assert (qq : sqrt D * sqrt D = D) by (apply sqrt_sqrt, D0).
  assert (q1 : sqrt D <= 2.001 * M).
  { apply sq_le_abs; [lra|]. rewrite qq. rewrite Rabs_pos_eq in Db by exact D0. replace (2.001 * M * (2.001 * M)) with (2.001 * 2.001 * M ^ 2) by ring.
    assert (0 <= M ^ 2) by (apply pow_le; lra). lra. }
  pose proof (rd_abs prec emax Hfmt (sqrt D)) as Rs. rewrite (Rabs_pos_eq (sqrt D)) in Rs by exact q0.
  assert (uq : u * sqrt D <= u * (2.001 * M)) by (apply Rmult_le_compat_l; lra).
  pose proof (rd_pos prec emax _ q0) as s0. set (s := rd (sqrt D)) in *.
  assert (Es : Rabs (s - sqrt D) <= 2.0011 * (u * M)) by lra. pose proof Es as Es'. apply Rabs_le_inv in Es'.
  assert (s1 : s <= 2.002 * M) by lra.
  assert (Ess : Rabs (s * s - D) <= 8.1 * (u * M ^ 2)).
  { rewrite <- qq. replace (s * s - sqrt D * sqrt D) with ((s - sqrt D) * (s + sqrt D)) by ring.
    eapply Rle_trans; [apply (Rabs_mul_le _ _ _ (4.003 * M) Es); rewrite Rabs_pos_eq; lra|].
    replace (2.0011 * (u * M) * (4.003 * M)) with (2.0011 * 4.003 * (u * M ^ 2)) by ring.
    assert (0 <= u * M ^ 2) by (apply Rmult_le_pos; [lra|apply pow_le; lra]). lra. }
  destruct h_near as (h & Hh & Eh). pose proof (isF_opp prec emax _ _ Hb) as Hnb.
  pose proof Eh as Eh'. apply Rabs_le_inv in Eh'. assert (h0 : 0 <= h <= 0.501) by lra.
  (* one root *)
  assert (Root : forall w, Rabs w <= 4.003 * M -> Rabs (rd w) < hi0 /\ Rabs (rd (h * rd w)) < hi0 /\ Rabs (rd (h * rd w) - w / 2) <= 50.1 * (u * M)).
  { intros w Hw. pose proof (rd_abs prec emax Hfmt w) as R1. assert (W1 : u * Rabs w <= u * (4.003 * M)) by (apply Rmult_le_compat_l; lra).
    set (w' := rd w) in *. assert (Ew : Rabs (w' - w) <= 4.0031 * (u * M)) by lra.
    assert (Ww : Rabs w' <= 4.004 * M). { replace w' with ((w' - w) + w) by ring. eapply Rle_trans; [apply Rabs_add_le; [exact Ew|exact Hw]|]. lra. }
    assert (Ehw : Rabs (h * w' - w / 2) <= 47.7 * (u * M)).
    { replace (h * w' - w / 2) with ((h - / 2) * w' + / 2 * (w' - w)) by field.
      eapply Rle_trans; [apply Rabs_add_le; [apply (Rabs_mul_le _ _ _ _ Eh Ww)|apply (Rabs_mul_le (/ 2) (w' - w) (/ 2) _ ltac:(rewrite Rabs_pos_eq; lra) Ew)]|].
      replace (11.4 * u * (4.004 * M)) with (11.4 * 4.004 * (u * M)) by ring. lra. }
    assert (Whw : Rabs (h * w') <= 2.01 * M).
    { eapply Rle_trans; [apply (Rabs_mul_le h w' 0.501 _ ltac:(rewrite Rabs_pos_eq; lra) Ww)|]. lra. }
    pose proof (rd_abs prec emax Hfmt (h * w')) as R2. assert (W2 : u * Rabs (h * w') <= u * (2.01 * M)) by (apply Rmult_le_compat_l; lra).
    split; [|split].
    - lra.
    - apply (rd_half_top prec emax (p6 prec emax Hfmt)). lra.
    - replace (rd (h * w') - w / 2) with ((rd (h * w') - h * w') + (h * w' - w / 2)) by ring. eapply Rle_trans; [apply Rabs_triang|]. lra. }
  pose proof Bb as Bb'. apply Rabs_le_inv in Bb'.
  destruct (Root (- b - s)) as (A1 & A2 & A3); [apply Rabs_le; lra|]. destruct (Root (- b + s)) as (A4 & A5 & A6); [apply Rabs_le; lra|].
  exists (rd (h * rd (- b - s))), (rd (h * rd (- b + s))).
  set (t0 := rd (h * rd (- b - s))) in *. set (t1 := rd (h * rd (- b + s))) in *.
  pose proof A3 as A3'. apply Rabs_le_inv in A3'. pose proof A6 as A6'. apply Rabs_le_inv in A6'. pose proof Eb as Eb'. apply Rabs_le_inv in Eb'.
  assert (L2 : Rabs lin <= 2 * M) by (pose proof vU_le as X; apply Rabs_le_inv in X; unfold lin; apply Rabs_le; lra).
  split; [unfold ft0; apply (isF_mul prec emax); [exact Hh|apply (isF_sub prec emax); assumption|exact A2]|].
  split; [unfold ft1; apply (isF_mul prec emax); [exact Hh|apply (isF_add prec emax); assumption|exact A5]|].
  split; [apply (rd_mono prec emax), Rmult_le_compat_l; [lra|apply (rd_mono prec emax); lra]|].
  split; [apply Rabs_le; lra|]. split; [apply Rabs_le; lra|].
  split; [apply Rabs_le; lra|]. split; [apply Rabs_le; lra|].
  split; [|split; [|split; lra]]; rewrite power_poly.
  - apply (root_residual u M lin cst b s t0 D); try assumption; try lra.
  - apply (root_residual u M lin cst b s t1 D); try assumption; try lra.
Qed.
End F.
