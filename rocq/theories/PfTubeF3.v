(** The roots that the cylinder routine computes bound the part of the ray inside the tube. *)

From Coq Require Import Reals ZArith Bool Lra Lia Psatz Floats.SpecFloat.
From Flocq Require Import Core IEEE754.BinarySingleNaN.
From Verif Require Import Num NumR NumF Vec Cylinder SpecReal SpecIEEE SpecTri SpecTriF SpecTubeF PfIEEE PfIEEE2 PfIEEE3 PfTriF PfDirF PfSphF2 PfPlaneF PfTubeF PfTubeF2.
Local Open Scope R_scope.

(** A quadratic and approximations of its roots. *)
Section Quad.
Variables s be ga gb d h e t0 t1 : R.
Hypothesis Hs : 0 < s.
Hypothesis Hg : 0 <= gb <= 1.014.
Hypothesis Hd : Rabs (gb - ga) <= d.
Hypothesis Hh : 0 <= h.
Hypothesis H0 : Rabs (s * t0 + be - sqrt gb) <= h.
Hypothesis H1 : Rabs (s * t1 + be + sqrt gb) <= h.
Hypothesis He : d + 2.02 * h + h * h <= e.
Hypothesis Ht : t1 <= t0.
Notation f t := ((s * t + be) * (s * t + be) - ga).
Lemma g_sqrt : 0 <= sqrt gb <= 1.007 /\ sqrt gb * sqrt gb = gb.
Proof.
  split; [split; [apply sqrt_pos|]|apply sqrt_sqrt; lra].
  rewrite <- (sqrt_Rsqr 1.007) by lra. apply sqrt_le_1_alt. unfold Rsqr. lra.
Qed.
Lemma quad0 : Rabs (f t0) <= e.
Proof.
  destruct g_sqrt as [[A1 A2] A3]. apply Rabs_le_inv in Hd, H0. set (w := s * t0 + be) in *. apply Rabs_le. rewrite <- A3 in Hd.
  assert (Rabs (w * w - sqrt gb * sqrt gb) <= 2.014 * h + h * h).
  { replace (w * w - sqrt gb * sqrt gb) with ((w - sqrt gb) * (w - sqrt gb + 2 * sqrt gb)) by ring. rewrite Rabs_mult.
    apply Rle_trans with (h * (h + 2.014)); [|lra]. apply Rmult_le_compat; try apply Rabs_pos; apply Rabs_le; lra. }
  apply Rabs_le_inv in H. lra.
Qed.
Lemma quad1 : Rabs (f t1) <= e.
Proof.
  destruct g_sqrt as [[A1 A2] A3]. apply Rabs_le_inv in Hd, H1. set (w := s * t1 + be) in *. apply Rabs_le. rewrite <- A3 in Hd.
  assert (Rabs (w * w - sqrt gb * sqrt gb) <= 2.014 * h + h * h).
  { replace (w * w - sqrt gb * sqrt gb) with ((w + sqrt gb) * (w + sqrt gb - 2 * sqrt gb)) by ring. rewrite Rabs_mult.
    apply Rle_trans with (h * (h + 2.014)); [|lra]. apply Rmult_le_compat; try apply Rabs_pos; apply Rabs_le; lra. }
  apply Rabs_le_inv in H. lra.
Qed.
Lemma quad_after t : t0 <= t -> - e <= f t.
Proof.
  intros H. destruct g_sqrt as [[A1 A2] A3]. pose proof quad0 as Q. apply Rabs_le_inv in Q, Hd, H0.
  assert (M : s * t0 <= s * t) by (apply Rmult_le_compat_l; lra).
  destruct (Rle_lt_dec 0 (s * t0 + be)) as [L|L].
  - assert ((s * t0 + be) * (s * t0 + be) <= (s * t + be) * (s * t + be)) by (apply Rmult_le_compat; lra). lra.
  - assert (sqrt gb <= h) by lra. assert (sqrt gb * sqrt gb <= h * h) by (apply Rmult_le_compat; lra).
    pose proof (Rle_0_sqr (s * t + be)) as Sq. unfold Rsqr in Sq. lra.
Qed.
Lemma quad_before t : t <= t1 -> - e <= f t.
Proof.
  intros H. destruct g_sqrt as [[A1 A2] A3]. pose proof quad1 as Q. apply Rabs_le_inv in Q, Hd, H1.
  assert (M : s * t <= s * t1) by (apply Rmult_le_compat_l; lra).
  destruct (Rle_lt_dec (s * t1 + be) 0) as [L|L].
  - assert ((- (s * t1 + be)) * (- (s * t1 + be)) <= (- (s * t + be)) * (- (s * t + be))) by (apply Rmult_le_compat; lra). lra.
  - assert (sqrt gb <= h) by lra. assert (sqrt gb * sqrt gb <= h * h) by (apply Rmult_le_compat; lra).
    pose proof (Rle_0_sqr (s * t + be)) as Sq. unfold Rsqr in Sq. lra.
Qed.
Lemma quad_inner t : t1 <= t <= t0 -> f t <= e.
Proof.
  intros H. pose proof quad0 as Q0. pose proof quad1 as Q1. apply Rabs_le_inv in Q0, Q1.
  assert (M0 : s * t <= s * t0) by (apply Rmult_le_compat_l; lra). assert (M1 : s * t1 <= s * t) by (apply Rmult_le_compat_l; lra).
  set (x := s * t + be) in *. assert (X0 : x <= s * t0 + be) by (unfold x; lra). assert (X1 : s * t1 + be <= x) by (unfold x; lra).
  destruct (Rle_lt_dec 0 x) as [L|L].
  - assert (x * x <= (s * t0 + be) * (s * t0 + be)) by (apply Rmult_le_compat; lra). lra.
  - assert ((- x) * (- x) <= (- (s * t1 + be)) * (- (s * t1 + be))) by (apply Rmult_le_compat; lra). lra.
Qed.
End Quad.

Definition rr (a b x y : R) : R := (x / a) * (x / a) + (y / b) * (y / b).
(** Ranges: [v] and [W] bound the semi-axes, the origin's and the direction's scaled coordinates. *)
Record tame_tube (prec emax : Z) (v W a b x0 y0 j k Rm s : R) : Prop := {
  tt_v : 0 < v <= 1; tt_W : 1 <= W; tt_low : least emax <= v ^ 4; tt_top : 1024 * W ^ 4 <= top emax;
  tt_R : 1 <= Rm; tt_a : v <= a <= W; tt_b : v <= b <= W; tt_aR : v <= a * Rm <= W; tt_bR : v <= b * Rm <= W;
  tt_as : v <= a * s <= W; tt_bs : v <= b * s <= W; tt_s : 0 < s;
  tt_speed : rr a b j k = s * s; tt_org : rr a b x0 y0 <= Rm * Rm; tt_u : 4096 * ulpf prec * (Rm * Rm) <= 1 }.

Section F.
Variables prec emax : Z.
Context {Hprec : Prec_gt_0 prec} {Hmax : Prec_lt_emax prec emax}.
Hypothesis Hfmt : usual_format prec emax.
Notation FN := (Fnum prec emax).
Notation isf := (isF prec emax).
Notation u := (ulpf prec).

(** The computed discriminant and roots. *)
Lemma lateral v W fa fb fx fy fj fk a b x0 y0 j k Rm s : tame_tube prec emax v W a b x0 y0 j k Rm s ->
  isf fa a -> isf fb b -> isf fx x0 -> isf fy y0 -> isf fj j -> isf fk k ->
  let e := 150 * u * (Rm * Rm) in
  exists c, isf (@cyl_C _ FN fa fb fx fy fj fk) c /\
  (c < 0 -> forall t, 1 - e <= rr a b (x0 + t * j) (y0 + t * k)) /\
  (0 <= c -> exists t0 t1, isf (@cyl_t0 _ FN fa fb fx fy fj fk) t0 /\ isf (@cyl_t1 _ FN fa fb fx fy fj fk) t1 /\ t1 <= t0 /\
    Rabs (s * t0) <= 2.02 * Rm /\ Rabs (s * t1) <= 2.02 * Rm /\
    Rabs (rr a b (x0 + t0 * j) (y0 + t0 * k) - 1) <= e /\ Rabs (rr a b (x0 + t1 * j) (y0 + t1 * k) - 1) <= e /\
    (forall t, t <= t1 \/ t0 <= t -> 1 - e <= rr a b (x0 + t * j) (y0 + t * k)) /\
    (forall t, t1 <= t <= t0 -> rr a b (x0 + t * j) (y0 + t * k) <= 1 + e)).
Proof.
  intros [V1 W1 L1 T1' HR Aa Ab AX AY AJ AK Hs Hss Hor Hu] Ha Hb Hx Hy Hj Hk e.
  assert (a0 : 0 < a) by lra. assert (b0 : 0 < b) by lra. assert (T1 : 64 * W ^ 4 <= top emax) by (pose proof (pow_R1_Rle W 4 W1); lra).
  pose proof (u_pos prec) as U0. pose proof (u_small prec emax Hfmt) as U1.
  set (E := a * a * (b * s) * (b * s)).
  assert (PE : 0 < E) by (unfold E; repeat apply Rmult_lt_0_compat; lra).
  set (be := ((j / a) * (x0 / a) + (k / b) * (y0 / b)) / s).
  set (de := ((j / a) * (y0 / b) - (k / b) * (x0 / a)) / s).
  assert (Sp : (j / a) * (j / a) + (k / b) * (k / b) = s * s) by exact Hss.
  assert (RC : rC a b x0 y0 j k = E * (1 - de * de)).
  { replace (rC a b x0 y0 j k) with (a * a * (b * b) * ((j / a) * (j / a) + (k / b) * (k / b)) - (a * b) * (a * b) * ((s * de) * (s * de))).
    - rewrite Sp. unfold E. ring.
    - unfold rC, de. field. lra. }
  assert (RB : rB a b x0 y0 j k = a * b * (a * b) * (s * be)) by (unfold rB, be; field; lra).
  assert (RAD : forall t, rr a b (x0 + t * j) (y0 + t * k) = 1 + ((s * t + be) * (s * t + be) - (1 - de * de))).
  { intros t. unfold rr.
    replace ((x0 + t * j) / a * ((x0 + t * j) / a) + (y0 + t * k) / b * ((y0 + t * k) / b)) with
      (t * t * ((j / a) * (j / a) + (k / b) * (k / b)) + 2 * t * ((j / a) * (x0 / a) + (k / b) * (y0 / b)) + ((x0 / a) * (x0 / a) + (y0 / b) * (y0 / b))) by (field; lra).
    replace ((j / a) * (x0 / a) + (k / b) * (y0 / b)) with (s * be) by (unfold be; field; lra). rewrite Sp.
    assert (L : (x0 / a) * (x0 / a) + (y0 / b) * (y0 / b) = be * be + de * de).
    { apply Rmult_eq_reg_l with (s * s); [|nra]. replace (s * s * (be * be + de * de)) with ((s * be) * (s * be) + (s * de) * (s * de)) by ring.
      replace (s * be) with ((j / a) * (x0 / a) + (k / b) * (y0 / b)) by (unfold be; field; lra).
      replace (s * de) with ((j / a) * (y0 / b) - (k / b) * (x0 / a)) by (unfold de; field; lra). rewrite <- Sp. ring. }
    rewrite L. ring. }
  assert (BE : Rabs be <= Rm).
  { pose proof (RAD 0) as R0. rewrite !Rmult_0_l, !Rplus_0_r in R0. rewrite R0 in Hor. pose proof (Rle_0_sqr de) as Sq. unfold Rsqr in Sq.
    apply Rabs_le. nra. }
  assert (R1 : 1 <= Rm * Rm) by nra. assert (RR : Rm <= Rm * Rm) by nra.
  assert (uR : 0 < u * Rm) by (apply Rmult_lt_0_compat; lra). assert (uRR : u * Rm <= u * (Rm * Rm)) by (apply Rmult_le_compat_l; lra).
  destruct (C_val prec emax Hfmt v W V1 W1 L1 T1 fa fb fx fy fj fk a b x0 y0 j k Rm s) as (c & Hc & Ec & Hc1); try assumption.
  exists c. split; [exact Hc|]. fold E in Ec, Hc1. rewrite RC in Ec.
  set (gb := c / E). assert (CE : c = E * gb) by (unfold gb; field; lra).
  assert (Gd : Rabs (gb - (1 - de * de)) <= 54.6 * (u * (Rm * Rm))).
  { apply Rmult_le_reg_l with E; [exact PE|]. rewrite <- (Rabs_pos_eq E) at 1 by lra. rewrite <- Rabs_mult.
    replace (E * (gb - (1 - de * de))) with (c - E * (1 - de * de)) by (rewrite CE; ring). eapply Rle_trans; [exact Ec|]. lra. }
  assert (ev : e = 150 * (u * (Rm * Rm))) by (unfold e; lra).
  split.
  - intros Neg t. rewrite RAD. apply Rabs_le_inv in Gd. assert (gb < 0) by (rewrite CE in Neg; nra).
    pose proof (Rle_0_sqr (s * t + be)) as Sq. unfold Rsqr in Sq. lra.
  - intros Pos. destruct (t_vals prec emax Hfmt v W V1 W1 L1 T1 fa fb fx fy fj fk a b x0 y0 j k Rm s) with (c := c) as (t0 & t1 & F0 & F1 & O10 & E0 & E1); try assumption.
    fold E in E0, E1. exists t0, t1. split; [exact F0|]. split; [exact F1|]. split; [exact O10|].
    assert (Gb : 0 <= gb <= 1.014).
    { split; [apply Rmult_le_reg_l with E; [exact PE|]; rewrite <- CE; lra|]. apply Rmult_le_reg_l with E; [exact PE|]. rewrite <- CE. lra. }
    assert (SQ : a * b * sqrt c / E = sqrt gb / s).
    { assert (SE : sqrt c = a * (b * s) * sqrt gb).
      { rewrite CE, sqrt_mult by lra. f_equal. replace E with (Rsqr (a * (b * s))) by (unfold E, Rsqr; ring). apply sqrt_Rsqr. apply Rlt_le. repeat apply Rmult_lt_0_compat; lra. }
      rewrite SE. unfold E. field. lra. }
    assert (BS : rB a b x0 y0 j k / E = be / s) by (rewrite RB; unfold E; field; lra).
    assert (S0 : Rabs (s * t0 + be - sqrt gb) <= 46.2 * (u * Rm)).
    { replace ((- rB a b x0 y0 j k + a * b * sqrt c) / E) with (- (be / s) + sqrt gb / s) in E0 by (rewrite <- SQ, <- BS; field; lra).
      replace (s * t0 + be - sqrt gb) with (s * (t0 - (- (be / s) + sqrt gb / s))) by (field; lra).
      rewrite Rabs_mult, (Rabs_pos_eq s) by lra. replace (46.2 * (u * Rm)) with (s * (46.2 * u * (Rm / s))) by (field_simplify; lra). apply Rmult_le_compat_l; lra. }
    assert (S1 : Rabs (s * t1 + be + sqrt gb) <= 46.2 * (u * Rm)).
    { replace ((- rB a b x0 y0 j k - a * b * sqrt c) / E) with (- (be / s) - sqrt gb / s) in E1 by (rewrite <- SQ, <- BS; field; lra).
      replace (s * t1 + be + sqrt gb) with (s * (t1 - (- (be / s) - sqrt gb / s))) by (field; lra).
      rewrite Rabs_mult, (Rabs_pos_eq s) by lra. replace (46.2 * (u * Rm)) with (s * (46.2 * u * (Rm / s))) by (field_simplify; lra). apply Rmult_le_compat_l; lra. }
    assert (Eh : 54.6 * (u * (Rm * Rm)) + 2.02 * (46.2 * (u * Rm)) + 46.2 * (u * Rm) * (46.2 * (u * Rm)) <= e).
    { rewrite ev. replace (46.2 * (u * Rm) * (46.2 * (u * Rm))) with (2134.44 * u * (u * (Rm * Rm))) by lra.
      assert (2134.44 * u * (u * (Rm * Rm)) <= 1 * (u * (Rm * Rm))) by (apply Rmult_le_compat_r; lra). lra. }
    assert (hp : 0 <= 46.2 * (u * Rm)) by lra.
    pose proof (g_sqrt gb Gb) as [[G1 G2] _].
    assert (SR : 46.2 * (u * Rm) <= 0.0117 * Rm) by nra.
    split; [|split].
    + apply Rabs_le_inv in S0, BE. apply Rabs_le. lra.
    + apply Rabs_le_inv in S1, BE. apply Rabs_le. lra.
    + rewrite !RAD. pose proof (quad0 s be (1 - de * de) gb _ _ e t0 Gb Gd hp S0 Eh) as Q0.
      pose proof (quad1 s be (1 - de * de) gb _ _ e t1 Gb Gd S1 Eh) as Q1.
      split; [rewrite (Rplus_comm 1); unfold Rminus at 1; rewrite Rplus_assoc, Rplus_opp_r, Rplus_0_r; exact Q0|].
      split; [rewrite (Rplus_comm 1); unfold Rminus at 1; rewrite Rplus_assoc, Rplus_opp_r, Rplus_0_r; exact Q1|].
      split.
      * intros t [Ht|Ht]; rewrite RAD.
        -- pose proof (quad_before s be (1 - de * de) gb _ _ e t1 Hs Gb Gd S1 Eh t Ht). lra.
        -- pose proof (quad_after s be (1 - de * de) gb _ _ e t0 Hs Gb Gd hp S0 Eh t Ht). lra.
      * intros t Ht. rewrite RAD. pose proof (quad_inner s be (1 - de * de) gb _ _ e t0 t1 Hs Gb Gd hp S0 S1 Eh t Ht). lra.
Qed.
End F.
