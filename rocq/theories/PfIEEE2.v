(** The node test in IEEE arithmetic. *)

From Coq Require Import Reals ZArith Bool Lra Lia Psatz Floats.SpecFloat.
From Flocq Require Import Core Relative IEEE754.BinarySingleNaN.
From Verif Require Import Num NumR NumF Vec Ray Bvh Traverse SpecReal SpecIEEE PfIEEE.
Local Open Scope R_scope.

Section F.
Variables prec emax : Z.
Context {Hprec : Prec_gt_0 prec} {Hmax : Prec_lt_emax prec emax}.
Hypothesis Hp6 : (6 <= prec)%Z.
Notation FN := (Fnum prec emax).
Notation isf := (isF prec emax).
Notation rd := (rnd prec emax).
Notation u := (ulpf prec).
Notation low0 := (least emax).
Notation hi0 := (top emax).
Local Notation isF_ofZ := (@PfIEEE.isF_ofZ prec emax Hprec Hmax).
Local Notation isF_add := (@PfIEEE.isF_add prec emax Hprec Hmax).
Local Notation isF_sub := (@PfIEEE.isF_sub prec emax Hprec Hmax).
Local Notation isF_mul := (@PfIEEE.isF_mul prec emax Hprec Hmax).
Local Notation isF_div := (@PfIEEE.isF_div prec emax Hprec Hmax).
Local Notation isF_mul_over := (@PfIEEE.isF_mul_over prec emax Hprec Hmax).
Local Notation rd_mono := (@PfIEEE.rd_mono prec emax Hprec).
Local Notation rd_0 := (PfIEEE.rd_0 prec emax).
Local Notation rd_pos := (@PfIEEE.rd_pos prec emax Hprec).
Local Notation rd_neg := (@PfIEEE.rd_neg prec emax Hprec).
Local Notation rd_rel := (@PfIEEE.rd_rel prec emax Hprec).
Local Notation rd_opp := (PfIEEE.rd_opp prec emax).

Lemma emax_big : (7 <= emax)%Z.
Proof. unfold Prec_lt_emax in Hmax. lia. Qed.
Lemma u_range : 0 < u <= 1 / 64.
Proof.
  unfold ulpf. split; [apply bpow_gt_0|]. replace (1 / 64) with (bpow radix2 (-6)) by (cbn; lra). apply bpow_le. lia.
Qed.
Lemma factors v : 0 < v <= 1 / 64 ->
  1 <= (1 - v) * (1 - v) * (1 - v) * (1 + 8 * v) /\
  (1 + v) * (1 + v) * (1 + v) <= (1 - v) * (1 - v) * (1 - v) * (1 + 8 * v) * (1 - v).
Proof.
  intros H. assert (E : 0 <= v * v <= v / 64) by nra. assert (E3 : 0 <= v * (v * v) <= v * v / 64) by nra.
  assert (E4 : 0 <= v * v * (v * v) <= v * (v * v) / 64) by nra.
  assert (E5 : 0 <= v * (v * v * (v * v))) by nra. split; nra.
Qed.
Lemma low0_pos : 0 < low0. Proof. apply bpow_gt_0. Qed.
Lemma hi0_big : 128 <= hi0.
Proof. replace 128 with (bpow radix2 7) by (cbn; lra). apply bpow_le, emax_big. Qed.
Lemma low0_small : low0 <= 1 / 32.
Proof. replace (1 / 32) with (bpow radix2 (-5)) by (cbn; lra). apply bpow_le. pose proof emax_big. lia. Qed.
Lemma low0_inv : / low0 = hi0 / 4.
Proof.
  unfold least, top. rewrite <- bpow_opp. replace (- (3 - emax - 1))%Z with (emax + -2)%Z by lia. rewrite bpow_plus. cbn. lra.
Qed.

(** Powers of two are numbers. *)
Lemma rd_bpow e : (3 - emax - prec <= e)%Z -> rd (bpow radix2 e) = bpow radix2 e.
Proof.
  intros H. apply round_generic; auto with typeclass_instances. apply generic_format_FLT_bpow; [exact Hprec|].
  unfold SpecFloat.emin. exact H.
Qed.
Lemma rd_half_top a : Rabs a <= hi0 / 2 -> Rabs (rd a) < hi0.
Proof.
  intros H. assert (E : hi0 / 2 = bpow radix2 (emax - 1)).
  { unfold top, Zminus. rewrite bpow_plus. cbn. lra. }
  assert (Hb : rd (hi0 / 2) = hi0 / 2).
  { rewrite E. apply rd_bpow. unfold Prec_gt_0 in Hprec. pose proof emax_big. lia. }
  assert (Rabs (rd a) <= hi0 / 2).
  { apply Rabs_le. apply Rabs_le_inv in H. split.
    - rewrite <- Hb, <- rd_opp. apply rd_mono; lra.
    - rewrite <- Hb. apply rd_mono; lra. }
  pose proof hi0_big. lra.
Qed.
Lemma one_isF : isf (@n1 _ FN) 1.
Proof.
  assert (E : rd 1 = 1).
  { change 1 with (bpow radix2 0). apply rd_bpow. pose proof emax_big. lia. }
  rewrite <- E. apply isF_ofZ. rewrite E, Rabs_R1. pose proof hi0_big. lra.
Qed.
Lemma four_isF : isf (@n4 _ FN) 4.
Proof.
  assert (E : rd 4 = 4).
  { replace 4 with (bpow radix2 2) by (cbn; lra). apply rd_bpow. pose proof emax_big. lia. }
  rewrite <- E. apply isF_ofZ. rewrite E, Rabs_pos_eq by lra. pose proof hi0_big. lra.
Qed.
Lemma eps_isF : isf (@neps _ FN) (2 * u).
Proof.
  cbn [neps Fnum]. unfold sf_pow2. rewrite (normalize_eq prec emax).
  pose proof (binary_normalize_correct prec emax Hprec Hmax mode_NE 1 (1 - prec) false) as C. cbv zeta in C.
  unfold F2R in C. cbn [Defs.Fnum Fexp] in C. rewrite Rmult_1_l in C.
  assert (E : round radix2 (SpecFloat.fexp prec emax) (round_mode mode_NE) (bpow radix2 (1 - prec)) = bpow radix2 (1 - prec)).
  { apply rd_bpow. pose proof emax_big. lia. }
  rewrite E in C. assert (E2 : bpow radix2 (1 - prec) = 2 * u).
  { unfold ulpf, Zminus. rewrite bpow_plus. cbn. lra. }
  rewrite E2 in C. rewrite Rlt_bool_true in C.
  - destruct C as (C1 & C2 & _). rewrite <- C1. apply B_isF, C2.
  - pose proof u_range. pose proof hi0_big. unfold top in *. rewrite Rabs_pos_eq; lra.
Qed.
Lemma factor_isF : isf (@nadd _ FN (@n1 _ FN) (@nmul _ FN (@n4 _ FN) (@neps _ FN))) (1 + 8 * u).
Proof.
  pose proof u_range. pose proof hi0_big. pose proof emax_big.
  assert (E1 : rd (4 * (2 * u)) = 8 * u).
  { replace (4 * (2 * u)) with (bpow radix2 (3 - prec)).
    - rewrite rd_bpow by lia. unfold ulpf, Zminus. rewrite bpow_plus. cbn. lra.
    - unfold ulpf, Zminus. rewrite bpow_plus. cbn. lra. }
  assert (Hq : isf (@nmul _ FN (@n4 _ FN) (@neps _ FN)) (8 * u)).
  { rewrite <- E1. apply isF_mul; [apply four_isF|apply eps_isF|]. rewrite E1, Rabs_pos_eq; lra. }
  assert (E2 : rd (1 + 8 * u) = 1 + 8 * u).
  { apply round_generic; auto with typeclass_instances.
    replace (1 + 8 * u) with (F2R (Float radix2 (2 ^ (prec - 3) + 1) (3 - prec))).
    - apply generic_format_FLT. exists (Float radix2 (2 ^ (prec - 3) + 1) (3 - prec)); [reflexivity| |].
      + cbn [Defs.Fnum]. rewrite Z.abs_eq by (pose proof (Z.pow_nonneg 2 (prec - 3)); lia).
        change (radix_val radix2) with 2%Z. replace prec with (3 + (prec - 3))%Z at 2 by lia. rewrite Z.pow_add_r by lia.
        assert (1 <= 2 ^ (prec - 3))%Z by (apply (Z.pow_le_mono_r 2 0); lia). lia.
      + cbn [Fexp]. unfold SpecFloat.emin. lia.
    - unfold F2R. cbn [Defs.Fnum Fexp]. rewrite plus_IZR. change 2%Z with (radix_val radix2). rewrite IZR_Zpower by lia.
      rewrite Rmult_plus_distr_r, <- bpow_plus. replace (prec - 3 + (3 - prec))%Z with 0%Z by lia.
      unfold ulpf, Zminus. rewrite bpow_plus. cbn. lra. }
  rewrite <- E2. apply isF_add; [apply one_isF|exact Hq|]. rewrite E2, Rabs_pos_eq; lra.
Qed.

(** Values fit for the lower and the upper end of the interval, around [b]. *)
Definition lower (b : R) (x : spec_float) : Prop := x = S754_infinity true \/ exists a, isf x a /\ a <= b.
Definition upper (b : R) (x : spec_float) : Prop := x = S754_infinity false \/ exists a, isf x a /\ b <= a.

Lemma lower_upper b x y : lower b x -> upper b y -> @nleb _ FN x y = true.
Proof.
  intros [->|(a & Ha & La)] [->|(c & Hc & Lc)].
  - reflexivity.
  - destruct Hc as (_ & F & _). destruct y; try discriminate; reflexivity.
  - destruct Ha as (_ & F & _). destruct x as [s|s| |s m e]; try discriminate; [destruct s; reflexivity|destruct s; reflexivity].
  - rewrite (isF_leb prec emax _ _ _ _ Ha Hc). apply Rleb_spec. lra.
Qed.

Section Axis.
Variables (fo fd fc : spec_float) (o d c : R).
Hypothesis Ho : isf fo o.
Hypothesis Hd : isf fd d.
Hypothesis Hc : isf fc c.
Hypothesis Hco : Rabs (c - o) <= hi0 / 2.

Lemma diff_isF : isf (@nsub _ FN fc fo) (rd (c - o)).
Proof. apply isF_sub; [exact Hc|exact Ho|]. apply rd_half_top, Hco. Qed.
(** The difference, with its relative error. *)
Lemma diff_rel : exists e, Rabs e <= u /\ rd (c - o) = (c - o) * (1 + e).
Proof.
  pose proof (rd_sub_rel prec emax _ _ _ _ Hc Ho) as H. pose proof u_range.
  destruct (Req_dec (c - o) 0) as [E|E].
  - exists 0. rewrite E, rd_0, Rabs_R0. lra.
  - exists ((rd (c - o) - (c - o)) / (c - o)). split; [|field; exact E].
    unfold Rdiv. rewrite Rabs_mult, Rabs_inv. apply Rmult_le_reg_r with (Rabs (c - o)); [apply Rabs_pos_lt, E|].
    rewrite Rmult_assoc, Rinv_l by (apply Rabs_no_R0, E). lra.
Qed.

Section Moving.
Hypothesis Hd0 : d <> 0.
Hypothesis Hdr : low0 <= Rabs d <= / low0.
Lemma inv_range : low0 <= Rabs (/ d) <= hi0 / 2.
Proof.
  rewrite Rabs_inv. pose proof low0_pos. pose proof (Rabs_pos_lt _ Hd0). pose proof low0_inv. pose proof hi0_big. split.
  - rewrite <- (Rinv_inv low0). apply Rinv_le_contravar; lra.
  - apply Rle_trans with (/ low0); [apply Rinv_le_contravar; lra|lra].
Qed.
Lemma inv_isF : isf (@ndiv _ FN (@n1 _ FN) fd) (rd (/ d)).
Proof.
  replace (/ d) with (1 / d) by (field; exact Hd0). apply isF_div; [apply one_isF|exact Hd|exact Hd0|].
  replace (1 / d) with (/ d) by (field; exact Hd0). apply rd_half_top, inv_range.
Qed.
Lemma inv_rel : exists e, Rabs e <= u /\ rd (/ d) = / d * (1 + e).
Proof.
  pose proof (rd_rel (/ d) (proj1 inv_range)) as H. assert (E : / d <> 0) by (apply Rinv_neq_0_compat, Hd0).
  exists ((rd (/ d) - / d) / (/ d)). split; [|field; exact Hd0].
  unfold Rdiv. rewrite Rabs_mult, Rabs_inv. apply Rmult_le_reg_r with (Rabs (/ d)); [apply Rabs_pos_lt, E|].
  rewrite Rmult_assoc, Rinv_l by (apply Rabs_no_R0, E). lra.
Qed.
Notation prod := (rd (c - o) * rd (/ d)).
Lemma prod_rel : exists k, (1 - u) * (1 - u) <= k <= (1 + u) * (1 + u) /\ prod = (c - o) / d * k.
Proof.
  destruct diff_rel as (e1 & E1 & ->). destruct inv_rel as (e2 & E2 & ->). pose proof u_range.
  apply Rabs_le_inv in E1, E2. exists ((1 + e1) * (1 + e2)). split; [nra|field; exact Hd0].
Qed.

(** The entry distance is not overestimated. *)
Lemma entry_lower t : (c - o) / d <= t -> tame_distance emax t ->
  lower (t * ((1 + u) * (1 + u) * (1 + u))) (@nmul _ FN (@nsub _ FN fc fo) (@ndiv _ FN (@n1 _ FN) fd)).
Proof.
  intros Ht Hr. pose proof u_range. destruct prod_rel as (k & Hk & Ek). pose proof low0_pos.
  assert (Hk0 : 0 < k) by nra. assert (Ht0 : 0 <= t) by (unfold tame_distance in Hr; lra).
  assert (Hpt : prod <= t * ((1 + u) * (1 + u))).
  { rewrite Ek. destruct (Rle_lt_dec ((c - o) / d) 0); nra. }
  assert (Hrt : rd prod <= t * ((1 + u) * (1 + u) * (1 + u))).
  { destruct Hr as [->|Hr].
    - rewrite Rmult_0_l in *. apply rd_neg; exact Hpt.
    - apply Rle_trans with (rd (t * ((1 + u) * (1 + u)))); [apply rd_mono; assumption|].
      assert (Hn : low0 <= t * ((1 + u) * (1 + u))) by nra.
      pose proof (rd_rel (t * ((1 + u) * (1 + u)))) as R. rewrite Rabs_pos_eq in R by lra. specialize (R Hn).
      apply Rabs_le_inv in R. nra. }
  destruct (Rlt_le_dec (Rabs (rd prod)) hi0) as [Hov|Hov].
  - right. exists (rd prod). split; [|exact Hrt]. apply isF_mul; [apply diff_isF|apply inv_isF|exact Hov].
  - left. destruct (isF_mul_over _ _ _ _ diff_isF inv_isF Hov) as (s & Es & Hs). rewrite Es. f_equal. apply Hs.
    destruct (Rlt_le_dec prod 0) as [|Hge]; [assumption|]. exfalso.
    rewrite Rabs_pos_eq in Hov by (apply rd_pos; assumption).
    assert (t <= hi0 / 4) by (unfold tame_distance in Hr; pose proof hi0_big; lra).
    assert (Hc2 : (1 + u) * (1 + u) * (1 + u) <= 2) by nra.
    pose proof (Rmult_le_compat_l t _ _ Ht0 Hc2). pose proof hi0_big. lra.
Qed.

(** The exit distance times the factor is not underestimated. *)
Lemma exit_upper t : t <= (c - o) / d -> tame_distance emax t ->
  upper (t * ((1 + u) * (1 + u) * (1 + u)))
    (@nmul _ FN (@nmul _ FN (@nsub _ FN fc fo) (@ndiv _ FN (@n1 _ FN) fd))
       (@nadd _ FN (@n1 _ FN) (@nmul _ FN (@n4 _ FN) (@neps _ FN)))).
Proof.
  intros Ht Hr. pose proof u_range. destruct prod_rel as (k & Hk & Ek). pose proof low0_pos.
  assert (Hk0 : 0 < k) by nra. assert (Ht0 : 0 <= t) by (unfold tame_distance in Hr; lra).
  assert (Hpt : t * ((1 - u) * (1 - u)) <= prod).
  { rewrite Ek. nra. }
  assert (Hp0 : 0 <= prod) by nra.
  assert (Hrt : t * ((1 - u) * (1 - u) * (1 - u)) <= rd prod).
  { destruct Hr as [->|Hr].
    - rewrite Rmult_0_l in *. apply rd_pos; exact Hp0.
    - apply Rle_trans with (rd (t * ((1 - u) * (1 - u)))); [|apply rd_mono; assumption].
      assert (Hn : low0 <= t * ((1 - u) * (1 - u))) by nra.
      pose proof (rd_rel (t * ((1 - u) * (1 - u)))) as R. rewrite Rabs_pos_eq in R by lra. specialize (R Hn).
      apply Rabs_le_inv in R. nra. }
  assert (Hf := factor_isF).
  destruct (Rlt_le_dec (Rabs (rd prod)) hi0) as [Hov|Hov].
  - assert (Hq : isf (@nmul _ FN (@nsub _ FN fc fo) (@ndiv _ FN (@n1 _ FN) fd)) (rd prod)).
    { apply isF_mul; [apply diff_isF|apply inv_isF|exact Hov]. }
    assert (Hq0 : 0 <= rd prod) by (apply rd_pos, Hp0).
    set (q := rd prod) in *. clearbody q. clear Hpt Hp0 Ek Hk Hk0.
    assert (Hrq : t * ((1 + u) * (1 + u) * (1 + u)) <= rd (q * (1 + 8 * u))).
    { destruct Hr as [->|Hr].
      - rewrite Rmult_0_l. apply rd_pos; nra.
      - set (w := t * ((1 - u) * (1 - u) * (1 - u)) * (1 + 8 * u)) in *.
        assert (Hw1 : w <= q * (1 + 8 * u)) by (unfold w; apply Rmult_le_compat_r; lra).
        destruct (factors u H) as [Hg Hfac].
        assert (Hw2 : t <= w) by (unfold w; pose proof (Rmult_le_compat_l t _ _ Ht0 Hg); lra).
        apply Rle_trans with (rd w); [|apply rd_mono; assumption].
        pose proof (rd_rel w) as R. rewrite Rabs_pos_eq in R by lra. specialize (R ltac:(lra)).
        apply Rabs_le_inv in R.
        apply Rle_trans with (w * (1 - u)); [|lra]. unfold w.
        pose proof (Rmult_le_compat_l t _ _ Ht0 Hfac). lra. }
    destruct (Rlt_le_dec (Rabs (rd (q * (1 + 8 * u)))) hi0) as [Hov2|Hov2].
    + right. exists (rd (q * (1 + 8 * u))). split; [|exact Hrq]. apply isF_mul; assumption.
    + left. destruct (isF_mul_over _ _ _ _ Hq Hf Hov2) as (s & Es & Hs). rewrite Es. f_equal.
      destruct s; [|reflexivity]. exfalso. destruct Hs as [Hs _]. specialize (Hs eq_refl). nra.
  - left. destruct (isF_mul_over _ _ _ _ diff_isF inv_isF Hov) as (s & Es & Hs). rewrite Es.
    destruct s. { exfalso. destruct Hs as [Hs _]. specialize (Hs eq_refl). lra. }
    destruct Hf as (_ & Ff & Vf). set (l := @nadd _ FN _ _) in *. clearbody l.
    destruct l as [s|s| |s m e]; try discriminate; [cbn in Vf; lra|]. destruct s; [|reflexivity].
    exfalso. cbn [SF2R] in Vf. assert (F2R (Float radix2 (cond_Zopp true (Z.pos m)) e) < 0) by (apply F2R_lt_0; reflexivity). lra.
Qed.
End Moving.

(** Along an axis on which the ray does not move. *)
Section Still.
Hypothesis Hfd : fd = S754_zero false.
Lemma still_inv : @ndiv _ FN (@n1 _ FN) fd = S754_infinity false.
Proof.
  rewrite Hfd. pose proof one_isF as (_ & F1 & V1). destruct (@n1 _ FN) as [s|s| |s m e]; try discriminate.
  - cbn in V1. lra.
  - destruct s; [|reflexivity]. exfalso. cbn [SF2R] in V1.
    assert (F2R (Float radix2 (cond_Zopp true (Z.pos m)) e) < 0) by (apply F2R_lt_0; reflexivity). lra.
Qed.
Lemma diff_sign : (c < o -> exists m e, @nsub _ FN fc fo = S754_finite true m e) /\
  (o < c -> exists m e, @nsub _ FN fc fo = S754_finite false m e) /\ (c = o -> exists s, @nsub _ FN fc fo = S754_zero s).
Proof.
  pose proof diff_isF as (_ & Fi & V). destruct diff_rel as (e0 & E0 & Er). rewrite Er in V. pose proof u_range. apply Rabs_le_inv in E0.
  destruct (@nsub _ FN fc fo) as [s|s| |s m e]; try discriminate.
  - cbn in V. split; [|split]; intros; eauto; exfalso; nra.
  - cbn [SF2R] in V. destruct s.
    + assert (F2R (Float radix2 (cond_Zopp true (Z.pos m)) e) < 0) by (apply F2R_lt_0; reflexivity).
      split; [|split]; intros; eauto; exfalso; nra.
    + assert (0 < F2R (Float radix2 (cond_Zopp false (Z.pos m)) e)) by (apply F2R_gt_0; reflexivity).
      split; [|split]; intros; eauto; exfalso; nra.
Qed.
Lemma still_entry : c <= o ->
  let x := @nmul _ FN (@nsub _ FN fc fo) (@ndiv _ FN (@n1 _ FN) fd) in
  (c < o -> x = S754_infinity true) /\ (c = o -> x = S754_nan).
Proof.
  intros _ x. destruct diff_sign as (D1 & _ & D2). unfold x. rewrite still_inv. split; intros H.
  - destruct (D1 H) as (m & e & ->). reflexivity.
  - destruct (D2 H) as (s & ->). reflexivity.
Qed.
Lemma still_exit : o <= c ->
  let x := @nmul _ FN (@nmul _ FN (@nsub _ FN fc fo) (@ndiv _ FN (@n1 _ FN) fd))
             (@nadd _ FN (@n1 _ FN) (@nmul _ FN (@n4 _ FN) (@neps _ FN))) in
  (o < c -> x = S754_infinity false) /\ (c = o -> x = S754_nan).
Proof.
  intros _ x. destruct diff_sign as (_ & D1 & D2). unfold x. rewrite still_inv. split; intros H.
  - destruct (D1 H) as (m & e & ->). pose proof factor_isF as (_ & Ff & Vf). set (l := @nadd _ FN _ _) in *. clearbody l.
    pose proof u_range. destruct l as [s|s| |s m' e']; try discriminate; [cbn in Vf; lra|]. destruct s; [|reflexivity].
    exfalso. cbn [SF2R] in Vf. assert (F2R (Float radix2 (cond_Zopp true (Z.pos m')) e') < 0) by (apply F2R_lt_0; reflexivity). lra.
  - destruct (D2 H) as (s & ->). reflexivity.
Qed.
End Still.
End Axis.

(** One axis: bounds from NaN or values fit for the ends. *)
Definition lowern b x := x = S754_nan \/ lower b x.
Definition uppern b x := x = S754_nan \/ upper b x.
Lemma smax_pick x y : @smax _ FN x y = x \/ @smax _ FN x y = y.
Proof. unfold smax. destruct (nltb _ _); auto. Qed.
Lemma smin_pick x y : @smin _ FN x y = x \/ @smin _ FN x y = y.
Proof. unfold smin. destruct (nltb _ _); auto. Qed.
Lemma nan_l x : @nltb _ FN x S754_nan = false.
Proof. destruct x; reflexivity. Qed.
Lemma nan_r x : @nltb _ FN S754_nan x = false.
Proof. destruct x; reflexivity. Qed.

Lemma axis_ends fmn fmx fo fd mn mx o d t lo hi :
  isf fmn mn -> isf fmx mx -> isf fo o -> isf fd d -> tame_axis emax mn mx o d fd -> tame_distance emax t ->
  mn <= o + t * d <= mx ->
  let b := t * ((1 + u) * (1 + u) * (1 + u)) in
  lowern b lo -> uppern b hi ->
  let r := @slab_axis _ FN fmn fmx fo (@ndiv _ FN (@n1 _ FN) fd) (@nltb _ FN fd (@n0 _ FN)) lo hi in
  lowern b (fst r) /\ uppern b (snd r) /\
  ((d = 0 -> mn <> o /\ mx <> o) -> lower b (fst r) /\ upper b (snd r)).
Proof.
  intros H1 H2 H3 H4 (T1 & T2 & T3 & T4) Ht Hin b Hlo Hhi r.
  assert (Hz : isf (@n0 _ FN) 0).
  { split; [reflexivity|]. split; reflexivity. }
  set (sg := @nltb _ FN fd (@n0 _ FN)) in *.
  set (x := @nmul _ FN (@nsub _ FN (if sg then fmx else fmn) fo) (@ndiv _ FN (@n1 _ FN) fd)).
  set (y := @nmul _ FN (@nmul _ FN (@nsub _ FN (if sg then fmn else fmx) fo) (@ndiv _ FN (@n1 _ FN) fd))
              (@nadd _ FN (@n1 _ FN) (@nmul _ FN (@n4 _ FN) (@neps _ FN)))).
  assert (Er : r = (@smax _ FN x lo, @smin _ FN y hi)) by reflexivity. clearbody r. subst r. cbn [fst snd].
  assert (Hxy : (lowern b x /\ uppern b y) /\ ((d = 0 -> mn <> o /\ mx <> o) -> lower b x /\ upper b y)).
  { destruct (Req_dec d 0) as [E|E].
    - assert (Es : sg = false).
      { unfold sg. rewrite (isF_ltb prec emax _ _ _ _ H4 Hz). unfold Rltb. destruct (Rlt_dec _ _); [lra|reflexivity]. }
      unfold x, y. rewrite Es. rewrite E in Hin. specialize (T3 E).
      destruct (still_entry fo fd fmn o mn H3 H1 T1 T3) as [A1 A2]; [lra|].
      destruct (still_exit fo fd fmx o mx H3 H2 T2 T3) as [B1 B2]; [lra|].
      split.
      + split.
        * destruct (Req_dec mn o) as [Q|Q]; [left; auto|right; left; apply A1; lra].
        * destruct (Req_dec mx o) as [Q|Q]; [left; auto|right; left; apply B1; lra].
      + intros Hne. destruct (Hne E) as [N1 N2]. split; left; [apply A1|apply B1]; lra.
    - specialize (T4 E).
      assert (Hm : lower b x /\ upper b y).
      { destruct (Rlt_le_dec d 0) as [Hn|Hn].
        - assert (Es : sg = true).
          { unfold sg. rewrite (isF_ltb prec emax _ _ _ _ H4 Hz). apply Rltb_spec, Hn. }
          unfold x, y. rewrite Es. split.
          + apply (entry_lower fo fd fmx o d mx); auto. apply Rmult_le_reg_r with (- d); [lra|].
            replace ((mx - o) / d * - d) with (o - mx) by (field; exact E). lra.
          + apply (exit_upper fo fd fmn o d mn); auto. apply Rmult_le_reg_r with (- d); [lra|].
            replace ((mn - o) / d * - d) with (o - mn) by (field; exact E). lra.
        - assert (Es : sg = false).
          { unfold sg. rewrite (isF_ltb prec emax _ _ _ _ H4 Hz). unfold Rltb. destruct (Rlt_dec _ _); [lra|reflexivity]. }
          unfold x, y. rewrite Es. assert (0 < d) by lra. split.
          + apply (entry_lower fo fd fmn o d mn); auto. apply Rmult_le_reg_r with d; [lra|].
            replace ((mn - o) / d * d) with (mn - o) by (field; exact E). lra.
          + apply (exit_upper fo fd fmx o d mx); auto. apply Rmult_le_reg_r with d; [lra|].
            replace ((mx - o) / d * d) with (mx - o) by (field; exact E). lra. }
      destruct Hm as [M1 M2]. split; [split; right; assumption|auto]. }
  destruct Hxy as [[X1 X2] X3]. split; [|split].
  - destruct (smax_pick x lo) as [->| ->]; assumption.
  - destruct (smin_pick y hi) as [->| ->]; assumption.
  - intros Hne. destruct (X3 Hne) as [Y1 Y2]. split.
    + unfold smax. destruct (nltb x lo) eqn:L; [|exact Y1]. destruct Hlo as [->|]; [|assumption]. rewrite nan_l in L. discriminate.
    + unfold smin. destruct (nltb hi y) eqn:L; [|exact Y2]. destruct Hhi as [->|]; [|assumption]. rewrite nan_r in L. discriminate.
Qed.

Lemma node_test_ieee (P : Type) (nd : node spec_float P) fo fd ftmin ftmax hd any m M O D lo t :
  visF prec emax (nd_min nd) m -> visF prec emax (nd_max nd) M -> visF prec emax fo O -> visF prec emax fd D ->
  tame emax m M O D fd -> tame_distance emax t ->
  (vz D = 0 -> vz m <> vz O /\ vz M <> vz O) ->
  isf ftmin lo -> lo <= t -> at_least prec emax hd (t * (1 + 4 * u)) ->
  in_box m M (at_t O D t) ->
  @intersect_node _ FN _ ftmin hd nd (@make_ray _ FN fo fd ftmin ftmax any) = true.
Proof.
  intros (A1 & A2 & A3) (B1 & B2 & B3) (C1 & C2 & C3) (D1 & D2 & D3) (T1 & T2 & T3) Ht Hz Hlo Hl Hhd (I1 & I2 & I3).
  pose proof u_range. assert (Ht0 : 0 <= t). { pose proof low0_pos. unfold tame_distance in Ht. lra. }
  unfold at_t, rv_add, rv_scale in I1, I2, I3. cbn [vx vy vz] in I1, I2, I3.
  set (b := t * ((1 + u) * (1 + u) * (1 + u))).
  assert (Hb1 : 1 <= (1 + u) * (1 + u) * (1 + u) <= 1 + 4 * u) by (clear -H; nra).
  assert (L0 : lowern b ftmin).
  { right. right. exists lo. split; [exact Hlo|]. unfold b. pose proof (Rmult_le_compat_l t _ _ Ht0 (proj1 Hb1)). lra. }
  assert (U0 : uppern b hd).
  { right. destruct Hhd as [->|(h & Hh & Hh2)]; [left; reflexivity|right]. exists h. split; [exact Hh|]. unfold b.
    apply Rle_trans with (t * (1 + 4 * u)); [|exact Hh2]. apply Rmult_le_compat_l; [exact Ht0|apply Hb1]. }
  unfold intersect_node, make_ray. cbn [origin direction_inv direction_sign vmap vx vy vz].
  destruct (axis_ends _ _ _ _ _ _ _ _ t ftmin hd A1 B1 C1 D1 T1 Ht ltac:(lra) L0 U0) as (L1 & U1 & _).
  destruct (slab_axis (vx (nd_min nd)) _ _ _ _ _ _) as [l1 h1]. cbn [fst snd] in L1, U1.
  destruct (axis_ends _ _ _ _ _ _ _ _ t l1 h1 A2 B2 C2 D2 T2 Ht ltac:(lra) L1 U1) as (L2 & U2 & _).
  destruct (slab_axis (vy (nd_min nd)) _ _ _ _ _ _) as [l2 h2]. cbn [fst snd] in L2, U2.
  destruct (axis_ends _ _ _ _ _ _ _ _ t l2 h2 A3 B3 C3 D3 T3 Ht ltac:(lra) L2 U2) as (_ & _ & K).
  destruct (slab_axis (vz (nd_min nd)) _ _ _ _ _ _) as [l3 h3]. cbn [fst snd] in K.
  destruct (K Hz) as [L3 U3]. exact (lower_upper b _ _ L3 U3).
Qed.
End F.
