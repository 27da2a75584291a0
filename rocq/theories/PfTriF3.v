(** What the triangle routine answers in IEEE arithmetic. *)

From Coq Require Import Reals ZArith Bool Lra Lia Psatz Floats.SpecFloat.
From Flocq Require Import Core IEEE754.BinarySingleNaN.
From Verif Require Import Num NumR NumF Vec Ray Bvh Trimesh SpecReal SpecIEEE SpecTri SpecTriF PfIEEE PfIEEE2 PfIEEE3 PfTriF PfTriF2.
Local Open Scope R_scope.

Section F.
Variables prec emax : Z.
Context {Hprec : Prec_gt_0 prec} {Hmax : Prec_lt_emax prec emax}.
Hypothesis Hfmt : usual_format prec emax.
Notation FN := (Fnum prec emax).
Notation isf := (isF prec emax).
Notation u := (ulpf prec).
Variable M : R.
Hypothesis HM : scale_ok prec emax M.
Variables fa fb fc : vec spec_float.
Variables A B C O D : vec R.
Hypothesis Ha : visF prec emax fa A.
Hypothesis Hb : visF prec emax fb B.
Hypothesis Hc : visF prec emax fc C.
Hypothesis SA : coords M A.
Hypothesis SB : coords M B.
Hypothesis SC : coords M C.
Variable r : ray spec_float.
Hypothesis Ho : visF prec emax (origin r) O.
Hypothesis Hd : near_dir prec emax (direction r) D.
Hypothesis SO : coords M O.
Variable id : nat.

Notation tri := (@make_triangle _ FN fa fb fc id).
Notation fe2 := (@vsub _ FN fc fa).
Notation fe1 := (@vsub _ FN fa fb).
Notation fcc := (@vsub _ FN fa (origin r)).
Notation fr := (@cross _ FN (direction r) fcc).
Notation fx := (@cross _ FN fe1 fe2).
Notation fdet := (@dot _ FN fx (direction r)).
Notation fad := (@nabs _ FN fdet).
Notation fu := (@npsign _ FN (@dot _ FN fr fe2) fdet).
Notation fv := (@npsign _ FN (@dot _ FN fr fe1) fdet).
Notation fw := (@nsub _ FN (@nsub _ FN (@nabs _ FN fdet) fu) fv).
Notation ft := (@npsign _ FN (@dot _ FN fx fcc) fdet).
Notation ftol := (@nopp _ FN (@nmul _ FN (@n4 _ FN) (@neps _ FN))).
Notation inv := (@ndiv _ FN (@n1 _ FN) fad).
Notation s := (- sgn_of fdet).

Lemma accepted i i' : @tri_intersect _ FN i tri r = (true, i') ->
  (@nleb _ FN ftol fu = true /\ @nleb _ FN ftol fv = true /\ @nleb _ FN ftol fw = true) /\
  @nleb _ FN (@nmul _ FN fad (ti_min i)) ft = true /\ @nltb _ FN ft (@nmul _ FN fad (ti_hd i)) = true /\
  i' = TriIsect (ti_min i) (@nmul _ FN fu inv, @nmul _ FN fv inv) (@nmul _ FN ft inv) (Some id).
Proof.
  unfold tri_intersect, make_triangle. cbn [tr_a tr_b tr_c tr_id]. intros H.
  destruct (_ && _ && _) eqn:E1 in H; [|discriminate]. apply andb_true_iff in E1 as [E1 E3]. apply andb_true_iff in E1 as [E1 E2].
  destruct (_ && _) eqn:E4 in H; [|discriminate]. apply andb_true_iff in E4 as [E4 E5]. injection H as <-. auto 10.
Qed.
Lemma accepts i : @nleb _ FN ftol fu = true -> @nleb _ FN ftol fv = true -> @nleb _ FN ftol fw = true ->
  @nleb _ FN (@nmul _ FN fad (ti_min i)) ft = true -> @nltb _ FN ft (@nmul _ FN fad (ti_hd i)) = true ->
  fst (@tri_intersect _ FN i tri r) = true.
Proof.
  intros E1 E2 E3 E4 E5. unfold tri_intersect, make_triangle. cbn [tr_a tr_b tr_c tr_id].
  rewrite E1, E2, E3. cbn [andb]. rewrite E4, E5. reflexivity.
Qed.

Lemma sgn_sq : s = 1 \/ s = -1.
Proof. destruct (sgn_cases fdet) as [-> | ->]; [right|left]; ring. Qed.
Lemma plane_at t : plane A B C (at_t O D t) = t * speed D A B C - rv_dot (tri_cross A B C) (rv_sub A O).
Proof. unfold plane, speed, at_t, rv_add, rv_scale, rv_sub, rv_dot. cbn [vx vy vz]. ring. Qed.

Lemma tri_sound i i' : @tri_intersect _ FN i tri r = (true, i') ->
  exists s0, passes s0 (- (980 * u * M ^ 2)) O D A B C /\
    (forall lo, isf (ti_min i) lo -> 0 <= lo -> s0 * plane A B C (at_t O D lo) <= 400 * u * M ^ 2 * (M + lo)) /\
    (forall h, isf (ti_hd i) h -> 0 <= h -> - (400 * u * M ^ 2 * (M + h)) <= s0 * plane A B C (at_t O D h)).
Proof.
  intros H. apply accepted in H as ((E1 & E2 & E3) & E4 & E5 & _). exists s.
  pose proof (M2_1 prec emax M HM) as P2. pose proof (u_pos prec) as U0.
  assert (P3 : 0 < u * M ^ 2) by (apply Rmult_lt_0_compat; lra).
  split; [|split].
  - split; [apply sgn_sq|].
    pose proof (leb_tol prec emax Hfmt M HM _ _ _ _ (fu_ap prec emax Hfmt M HM fa fb fc (origin r) (direction r) A C O D Ha Hc Ho Hd SA SC SO ) E1).
    pose proof (leb_tol prec emax Hfmt M HM _ _ _ _ (fv_ap prec emax Hfmt M HM fa fb fc (origin r) (direction r) A B O D Ha Hb Ho Hd SA SB SO ) E2).
    pose proof (leb_tol prec emax Hfmt M HM _ _ _ _ (fw_ap prec emax Hfmt M HM _ _ _ _ _ A B C O D Ha Hb Hc Ho Hd SA SB SC SO ) E3).
    repeat split; nra.
  - intros lo Hlo L. rewrite plane_at. unfold speed.
    pose proof (low_sound prec emax Hfmt M HM _ _ _ _ _ A B C O D Ha Hb Hc Ho Hd SA SB SC SO  _ _ Hlo L E4). lra.
  - intros h Hh L. rewrite plane_at. unfold speed.
    pose proof (high_sound prec emax Hfmt M HM _ _ _ _ _ A B C O D Ha Hb Hc Ho Hd SA SB SC SO  _ _ Hh L E5). lra.
Qed.

Lemma tri_distance i i' : @tri_intersect _ FN i tri r = (true, i') -> 1000 * u * M ^ 2 <= Rabs (speed D A B C) ->
  exists t b c, isf (ti_hd i') t /\ isf (fst (ti_uv i')) b /\ isf (snd (ti_uv i')) c /\ hit_near prec M O D A B C t b c.
Proof.
  intros H Hn. apply accepted in H as (_ & _ & _ & ->). cbn [ti_hd ti_uv fst snd].
  pose proof (M2_1 prec emax M HM) as P2. pose proof (u_pos prec) as U0.
  assert (P3 : 0 < u * M ^ 2) by (apply Rmult_lt_0_compat; lra).
  assert (AS : forall x, Rabs (s * x) = Rabs x).
  { intros x. rewrite Rabs_mult. destruct sgn_sq as [-> | ->]; rewrite <- abs_IZR; cbn [Z.abs]; ring. }
  assert (Hn' : 1000 * u * M ^ 2 <= Rabs (s * rv_dot (tri_cross A B C) D)) by (rewrite AS; exact Hn).
  destruct (quotient prec emax Hfmt M HM _ _ _ _ A B C D Ha Hb Hc Hd SA SB SC  3 48 371 _ _ ltac:(lia) ltac:(lra) ltac:(lra)
    (ft_ap prec emax Hfmt M HM fa fb fc (origin r) (direction r) A B C O Ha Hb Hc Ho SA SB SC SO) Hn') as (t & dt & xt & yt & T1 & _ & T2).
  destruct (quotient prec emax Hfmt M HM _ _ _ _ A B C D Ha Hb Hc Hd SA SB SC  2 24 282 _ _ ltac:(lia) ltac:(lra) ltac:(lra)
    (fu_ap prec emax Hfmt M HM fa fb fc (origin r) (direction r) A C O D Ha Hc Ho Hd SA SC SO ) Hn') as (b & db & xb & yb & B1 & _ & B2).
  destruct (quotient prec emax Hfmt M HM _ _ _ _ A B C D Ha Hb Hc Hd SA SB SC  2 24 282 _ _ ltac:(lia) ltac:(lra) ltac:(lra)
    (fv_ap prec emax Hfmt M HM fa fb fc (origin r) (direction r) A B O D Ha Hb Ho Hd SA SB SO ) Hn') as (c & dc & xc & yc & C1 & _ & C2).
  exists t, b, c. split; [exact T1|]. split; [exact B1|]. split; [exact C1|].
  assert (forall x, 0 <= (u * M ^ 2) * Rabs x) by (intros x; apply Rmult_le_pos; [lra|apply Rabs_pos]).
  pose proof (M1 prec emax M HM) as M0. assert (0 <= (u * M ^ 2) * M) by (apply Rmult_le_pos; lra).
  split; [|split].
  - rewrite plane_at, <- AS. unfold speed.
    replace (s * (t * rv_dot (tri_cross A B C) D - rv_dot (tri_cross A B C) (rv_sub A O)))
      with (t * (s * rv_dot (tri_cross A B C) D) - s * rv_dot (tri_cross A B C) (rv_sub A O)) by ring.
    eapply Rle_trans; [exact T2|]. specialize (H t). replace (M ^ 3) with (M ^ 2 * M) by ring. lra.
  - rewrite <- AS. unfold speed.
    replace (s * (b * rv_dot (tri_cross A B C) D - side O D C A)) with (b * (s * rv_dot (tri_cross A B C) D) - s * side O D C A) by ring.
    eapply Rle_trans; [exact B2|]. specialize (H b). lra.
  - rewrite <- AS. unfold speed.
    replace (s * (c * rv_dot (tri_cross A B C) D - side O D A B)) with (c * (s * rv_dot (tri_cross A B C) D) - s * side O D A B) by ring.
    eapply Rle_trans; [exact C2|]. specialize (H c). lra.
Qed.

Lemma passes_speed s0 m : passes s0 m O D A B C -> 3 * m <= s0 * speed D A B C.
Proof.
  intros (_ & H1 & H2 & H3). unfold speed. rewrite <- (sides_sum A B C O D). lra.
Qed.
Lemma passes_sign s0 : passes s0 (967 * u * M ^ 2) O D A B C -> s0 = s.
Proof.
  intros H. pose proof (passes_speed _ _ H) as P. destruct H as (H1 & _).
  pose proof (M2_1 prec emax M HM) as P2. pose proof (u_pos prec) as U0.
  assert (P3 : 0 < u * M ^ 2) by (apply Rmult_lt_0_compat; lra).
  destruct (delta prec emax Hfmt M HM _ _ _ _ A B C D Ha Hb Hc Hd SA SB SC ) as (d & D1 & D2 & D3 & _).
  unfold speed in P. apply Rabs_le_inv in D3.
  destruct H1 as [-> | ->]; destruct (sgn_cases fdet) as [E | E]; rewrite E in D3 |- *; lra.
Qed.
Lemma tri_complete i s0 lo h : passes s0 (967 * u * M ^ 2) O D A B C ->
  isf (ti_min i) lo -> 0 <= lo -> s0 * plane A B C (at_t O D lo) <= - (400 * u * M ^ 2 * (M + lo)) ->
  at_least prec emax (ti_hd i) h -> 0 <= h -> 400 * u * M ^ 2 * (M + h) <= s0 * plane A B C (at_t O D h) ->
  fst (@tri_intersect _ FN i tri r) = true.
Proof.
  intros H Hlo Lo P1 Hh Hh0 P2. pose proof (passes_speed _ _ H) as V. pose proof (passes_sign _ H) as E. subst s0.
  pose proof (M2_1 prec emax M HM) as Q2. pose proof (u_pos prec) as U0.
  assert (P3 : 0 < u * M ^ 2) by (apply Rmult_lt_0_compat; lra).
  destruct H as (_ & H1 & H2 & H3). rewrite plane_at in P1, P2. unfold speed in *. apply accepts.
  - apply (tol_leb prec emax Hfmt M _ _ _ _ (fu_ap prec emax Hfmt M HM fa fb fc (origin r) (direction r) A C O D Ha Hc Ho Hd SA SC SO )). lra.
  - apply (tol_leb prec emax Hfmt M _ _ _ _ (fv_ap prec emax Hfmt M HM fa fb fc (origin r) (direction r) A B O D Ha Hb Ho Hd SA SB SO )). lra.
  - apply (tol_leb prec emax Hfmt M _ _ _ _ (fw_ap prec emax Hfmt M HM _ _ _ _ _ A B C O D Ha Hb Hc Ho Hd SA SB SC SO )). lra.
  - apply (low_complete prec emax Hfmt M HM _ _ _ _ _ A B C O D Ha Hb Hc Ho Hd SA SB SC SO  _ lo); [assumption..|]. lra.
  - apply (high_complete prec emax Hfmt M HM _ _ _ _ _ A B C O D Ha Hb Hc Ho Hd SA SB SC SO  _ h); [assumption..| |]; lra.
Qed.
End F.
