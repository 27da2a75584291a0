(** The triangle routine in IEEE arithmetic. *)

From Coq Require Import Reals ZArith Bool Lra Lia Psatz Floats.SpecFloat.
From Flocq Require Import Core Relative Plus_error IEEE754.BinarySingleNaN.
From Verif Require Import Num NumR NumF Vec Ray Bvh Trimesh SpecReal SpecIEEE SpecTri SpecTriF PfIEEE PfIEEE2 PfIEEE3 PfTriF.
Local Open Scope R_scope.

Section F.
Variables prec emax : Z.
Context {Hprec : Prec_gt_0 prec} {Hmax : Prec_lt_emax prec emax}.
Hypothesis Hfmt : usual_format prec emax.
Notation FN := (Fnum prec emax).
Notation isf := (isF prec emax).
Notation rd := (rnd prec emax).
Notation u := (ulpf prec).
Notation hi0 := (top emax).
Variable M : R.
Hypothesis HM : scale_ok prec emax M.
Notation ap := (ap prec emax M).
Notation vap := (vap prec emax M).

Variables fa fb fc fo fd : vec spec_float.
Variables A B C O D : vec R.
Hypothesis Ha : visF prec emax fa A.
Hypothesis Hb : visF prec emax fb B.
Hypothesis Hc : visF prec emax fc C.
Hypothesis Ho : visF prec emax fo O.
Hypothesis Hd : near_dir prec emax fd D.
Hypothesis SA : coords M A.
Hypothesis SB : coords M B.
Hypothesis SC : coords M C.
Hypothesis SO : coords M O.

Lemma in1 v x : visF prec emax x v -> coords M v -> vap 1 1 0 x v.
Proof. intros H (H1 & H2 & H3). apply vap_exact; [exact H|rewrite pow_1; lra..]. Qed.
Lemma in0 v x : near_dir prec emax x v -> vap 0 1 5 x v.
Proof.
  intros ((H1 & H2 & H3) & y & (Y1 & Y2 & Y3) & (E1 & E2 & E3)). cbn [rv_sub vx vy vz] in E1, E2, E3.
  split; [|split]; (split; [cbn [pow]; lra|]); eexists; (split; [eassumption|cbn [pow]; lra]).
Qed.

Notation fe2 := (@vsub _ FN fc fa).
Notation fe1 := (@vsub _ FN fa fb).
Notation fcc := (@vsub _ FN fa fo).
Notation fr := (@cross _ FN fd fcc).
Notation fx := (@cross _ FN fe1 fe2).

Ltac num := try lia; try lra.
Lemma edge x y v w : vap 1 1 0 x v -> vap 1 1 0 y w -> vap 1 2 2.01 (@vsub _ FN x y) (rv_sub v w).
Proof. intros H1 H2. replace 2 with (1 + 1) by lra. apply (vap_sub prec emax Hfmt M HM 1 1 0 1 0 2.01 _ _ _ _ H1 H2); num. Qed.
Lemma e2_ap : vap 1 2 2.01 fe2 (rv_sub C A).
Proof. apply edge; apply in1; assumption. Qed.
Lemma e1_ap : vap 1 2 2.01 fe1 (rv_sub A B).
Proof. apply edge; apply in1; assumption. Qed.
Lemma c_ap : vap 1 2 2.01 fcc (rv_sub A O).
Proof. apply edge; apply in1; assumption. Qed.
Lemma r_ap : vap 1 4 32.2 fr (rv_cross D (rv_sub A O)).
Proof.
  replace 4 with (1 * 2 + 1 * 2) by lra.
  apply (vap_cross prec emax Hfmt M HM 0 1 1 5 2 2.01 14.05 32.2 _ _ _ _ (in0 _ _ Hd) c_ap); num.
Qed.
Lemma x_ap : vap 2 8 32.3 fx (rv_cross (rv_sub A B) (rv_sub C A)).
Proof.
  replace 8 with (2 * 2 + 2 * 2) by lra.
  apply (vap_cross prec emax Hfmt M HM 1 1 2 2.01 2 2.01 12.1 32.3 _ _ _ _ e1_ap e2_ap); num.
Qed.
Lemma re_ap x v : vap 1 2 2.01 x v -> ap 2 24 282 (@dot _ FN fr x) (rv_dot (rv_cross D (rv_sub A O)) v).
Proof.
  intros H. replace 24 with (4 * 2 + 4 * 2 + 4 * 2) by lra.
  apply (ap_dot prec emax Hfmt M HM 1 1 4 32.2 2 2.01 80.5 177.1 282 _ _ _ _ r_ap H); num.
Qed.
Lemma det_ap : ap 2 24 282 (@dot _ FN fx fd) (rv_dot (rv_cross (rv_sub A B) (rv_sub C A)) D).
Proof.
  replace 24 with (8 * 1 + 8 * 1 + 8 * 1) by lra.
  apply (ap_dot prec emax Hfmt M HM 2 0 8 32.3 1 5 80.5 177.1 282 _ _ _ _ x_ap (in0 _ _ Hd)); num.
Qed.
Lemma t_ap : ap 3 48 371 (@dot _ FN fx fcc) (rv_dot (rv_cross (rv_sub A B) (rv_sub C A)) (rv_sub A O)).
Proof.
  replace 48 with (8 * 2 + 8 * 2 + 8 * 2) by lra.
  apply (ap_dot prec emax Hfmt M HM 2 1 8 32.3 2 2.01 96.8 225.8 371 _ _ _ _ x_ap c_ap); num.
Qed.

(** Signs. *)
Definition sgn_of (y : spec_float) : R := if sf_sign y then -1 else 1.
Lemma sgn_cases y : sgn_of y = 1 \/ sgn_of y = -1.
Proof. unfold sgn_of. destruct (sf_sign y); auto. Qed.
Lemma isF_psign x y a : isf x a -> isf (@npsign _ FN x y) (sgn_of y * a).
Proof.
  intros H. cbn [npsign Fnum]. unfold sgn_of. destruct (sf_sign y) eqn:Q.
  - replace (-1 * a) with (- a) by ring. apply (isF_opp prec emax) in H. cbn [nopp Fnum] in H.
    destruct x as [s|s| |s m e]; unfold sf_psign; rewrite ?Q, ?xorb_true_r; exact H.
  - rewrite Rmult_1_l. destruct x as [s|s| |s m e]; unfold sf_psign; rewrite ?Q, ?xorb_false_r; exact H.
Qed.
Lemma sgn_abs y b : isf y b -> sgn_of y * b = Rabs b.
Proof.
  intros (_ & Fi & E). subst b. unfold sgn_of. destruct y as [s|s| |s m e]; try discriminate Fi; cbn [sf_sign SF2R].
  - rewrite Rabs_R0. destruct s; ring.
  - pose proof (bpow_gt_0 radix2 e) as P. unfold F2R. cbn [Defs.Fnum Fexp]. rewrite Rabs_mult, (Rabs_pos_eq (bpow radix2 e)) by lra.
    rewrite <- abs_IZR. destruct s; cbn [cond_Zopp Z.opp Z.abs].
    + rewrite <- (Pos2Z.opp_pos m), opp_IZR. ring.
    + ring.
Qed.
Lemma isF_abs y b : isf y b -> isf (@nabs _ FN y) (Rabs b).
Proof.
  intros H. rewrite <- (sgn_abs y b H). pose proof (isF_psign y y b H) as P. cbn [npsign nabs Fnum] in *.
  destruct y as [s|s| |s m e]; cbn [sf_psign sf_sign SFabs] in *; rewrite ?xorb_nilpotent in P; exact P.
Qed.
Lemma ap_sgn k c n x y v : ap k c n x v -> ap k c n (@npsign _ FN x y) (sgn_of y * v).
Proof.
  intros [H1 (a & Hx & E)]. split.
  - rewrite Rabs_mult. destruct (sgn_cases y) as [-> | ->]; rewrite <- abs_IZR; cbn [Z.abs]; lra.
  - exists (sgn_of y * a). split; [apply isF_psign, Hx|]. rewrite <- Rmult_minus_distr_l, Rabs_mult.
    destruct (sgn_cases y) as [-> | ->]; rewrite <- abs_IZR; cbn [Z.abs]; lra.
Qed.

(** The exact quantities. *)
Notation n := (rv_dot (tri_cross A B C) D).
Notation fdet := (@dot _ FN fx fd).
Notation s := (sgn_of fdet).
Lemma det_n : rv_dot (rv_cross (rv_sub A B) (rv_sub C A)) D = - n.
Proof. unfold tri_cross, rv_dot, rv_cross, rv_sub. cbn [vx vy vz]. ring. Qed.
Lemma u_side : rv_dot (rv_cross D (rv_sub A O)) (rv_sub C A) = - side O D C A.
Proof. unfold side, rv_dot, rv_cross, rv_sub. cbn [vx vy vz]. ring. Qed.
Lemma v_side : rv_dot (rv_cross D (rv_sub A O)) (rv_sub A B) = - side O D A B.
Proof. unfold side, rv_dot, rv_cross, rv_sub. cbn [vx vy vz]. ring. Qed.
Lemma sides_sum : side O D A B + side O D B C + side O D C A = n.
Proof. unfold side, tri_cross, rv_dot, rv_cross, rv_sub. cbn [vx vy vz]. ring. Qed.
Lemma t_side : rv_dot (rv_cross (rv_sub A B) (rv_sub C A)) (rv_sub A O) = - rv_dot (tri_cross A B C) (rv_sub A O).
Proof. unfold tri_cross, rv_dot, rv_cross, rv_sub. cbn [vx vy vz]. ring. Qed.

Notation fu := (@npsign _ FN (@dot _ FN fr fe2) fdet).
Notation fv := (@npsign _ FN (@dot _ FN fr fe1) fdet).
Notation fw := (@nsub _ FN (@nsub _ FN (@nabs _ FN fdet) fu) fv).
Notation ft := (@npsign _ FN (@dot _ FN fx fcc) fdet).
Notation ftol := (@nopp _ FN (@nmul _ FN (@n4 _ FN) (@neps _ FN))).
Lemma fu_ap : ap 2 24 282 fu (- s * side O D C A).
Proof. replace (- s * side O D C A) with (s * - side O D C A) by ring. rewrite <- u_side. apply ap_sgn, re_ap, e2_ap. Qed.
Lemma fv_ap : ap 2 24 282 fv (- s * side O D A B).
Proof. replace (- s * side O D A B) with (s * - side O D A B) by ring. rewrite <- v_side. apply ap_sgn, re_ap, e1_ap. Qed.
Lemma fabs_ap : ap 2 24 282 (@nabs _ FN fdet) (- s * n).
Proof.
  pose proof det_ap as [H1 (b & Hb' & E)]. rewrite det_n in *.
  replace (- s * n) with (s * - n) by ring. split.
  - rewrite Rabs_mult. destruct (sgn_cases fdet) as [-> | ->]; rewrite <- abs_IZR; cbn [Z.abs]; lra.
  - exists (Rabs b). split; [apply isF_abs, Hb'|]. rewrite <- (sgn_abs _ _ Hb'), <- Rmult_minus_distr_l, Rabs_mult.
    destruct (sgn_cases fdet) as [-> | ->]; rewrite <- abs_IZR; cbn [Z.abs]; lra.
Qed.
Lemma fw_ap : ap 2 72 967 fw (- s * side O D B C).
Proof.
  replace (- s * side O D B C) with (- s * n - - s * side O D C A - - s * side O D A B) by (rewrite <- sides_sum; ring).
  replace 72 with (24 + 24 + 24) by lra.
  apply (ap_sub prec emax Hfmt M HM 2 (24 + 24) 612.1 24 282); num; [|exact fv_ap].
  apply (ap_sub prec emax Hfmt M HM 2 24 282 24 282); num; [exact fabs_ap|exact fu_ap].
Qed.
Lemma ft_ap : ap 3 48 371 ft (- s * rv_dot (tri_cross A B C) (rv_sub A O)).
Proof.
  replace (- s * rv_dot (tri_cross A B C) (rv_sub A O)) with (s * - rv_dot (tri_cross A B C) (rv_sub A O)) by ring.
  rewrite <- t_side. apply ap_sgn, t_ap.
Qed.
Lemma ftol_isF : isf ftol (- (8 * u)).
Proof.
  apply (isF_opp prec emax). pose proof (p6 prec emax Hfmt) as P6.
  pose proof (u_range prec P6) as U. pose proof (hi0_big prec emax P6) as T.
  assert (E1 : rd (4 * (2 * u)) = 8 * u).
  { replace (4 * (2 * u)) with (bpow radix2 (3 - prec)).
    - rewrite (rd_bpow prec emax) by (destruct Hfmt; lia). unfold ulpf, Zminus. rewrite bpow_plus. cbn. lra.
    - unfold ulpf, Zminus. rewrite bpow_plus. cbn. lra. }
  rewrite <- E1. apply (isF_mul prec emax); [apply (four_isF prec emax P6)|apply (eps_isF prec emax P6)|]. rewrite E1, Rabs_pos_eq; lra.
Qed.
Lemma M2_1 : 1 <= M ^ 2. Proof. apply (Mk_pos prec emax M HM). Qed.
Lemma leb_tol x v c k : ap 2 c k x v -> @nleb _ FN ftol x = true -> - ((8 + k) * u * M ^ 2) <= v.
Proof.
  intros [_ (a & Hx & E)] H. rewrite (isF_leb prec emax _ _ _ _ ftol_isF Hx) in H. apply Rleb_spec in H.
  apply Rabs_le_inv in E. pose proof M2_1. pose proof (u_pos prec).
  assert (8 * u <= 8 * u * M ^ 2) by nra. lra.
Qed.
Lemma tol_leb x v c k : ap 2 c k x v -> k * u * M ^ 2 <= v -> @nleb _ FN ftol x = true.
Proof.
  intros [_ (a & Hx & E)] H. rewrite (isF_leb prec emax _ _ _ _ ftol_isF Hx). apply Rleb_spec.
  apply Rabs_le_inv in E. pose proof (u_pos prec). lra.
Qed.

(** The interval. *)
Lemma inf_leb x a : isf x a -> @nleb _ FN (S754_infinity false) x = false.
Proof. intros (_ & F & _). destruct x as [b|b| |b m e]; try discriminate F; reflexivity. Qed.
Lemma inf_ltb x a : isf x a -> @nltb _ FN x (S754_infinity false) = true.
Proof. intros (_ & F & _). destruct x as [b|b| |b m e]; try discriminate F; [reflexivity|]. destruct b; reflexivity. Qed.
Lemma mul_pos x y a b : isf x a -> isf y b -> 0 <= a -> 0 <= b ->
  isf (@nmul _ FN x y) (rd (a * b)) \/ (@nmul _ FN x y = S754_infinity false /\ top emax <= rd (a * b)).
Proof.
  intros Hx Hy Ha' Hb'. assert (P : 0 <= a * b) by (apply Rmult_le_pos; assumption).
  assert (Q : 0 <= rd (a * b)) by (pose proof (rd_mono prec emax _ _ P) as Q0; rewrite (rd_0 prec emax) in Q0; exact Q0).
  destruct (Rlt_le_dec (Rabs (rd (a * b))) (top emax)) as [L|L].
  - left. apply (isF_mul prec emax); assumption.
  - right. destruct (isF_mul_over prec emax _ _ _ _ Hx Hy L) as (sg & E & S'). rewrite Rabs_pos_eq in L by exact Q.
    split; [|exact L]. rewrite E. destruct sg; [|reflexivity]. assert (a * b < 0) by tauto. lra.
Qed.
Notation fad := (@nabs _ FN fdet).
Notation n' := (- s * n).
Notation T' := (- s * rv_dot (tri_cross A B C) (rv_sub A O)).
Lemma delta : exists d, isf fad d /\ 0 <= d /\ Rabs (d - n') <= 282 * u * M ^ 2 /\ d <= 24.001 * M ^ 2 /\ Rabs n' <= 24 * M ^ 2.
Proof.
  destruct (ap_val prec emax M _ _ _ _ _ fabs_ap) as (d & H1 & H2 & H3 & H4). exists d. split; [exact H1|].
  destruct det_ap as [_ (b & Hb' & _)]. pose proof (isF_abs _ _ Hb') as H5. rewrite (isF_fun prec emax _ _ _ H1 H5) in *.
  split; [apply Rabs_pos|]. split; [exact H3|]. split; [|exact H2].
  rewrite Rabs_Rabsolu in H4. pose proof (u_small prec emax Hfmt). pose proof M2_1. nra.
Qed.
Lemma tval : exists t, isf ft t /\ Rabs (t - T') <= 371 * u * M ^ 3 /\ Rabs t <= 48.001 * M ^ 3 /\ Rabs T' <= 48 * M ^ 3.
Proof.
  destruct (ap_val prec emax M _ _ _ _ _ ft_ap) as (t & H1 & H2 & H3 & H4). exists t. split; [exact H1|].
  split; [exact H3|]. split; [|exact H2]. pose proof (u_small prec emax Hfmt). pose proof (Mk_pos prec emax M HM 3). nra.
Qed.
Lemma M3_eq : M ^ 3 = M ^ 2 * M. Proof. ring. Qed.
Lemma low_sound x lo : isf x lo -> 0 <= lo -> @nleb _ FN (@nmul _ FN fad x) ft = true ->
  lo * n' - 400 * u * M ^ 2 * (M + lo) <= T'.
Proof.
  intros Hx Hlo H. destruct delta as (d & D1 & D2 & D3 & D4 & D5). destruct tval as (t & T1 & T2 & T3 & T4).
  destruct (mul_pos _ _ _ _ D1 Hx D2 Hlo) as [E|[E _]].
  2: { rewrite E, (inf_leb _ _ T1) in H. discriminate. }
  rewrite (isF_leb prec emax _ _ _ _ E T1) in H. apply Rleb_spec in H.
  pose proof (rd_abs prec emax Hfmt (d * lo)) as R1. rewrite (Rabs_pos_eq (d * lo)) in R1 by (apply Rmult_le_pos; assumption).
  apply Rabs_le_inv in R1. apply Rabs_le_inv in D3. apply Rabs_le_inv in T2.
  pose proof M2_1. pose proof (Mk_pos prec emax M HM 3). pose proof (u_pos prec).
  assert (lo * n' <= lo * (d + 282 * u * M ^ 2)) by (apply Rmult_le_compat_l; lra).
  assert (u * (d * lo) <= u * (24.001 * M ^ 2 * lo)) by (apply Rmult_le_compat_l; [lra|]; apply Rmult_le_compat_r; lra).
  assert (u <= u * M ^ 3) by nra. assert (0 <= u * (M ^ 2 * lo)) by (apply Rmult_le_pos; [lra|]; apply Rmult_le_pos; lra).
  rewrite M3_eq in *. lra.
Qed.
Lemma low_complete x lo : isf x lo -> 0 <= lo -> lo * n' + 400 * u * M ^ 2 * (M + lo) <= T' ->
  @nleb _ FN (@nmul _ FN fad x) ft = true.
Proof.
  intros Hx Hlo H. destruct delta as (d & D1 & D2 & D3 & D4 & D5). destruct tval as (t & T1 & T2 & T3 & T4).
  pose proof (rd_abs prec emax Hfmt (d * lo)) as R1. rewrite (Rabs_pos_eq (d * lo)) in R1 by (apply Rmult_le_pos; assumption).
  apply Rabs_le_inv in R1. apply Rabs_le_inv in D3. apply Rabs_le_inv in T2. apply Rabs_le_inv in T3.
  pose proof M2_1. pose proof (Mk_pos prec emax M HM 3). pose proof (u_pos prec).
  assert (lo * (d - 282 * u * M ^ 2) <= lo * n') by (apply Rmult_le_compat_l; lra).
  assert (u * (d * lo) <= u * (24.001 * M ^ 2 * lo)) by (apply Rmult_le_compat_l; [lra|]; apply Rmult_le_compat_r; lra).
  assert (u <= u * M ^ 3) by nra. assert (0 <= u * (M ^ 2 * lo)) by (apply Rmult_le_pos; [lra|]; apply Rmult_le_pos; lra).
  assert (L : rd (d * lo) <= t) by (rewrite M3_eq in *; lra).
  destruct (mul_pos _ _ _ _ D1 Hx D2 Hlo) as [E|[_ E]].
  - rewrite (isF_leb prec emax _ _ _ _ E T1). apply Rleb_spec, L.
  - pose proof (Mk_top prec emax M HM 3 ltac:(lia)). lra.
Qed.
Lemma high_sound x h : isf x h -> 0 <= h -> @nltb _ FN ft (@nmul _ FN fad x) = true ->
  T' <= h * n' + 400 * u * M ^ 2 * (M + h).
Proof.
  intros Hx Hh H. destruct delta as (d & D1 & D2 & D3 & D4 & D5). destruct tval as (t & T1 & T2 & T3 & T4).
  assert (L : t <= rd (d * h)).
  { destruct (mul_pos _ _ _ _ D1 Hx D2 Hh) as [E|[_ E]].
    - rewrite (isF_ltb prec emax _ _ _ _ T1 E) in H. apply Rltb_spec in H. lra.
    - pose proof (Mk_top prec emax M HM 3 ltac:(lia)). apply Rabs_le_inv in T3. pose proof (Mk_pos prec emax M HM 3). lra. }
  pose proof (rd_abs prec emax Hfmt (d * h)) as R1. rewrite (Rabs_pos_eq (d * h)) in R1 by (apply Rmult_le_pos; assumption).
  apply Rabs_le_inv in R1. apply Rabs_le_inv in D3. apply Rabs_le_inv in T2.
  pose proof M2_1. pose proof (Mk_pos prec emax M HM 3). pose proof (u_pos prec).
  assert (h * (d - 282 * u * M ^ 2) <= h * n') by (apply Rmult_le_compat_l; lra).
  assert (u * (d * h) <= u * (24.001 * M ^ 2 * h)) by (apply Rmult_le_compat_l; [lra|]; apply Rmult_le_compat_r; lra).
  assert (u <= u * M ^ 3) by nra. assert (0 <= u * (M ^ 2 * h)) by (apply Rmult_le_pos; [lra|]; apply Rmult_le_pos; lra).
  rewrite M3_eq in *. lra.
Qed.
Lemma high_complete x h : at_least prec emax x h -> 0 <= h -> 1000 * u * M ^ 2 <= n' ->
  T' + 400 * u * M ^ 2 * (M + h) <= h * n' -> @nltb _ FN ft (@nmul _ FN fad x) = true.
Proof.
  intros Hx Hh0 Hn H. destruct delta as (d & D1 & D2 & D3 & D4 & D5). destruct tval as (t & T1 & T2 & T3 & T4).
  pose proof M2_1. pose proof (Mk_pos prec emax M HM 3). pose proof (u_pos prec). pose proof (u_small prec emax Hfmt).
  assert (D0 : 0 < d) by (apply Rabs_le_inv in D3; nra).
  destruct Hx as [-> | (h' & Hx & Hge)].
  - assert (E : @nmul _ FN fad (S754_infinity false) = S754_infinity false).
    { pose proof (sgn_abs _ _ D1) as S'. unfold sgn_of in S'. destruct D1 as (_ & F & V). rewrite Rabs_pos_eq in S' by lra.
      destruct fad as [b|b| |b m e]; try discriminate F.
      - cbn in V. lra.
      - cbn [sf_sign] in S'. destruct b; [lra|reflexivity]. }
    rewrite E. apply (inf_ltb _ _ T1).
  - assert (Hh : 0 <= h') by lra.
    assert (H' : T' + 400 * u * M ^ 2 * (M + h') <= h' * n').
    { assert (0 <= (h' - h) * (n' - 400 * u * M ^ 2)) by (apply Rmult_le_pos; nra). lra. }
    destruct (mul_pos _ _ _ _ D1 Hx D2 Hh) as [E|[E _]].
    2: { rewrite E. apply (inf_ltb _ _ T1). }
    rewrite (isF_ltb prec emax _ _ _ _ T1 E). apply Rltb_spec.
    pose proof (rd_abs prec emax Hfmt (d * h')) as R1. rewrite (Rabs_pos_eq (d * h')) in R1 by (apply Rmult_le_pos; assumption).
    apply Rabs_le_inv in R1. apply Rabs_le_inv in D3. apply Rabs_le_inv in T2.
    assert (h' * n' <= h' * (d + 282 * u * M ^ 2)) by (apply Rmult_le_compat_l; lra).
    assert (u * (d * h') <= u * (24.001 * M ^ 2 * h')) by (apply Rmult_le_compat_l; [lra|]; apply Rmult_le_compat_r; lra).
    assert (u <= u * M ^ 3) by nra. assert (0 <= u * (M ^ 2 * h')) by (apply Rmult_le_pos; [lra|]; apply Rmult_le_pos; lra).
    rewrite M3_eq in *. lra.
Qed.

(** The quotients. *)
Lemma quotient k c e x v : (2 <= k <= 3)%nat -> 0 <= c <= 48 -> 0 <= e <= 400 -> ap k c e x v -> 1000 * u * M ^ 2 <= Rabs n' ->
  exists a d x' y, isf (@nmul _ FN x (@ndiv _ FN (@n1 _ FN) fad)) a /\
    (isf fad d /\ isf x x' /\ a = rd (x' * y) /\ 0 < y <= / d * (1 + u) /\ 718 * u * M ^ 2 <= d /\ u * Rabs a <= 0.1 * M) /\
    Rabs (a * n' - v) <= (282 * u * M ^ 2) * Rabs a + (e + 2.1 * c + 1) * u * M ^ k.
Proof.
  intros Hk Hc' He Hx Hn. destruct delta as (d & D1 & D2 & D3 & D4 & D5).
  destruct (ap_val prec emax M _ _ _ _ _ Hx) as (x' & X1 & X2 & X3 & X4).
  pose proof M2_1 as P2. pose proof (Mk_pos prec emax M HM k) as Pk. pose proof (u_pos prec) as U0. pose proof (u_small prec emax Hfmt) as U1.
  pose proof (p6 prec emax Hfmt) as P6. pose proof (hi0_big prec emax P6) as T0.
  assert (D6 : 718 * u * M ^ 2 <= d).
  { pose proof (Rabs_triang_inv n' d) as Q. rewrite (Rabs_minus_sym n' d), (Rabs_pos_eq d) in Q by lra. lra. }
  assert (D0 : 0 < d) by nra.
  assert (I0 : 0 < / d) by (apply Rinv_0_lt_compat; lra).
  assert (LB : least emax <= / d).
  { pose proof (Mk_top prec emax M HM 2 ltac:(lia)). pose proof (low0_inv emax) as L.
    assert (L0 : 0 < least emax) by apply bpow_gt_0.
    rewrite <- (Rinv_inv (least emax)). apply Rinv_le_contravar; lra. }
  pose proof (rd_rel prec emax (/ d)) as R1. rewrite (Rabs_pos_eq (/ d)) in R1 by lra. specialize (R1 LB).
  assert (TU : 1 <= u * hi0 / M). { destruct HM as (_ & _ & G). pose proof (M1 prec emax M HM). apply Rmult_le_reg_r with M; [lra|]. unfold Rdiv. rewrite Rmult_assoc, Rinv_l by lra. lra. }
  assert (UT : 1 <= u * hi0) by (destruct HM as (G1 & _ & G); lra).
  assert (I1 : u * / d <= / 718).
  { apply Rmult_le_reg_r with d; [lra|]. rewrite Rmult_assoc, Rinv_l by lra. nra. }
  set (y := rd (/ d)) in *. apply Rabs_le_inv in R1.
  assert (Y0 : 0 < y) by nra.
  assert (Y1 : y < hi0).
  { assert (y <= 2 * / d) by nra. assert (u * y <= 2 / 718) by nra. apply Rmult_lt_reg_l with u; lra. }
  assert (Y : isf (@ndiv _ FN (@n1 _ FN) fad) y).
  { unfold y. replace (/ d) with (1 / d) by (field; lra). apply (isF_div prec emax); [apply (one_isF prec emax P6)|exact D1|lra|].
    replace (1 / d) with (/ d) by (field; lra). fold y. rewrite Rabs_pos_eq; lra. }
  assert (EU : 0 <= e * u <= 0.0004).
  { split; [apply Rmult_le_pos; lra|]. apply Rle_trans with (400 * / 1000000); [apply Rmult_le_compat; lra|lra]. }
  assert (X5 : Rabs x' <= 48.001 * M ^ k) by (eapply Rle_trans; [exact X4|]; apply Rmult_le_compat_r; lra).
  (* the product is far from overflow *)
  assert (KM : M ^ k <= M ^ 2 * M).
  { pose proof (M1 prec emax M HM). rewrite <- M3_eq. apply Rle_pow; [lra|lia]. }
  assert (Dy : Rabs (d * y - 1) <= u).
  { replace (d * y - 1) with (d * (y - / d)) by (field; lra). rewrite Rabs_mult, (Rabs_pos_eq d) by lra.
    apply Rle_trans with (d * (u * / d)); [apply Rmult_le_compat_l; [lra|]; apply Rabs_le; lra|]. right. field. lra. }
  assert (Ab : u * Rabs (x' * y) <= 0.07 * M).
  { rewrite Rabs_mult, (Rabs_pos_eq y) by lra. apply Rabs_le_inv in Dy.
    assert (Q1 : 718 * u * M ^ 2 * y <= 1 + u).
    { apply Rle_trans with (d * y); [apply Rmult_le_compat_r; lra|lra]. }
    assert (Q2 : u * (Rabs x' * y) <= u * (48.001 * (M ^ 2 * M) * y)).
    { apply Rmult_le_compat_l; [lra|]. apply Rmult_le_compat_r; lra. }
    pose proof (M1 prec emax M HM).
    assert (Q3 : M * (718 * u * M ^ 2 * y) <= M * (1 + u)) by (apply Rmult_le_compat_l; lra). nra. }
  pose proof (rd_abs prec emax Hfmt (x' * y)) as R2.
  set (a := rd (x' * y)) in *.
  assert (A1 : Rabs a < hi0).
  { pose proof (Rabs_triang (a - x' * y) (x' * y)) as Q. replace (a - x' * y + x' * y) with a in Q by ring.
    destruct HM as (G1 & _ & G3). apply Rmult_lt_reg_l with u; [lra|].
    assert (u * Rabs a <= u * (2 * Rabs (x' * y) + 1)) by (apply Rmult_le_compat_l; [lra|]; pose proof (Rabs_pos (x' * y)); nra). lra. }
  exists a, d, x', y. split; [apply (isF_mul prec emax); assumption|]. split.
  { split; [exact D1|]. split; [exact X1|]. split; [reflexivity|]. split; [lra|]. split; [exact D6|].
    pose proof (Rabs_triang (a - x' * y) (x' * y)) as Q. replace (a - x' * y + x' * y) with a in Q by ring.
    assert (u * Rabs a <= u * (1.1 * Rabs (x' * y) + 0.01)) by (apply Rmult_le_compat_l; [lra|]; pose proof (Rabs_pos (x' * y)); nra).
    pose proof (M1 prec emax M HM). lra. }
  replace (a * n' - v) with (- (a * (d - n')) + (d * (a - x' * y) + x' * (d * y - 1) + (x' - v))) by ring.
  eapply Rle_trans; [apply Rabs_triang|]. rewrite Rabs_Ropp. apply Rplus_le_compat.
  { rewrite Rabs_mult, Rmult_comm. apply Rmult_le_compat_r; [apply Rabs_pos|exact D3]. }
  eapply Rle_trans; [apply Rabs_triang|]. eapply Rle_trans; [apply Rplus_le_compat_r, Rabs_triang|].
  assert (Z1 : Rabs (x' * (d * y - 1)) <= Rabs x' * u) by (rewrite Rabs_mult; apply Rmult_le_compat_l; [apply Rabs_pos|exact Dy]).
  assert (Z2 : Rabs (d * (a - x' * y)) <= Rabs x' * (u * (1 + u)) + u * M ^ k * 0.9).
  { rewrite Rabs_mult, (Rabs_pos_eq d) by lra. eapply Rle_trans; [apply Rmult_le_compat_l; [lra|exact R2]|].
    rewrite Rabs_mult, (Rabs_pos_eq y) by lra. apply Rabs_le_inv in Dy.
    replace (d * (u * (Rabs x' * y) + / 1000000 * u)) with (Rabs x' * u * (d * y) + d * (/ 1000000 * u)) by ring.
    apply Rplus_le_compat.
    - rewrite Rmult_assoc. apply Rmult_le_compat_l; [apply Rabs_pos|]. apply Rmult_le_compat_l; lra.
    - assert (M ^ 2 <= M ^ k) by (apply Rle_pow; [apply (M1 prec emax M HM)|lia]). nra. }
  assert (Z3 : Rabs x' * u <= (c + 0.001) * (u * M ^ k)).
  { apply Rle_trans with ((c + e * u) * M ^ k * u); [apply Rmult_le_compat_r; lra|].
    replace ((c + e * u) * M ^ k * u) with ((c + e * u) * (u * M ^ k)) by ring. apply Rmult_le_compat_r; [apply Rmult_le_pos; lra|lra]. }
  assert (Z4 : 0 <= Rabs x' * u) by (apply Rmult_le_pos; [apply Rabs_pos|lra]).
  assert (Z5 : Rabs x' * u * u <= Rabs x' * u * / 1000000) by (apply Rmult_le_compat_l; lra).
  assert (0 <= u * M ^ k) by (apply Rmult_le_pos; lra).
  assert (0 <= c * (u * M ^ k)) by (apply Rmult_le_pos; lra). lra.
Qed.
End F.
