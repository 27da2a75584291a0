(** The cylinder routine in its local coordinates, with rounding: the lateral surface and the caps. *)

From Coq Require Import Reals ZArith Bool Lra Lia Psatz Floats.SpecFloat.
From Flocq Require Import Core IEEE754.BinarySingleNaN.
From Verif Require Import Num NumR NumF Vec Cylinder SpecReal SpecIEEE SpecTri SpecTriF SpecTubeF PfIEEE PfIEEE2 PfIEEE3 PfTriF PfDirF PfSphF2 PfPlaneF PfTubeF PfTubeF2 PfTubeF3 PfTubeF4 PfTubeF5.
Local Open Scope R_scope.

(** The routine's numbers in local coordinates. *)
Record tame_local (prec emax : Z) (v W a b hz x0 y0 z0 j k l Rm : R) (fa fb fh fx fy fz fj fk fl : spec_float) : Prop := {
  tl_v : 0 < v <= 1; tl_W : 1 <= W; tl_low : least emax <= v ^ 4; tl_top : 1024 * W ^ 4 <= top emax;
  tl_a : v <= a <= W; tl_b : v <= b <= W; tl_h : v <= hz <= W; tl_z : Rabs z0 <= W;
  tl_R : 1 <= Rm; tl_aR : a * Rm <= W; tl_bR : b * Rm <= W; tl_org : rr a b x0 y0 <= Rm * Rm; tl_u : 4096 * ulpf prec * (Rm * Rm) <= 1;
  tl_lat : (j = 0 /\ k = 0) \/ exists s, 0 < s /\ rr a b j k = s * s /\ v <= a * s <= W /\ v <= b * s <= W;
  tl_l : l = 0 \/ v <= Rabs l; tl_l2 : Rabs l <= 2;
  tl_fa : isF prec emax fa a; tl_fb : isF prec emax fb b;
  tl_fx : isF prec emax fx x0; tl_fy : isF prec emax fy y0; tl_fz : isF prec emax fz z0;
  tl_fj : isF prec emax fj j; tl_fk : isF prec emax fk k; tl_fl : isF prec emax fl l;
  tl_fh : isF prec emax (@ndiv _ (Fnum prec emax) fh (@n2 _ (Fnum prec emax))) hz;
  tl_fn : isF prec emax (@ndiv _ (Fnum prec emax) (@nopp _ (Fnum prec emax) fh) (@n2 _ (Fnum prec emax))) (- hz) }.

Section F.
Variables prec emax : Z.
Context {Hprec : Prec_gt_0 prec} {Hmax : Prec_lt_emax prec emax}.
Hypothesis Hfmt : usual_format prec emax.
Notation FN := (Fnum prec emax).
Notation isf := (isF prec emax).
Notation rd := (rnd prec emax).
Notation u := (ulpf prec).
Notation low0 := (least emax).
Notation hi0 := (top emax).
Notation q := (/ 1000000).
Notation fin := is_finite_SF.

Lemma zero_F x : isf x 0 -> exists s, x = S754_zero s.
Proof.
  intros Hx. destruct x as [s|s| |s m e]; [eauto|destruct Hx as (_ & F & _); discriminate F..|].
  pose proof (finite_sign prec emax _ _ _ _ Hx) as S. destruct s; lra.
Qed.
Lemma mul_zero x y a b : isf x a -> isf y b -> a = 0 \/ b = 0 -> isf (@nmul _ FN x y) 0.
Proof.
  intros Hx Hy H. assert (E : a * b = 0) by (destruct H; subst; ring). rewrite <- (rd_0 prec emax), <- E. apply (isF_mul prec emax); [assumption..|].
  rewrite E, (rd_0 prec emax), Rabs_R0. apply bpow_gt_0.
Qed.
Lemma add_zero x y : isf x 0 -> isf y 0 -> isf (@nadd _ FN x y) 0.
Proof.
  intros Hx Hy. assert (L : Rabs (rd (0 + 0)) < hi0) by (rewrite Rplus_0_r, (rd_0 prec emax), Rabs_R0; apply bpow_gt_0).
  pose proof (isF_add prec emax _ _ _ _ Hx Hy L) as G. rewrite Rplus_0_r, (rd_0 prec emax) in G. exact G.
Qed.
Lemma sub_zero x y : isf x 0 -> isf y 0 -> isf (@nsub _ FN x y) 0.
Proof.
  intros Hx Hy. assert (L : Rabs (rd (0 - 0)) < hi0) by (rewrite Rminus_0_r, (rd_0 prec emax), Rabs_R0; apply bpow_gt_0).
  pose proof (isF_sub prec emax _ _ _ _ Hx Hy L) as G. rewrite Rminus_0_r, (rd_0 prec emax) in G. exact G.
Qed.
Lemma zero_times x y : isf x 0 -> fin y = true -> (exists b, isf y b) -> isf (@nmul _ FN x y) 0.
Proof. intros Hx _ (b & Hy). apply (mul_zero _ _ 0 b); [exact Hx|exact Hy|left; reflexivity]. Qed.
Lemma inf_zero x y z : isf x 1 \/ isf x (-1) -> isf y 0 -> isf z 0 -> @nmul _ FN (@ndiv _ FN x y) z = S754_nan.
Proof.
  intros Hx Hy Hz. destruct (zero_F _ Hy) as (sy & ->). destruct (zero_F _ Hz) as (sz & ->).
  destruct x as [s|s| |s m e]; reflexivity.
Qed.

Variables v W a b hz x0 y0 z0 j k l Rm : R.
Variables fa fb fh fx fy fz fj fk fl : spec_float.
Hypothesis H : tame_local prec emax v W a b hz x0 y0 z0 j k l Rm fa fb fh fx fy fz fj fk fl.
Notation fH := (@ndiv _ FN fh (@n2 _ FN)).
Notation fHn := (@ndiv _ FN (@nopp _ FN fh) (@n2 _ FN)).
Notation fo := (V fx fy fz).
Notation fd := (V fj fk fl).
Notation rad t := (rr a b (x0 + t * j) (y0 + t * k)).
Notation zat t := (z0 + t * l).
Definition ez := 5 * u * (hz + Rabs z0).

Lemma facts : 0 < u /\ u <= q /\ 0 < low0 /\ low0 <= v /\ v <= hz /\ 0 <= Rabs z0 /\ 0 < u * (hz + Rabs z0) /\ u * low0 <= u * (hz + Rabs z0).
Proof.
  destruct H. pose proof (u_pos prec) as U0. pose proof (u_small prec emax Hfmt) as U1. pose proof (low_pos emax) as L0. pose proof (Rabs_pos z0) as Z0.
  pose proof (v_pow v tl_v0) as (V1 & V2 & V3 & V4). assert (0 < u * (hz + Rabs z0)) by (apply Rmult_lt_0_compat; lra).
  assert (u * low0 <= u * (hz + Rabs z0)) by (apply Rmult_le_compat_l; lra). repeat split; try lra.
Qed.
Lemma ez_is : ez = 5 * (u * (hz + Rabs z0)). Proof. unfold ez. ring. Qed.
Lemma rd_off x : Rabs (rd x - x) <= u * Rabs x + u * low0.
Proof.
  destruct facts as (U0 & U1 & L0 & _). pose proof (rd_max prec emax x) as E. pose proof (Rabs_pos x).
  assert (u * Rmax (Rabs x) low0 <= u * (Rabs x + low0)) by (apply Rmult_le_compat_l; [lra|]; apply Rmax_lub; lra). lra.
Qed.

(** The height of a tested point of the lateral surface. *)
Lemma height_ok ft t : isf ft t -> @nleb _ FN (@nadd _ FN fz (@nmul _ FN fl ft)) fH = true -> @nleb _ FN fHn (@nadd _ FN fz (@nmul _ FN fl ft)) = true ->
  Rabs (zat t) <= hz + ez.
Proof.
  intros Ht H1 H2. destruct facts as (U0 & U1 & L0 & L1 & L2 & Z0 & UH & UL). destruct H.
  pose proof (leb_fin prec emax _ _ _ _ _ tl_fn0 tl_fh0 H2 H1) as F.
  pose proof (mul_fin prec emax _ _ _ _ tl_fl0 Ht (add_fin_r prec emax _ _ _ tl_fz0 F)) as Hm.
  pose proof (add_fin prec emax _ _ _ _ tl_fz0 Hm F) as Hs.
  rewrite (isF_leb prec emax _ _ _ _ Hs tl_fh0) in H1. rewrite (isF_leb prec emax _ _ _ _ tl_fn0 Hs) in H2. unfold Rleb in H1, H2.
  destruct (Rle_dec _ hz) as [B1|B1] in H1; [|discriminate H1]. destruct (Rle_dec (- hz) _) as [B2|B2] in H2; [|discriminate H2]. clear H1 H2.
  pose proof (rd_add_rel prec emax _ _ _ _ tl_fz0 Hm) as E1. pose proof (rd_off (l * t)) as E2. rewrite ez_is.
  set (p := rd (l * t)) in *. set (x := rd (z0 + p)) in *. set (g := hz + Rabs z0) in *.
  pose proof (Rabs_pos (z0 + p)) as P1. pose proof (Rabs_pos (l * t)) as P2.
  assert (Q1 : u * Rabs (z0 + p) <= q * Rabs (z0 + p)) by (apply Rmult_le_compat_r; lra).
  assert (Q2 : u * Rabs (l * t) <= q * Rabs (l * t)) by (apply Rmult_le_compat_r; lra).
  assert (UQ : u * low0 <= q * low0) by (apply Rmult_le_compat_r; lra).
  assert (X : Rabs x <= hz) by (apply Rabs_le; lra).
  assert (S1 : Rabs (z0 + p) <= 1.001 * hz).
  { pose proof (Rabs_triang x (z0 + p - x)) as T. replace (x + (z0 + p - x)) with (z0 + p) in T by ring. rewrite (Rabs_minus_sym (z0 + p) x) in T. lra. }
  assert (S2 : Rabs p <= 1.001 * g).
  { pose proof (Rabs_triang (z0 + p) (- z0)) as T. replace (z0 + p + - z0) with p in T by ring. rewrite Rabs_Ropp in T. unfold g. lra. }
  assert (S3 : Rabs (l * t) <= 1.01 * g).
  { pose proof (Rabs_triang p (l * t - p)) as T. replace (p + (l * t - p)) with (l * t) in T by ring. rewrite (Rabs_minus_sym (l * t) p) in T. unfold g in *. lra. }
  assert (u * Rabs (z0 + p) <= u * (1.001 * g)) by (apply Rmult_le_compat_l; [lra|]; unfold g; lra).
  assert (u * Rabs (l * t) <= u * (1.01 * g)) by (apply Rmult_le_compat_l; lra).
  replace (zat t) with (x - (x - (z0 + p)) - (p - l * t)) by ring.
  unfold Rminus at 1. eapply Rle_trans; [apply Rabs_triang|]. rewrite Rabs_Ropp. unfold Rminus at 1. eapply Rle_trans; [apply Rplus_le_compat_r, Rabs_triang|]. rewrite Rabs_Ropp. lra.
Qed.

(** The height of a cap's point. *)
Lemma cap_height fc zc ft : isf fc zc -> Rabs zc = hz -> ft = @ndiv _ FN (@nsub _ FN fc fz) fl -> fin ft = true ->
  exists t, isf ft t /\ l <> 0 /\ t = rd (rd (zc - z0) / l) /\ Rabs (zat t - zc) <= ez.
Proof.
  intros Hc Ac -> F. destruct facts as (U0 & U1 & L0 & L1 & L2 & Z0 & UH & UL). pose proof H as H'. destruct H'.
  assert (Hq : isf (@nsub _ FN fc fz) (rd (zc - z0))).
  { apply (isF_sub prec emax); [assumption..|]. apply (rd_half_top prec emax (p6 prec emax Hfmt)). unfold Rminus. eapply Rle_trans; [apply Rabs_triang|]. rewrite Rabs_Ropp, Ac.
    pose proof (W_pow v W tl_v0 tl_W0) as (W1 & W2 & W3 & W4). lra. }
  destruct (div_fin prec emax _ _ _ _ Hq tl_fl0 F) as [Nl Ht]. exists (rd (rd (zc - z0) / l)). split; [exact Ht|]. split; [exact Nl|]. split; [reflexivity|].
  pose proof (rd_sub_rel prec emax _ _ _ _ Hc tl_fz0) as E1. rewrite ez_is. set (Q := rd (zc - z0)) in *. pose proof (rd_off (Q / l)) as E2. set (t := rd (Q / l)) in *.
  assert (D : Rabs (zc - z0) <= hz + Rabs z0) by (unfold Rminus; eapply Rle_trans; [apply Rabs_triang|]; rewrite Rabs_Ropp, Ac; lra).
  set (g := hz + Rabs z0) in *. assert (u * Rabs (zc - z0) <= u * g) by (apply Rmult_le_compat_l; lra).
  assert (uq : u * g <= q * g) by (apply Rmult_le_compat_r; unfold g; lra).
  assert (AQ : Rabs Q <= 1.001 * g).
  { pose proof (Rabs_triang (Q - (zc - z0)) (zc - z0)) as T. replace (Q - (zc - z0) + (zc - z0)) with Q in T by ring. unfold g in *. lra. }
  assert (Lq : Rabs l * Rabs (Q / l) = Rabs Q) by (rewrite <- Rabs_mult; f_equal; field; exact Nl).
  assert (TL : Rabs (t * l - Q) <= u * Rabs Q + u * (2 * low0)).
  { replace (t * l - Q) with (l * (t - Q / l)) by (field; exact Nl). rewrite Rabs_mult. pose proof (Rabs_pos l) as Pl.
    apply Rle_trans with (Rabs l * (u * Rabs (Q / l) + u * low0)); [apply Rmult_le_compat_l; assumption|].
    replace (Rabs l * (u * Rabs (Q / l) + u * low0)) with (u * (Rabs l * Rabs (Q / l)) + Rabs l * (u * low0)) by ring. rewrite Lq.
    assert (Rabs l * (u * low0) <= 2 * (u * low0)) by (apply Rmult_le_compat_r; [apply Rmult_le_pos; lra|lra]). lra. }
  assert (u * Rabs Q <= u * (1.001 * g)) by (apply Rmult_le_compat_l; lra).
  replace (zat t - zc) with ((t * l - Q) + (Q - (zc - z0))) by ring. eapply Rle_trans; [apply Rabs_triang|]. lra.
Qed.

(** ** The lateral surface seen from outside *)
Notation e0 := (150 * u * (Rm * Rm)).
Lemma lat : ~ (j = 0 /\ k = 0) -> exists s, 0 < s /\ rr a b j k = s * s /\ tame_tube prec emax v W a b x0 y0 j k Rm s.
Proof.
  intros N. destruct H. destruct tl_lat0 as [Z|(s & S1 & S2 & S3 & S4)]; [contradiction|]. exists s. split; [exact S1|]. split; [exact S2|].
  constructor; try assumption; split; try assumption; try nra.
Qed.
Lemma prods_ok : (exists p, isf (@nmul _ FN fa fa) p) /\ (exists p, isf (@nmul _ FN fb fb) p) /\ (exists p, isf (@nmul _ FN fa fb) p).
Proof.
  destruct H. pose proof (W_pow v W tl_v0 tl_W0) as (W1 & W2 & W3 & W4).
  assert (G : forall f g r s, isf f r -> isf g s -> v <= r <= W -> v <= s <= W -> exists p, isf (@nmul _ FN f g) p).
  { intros f g r s Hf Hg Hr Hs. exists (rd (r * s)). apply (isF_mul prec emax); [assumption..|]. apply (rd_half_top prec emax (p6 prec emax Hfmt)).
    rewrite Rabs_pos_eq by nra. assert (r * s <= W * W) by (apply Rmult_le_compat; lra). cbn in *. lra. }
  split; [|split]; [apply (G fa fa a a)|apply (G fb fb b b)|apply (G fa fb a b)]; assumption.
Qed.
(** Parallel to the axis there are no roots. *)
Lemma parallel_root : j = 0 -> k = 0 -> @cyl_t0 _ FN fa fb fx fy fj fk = S754_nan /\ @cyl_t1 _ FN fa fb fx fy fj fk = S754_nan.
Proof.
  intros Hj Hk. destruct prods_ok as ((aa & Haa) & (bb & Hbb) & (ab & Hab)). destruct H. rewrite Hj in tl_fj0. rewrite Hk in tl_fk0.
  assert (R0 : forall x y c, isf x c -> isf y 0 -> isf (@nmul _ FN x y) 0) by (intros x y c Hx Hy; apply (mul_zero _ _ c 0); [exact Hx|exact Hy|right; reflexivity]).
  assert (L0 : forall x y c, isf x 0 -> isf y c -> isf (@nmul _ FN x y) 0) by (intros x y c Hx Hy; apply (mul_zero _ _ 0 c); [exact Hx|exact Hy|left; reflexivity]).
  pose proof (R0 _ _ _ Haa tl_fk0) as K1. pose proof (R0 _ _ _ Hbb tl_fj0) as J1.
  assert (A : isf (@nadd _ FN (@nmul _ FN (@nmul _ FN (@nmul _ FN fa fa) fk) fk) (@nmul _ FN (@nmul _ FN (@nmul _ FN fb fb) fj) fj)) 0).
  { apply add_zero; [apply (L0 _ _ 0); assumption|apply (L0 _ _ 0); assumption]. }
  assert (B : isf (@nadd _ FN (@nmul _ FN (@nmul _ FN (@nmul _ FN fa fa) fk) fy) (@nmul _ FN (@nmul _ FN (@nmul _ FN fb fb) fj) fx)) 0).
  { apply add_zero; [apply (L0 _ _ y0); assumption|apply (L0 _ _ x0); assumption]. }
  assert (C : isf (@cyl_C _ FN fa fb fx fy fj fk) 0).
  { unfold cyl_C. apply sub_zero; [apply add_zero; [apply sub_zero; [exact A|]|]|].
    - apply (L0 _ _ y0); [|assumption]. apply (L0 _ _ y0); [|assumption]. apply (L0 _ _ 0); assumption.
    - apply (L0 _ _ y0); [|assumption]. apply (L0 _ _ x0); [|assumption]. apply (L0 _ _ 0); [|assumption]. apply (R0 _ _ 2); [apply (two_isF prec emax Hfmt)|assumption].
    - apply (L0 _ _ x0); [|assumption]. apply (L0 _ _ x0); [|assumption]. apply (L0 _ _ 0); assumption. }
  assert (S : isf (@nsqrt _ FN (@cyl_C _ FN fa fb fx fy fj fk)) 0).
  { pose proof (isF_sqrt prec emax _ _ C (Rle_refl 0)) as G. rewrite sqrt_0, (rd_0 prec emax) in G. exact G. }
  pose proof (R0 _ _ _ Hab S) as Wz. pose proof (one_isF prec emax (p6 prec emax Hfmt)) as One.
  unfold cyl_t0, cyl_t1. split; (apply inf_zero; [|exact A|]).
  - left. exact One.
  - apply add_zero; [|exact Wz]. rewrite <- Ropp_0. apply (isF_opp prec emax), B.
  - right. replace (-1) with (- (1)) by ring. apply (isF_opp prec emax), One.
  - apply add_zero; [exact B|exact Wz].
Qed.
Lemma nan_ltb x : @nltb _ FN x S754_nan = false /\ @nltb _ FN S754_nan x = false.
Proof. split; [destruct x; reflexivity|reflexivity]. Qed.
Lemma ltb_val x y c d : isf x c -> isf y d -> @nltb _ FN x y = true -> c < d.
Proof. intros Hx Hy. rewrite (isF_ltb prec emax _ _ _ _ Hx Hy). unfold Rltb. destruct (Rlt_dec c d); [auto|discriminate]. Qed.
Lemma ltb_not x y c d : isf x c -> isf y d -> @nltb _ FN x y = false -> d <= c.
Proof. intros Hx Hy. rewrite (isF_ltb prec emax _ _ _ _ Hx Hy). unfold Rltb. destruct (Rlt_dec c d); [discriminate|lra]. Qed.
Lemma leb_val x y c d : isf x c -> isf y d -> @nleb _ FN x y = true -> c <= d.
Proof. intros Hx Hy. rewrite (isF_leb prec emax _ _ _ _ Hx Hy). unfold Rleb. destruct (Rle_dec c d); [auto|discriminate]. Qed.
Lemma leb_not x y c d : isf x c -> isf y d -> @nleb _ FN x y = false -> d < c.
Proof. intros Hx Hy. rewrite (isF_leb prec emax _ _ _ _ Hx Hy). unfold Rleb. destruct (Rle_dec c d); [discriminate|lra]. Qed.

Lemma outside_sound rot n ft : @cyl_outside _ FN fa fb fh rot fo fd = Some (n, ft) ->
  exists t, isf ft t /\ 0 < t /\ Rabs (rad t - 1) <= e0 /\ Rabs (zat t) <= hz + ez /\ forall t', t' <= t -> 1 - e0 <= rad t'.
Proof.
  unfold cyl_outside. cbn [vx vy vz vadd vscaler vmap vmap2]. intros E.
  pose proof (zero_isF prec emax) as Z0.
  assert (D : (j = 0 /\ k = 0) \/ ~ (j = 0 /\ k = 0)) by (destruct (Req_dec j 0); destruct (Req_dec k 0); tauto).
  destruct D as [[Zj Zk]|N].
  { destruct (parallel_root Zj Zk) as [T0 T1]. rewrite T0, T1 in E. rewrite (proj1 (nan_ltb _)) in E. cbn [andb] in E.
    destruct (@nltb _ FN (cyl_C fa fb fx fy fj fk) n0); discriminate E. }
  destruct (lat N) as (s & S0 & S1 & Tm). pose proof H as H'. destruct H'.
  destruct (lateral prec emax Hfmt v W fa fb fx fy fj fk a b x0 y0 j k Rm s Tm) as (c & Hc & _ & Pos); try assumption.
  destruct (@nltb _ FN (cyl_C fa fb fx fy fj fk) n0) eqn:Ec; [discriminate E|].
  pose proof (ltb_not _ _ _ _ Hc Z0 Ec) as C0. destruct (Pos C0) as (t0 & t1 & F0 & F1 & O10 & _ & _ & Q0 & Q1 & Bef & _).
  destruct (_ && _ && _ && _) eqn:B1 in E.
  - apply andb_prop in B1 as [B1 B4]. apply andb_prop in B1 as [B1 B3]. apply andb_prop in B1 as [B1 B2]. injection E as _ <-.
    exists t1. split; [exact F1|]. split; [apply (ltb_val _ _ _ _ Z0 F1 B1)|]. split; [exact Q1|]. split; [apply (height_ok _ _ F1 B3 B4)|].
    intros t' Ht. apply Bef. left. exact Ht.
  - destruct (_ && _ && _ && _) eqn:B2 in E; [|discriminate E]. apply andb_prop in B2 as [B2 _]. apply andb_prop in B2 as [B2 _]. apply andb_prop in B2 as [_ B2].
    pose proof (ltb_val _ _ _ _ F0 F1 B2). lra.
Qed.
End F.
