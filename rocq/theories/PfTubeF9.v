(** The cylinder routine in its local coordinates, with rounding: all areas together. *)

From Coq Require Import Reals ZArith Bool Lra Lia Psatz Floats.SpecFloat.
From Flocq Require Import Core IEEE754.BinarySingleNaN.
From Verif Require Import Num NumR NumF Vec Cylinder SpecReal SpecIEEE SpecTri SpecTriF SpecTubeF PfIEEE PfIEEE2 PfIEEE3 PfTriF PfDirF PfSphF2 PfPlaneF PfTubeF PfTubeF2 PfTubeF3 PfTubeF4 PfTubeF5 PfTubeF6 PfTubeF7 PfTubeF8.
Local Open Scope R_scope.

Section F.
Variables prec emax : Z.
Context {Hprec : Prec_gt_0 prec} {Hmax : Prec_lt_emax prec emax}.
Hypothesis Hfmt : usual_format prec emax.
Notation FN := (Fnum prec emax).
Notation isf := (isF prec emax).
Notation rd := (rnd prec emax).
Notation u := (ulpf prec).
Notation low0 := (least emax).
Notation hi0 := (top emax).
Notation q := (/ 1000000).
Notation fin := is_finite_SF.
Variables v W a b hz x0 y0 z0 j k l Rm : R.
Variables fa fb fh fx fy fz fj fk fl : spec_float.
Hypothesis H : tame_local prec emax v W a b hz x0 y0 z0 j k l Rm fa fb fh fx fy fz fj fk fl.
Notation fH := (@ndiv _ FN fh (@n2 _ FN)).
Notation fHn := (@ndiv _ FN (@nopp _ FN fh) (@n2 _ FN)).
Notation fo := (V fx fy fz).
Notation fd := (V fj fk fl).
Notation rad t := (rr a b (x0 + t * j) (y0 + t * k)).
Notation zat t := (z0 + t * l).
Notation ez := (ez prec hz z0).
Notation e0 := (150 * u * (Rm * Rm)).
Notation e := (192 * u * (Rm * Rm)).
Ltac dH := pose proof H as H'; destruct H' as [Hv HW Hlow Htop Aa Ab Ah Az HR AaR AbR Hor Hu Hlat Hl Hl2 Fa Fb Fx Fy Fz Fj Fk Fl Fh Fn].
Definition FA := facts prec emax Hfmt v W a b hz x0 y0 z0 j k l Rm fa fb fh fx fy fz fj fk fl H.
Definition RF := R_facts prec emax Hfmt v W a b hz x0 y0 z0 j k l Rm fa fb fh fx fy fz fj fk fl H.


Notation in_hit := (PfTubeF8.in_hit prec a b hz x0 y0 z0 j k l Rm).
Notation fs := (org_sum prec emax fa fb fx fy).
Notation kk := (fK prec emax fa fb).
Lemma org_dec : (@nleb _ FN fs kk = true -> rr a b x0 y0 <= 1 + e) /\ (@nleb _ FN fs kk = false -> 1 - e <= rr a b x0 y0) /\ @nltb _ FN kk fs = negb (@nleb _ FN fs kk).
Proof.
  dH. destruct RF as (R1 & R2 & R3 & R4 & R5 & R6 & pa & pb).
  destruct (org_test prec emax Hfmt v W Hv HW Hlow Htop fa fb a b Fa Fb Aa Ab Rm fx fy x0 y0 HR AaR AbR Fx Fy Hor) as (T1 & T2 & T3).
  split; [intros E; specialize (T1 E); lra|]. split; [intros E; specialize (T2 E); lra|exact T3].
Qed.
Lemma local_shape rot : @cyl_local _ FN fa fb fh rot fo fd =
  (let last := if (@nleb _ FN fHn fz && @nleb _ FN fz fH && @nleb _ FN fs kk)%bool then @cyl_area4 _ FN fa fb fh rot fo fd else None in
   let orelse (x y : option (vec spec_float * spec_float)) := match x with Some r => Some r | None => y end in
   if @nltb _ FN fH fz then orelse (@cyl_beyond _ FN fa fb fh fH (@n1 _ FN) rot fo fd) last
   else if @nltb _ FN fz fHn then orelse (@cyl_beyond _ FN fa fb fh fHn (@nopp _ FN (@n1 _ FN)) rot fo fd) last
   else if (@nltb _ FN fHn fz && @nltb _ FN fz fH && @nltb _ FN kk fs)%bool then orelse (@cyl_outside _ FN fa fb fh rot fo fd) last
   else last).
Proof. reflexivity. Qed.

Lemma local_in rot : Rabs z0 <= hz -> rr a b x0 y0 < 1 - e -> ~ (l = 0 /\ (Rabs z0 = hz \/ (j = 0 /\ k = 0))) ->
  exists n ft t, @cyl_local _ FN fa fb fh rot fo fd = Some (n, ft) /\ isf ft t /\ in_hit t.
Proof.
  intros Iz Ir Nd. rewrite local_shape. pose proof (Rabs_le_inv _ _ Iz) as Bz. destruct org_dec as (T1 & T2 & T3). dH. cbv zeta.
  rewrite (ltb_false prec emax _ _ _ _ Fh Fz) by lra. rewrite (ltb_false prec emax _ _ _ _ Fz Fn) by lra.
  destruct (@nleb _ FN fs kk) eqn:E. 2: { specialize (T2 eq_refl). lra. }
  rewrite T3. cbn [negb]. rewrite !andb_false_r.
  rewrite (leb_true prec emax _ _ _ _ Fn Fz) by lra. rewrite (leb_true prec emax _ _ _ _ Fz Fh) by lra. cbn [andb].
  apply (area4_sound prec emax Hfmt v W a b hz x0 y0 z0 j k l Rm fa fb fh fx fy fz fj fk fl H Iz Ir rot Nd).
Qed.

Definition shallow (t : R) : Prop := ~ (rad t < 1 - e /\ Rabs (zat t) < hz - ez).
Definition out_hit (t : R) : Prop := in_hit t /\ forall t', 0 <= t' <= t -> shallow t'.
Lemma lat_out t : PfTubeF7.lat_hit prec a b hz x0 y0 z0 j k l Rm t -> out_hit t.
Proof.
  intros (T0 & Q & Z & Bef). destruct RF as (R1 & R2 & R3 & R4 & R5 & R6 & pa & pb). split; [apply (lat_in_hit prec emax Hfmt v W a b hz x0 y0 z0 j k l Rm fa fb fh fx fy fz fj fk fl H); assumption|].
  intros t' Ht [S _]. specialize (Bef t' ltac:(lra)). lra.
Qed.
Lemma beyond_out sg fc nz rot n ft : sg = 1 \/ sg = -1 -> isf fc (sg * hz) -> hz < sg * z0 ->
  @cyl_beyond _ FN fa fb fh fc nz rot fo fd = Some (n, ft) -> exists t, isf ft t /\ out_hit t.
Proof.
  intros Hsg Hc Side E. destruct RF as (R1 & R2 & R3 & R4 & R5 & R6 & pa & pb).
  destruct (beyond_sound prec emax Hfmt v W a b hz x0 y0 z0 j k l Rm fa fb fh fx fy fz fj fk fl H sg fc nz rot n ft Hsg Hc Side E) as (t & Ht & [L|(T0 & Q & Z & Bef)]); exists t; (split; [exact Ht|]); [apply lat_out, L|].
  split; [apply (cap_in_hit prec emax Hfmt v W a b hz x0 y0 z0 j k l Rm fa fb fh fx fy fz fj fk fl H sg); try assumption; lra|].
  intros t' Ht' [_ S]. specialize (Bef t' Ht'). destruct (Rabs_def2 _ _ S). destruct Hsg as [-> | ->]; lra.
Qed.
Lemma local_out rot n ft : hz < Rabs z0 \/ 1 + e < rr a b x0 y0 -> @cyl_local _ FN fa fb fh rot fo fd = Some (n, ft) -> exists t, isf ft t /\ out_hit t.
Proof.
  intros Out. rewrite local_shape. destruct org_dec as (T1 & T2 & T3). dH. cbv zeta.
  assert (No : (@nleb _ FN fHn fz && @nleb _ FN fz fH && @nleb _ FN fs kk)%bool = false).
  { destruct (@nleb _ FN fHn fz) eqn:B1; [|reflexivity]. destruct (@nleb _ FN fz fH) eqn:B2; [|reflexivity]. destruct (@nleb _ FN fs kk) eqn:B3; [|reflexivity].
    exfalso. pose proof (leb_val prec emax _ _ _ _ Fn Fz B1). pose proof (leb_val prec emax _ _ _ _ Fz Fh B2). specialize (T1 eq_refl).
    assert (Rabs z0 <= hz) by (apply Rabs_le; lra). lra. }
  rewrite No.
  destruct (@nltb _ FN fH fz) eqn:A1.
  { pose proof (ltb_val prec emax _ _ _ _ Fh Fz A1). destruct (@cyl_beyond _ FN fa fb fh fH _ rot fo fd) as [[n' ft']|] eqn:E; [|discriminate].
    intros I. injection I as <- <-. eapply (beyond_out 1); [left; reflexivity| | |exact E]; [rewrite Rmult_1_l; exact Fh|lra]. }
  destruct (@nltb _ FN fz fHn) eqn:A2.
  { pose proof (ltb_val prec emax _ _ _ _ Fz Fn A2). destruct (@cyl_beyond _ FN fa fb fh fHn _ rot fo fd) as [[n' ft']|] eqn:E; [|discriminate].
    intros I. injection I as <- <-. eapply (beyond_out (-1)); [right; reflexivity| | |exact E]; [replace (-1 * hz) with (- hz) by ring; exact Fn|lra]. }
  destruct (@nltb _ FN fHn fz && @nltb _ FN fz fH && @nltb _ FN kk fs)%bool; [|discriminate]. destruct (@cyl_outside _ FN fa fb fh rot fo fd) as [[n' ft']|] eqn:E; [|discriminate].
  intros I. injection I as <- <-. destruct (outside_sound prec emax Hfmt v W a b hz x0 y0 z0 j k l Rm fa fb fh fx fy fz fj fk fl H rot n' ft' E) as (t & Ht & Q). exists t. split; [exact Ht|apply lat_out, Q].
Qed.

(** Rays that go in are not missed. *)
Definition rim (t : R) : Prop := Rabs (rad t - 1) <= e /\ Rabs (Rabs (zat t) - hz) <= ez.
Lemma height_pass ft t : isf ft t -> Rabs (zat t) < hz - ez ->
  @nleb _ FN (@nadd _ FN fz (@nmul _ FN fl ft)) fH = true /\ @nleb _ FN fHn (@nadd _ FN fz (@nmul _ FN fl ft)) = true.
Proof.
  intros Ht Hz. dH. destruct FA as (U0 & U1 & L0 & L1 & L2 & Z0 & UH & UL). rewrite (ez_is prec hz z0) in *.
  assert (hb : 1024 * W <= hi0) by (pose proof (W_pow v W Hv HW); lra).
  assert (Lt : Rabs (l * t) <= hz + Rabs z0).
  { replace (l * t) with (zat t + - z0) by ring. eapply Rle_trans; [apply Rabs_triang|]. rewrite Rabs_Ropp. assert (0 <= u * (hz + Rabs z0)) by (apply Rmult_le_pos; lra). lra. }
  set (S := hz + Rabs z0) in *. assert (S0 : 0 < S) by (unfold S; lra). assert (uS : 0 < u * S) by (apply Rmult_lt_0_compat; lra). assert (uS' : u * S <= q * S) by (apply Rmult_le_compat_r; lra).
  assert (SW : S <= 2 * W) by (unfold S; lra).
  pose proof (rd_off prec emax Hfmt v W a b hz x0 y0 z0 j k l Rm fa fb fh fx fy fz fj fk fl H (l * t)) as E1. assert (M1 : u * Rabs (l * t) <= u * S) by (apply Rmult_le_compat_l; lra).
  assert (Hm : isf (@nmul _ FN fl ft) (rd (l * t))) by (apply (isF_mul prec emax); [assumption..|]; apply (rd_half_top prec emax (p6 prec emax Hfmt)); lra).
  assert (uS2 : u * hz <= u * S) by (apply Rmult_le_compat_l; unfold S; lra).
  set (p := rd (l * t)) in *. assert (Ps : Rabs (z0 + p - zat t) <= 2 * (u * S)) by (replace (z0 + p - zat t) with (p - l * t) by ring; lra).
  assert (P2 : Rabs (z0 + p) <= 1.1 * S).
  { pose proof (Rabs_triang (z0 + p - zat t) (zat t)) as T. replace (z0 + p - zat t + zat t) with (z0 + p) in T by ring. assert (hz <= S) by (unfold S; lra). lra. }
  assert (Hs : isf (@nadd _ FN fz (@nmul _ FN fl ft)) (rd (z0 + p))) by (apply (isF_add prec emax); [assumption..|]; apply (rd_half_top prec emax (p6 prec emax Hfmt)); lra).
  pose proof (rd_add_rel prec emax _ _ _ _ Fz Hm) as E2. assert (M2 : u * Rabs (z0 + p) <= u * (1.1 * S)) by (apply Rmult_le_compat_l; lra).
  apply Rabs_le_inv in E2, Ps. destruct (Rabs_def2 _ _ Hz).
  split; [apply (leb_true prec emax _ _ _ _ Hs Fh)|apply (leb_true prec emax _ _ _ _ Fn Hs)]; lra.
Qed.
Lemma outside_hits rot ts t' : 0 <= ts <= t' -> 1 + e0 < rad ts -> rad t' < 1 - e0 ->
  (forall t, ts <= t <= t' -> Rabs (rad t - 1) <= e0 -> Rabs (zat t) < hz - ez) -> exists n ft, @cyl_outside _ FN fa fb fh rot fo fd = Some (n, ft).
Proof.
  intros Hts Rs Rt Av. unfold cyl_outside. cbn [vx vy vz vadd vscaler vmap vmap2]. pose proof (zero_isF prec emax) as Zf. destruct RF as (R1 & R2 & R3 & R4 & R5 & R6 & pa & pb).
  assert (N : ~ (j = 0 /\ k = 0)) by (intros [-> ->]; rewrite !Rmult_0_r, !Rplus_0_r in *; lra).
  destruct (lat prec emax v W a b hz x0 y0 z0 j k l Rm fa fb fh fx fy fz fj fk fl H N) as (s & S0 & S1 & Tm). dH.
  destruct (lateral prec emax Hfmt v W fa fb fx fy fj fk a b x0 y0 j k Rm s Tm) as (c & Hc & Neg & Pos); try assumption.
  assert (C0 : 0 <= c). { destruct (Rle_lt_dec 0 c) as [L|L]; [exact L|]. specialize (Neg L t'). lra. }
  destruct (Pos C0) as (t0 & t1 & F0 & F1 & O10 & _ & _ & Q0 & Q1 & Bef & Inn). rewrite (ltb_false prec emax _ _ _ _ Hc Zf C0).
  assert (A1 : t1 < t' < t0). { split; apply Rnot_le_lt; intros L; [specialize (Bef t' (or_introl L))|specialize (Bef t' (or_intror L))]; lra. }
  assert (A2 : ts < t1). { apply Rnot_le_lt. intros L. specialize (Inn ts ltac:(lra)). lra. }
  rewrite (ltb_true prec emax _ _ _ _ Zf F1) by lra. rewrite (ltb_true prec emax _ _ _ _ F1 F0) by lra.
  destruct (height_pass _ _ F1 (Av t1 ltac:(lra) Q1)) as [P1 P2]. rewrite P1, P2. cbn [andb]. eauto.
Qed.
Lemma disc_shift2 x y X Y : rr a b X Y <= 1 -> Rabs (x - X) <= 5.2 * (u * Rm) * a -> Rabs (y - Y) <= 5.2 * (u * Rm) * b -> rr a b x y <= rr a b X Y + 24 * (u * Rm).
Proof.
  intros Hr Hx Hy. destruct FA as (U0 & U1 & _). destruct RF as (R1 & R2 & R3 & R4 & R5 & R6 & pa & pb).
  assert (G : forall c z Z, 0 < c -> (Z / c) * (Z / c) <= 1 -> Rabs (z - Z) <= 5.2 * (u * Rm) * c -> (z / c) * (z / c) <= (Z / c) * (Z / c) + 10.5 * (u * Rm)).
  { intros c z Z Hc Hz Hd. set (w := Z / c) in *. set (d := (z - Z) / c).
    assert (Ed : z / c = w + d) by (unfold w, d; field; lra). rewrite Ed.
    assert (Ad : Rabs d <= 5.2 * (u * Rm)).
    { unfold d, Rdiv. rewrite Rabs_mult, (Rabs_pos_eq (/ c)) by (apply Rlt_le, Rinv_0_lt_compat, Hc). apply Rmult_le_reg_r with c; [exact Hc|]. rewrite Rmult_assoc, Rinv_l by lra. lra. }
    assert (Aw : Rabs w <= 1) by (apply Rabs_le; nra).
    assert (M : Rabs (w * d) <= 1 * (5.2 * (u * Rm))) by (rewrite Rabs_mult; apply Rmult_le_compat; try apply Rabs_pos; assumption).
    assert (D : Rabs (d * d) <= 5.2 * (u * Rm) * (5.2 * (u * Rm))) by (rewrite Rabs_mult; apply Rmult_le_compat; try apply Rabs_pos; assumption).
    assert (D' : 5.2 * (u * Rm) * (5.2 * (u * Rm)) <= 0.02 * (u * Rm)).
    { replace (5.2 * (u * Rm) * (5.2 * (u * Rm))) with (27.04 * (u * Rm) * (u * Rm)) by lra. apply Rmult_le_compat_r; lra. }
    apply Rabs_le_inv in M, D. nra. }
  unfold rr in *. pose proof (Rle_0_sqr (X / a)) as S1. pose proof (Rle_0_sqr (Y / b)) as S2. unfold Rsqr in S1, S2.
  pose proof (G a x X pa ltac:(lra) Hx). pose proof (G b y Y pb ltac:(lra) Hy). lra.
Qed.
Lemma cap_point c fo' fg ft o g t : v <= c <= W -> c * Rm <= W -> isf fo' o -> isf fg g -> isf ft t -> Rabs o <= c * Rm -> Rabs (o + t * g) <= c ->
  exists x, isf (@nadd _ FN fo' (@nmul _ FN ft fg)) x /\ Rabs (x - (o + t * g)) <= 5.2 * (u * Rm) * c.
Proof.
  intros Hc HcR Ho Hg Ht Lo Lp. destruct FA as (U0 & U1 & L0 & L1 & L2 & Z0 & UH & UL). dH. destruct RF as (R1 & R2 & R3 & R4 & R5 & R6 & pa & pb).
  assert (hb : 1024 * W <= hi0) by (pose proof (W_pow v W Hv HW); lra).
  assert (Lt : Rabs (t * g) <= c + c * Rm) by (replace (t * g) with (o + t * g + - o) by ring; eapply Rle_trans; [apply Rabs_triang|]; rewrite Rabs_Ropp; lra).
  assert (Hm : isf (@nmul _ FN ft fg) (rd (t * g))) by (apply (isF_mul prec emax); [assumption..|]; apply (rd_half_top prec emax (p6 prec emax Hfmt)); lra).
  pose proof (rd_off prec emax Hfmt v W a b hz x0 y0 z0 j k l Rm fa fb fh fx fy fz fj fk fl H (t * g)) as E1. pose proof (Rabs_pos (t * g)) as P0. assert (Q1 : u * Rabs (t * g) <= q * Rabs (t * g)) by (apply Rmult_le_compat_r; lra).
  assert (UQ : u * low0 <= q * low0) by (apply Rmult_le_compat_r; lra).
  assert (cR : 0 < c * Rm) by (apply Rmult_lt_0_compat; lra). assert (cR1 : c <= c * Rm) by (rewrite <- (Rmult_1_r c) at 1; apply Rmult_le_compat_l; lra).
  set (p := rd (t * g)) in *.
  assert (P1 : Rabs (o + p - (o + t * g)) <= 0.001 * W) by (replace (o + p - (o + t * g)) with (p - t * g) by ring; lra).
  assert (P2 : Rabs (o + p) <= 1.1 * W).
  { pose proof (Rabs_triang (o + p - (o + t * g)) (o + t * g)) as T. replace (o + p - (o + t * g) + (o + t * g)) with (o + p) in T by ring. lra. }
  assert (Hs : isf (@nadd _ FN fo' (@nmul _ FN ft fg)) (rd (o + p))) by (apply (isF_add prec emax); [assumption..|]; apply (rd_half_top prec emax (p6 prec emax Hfmt)); lra).
  pose proof (rd_add_rel prec emax _ _ _ _ Ho Hm) as E2. fold p in E2.
  assert (D1 : u * Rabs (t * g) <= u * (2 * (c * Rm))) by (apply Rmult_le_compat_l; lra).
  assert (D2 : u * low0 <= u * (c * Rm)) by (apply Rmult_le_compat_l; lra).
  assert (Pc : Rabs (p - t * g) <= 3 * (u * (c * Rm))) by lra.
  assert (uc : 0 < u * (c * Rm)) by (apply Rmult_lt_0_compat; lra). assert (uc' : u * (c * Rm) <= q * (c * Rm)) by (apply Rmult_le_compat_r; lra).
  assert (P3 : Rabs (o + p) <= 1.01 * (c * Rm)).
  { pose proof (Rabs_triang (p - t * g) (o + t * g)) as T. replace (p - t * g + (o + t * g)) with (o + p) in T by ring. lra. }
  assert (D3 : u * Rabs (o + p) <= u * (1.01 * (c * Rm))) by (apply Rmult_le_compat_l; lra).
  exists (rd (o + p)). split; [exact Hs|]. replace (rd (o + p) - (o + t * g)) with ((rd (o + p) - (o + p)) + (p - t * g)) by ring.
  eapply Rle_trans; [apply Rabs_triang|]. replace (5.2 * (u * Rm) * c) with (5.2 * (u * (c * Rm))) by ring. lra.
Qed.
Lemma beyond_hits sg fc nz rot t' : sg = 1 \/ sg = -1 -> isf fc (sg * hz) -> hz < sg * z0 ->
  0 <= t' -> rad t' < 1 - e -> Rabs (zat t') < hz - ez -> (forall t, 0 <= t <= t' -> ~ rim t) -> exists n ft, @cyl_beyond _ FN fa fb fh fc nz rot fo fd = Some (n, ft).
Proof.
  intros Hsg Hc Side T' Rt Zt Av. unfold cyl_beyond. cbn [vx vy vz vadd vscale vmap vmap2].
  destruct (ratio_small prec emax Hfmt v W a b hz x0 y0 z0 j k l Rm fa fb fh fx fy fz fj fk fl H) as [Ra1 [Ra2 Ra3]]. pose proof (low0_inv emax) as L.
  destruct FA as (U0 & U1 & L0 & L1 & L2 & Z0 & UH & UL). destruct RF as (R1 & R2 & R3 & R4 & R5 & R6 & pa & pb). pose proof (zero_isF prec emax) as Zf. dH.
  assert (ez0 : 0 <= ez) by (rewrite (ez_is prec hz z0); assert (0 <= u * (hz + Rabs z0)) by (apply Rmult_le_pos; lra); lra).
  assert (Ac : Rabs (sg * hz) = hz).
  { rewrite Rabs_mult, (Rabs_pos_eq hz) by lra. destruct Hsg as [-> | ->]; [rewrite Rabs_pos_eq by lra|rewrite (Rabs_left (-1)) by lra]; ring. }
  assert (Sl : sg * l < 0).
  { apply Rnot_le_lt. intros N. assert (0 <= t' * (sg * l)) by (apply Rmult_le_pos; lra). destruct (Rabs_def2 _ _ Zt). destruct Hsg as [-> | ->]; lra. }
  assert (Nl : l <> 0) by (intros ->; lra).
  destruct (@neqb _ FN fl n0) eqn:El; [pose proof (isF_eqb prec emax _ _ _ _ Fl Zf El); contradiction|].
  assert (hb : 1024 * W <= hi0) by (pose proof (W_pow v W Hv HW); lra).
  assert (Avl : v <= Rabs l) by (destruct Hl as [|Hl]; [contradiction|exact Hl]).
  assert (WV : W / v <= hi0 / 64).
  { replace (W / v) with (/ (v / W)) by (field; lra). replace (hi0 / 64) with (/ (16 * low0)) by (rewrite Rinv_mult, L; lra). assert (v / W * (v / W) <= v / W * 1) by (apply Rmult_le_compat_l; lra). apply Rinv_le; lra. }
  set (Q := rd (sg * hz - z0)). set (ft := @ndiv _ FN (@nsub _ FN fc fz) fl).
  assert (D : Rabs (sg * hz - z0) <= 2 * W) by (unfold Rminus; eapply Rle_trans; [apply Rabs_triang|]; rewrite Rabs_Ropp, Ac; lra).
  assert (Hq : isf (@nsub _ FN fc fz) Q) by (apply (isF_sub prec emax); [assumption..|]; apply (rd_half_top prec emax (p6 prec emax Hfmt)); lra).
  pose proof (rd_sub_rel prec emax _ _ _ _ Hc Fz) as E1. fold Q in E1.
  assert (AQ : Rabs Q <= 2.002 * W).
  { assert (u * Rabs (sg * hz - z0) <= q * Rabs (sg * hz - z0)) by (apply Rmult_le_compat_r; [apply Rabs_pos|lra]).
    pose proof (Rabs_triang (Q - (sg * hz - z0)) (sg * hz - z0)) as T. replace (Q - (sg * hz - z0) + (sg * hz - z0)) with Q in T by ring. lra. }
  assert (AT : Rabs (Q / l) <= hi0 / 2).
  { unfold Rdiv at 1. rewrite Rabs_mult, Rabs_inv. apply Rle_trans with (2.002 * W * / v); [|unfold Rdiv in WV; lra].
    apply Rmult_le_compat; [apply Rabs_pos|apply Rlt_le, Rinv_0_lt_compat; lra|lra|]. apply Rinv_le; lra. }
  assert (Ht0 : isf ft (rd (Q / l))) by (apply (isF_div prec emax); [assumption..|]; apply (rd_half_top prec emax (p6 prec emax Hfmt)), AT).
  destruct (cap_height prec emax Hfmt v W a b hz x0 y0 z0 j k l Rm fa fb fh fx fy fz fj fk fl H fc (sg * hz) ft Hc Ac eq_refl (proj1 (proj2 Ht0))) as (t & Ht & _ & Et & Eh).
  assert (T0 : 0 <= t).
  { rewrite Et. apply (rd_pos prec emax). fold Q. destruct Hsg as [-> | ->].
    - replace (Q / l) with (- Q * / - l) by (field; exact Nl). apply Rmult_le_pos; [|apply Rlt_le, Rinv_0_lt_compat; lra]. assert (Q <= 0) by (apply (rd_neg prec emax); lra). lra.
    - apply Rmult_le_pos; [apply (rd_pos prec emax); lra|apply Rlt_le, Rinv_0_lt_compat; lra]. }
  rewrite (ltb_false prec emax _ _ _ _ Ht Zf T0).
  pose proof (Rabs_le_inv _ _ Eh) as Eh'. destruct (Rabs_def2 _ _ Zt) as [Zt1 Zt2].
  assert (Tt : t < t').
  { apply Rnot_le_lt. intros N. assert (0 <= (t - t') * - (sg * l)) by (apply Rmult_le_pos; lra). destruct Hsg as [-> | ->]; lra. }
  assert (Rimz : Rabs (Rabs (zat t) - hz) <= ez) by (pose proof (Rabs_triang_inv2 (zat t) (sg * hz)) as T; rewrite Ac in T; lra).
  assert (Far : e < Rabs (rad t - 1)) by (apply Rnot_le_lt; intros N; apply (Av t); [lra|split; assumption]).
  change (@nmul _ FN (@nmul _ FN (@nmul _ FN fa fa) fb) fb) with (fK prec emax fa fb).
  change (@nadd _ FN (@nmul _ FN (@nmul _ FN (@nmul _ FN fb fb) (@nadd _ FN fx (@nmul _ FN ft fj))) (@nadd _ FN fx (@nmul _ FN ft fj)))
                     (@nmul _ FN (@nmul _ FN (@nmul _ FN fa fa) (@nadd _ FN fy (@nmul _ FN ft fk))) (@nadd _ FN fy (@nmul _ FN ft fk))))
    with (cap_sum prec emax fa fb (@nadd _ FN fx (@nmul _ FN ft fj)) (@nadd _ FN fy (@nmul _ FN ft fk))).
  destruct (@nleb _ FN (cap_sum prec emax fa fb _ _) kk) eqn:Ed; [eauto|].
  destruct (Rle_lt_dec (rad t) 1) as [In|Out].
  - exfalso. rewrite Rabs_left1 in Far by lra. destruct (org_coords prec emax Hfmt v W a b hz x0 y0 z0 j k l Rm fa fb fh fx fy fz fj fk fl H) as [Ox Oy].
    assert (Lx : Rabs (x0 + t * j) <= a) by (rewrite <- (Rmult_1_r a); apply scaled_le with ((y0 + t * k) / b); [exact pa|unfold rr in In; lra|lra]).
    assert (Ly : Rabs (y0 + t * k) <= b) by (rewrite <- (Rmult_1_r b); apply scaled_le with ((x0 + t * j) / a); [exact pb|rewrite Rplus_comm; unfold rr in In; lra|lra]).
    destruct (cap_point a fx fj ft x0 j t Aa AaR Fx Fj Ht Ox Lx) as (x & Hx & Ex). destruct (cap_point b fy fk ft y0 k t Ab AbR Fy Fk Ht Oy Ly) as (y & Hy & Ey).
    pose proof (disc_shift2 x y _ _ In Ex Ey) as Hr.
    rewrite (cap_accepts prec emax Hfmt v W Hv HW Hlow Htop fa fb a b Fa Fb Aa Ab _ _ x y Hx Hy) in Ed; [discriminate Ed|]. lra.
  - rewrite Rabs_pos_eq in Far by lra. apply (outside_hits rot t t'); [lra..|].
    intros t2 Ht2 Q2. assert (Nr : ~ rim t2) by (apply Av; lra). assert (Rz : ez < Rabs (Rabs (zat t2) - hz)) by (apply Rnot_le_lt; intros N; apply Nr; split; [lra|exact N]).
    assert (B : Rabs (zat t2) <= hz + ez).
    { assert (0 <= (t2 - t) * - (sg * l)) by (apply Rmult_le_pos; lra). assert (0 <= (t' - t2) * - (sg * l)) by (apply Rmult_le_pos; lra).
      apply Rabs_le. destruct Hsg as [-> | ->]; lra. }
    destruct (Rle_lt_dec hz (Rabs (zat t2))) as [G|G]; [rewrite Rabs_pos_eq in Rz by lra; lra|rewrite Rabs_left in Rz by lra; lra].
Qed.
Lemma local_hits rot t' : hz < Rabs z0 \/ (Rabs z0 < hz /\ 1 + e < rr a b x0 y0) ->
  0 <= t' -> rad t' < 1 - e -> Rabs (zat t') < hz - ez -> (forall t, 0 <= t <= t' -> ~ rim t) -> exists n ft, @cyl_local _ FN fa fb fh rot fo fd = Some (n, ft).
Proof.
  intros Out T' Rt Zt Av. rewrite local_shape. destruct org_dec as (T1 & T2 & T3). destruct RF as (R1 & R2 & R3 & R4 & R5 & R6 & pa & pb). dH. cbv zeta.
  set (last := if (_ && _)%bool then _ else _).
  destruct Out as [O|[Iz Or]].
  - destruct (Rle_lt_dec 0 z0) as [Z|Z]; [rewrite Rabs_pos_eq in O by lra|rewrite Rabs_left in O by lra].
    + rewrite (ltb_true prec emax _ _ _ _ Fh Fz O).
      destruct (beyond_hits 1 fH (@n1 _ FN) rot t') as (n & ft & E); try assumption; [left; reflexivity|rewrite Rmult_1_l; exact Fh|lra|]. rewrite E. eauto.
    + rewrite (ltb_false prec emax _ _ _ _ Fh Fz) by lra. rewrite (ltb_true prec emax _ _ _ _ Fz Fn) by lra.
      destruct (beyond_hits (-1) fHn (@nopp _ FN (@n1 _ FN)) rot t') as (n & ft & E); try assumption; [right; reflexivity|replace (-1 * hz) with (- hz) by ring; exact Fn|lra|]. rewrite E. eauto.
  - destruct (Rabs_def2 _ _ Iz) as [Iz1 Iz2].
    rewrite (ltb_false prec emax _ _ _ _ Fh Fz) by lra. rewrite (ltb_false prec emax _ _ _ _ Fz Fn) by lra.
    rewrite (ltb_true prec emax _ _ _ _ Fn Fz) by lra. rewrite (ltb_true prec emax _ _ _ _ Fz Fh) by lra. rewrite T3.
    destruct (@nleb _ FN fs kk) eqn:E; [specialize (T1 eq_refl); lra|]. cbn [negb andb].
    destruct (outside_hits rot 0 t') as (n & ft & E'); [lra|rewrite !Rmult_0_l, !Rplus_0_r; lra|lra| |rewrite E'; eauto].
    intros t Ht Q. assert (Nr : ~ rim t) by (apply Av; lra). assert (Rz : ez < Rabs (Rabs (zat t) - hz)) by (apply Rnot_le_lt; intros N; apply Nr; split; [lra|exact N]).
    destruct (Rabs_def2 _ _ Zt) as [Zt1 Zt2].
    assert (ez0 : 0 <= ez) by (rewrite (ez_is prec hz z0); destruct FA as (U0 & _); assert (0 <= u * (hz + Rabs z0)) by (apply Rmult_le_pos; [lra|pose proof (Rabs_pos z0); lra]); lra).
    assert (B : Rabs (zat t) <= hz) by (apply Rabs_le; apply (lin_between z0 l t' t (- hz) hz); lra).
    destruct (Req_dec (Rabs (zat t)) hz) as [G|G]; [rewrite G, Rminus_eq_0, Rabs_R0 in Rz; lra|rewrite Rabs_left in Rz by lra; lra].
Qed.
End F.
