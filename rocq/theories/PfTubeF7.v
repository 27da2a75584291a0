(** The cylinder routine in its local coordinates, with rounding: beyond the caps, and inside. *)

From Coq Require Import Reals ZArith Bool Lra Lia Psatz Floats.SpecFloat.
From Flocq Require Import Core IEEE754.BinarySingleNaN.
From Verif Require Import Num NumR NumF Vec Cylinder SpecReal SpecIEEE SpecTri SpecTriF SpecTubeF PfIEEE PfIEEE2 PfIEEE3 PfTriF PfDirF PfSphF2 PfPlaneF PfTubeF PfTubeF2 PfTubeF3 PfTubeF4 PfTubeF5 PfTubeF6.
Local Open Scope R_scope.

(** Moving along a line in scaled coordinates. *)
Lemma rr_pos a b x y : 0 <= rr a b x y.
Proof. unfold rr. pose proof (Rle_0_sqr (x / a)) as S1. pose proof (Rle_0_sqr (y / b)) as S2. unfold Rsqr in *. lra. Qed.
Lemma rr_shift a b x y j k s h m : 0 < a -> 0 < b -> rr a b j k = s * s -> 0 <= s -> 0 <= m -> rr a b x y <= m * m ->
  rr a b (x + h * j) (y + h * k) <= rr a b x y + 2 * m * (Rabs h * s) + (Rabs h * s) * (Rabs h * s).
Proof.
  intros Ha Hb Hs S0 M0 Hm.
  replace (rr a b (x + h * j) (y + h * k)) with (rr a b x y + 2 * (h * ((x / a) * (j / a) + (y / b) * (k / b))) + h * h * rr a b j k) by (unfold rr; field; lra).
  rewrite Hs. set (P := (x / a) * (j / a) + (y / b) * (k / b)).
  assert (CS : Rabs P <= m * s).
  { assert (Sq : P * P <= rr a b x y * rr a b j k).
    { pose proof (Rle_0_sqr ((x / a) * (k / b) - (y / b) * (j / a))) as S1. unfold Rsqr in S1. unfold P, rr. nra. }
    rewrite Hs in Sq. assert (S2 : P * P <= (m * s) * (m * s)).
    { eapply Rle_trans; [exact Sq|]. replace (m * s * (m * s)) with (m * m * (s * s)) by ring. apply Rmult_le_compat_r; [nra|exact Hm]. }
    apply Rabs_le. assert (0 <= m * s) by (apply Rmult_le_pos; assumption). nra. }
  assert (HP : h * P <= Rabs h * (m * s)).
  { eapply Rle_trans; [apply Rle_abs|]. rewrite Rabs_mult. apply Rmult_le_compat_l; [apply Rabs_pos|exact CS]. }
  assert (HH : h * h = Rabs h * Rabs h) by (rewrite <- Rabs_mult; symmetry; apply Rabs_pos_eq; nra).
  rewrite HH. lra.
Qed.
(** A segment between two points of the enlarged disc stays in it. *)
Lemma rr_convex a b x y j k E t t' : 0 < a -> 0 < b -> rr a b x y <= E -> rr a b (x + t * j) (y + t * k) <= E -> 0 <= t' <= t ->
  rr a b (x + t' * j) (y + t' * k) <= E.
Proof.
  intros Ha Hb H0 H1 Ht. destruct (Req_dec t 0) as [Z|Z].
  - replace t' with 0 by lra. rewrite !Rmult_0_l, !Rplus_0_r. exact H0.
  - set (p := t' / t). assert (Hp : 0 <= p <= 1).
    { unfold p. split; [apply Rmult_le_pos; [lra|]; apply Rlt_le, Rinv_0_lt_compat; lra|]. apply Rmult_le_reg_r with t; [lra|]. unfold Rdiv. rewrite Rmult_assoc, Rinv_l by exact Z. lra. }
    assert (E' : t' = p * t) by (unfold p; field; exact Z). rewrite E'. unfold rr in *.
    set (x1 := (x + t * j) / a) in *. set (y1 := (y + t * k) / b) in *. set (xa := x / a) in *. set (yb := y / b) in *.
    replace ((x + p * t * j) / a) with ((1 - p) * xa + p * x1) by (unfold xa, x1; field; lra).
    replace ((y + p * t * k) / b) with ((1 - p) * yb + p * y1) by (unfold yb, y1; field; lra).
    assert (C : forall f g, ((1 - p) * f + p * g) * ((1 - p) * f + p * g) <= (1 - p) * (f * f) + p * (g * g)).
    { intros f g. assert (0 <= p * (1 - p) * ((f - g) * (f - g))) by (apply Rmult_le_pos; [apply Rmult_le_pos; lra|apply Rle_0_sqr]). nra. }
    pose proof (C xa x1). pose proof (C yb y1). assert ((1 - p) * (xa * xa + yb * yb) <= (1 - p) * E) by (apply Rmult_le_compat_l; lra).
    assert (p * (x1 * x1 + y1 * y1) <= p * E) by (apply Rmult_le_compat_l; lra). lra.
Qed.
Lemma lin_between z l t t' lo hi : lo <= z <= hi -> lo <= z + t * l <= hi -> 0 <= t' <= t -> lo <= z + t' * l <= hi.
Proof. intros H0 H1 Ht. destruct (Rle_lt_dec 0 l); [assert (0 <= t' * l <= t * l) by (split; [nra|apply Rmult_le_compat_r; lra])|assert (t * l <= t' * l <= 0) by (split; nra)]; lra. Qed.

Section F.
Variables prec emax : Z.
Context {Hprec : Prec_gt_0 prec} {Hmax : Prec_lt_emax prec emax}.
Hypothesis Hfmt : usual_format prec emax.
Notation FN := (Fnum prec emax).
Notation isf := (isF prec emax).
Notation rd := (rnd prec emax).
Notation u := (ulpf prec).
Notation low0 := (least emax).
Notation hi0 := (top emax).
Notation q := (/ 1000000).
Notation fin := is_finite_SF.
Variables v W a b hz x0 y0 z0 j k l Rm : R.
Variables fa fb fh fx fy fz fj fk fl : spec_float.
Hypothesis H : tame_local prec emax v W a b hz x0 y0 z0 j k l Rm fa fb fh fx fy fz fj fk fl.
Notation fH := (@ndiv _ FN fh (@n2 _ FN)).
Notation fHn := (@ndiv _ FN (@nopp _ FN fh) (@n2 _ FN)).
Notation fo := (V fx fy fz).
Notation fd := (V fj fk fl).
Notation rad t := (rr a b (x0 + t * j) (y0 + t * k)).
Notation zat t := (z0 + t * l).
Notation ez := (ez prec hz z0).
Notation e0 := (150 * u * (Rm * Rm)).
Notation e := (192 * u * (Rm * Rm)).
Definition FA := facts prec emax Hfmt v W a b hz x0 y0 z0 j k l Rm fa fb fh fx fy fz fj fk fl H.
Ltac dH := pose proof H as H'; destruct H' as [Hv HW Hlow Htop Aa Ab Ah Az HR AaR AbR Hor Hu Hlat Hl Hl2 Fa Fb Fx Fy Fz Fj Fk Fl Fh Fn].

Lemma R_facts : 1 <= Rm * Rm /\ Rm <= Rm * Rm /\ 0 < u * Rm /\ u <= u * Rm /\ u * Rm <= u * (Rm * Rm) /\ 4096 * (u * (Rm * Rm)) <= 1 /\ 0 < a /\ 0 < b.
Proof.
  dH. destruct FA as (U0 & _). assert (1 <= Rm * Rm) by nra. assert (Rm <= Rm * Rm) by nra.
  assert (0 < u * Rm) by (apply Rmult_lt_0_compat; lra). assert (u * 1 <= u * Rm) by (apply Rmult_le_compat_l; lra). assert (u * Rm <= u * (Rm * Rm)) by (apply Rmult_le_compat_l; lra). repeat split; lra.
Qed.
Lemma org_coords : Rabs x0 <= a * Rm /\ Rabs y0 <= b * Rm.
Proof.
  destruct R_facts as (R1 & R2 & R3 & R4 & R5 & R6 & pa & pb). dH. split.
  - apply scaled_le with (y0 / b); [exact pa|exact Hor|lra].
  - apply scaled_le with (x0 / a); [exact pb|rewrite Rplus_comm; exact Hor|lra].
Qed.

(** ** Beyond a cap *)
Lemma near_coord c fo' fg ft o g t x : v <= c -> isf fo' o -> isf fg g -> isf ft t -> isf (@nadd _ FN fo' (@nmul _ FN ft fg)) x ->
  Rabs x <= 2 * c -> Rabs o <= c * Rm -> Rabs (x - (o + t * g)) <= 5.2 * (u * Rm) * c.
Proof.
  intros Hc Ho Hg Ht Hx Lx Lo. destruct FA as (U0 & U1 & L0 & L1 & L2 & Z0 & UH & UL). destruct R_facts as (R1 & R2 & R3 & R4 & R5 & R6 & pa & pb).
  assert (HR : 1 <= Rm) by apply H. assert (Hv : 0 < v) by (apply H).
  pose proof (mul_fin prec emax _ _ _ _ Ht Hg (add_fin_r prec emax _ _ _ Ho (proj1 (proj2 Hx)))) as Hm.
  pose proof (add_fin prec emax _ _ _ _ Ho Hm (proj1 (proj2 Hx))) as Hs. pose proof (isF_fun prec emax _ _ _ Hx Hs) as E.
  pose proof (rd_add_rel prec emax _ _ _ _ Ho Hm) as E1. rewrite <- E in E1. pose proof (rd_max prec emax (t * g)) as E2. set (p := rd (t * g)) in *.
  assert (M0 : u * Rmax (Rabs (t * g)) low0 <= u * Rabs (t * g) + u * low0).
  { rewrite <- Rmult_plus_distr_l. apply Rmult_le_compat_l; [lra|]. pose proof (Rabs_pos (t * g)). apply Rmax_lub; lra. }
  pose proof (Rabs_pos (o + p)) as P1. pose proof (Rabs_pos (t * g)) as P2.
  assert (Q1 : u * Rabs (o + p) <= q * Rabs (o + p)) by (apply Rmult_le_compat_r; lra).
  assert (Q2 : u * Rabs (t * g) <= q * Rabs (t * g)) by (apply Rmult_le_compat_r; lra).
  assert (UQ : u * low0 <= q * low0) by (apply Rmult_le_compat_r; lra).
  assert (cR : c <= c * Rm) by nra.
  assert (S1 : Rabs (o + p) <= 2.001 * c).
  { pose proof (Rabs_triang x (o + p - x)) as T. replace (x + (o + p - x)) with (o + p) in T by ring. rewrite (Rabs_minus_sym (o + p) x) in T. lra. }
  assert (S2 : Rabs p <= 3.001 * (c * Rm)).
  { pose proof (Rabs_triang (o + p) (- o)) as T. replace (o + p + - o) with p in T by ring. rewrite Rabs_Ropp in T. lra. }
  assert (S3 : Rabs (t * g) <= 3.01 * (c * Rm)).
  { pose proof (Rabs_triang p (t * g - p)) as T. replace (p + (t * g - p)) with (t * g) in T by ring. rewrite (Rabs_minus_sym (t * g) p) in T. lra. }
  assert (D1 : u * Rabs (o + p) <= u * (2.001 * (c * Rm))) by (apply Rmult_le_compat_l; lra).
  assert (D2 : Rmax (Rabs (t * g)) low0 <= 3.01 * (c * Rm)) by (apply Rmax_lub; lra).
  assert (D3 : u * Rmax (Rabs (t * g)) low0 <= u * (3.01 * (c * Rm))) by (apply Rmult_le_compat_l; lra).
  assert (uc : 0 < u * (c * Rm)) by (apply Rmult_lt_0_compat; nra).
  replace (x - (o + t * g)) with ((x - (o + p)) + (p - t * g)) by ring. eapply Rle_trans; [apply Rabs_triang|].
  replace (5.2 * (u * Rm) * c) with (5.2 * (u * (c * Rm))) by ring. lra.
Qed.
Lemma disc_shift x y X Y : rr a b x y <= 1 + 36 * u -> Rabs (x - X) <= 5.2 * (u * Rm) * a -> Rabs (y - Y) <= 5.2 * (u * Rm) * b -> rr a b X Y <= 1 + 64 * (u * (Rm * Rm)).
Proof.
  intros Hr Hx Hy. destruct FA as (U0 & U1 & _). destruct R_facts as (R1 & R2 & R3 & R4 & R5 & R6 & pa & pb).
  assert (G : forall c z Z, 0 < c -> (z / c) * (z / c) <= 1 + 36 * u -> Rabs (z - Z) <= 5.2 * (u * Rm) * c -> (Z / c) * (Z / c) <= (z / c) * (z / c) + 10.5 * (u * Rm)).
  { intros c z Z Hc Hz Hd. set (w := z / c) in *. set (d := (z - Z) / c).
    assert (Ed : Z / c = w - d) by (unfold w, d; field; lra). rewrite Ed.
    assert (Ad : Rabs d <= 5.2 * (u * Rm)).
    { unfold d, Rdiv. rewrite Rabs_mult, (Rabs_pos_eq (/ c)) by (apply Rlt_le, Rinv_0_lt_compat, Hc). apply Rmult_le_reg_r with c; [exact Hc|]. rewrite Rmult_assoc, Rinv_l by lra. lra. }
    assert (Aw : Rabs w <= 1.001) by (apply Rabs_le; nra).
    assert (M : Rabs (w * d) <= 1.001 * (5.2 * (u * Rm))) by (rewrite Rabs_mult; apply Rmult_le_compat; try apply Rabs_pos; assumption).
    assert (D : Rabs (d * d) <= 5.2 * (u * Rm) * (5.2 * (u * Rm))) by (rewrite Rabs_mult; apply Rmult_le_compat; try apply Rabs_pos; assumption).
    assert (D' : 5.2 * (u * Rm) * (5.2 * (u * Rm)) <= 0.02 * (u * Rm)).
    { replace (5.2 * (u * Rm) * (5.2 * (u * Rm))) with (27.04 * (u * Rm) * (u * Rm)) by lra. apply Rmult_le_compat_r; lra. }
    apply Rabs_le_inv in M, D. nra. }
  unfold rr in *. pose proof (Rle_0_sqr (x / a)) as S1. pose proof (Rle_0_sqr (y / b)) as S2. unfold Rsqr in S1, S2.
  pose proof (G a x X pa ltac:(lra) Hx). pose proof (G b y Y pb ltac:(lra) Hy). lra.
Qed.

Definition lat_hit (t : R) : Prop := 0 < t /\ Rabs (rad t - 1) <= e0 /\ Rabs (zat t) <= hz + ez /\ forall t', t' <= t -> 1 - e0 <= rad t'.
Lemma beyond_sound sg fc nz rot n ft : sg = 1 \/ sg = -1 -> isf fc (sg * hz) -> hz < sg * z0 ->
  @cyl_beyond _ FN fa fb fh fc nz rot fo fd = Some (n, ft) ->
  exists t, isf ft t /\ (lat_hit t \/
    (0 <= t /\ rad t <= 1 + 64 * (u * (Rm * Rm)) /\ Rabs (zat t - sg * hz) <= ez /\ forall t', 0 <= t' <= t -> hz - ez <= sg * zat t')).
Proof.
  intros Hsg Hc Side. unfold cyl_beyond. cbn [vx vy vz vadd vscale vmap vmap2].
  destruct FA as (U0 & U1 & L0 & L1 & L2 & Z0 & UH & UL). destruct R_facts as (R1 & R2 & R3 & R4 & R5 & R6 & pa & pb). pose proof (zero_isF prec emax) as Zf.
  assert (Ac : Rabs (sg * hz) = hz).
  { rewrite Rabs_mult, (Rabs_pos_eq hz) by lra. destruct Hsg as [-> | ->]; [rewrite Rabs_pos_eq by lra|rewrite (Rabs_left (-1)) by lra]; ring. }
  destruct (@neqb _ FN fl n0) eqn:El; [discriminate|]. set (ft' := @ndiv _ FN (@nsub _ FN fc fz) fl). destruct (@nltb _ FN ft' n0) eqn:Et; [discriminate|].
  destruct (@nleb _ FN _ _) eqn:Ed.
  2: { intros E. destruct (outside_sound prec emax Hfmt v W a b hz x0 y0 z0 j k l Rm fa fb fh fx fy fz fj fk fl H rot n ft E) as (t & Ht & Q). exists t. split; [exact Ht|]. left. exact Q. }
  intros E. injection E as _ <-.
  dH.
  assert (Pr : forall fg g, isf fg g -> fin (@nmul _ FN ft' fg) = true -> exists p, isf (@nmul _ FN ft' fg) p).
  { intros fg g Hg F. destruct (mul_fin_lr prec emax _ _ F) as [F1 _].
    destruct (cap_height prec emax Hfmt v W a b hz x0 y0 z0 j k l Rm fa fb fh fx fy fz fj fk fl H fc (sg * hz) ft' Hc Ac eq_refl F1) as (t & Ht & _).
    eexists. apply (mul_fin prec emax _ _ _ _ Ht Hg F). }
  destruct (cap_accepted prec emax Hfmt v W Hv HW Hlow Htop fa fb a b Fa Fb Aa Ab _ _ (some_sum prec emax _ _ _ Fx (Pr _ _ Fj)) (some_sum prec emax _ _ _ Fy (Pr _ _ Fk)) Ed) as (x & y & Hx & Hy & Hr & Lx & Ly).
  destruct (mul_fin_lr prec emax _ _ (add_fin_r prec emax _ _ _ Fx (proj1 (proj2 Hx)))) as [F1 _].
  destruct (cap_height prec emax Hfmt v W a b hz x0 y0 z0 j k l Rm fa fb fh fx fy fz fj fk fl H fc (sg * hz) ft' Hc Ac eq_refl F1) as (t & Ht & Nl & _ & Eh).
  pose proof (ltb_not prec emax _ _ _ _ Ht Zf Et) as T0. destruct org_coords as [Ox Oy].
  exists t. split; [exact Ht|]. right. split; [exact T0|]. split.
  - apply (disc_shift x y); [exact Hr|apply (near_coord a fx fj ft'); try assumption; lra|apply (near_coord b fy fk ft'); try assumption; lra].
  - split; [exact Eh|]. intros t' Ht'. apply Rabs_le_inv in Eh. rewrite (ez_is prec hz z0) in *.
    destruct Hsg as [-> | ->].
    + assert (hz - 5 * (u * (hz + Rabs z0)) <= z0 <= Rmax z0 (zat t)) by (split; [lra|apply Rmax_l]).
      assert (hz - 5 * (u * (hz + Rabs z0)) <= zat t <= Rmax z0 (zat t)) by (split; [lra|apply Rmax_r]).
      pose proof (lin_between z0 l t t' _ _ H0 H1 Ht'). lra.
    + assert (Rmin z0 (zat t) <= z0 <= - hz + 5 * (u * (hz + Rabs z0))) by (split; [apply Rmin_l|lra]).
      assert (Rmin z0 (zat t) <= zat t <= - hz + 5 * (u * (hz + Rabs z0))) by (split; [apply Rmin_r|lra]).
      pose proof (lin_between z0 l t t' _ _ H0 H1 Ht'). lra.
Qed.
End F.
