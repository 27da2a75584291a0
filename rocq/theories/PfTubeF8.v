(** The cylinder routine in its local coordinates, with rounding: from inside, and all areas together. *)

From Coq Require Import Reals ZArith Bool Lra Lia Psatz Floats.SpecFloat.
From Flocq Require Import Core IEEE754.BinarySingleNaN.
From Verif Require Import Num NumR NumF Vec Cylinder SpecReal SpecIEEE SpecTri SpecTriF SpecTubeF PfIEEE PfIEEE2 PfIEEE3 PfTriF PfDirF PfSphF2 PfPlaneF PfTubeF PfTubeF2 PfTubeF3 PfTubeF4 PfTubeF5 PfTubeF6 PfTubeF7.
Local Open Scope R_scope.

Section F.
Variables prec emax : Z.
Context {Hprec : Prec_gt_0 prec} {Hmax : Prec_lt_emax prec emax}.
Hypothesis Hfmt : usual_format prec emax.
Notation FN := (Fnum prec emax).
Notation isf := (isF prec emax).
Notation rd := (rnd prec emax).
Notation u := (ulpf prec).
Notation low0 := (least emax).
Notation hi0 := (top emax).
Notation q := (/ 1000000).
Notation fin := is_finite_SF.
Variables v W a b hz x0 y0 z0 j k l Rm : R.
Variables fa fb fh fx fy fz fj fk fl : spec_float.
Hypothesis H : tame_local prec emax v W a b hz x0 y0 z0 j k l Rm fa fb fh fx fy fz fj fk fl.
Notation fH := (@ndiv _ FN fh (@n2 _ FN)).
Notation fHn := (@ndiv _ FN (@nopp _ FN fh) (@n2 _ FN)).
Notation fo := (V fx fy fz).
Notation fd := (V fj fk fl).
Notation rad t := (rr a b (x0 + t * j) (y0 + t * k)).
Notation zat t := (z0 + t * l).
Notation ez := (ez prec hz z0).
Notation e0 := (150 * u * (Rm * Rm)).
Notation e := (192 * u * (Rm * Rm)).
Ltac dH := pose proof H as H'; destruct H' as [Hv HW Hlow Htop Aa Ab Ah Az HR AaR AbR Hor Hu Hlat Hl Hl2 Fa Fb Fx Fy Fz Fj Fk Fl Fh Fn].
Definition FA := facts prec emax Hfmt v W a b hz x0 y0 z0 j k l Rm fa fb fh fx fy fz fj fk fl H.
Definition RF := R_facts prec emax Hfmt v W a b hz x0 y0 z0 j k l Rm fa fb fh fx fy fz fj fk fl H.

Lemma rd_rd x : rd (rd x) = rd x.
Proof. apply round_generic; [typeclasses eauto|]. apply generic_format_round; typeclasses eauto. Qed.
Lemma ratio_small : 16 * low0 <= v / W * (v / W) /\ 0 < v / W <= 1.
Proof.
  dH. destruct FA as (U0 & U1 & L0 & L1 & L2 & Z0 & UH & UL). pose proof (low0_inv emax) as L. pose proof (pow_R1_Rle W 4 HW) as W4.
  assert (P : 0 < v / W) by (apply Rdiv_lt_0_compat; lra).
  assert (Hq : v / W <= 1). { apply Rmult_le_reg_r with W; [lra|]. unfold Rdiv. rewrite Rmult_assoc, Rinv_l by lra. lra. }
  assert (T : hi0 = 4 / low0) by (unfold Rdiv; rewrite L; lra).
  split; [|lra].
  assert (F : 256 * (low0 * low0) <= (v / W * (v / W)) * (v / W * (v / W))).
  { replace ((v / W * (v / W)) * (v / W * (v / W))) with (v ^ 4 * / W ^ 4) by (field; lra).
    assert (I : 256 * low0 <= / W ^ 4).
    { replace (256 * low0) with (/ (hi0 / 1024)) by (rewrite T; field; lra). apply Rinv_le; lra. }
    replace (256 * (low0 * low0)) with (low0 * (256 * low0)) by ring. apply Rmult_le_compat; lra. }
  set (z := v / W * (v / W)) in *. assert (0 < z) by (apply Rmult_lt_0_compat; exact P). nra.
Qed.
Lemma speed_small s : 0 < s -> a * s <= W -> s * low0 <= v / 16 /\ s * low0 <= 1 / 16.
Proof.
  intros S0 As. dH. destruct ratio_small as [R1 [R2 R3]]. destruct FA as (U0 & U1 & L0 & _).
  assert (s <= W / v). { apply Rmult_le_reg_r with v; [lra|]. unfold Rdiv. rewrite Rmult_assoc, Rinv_l by lra. nra. }
  assert (s * low0 <= W / v * (v / W * (v / W) / 16)) by (apply Rmult_le_compat; lra).
  replace (W / v * (v / W * (v / W) / 16)) with (v / W / 16) in H1 by (field; lra).
  assert (v / W <= v). { apply Rmult_le_reg_r with W; [lra|]. unfold Rdiv. rewrite Rmult_assoc, Rinv_l by lra. nra. }
  lra.
Qed.

(** Where the ray crosses a cap, against where it leaves the tube.  (Also for the mirrored ray.) *)
Lemma cap_first s zz ll t0 : 0 < s -> a * s <= W -> Rabs zz <= hz -> (exists fzz, isf fzz zz) -> v <= ll -> 0 < t0 -> s * t0 <= 2.02 * Rm ->
  hz < rd (zz + rd (ll * t0)) -> s * (rd (rd (hz - zz) / ll) - t0) <= 7 * (u * Rm).
Proof.
  intros S0 As Az' (fzz & Fzz) Hll T0 St Hx. dH. destruct FA as (U0 & U1 & L0 & L1 & L2 & Z0 & UH & UL). destruct RF as (R1 & R2 & R3 & R4 & R5 & R6 & pa & pb).
  destruct (speed_small s S0 As) as [Sl Sl1].
  assert (B1 : hz < zz + rd (ll * t0)).
  { destruct (Rle_lt_dec (zz + rd (ll * t0)) hz) as [L|L]; [exfalso|exact L]. pose proof (rd_le prec emax _ _ _ Fh L). lra. }
  set (p := rd (ll * t0)) in *. assert (B2 : rd (hz - zz) <= p).
  { pose proof (rd_rd (ll * t0)) as E. fold p in E. rewrite <- E. apply (rd_mono prec emax). lra. }
  assert (lt0 : 0 < ll * t0) by (apply Rmult_lt_0_compat; lra).
  pose proof (rd_max prec emax (ll * t0)) as E1. rewrite (Rabs_pos_eq (ll * t0)) in E1 by lra. fold p in E1. apply Rabs_le_inv in E1.
  assert (M1 : u * Rmax (ll * t0) low0 <= u * (ll * t0 + low0)) by (apply Rmult_le_compat_l; [lra|]; apply Rmax_lub; lra).
  assert (P0 : 0 <= p) by (apply (rd_pos prec emax); lra).
  assert (PL : p / ll <= t0 + u * t0 + u * (low0 / ll)).
  { apply Rmult_le_reg_r with ll; [lra|]. replace (p / ll * ll) with p by (field; lra). replace ((t0 + u * t0 + u * (low0 / ll)) * ll) with (ll * t0 + u * (ll * t0) + u * low0) by (field; lra). lra. }
  assert (D : rd (rd (hz - zz) / ll) <= rd (p / ll)).
  { apply (rd_mono prec emax). apply Rmult_le_compat_r; [apply Rlt_le, Rinv_0_lt_compat; lra|exact B2]. }
  assert (pl0 : 0 <= p / ll) by (apply Rmult_le_pos; [exact P0|apply Rlt_le, Rinv_0_lt_compat; lra]).
  pose proof (rd_max prec emax (p / ll)) as E2. rewrite (Rabs_pos_eq (p / ll)) in E2 by exact pl0. apply Rabs_le_inv in E2.
  assert (M2 : u * Rmax (p / ll) low0 <= u * (p / ll + low0)) by (apply Rmult_le_compat_l; [lra|]; apply Rmax_lub; lra).
  set (c := low0 / ll) in *. assert (c0 : 0 < c) by (apply Rdiv_lt_0_compat; lra).
  assert (sc : s * c <= 1 / 16).
  { unfold c. replace (s * (low0 / ll)) with (s * low0 / ll) by (field; lra). apply Rmult_le_reg_r with ll; [lra|]. replace (s * low0 / ll * ll) with (s * low0) by (field; lra). lra. }
  assert (Up : rd (p / ll) <= t0 + u * t0 + u * c + u * (t0 + u * t0 + u * c + low0)).
  { assert (u * (p / ll + low0) <= u * (t0 + u * t0 + u * c + low0)) by (apply Rmult_le_compat_l; lra). lra. }
  set (w := s * t0) in *. assert (w0 : 0 < w) by (apply Rmult_lt_0_compat; lra).
  apply Rle_trans with (s * (u * t0 + u * c + u * (t0 + u * t0 + u * c + low0))); [apply Rmult_le_compat_l; lra|].
  replace (s * (u * t0 + u * c + u * (t0 + u * t0 + u * c + low0))) with (u * (w + s * c + (w + u * w + u * (s * c) + s * low0))) by (unfold w; ring).
  replace (7 * (u * Rm)) with (u * (7 * Rm)) by ring. apply Rmult_le_compat_l; [lra|].
  assert (u * w <= 1 * w) by (apply Rmult_le_compat_r; lra). assert (u * (s * c) <= 1 * (s * c)) by (apply Rmult_le_compat_r; [apply Rmult_le_pos; lra|lra]).
  assert (u * w <= q * w) by (apply Rmult_le_compat_r; lra). lra.
Qed.

(** ** From inside *)
Section In.
Hypothesis Inz : Rabs z0 <= hz.
Hypothesis Inr : rr a b x0 y0 < 1 - e.

Lemma rad0 : rad 0 = rr a b x0 y0. Proof. now rewrite !Rmult_0_l, !Rplus_0_r. Qed.
(** The outward root, and the height test there. *)
Lemma inside_root : ~ (j = 0 /\ k = 0) -> exists s c t0 t1, 0 < s /\ rr a b j k = s * s /\ a * s <= W /\
  isf (@cyl_C _ FN fa fb fx fy fj fk) c /\ 0 <= c /\
  isf (@cyl_t0 _ FN fa fb fx fy fj fk) t0 /\ isf (@cyl_t1 _ FN fa fb fx fy fj fk) t1 /\ t1 < 0 < t0 /\ s * t0 <= 2.02 * Rm /\
  Rabs (rad t0 - 1) <= e0 /\ forall t, 0 <= t <= t0 -> rad t <= 1 + e0.
Proof.
  intros N. destruct (lat prec emax v W a b hz x0 y0 z0 j k l Rm fa fb fh fx fy fz fj fk fl H N) as (s & S0 & S1 & Tm). dH.
  destruct RF as (R1 & R2 & R3 & R4 & R5 & R6 & pa & pb).
  destruct (lateral prec emax Hfmt v W fa fb fx fy fj fk a b x0 y0 j k Rm s Tm) as (c & Hc & Neg & Pos); try assumption.
  assert (ee : e0 <= e) by lra.
  destruct (Rle_lt_dec 0 c) as [C0|C0].
  2: { specialize (Neg C0 0). rewrite rad0 in Neg. lra. }
  destruct (Pos C0) as (t0 & t1 & F0 & F1 & O10 & A0 & _ & Q0 & Q1 & Bef & Inn). exists s, c, t0, t1.
  assert (T0 : 0 < t0). { destruct (Rle_lt_dec t0 0) as [L|L]; [|exact L]. specialize (Bef 0 (or_intror L)). rewrite rad0 in Bef. lra. }
  assert (T1 : t1 < 0). { destruct (Rle_lt_dec 0 t1) as [L|L]; [|exact L]. specialize (Bef 0 (or_introl L)). rewrite rad0 in Bef. lra. }
  repeat (split; [first [assumption|apply Tm|split; assumption|apply Rabs_le_inv in A0; lra]|]).
  intros t Ht. apply Inn. lra.
Qed.
Lemma lat_dec : (j = 0 /\ k = 0) \/ ~ (j = 0 /\ k = 0). Proof. destruct (Req_dec j 0); destruct (Req_dec k 0); tauto. Qed.

(** The computed height at the root, and what a failed test means. *)
Lemma height_val s t0 ft : 0 < s -> rr a b j k = s * s -> a * s <= W -> v <= a * s -> isf ft t0 -> 0 < t0 -> s * t0 <= 2.02 * Rm ->
  isf (@nadd _ FN fz (@nmul _ FN fl ft)) (rd (z0 + rd (l * t0))).
Proof.
  intros S0 Ss As Av Ht T0 St. dH. destruct ratio_small as [R1 [R2 R3]]. pose proof (low0_inv emax) as L. destruct FA as (U0 & U1 & L0 & L1 & L2 & Z0 & UH & UL).
  assert (B : Rabs (l * t0) <= hi0 / 8).
  { rewrite Rabs_mult, (Rabs_pos_eq t0) by lra.
    assert (t0 <= 2.02 * (W / v)).
    { apply Rmult_le_reg_l with (a * s); [lra|]. apply Rle_trans with (a * (2.02 * Rm)); [nra|]. apply Rle_trans with (2.02 * W); [lra|].
      apply Rle_trans with (v * (2.02 * (W / v))); [right; field; lra|]. apply Rmult_le_compat_r; [|exact Av]. assert (0 < W / v) by (apply Rdiv_lt_0_compat; lra). lra. }
    assert (W / v <= hi0 / 64).
    { replace (W / v) with (/ (v / W)) by (field; lra). replace (hi0 / 64) with (/ (16 * low0)) by (rewrite Rinv_mult, L; lra). apply Rinv_le; nra. }
    apply Rle_trans with (2 * (2.02 * (W / v))); [|lra]. apply Rmult_le_compat; [apply Rabs_pos|lra..]. }
  assert (hb : 1024 <= hi0) by (pose proof (pow_R1_Rle W 4 HW); lra).
  assert (Hm : isf (@nmul _ FN fl ft) (rd (l * t0))) by (apply (isF_mul prec emax); [assumption..|]; apply (rd_half_top prec emax (p6 prec emax Hfmt)); lra).
  apply (isF_add prec emax); [assumption..|]. apply (rd_half_top prec emax (p6 prec emax Hfmt)).
  pose proof (rd_off prec emax Hfmt v W a b hz x0 y0 z0 j k l Rm fa fb fh fx fy fz fj fk fl H (l * t0)) as E.
  assert (u * Rabs (l * t0) <= 1 * Rabs (l * t0)) by (apply Rmult_le_compat_r; [apply Rabs_pos|lra]). assert (u * low0 <= 1 * low0) by (apply Rmult_le_compat_r; lra).
  pose proof (Rabs_triang (rd (l * t0) - l * t0) (l * t0)) as T. replace (rd (l * t0) - l * t0 + l * t0) with (rd (l * t0)) in T by ring.
  eapply Rle_trans; [apply Rabs_triang|]. pose proof (pow_R1_Rle W 4 HW). pose proof (W_pow v W Hv HW) as (W1 & W2 & W3 & W4). lra.
Qed.

Notation ltb_val := (ltb_val prec emax). Notation ltb_not := (ltb_not prec emax). Notation leb_not := (leb_not prec emax).
Lemma ltb_true x y c d : isf x c -> isf y d -> c < d -> @nltb _ FN x y = true.
Proof. intros Hx Hy L. rewrite (isF_ltb prec emax _ _ _ _ Hx Hy). unfold Rltb. destruct (Rlt_dec c d); [reflexivity|lra]. Qed.
Lemma ltb_false x y c d : isf x c -> isf y d -> d <= c -> @nltb _ FN x y = false.
Proof. intros Hx Hy L. rewrite (isF_ltb prec emax _ _ _ _ Hx Hy). unfold Rltb. destruct (Rlt_dec c d); [lra|reflexivity]. Qed.
Lemma leb_true x y c d : isf x c -> isf y d -> c <= d -> @nleb _ FN x y = true.
Proof. intros Hx Hy L. rewrite (isF_leb prec emax _ _ _ _ Hx Hy). unfold Rleb. destruct (Rle_dec c d); [reflexivity|lra]. Qed.
Lemma leb_false x y c d : isf x c -> isf y d -> d < c -> @nleb _ FN x y = false.
Proof. intros Hx Hy L. rewrite (isF_leb prec emax _ _ _ _ Hx Hy). unfold Rleb. destruct (Rle_dec c d); [lra|reflexivity]. Qed.
Lemma eqb_zero x c : isf x c -> @neqb _ FN x (@n0 _ FN) = false -> c <> 0.
Proof. intros Hx E ->. destruct (zero_F prec emax _ Hx) as (s & ->). discriminate E. Qed.
Lemma eqb_zero' x c : isf x c -> c = 0 -> @neqb _ FN x (@n0 _ FN) = true.
Proof. intros Hx ->. destruct (zero_F prec emax _ Hx) as (s & ->). reflexivity. Qed.

(** A cap from inside. *)
Lemma caps_from rot : l <> 0 -> exists n ft sg t, @cyl_caps _ FN fh rot fo fd = Some (n, ft) /\ isf ft t /\ (sg = 1 \/ sg = -1) /\ 0 < sg * l /\
  t = rd (rd (sg * hz - z0) / l) /\ 0 <= t /\ Rabs (zat t - sg * hz) <= ez.
Proof.
  intros Nl. dH. pose proof (zero_isF prec emax) as Zf. destruct ratio_small as [R1 [R2 R3]]. pose proof (low0_inv emax) as L. destruct FA as (U0 & U1 & L0 & L1 & L2 & Z0 & UH & UL).
  unfold cyl_caps. cbn [vx vy vz].
  assert (Av : v <= Rabs l) by (destruct Hl as [|Hl]; [contradiction|exact Hl]).
  assert (hb : 1024 * W <= hi0) by (pose proof (W_pow v W Hv HW); lra).
  assert (WV : W / v <= hi0 / 64).
  { replace (W / v) with (/ (v / W)) by (field; lra). replace (hi0 / 64) with (/ (16 * low0)) by (rewrite Rinv_mult, L; lra). apply Rinv_le; nra. }
  assert (G : forall fc sg, isf fc (sg * hz) -> sg = 1 \/ sg = -1 -> 0 < sg * l -> let ft := @ndiv _ FN (@nsub _ FN fc fz) fl in
    exists t, isf ft t /\ t = rd (rd (sg * hz - z0) / l) /\ 0 <= t /\ Rabs (zat t - sg * hz) <= ez).
  { intros fc sg Hc Hsg Hsl ft. set (Q := rd (sg * hz - z0)).
    assert (Ac : Rabs (sg * hz) = hz).
    { rewrite Rabs_mult, (Rabs_pos_eq hz) by lra. destruct Hsg as [-> | ->]; [rewrite Rabs_pos_eq by lra|rewrite (Rabs_left (-1)) by lra]; ring. }
    assert (D : Rabs (sg * hz - z0) <= 2 * hz) by (unfold Rminus; eapply Rle_trans; [apply Rabs_triang|]; rewrite Rabs_Ropp, Ac; lra).
    assert (Hq : isf (@nsub _ FN fc fz) Q) by (apply (isF_sub prec emax); [assumption..|]; apply (rd_half_top prec emax (p6 prec emax Hfmt)); lra).
    pose proof (rd_sub_rel prec emax _ _ _ _ Hc Fz) as E1. fold Q in E1.
    assert (AQ : Rabs Q <= 2.002 * hz).
    { assert (u * Rabs (sg * hz - z0) <= q * Rabs (sg * hz - z0)) by (apply Rmult_le_compat_r; [apply Rabs_pos|lra]).
      pose proof (Rabs_triang (Q - (sg * hz - z0)) (sg * hz - z0)) as T. replace (Q - (sg * hz - z0) + (sg * hz - z0)) with Q in T by ring. lra. }
    assert (AT : Rabs (Q / l) <= hi0 / 2).
    { unfold Rdiv at 1. rewrite Rabs_mult, Rabs_inv. apply Rle_trans with (2.002 * W * / v); [|unfold Rdiv in WV; lra].
      apply Rmult_le_compat; [apply Rabs_pos|apply Rlt_le, Rinv_0_lt_compat; lra|lra|]. apply Rinv_le; lra. }
    assert (Ht : isf ft (rd (Q / l))) by (apply (isF_div prec emax); [assumption..|]; apply (rd_half_top prec emax (p6 prec emax Hfmt)), AT).
    destruct (cap_height prec emax Hfmt v W a b hz x0 y0 z0 j k l Rm fa fb fh fx fy fz fj fk fl H fc (sg * hz) ft Hc Ac eq_refl (proj1 (proj2 Ht))) as (t & Ht' & _ & Et & Eh).
    exists t. split; [exact Ht'|]. split; [exact Et|]. split; [|exact Eh]. rewrite Et. apply (rd_pos prec emax).
    apply Rabs_le_inv in Inz.
    destruct Hsg as [-> | ->].
    - apply Rmult_le_pos; [apply (rd_pos prec emax); lra|apply Rlt_le, Rinv_0_lt_compat; lra].
    - replace (rd (-1 * hz - z0) / l) with (- rd (-1 * hz - z0) * / - l) by (field; exact Nl). apply Rmult_le_pos; [|apply Rlt_le, Rinv_0_lt_compat; lra].
      assert (rd (-1 * hz - z0) <= 0) by (apply (rd_neg prec emax); lra). lra. }
  destruct (@nltb _ FN fl n0) eqn:E1.
  - pose proof (ltb_val _ _ _ _ Fl Zf E1). destruct (G fHn (-1)) as (t & G1 & G2 & G3 & G4); [replace (-1 * hz) with (- hz) by ring; exact Fn|right; reflexivity|lra|].
    eexists _, _, (-1), t. split; [reflexivity|]. split; [exact G1|]. split; [right; reflexivity|]. split; [lra|]. split; [exact G2|]. split; [exact G3|exact G4].
  - pose proof (ltb_not _ _ _ _ Fl Zf E1). assert (lp : 0 < l) by (destruct (Req_dec l 0); [contradiction|lra]). rewrite (ltb_true _ _ _ _ Zf Fl lp).
    destruct (G fH 1) as (t & G1 & G2 & G3 & G4); [rewrite Rmult_1_l; exact Fh|left; reflexivity|lra|].
    eexists _, _, 1, t. split; [reflexivity|]. split; [exact G1|]. split; [left; reflexivity|]. split; [lra|]. split; [exact G2|]. split; [exact G3|exact G4].
Qed.

(** What a hit from inside means. *)
Definition in_hit (t : R) : Prop := 0 <= t /\ rad t <= 1 + e /\ Rabs (zat t) <= hz + ez /\ (1 - e <= rad t \/ hz - ez <= Rabs (zat t)).
Lemma cap_in_hit sg t : sg = 1 \/ sg = -1 -> 0 <= t -> rad t <= 1 + e -> Rabs (zat t - sg * hz) <= ez -> in_hit t.
Proof.
  intros Hsg T0 Hr Hz. split; [exact T0|]. split; [exact Hr|]. destruct FA as (U0 & U1 & L0 & L1 & L2 & Z0 & UH & UL).
  assert (0 < v) by apply H.
  destruct Hsg as [-> | ->]; apply Rabs_le_inv in Hz; (split; [apply Rabs_le; lra|right]); [pose proof (Rle_abs (zat t)); lra|].
  pose proof (Rle_abs (- zat t)) as A. rewrite Rabs_Ropp in A. lra.
Qed.
Lemma lat_in_hit t : 0 < t -> Rabs (rad t - 1) <= e0 -> Rabs (zat t) <= hz + ez -> in_hit t.
Proof.
  intros T0 Hr Hz. destruct RF as (R1 & R2 & R3 & R4 & R5 & R6 & pa & pb). apply Rabs_le_inv in Hr.
  split; [lra|]. split; [lra|]. split; [exact Hz|left; lra].
Qed.
Lemma area4_sound rot : ~ (l = 0 /\ (Rabs z0 = hz \/ (j = 0 /\ k = 0))) ->
  exists n ft t, @cyl_area4 _ FN fa fb fh rot fo fd = Some (n, ft) /\ isf ft t /\ in_hit t.
Proof.
  intros Nd. pose proof (zero_isF prec emax) as Zf. destruct RF as (R1 & R2 & R3 & R4 & R5 & R6 & pa & pb). destruct FA as (U0 & U1 & L0 & L1 & L2 & Z0 & UH & UL).
  pose proof H as Hall. dH. unfold cyl_area4, cyl_inside. cbn [vx vy vz vadd vscaler vmap vmap2].
  destruct (@neqb _ FN fl n0) eqn:El.
  - pose proof (isF_eqb prec emax _ _ _ _ Fl Zf El) as l0.
    assert (Nz : Rabs z0 <> hz) by (intros E; apply Nd; split; [exact l0|left; exact E]).
    assert (Njk : ~ (j = 0 /\ k = 0)) by (intros E; apply Nd; split; [exact l0|right; exact E]).
    destruct (@neqb _ FN fz fHn) eqn:E1. { exfalso. apply Nz. rewrite (isF_eqb prec emax _ _ _ _ Fz Fn E1), Rabs_Ropp, Rabs_pos_eq; lra. }
    destruct (@neqb _ FN fz fH) eqn:E2. { exfalso. apply Nz. rewrite (isF_eqb prec emax _ _ _ _ Fz Fh E2), Rabs_pos_eq; lra. }
    cbn [orb]. destruct (inside_root Njk) as (s & c & t0 & t1 & S0 & S1 & As & Hc & C0 & F0 & F1 & (T1 & T0) & St & Q0 & Inn).
    rewrite (ltb_false _ _ _ _ Hc Zf C0). rewrite (ltb_false _ _ _ _ Zf F1 (Rlt_le _ _ T1)). cbn [andb]. rewrite (ltb_true _ _ _ _ Zf F0 T0). cbn [andb].
    assert (Av : v <= a * s). { destruct Hlat as [E|(s' & S' & E & V' & _)]; [contradiction|]. assert (s' = s) by (apply Rsqr_inj; [lra|lra|unfold Rsqr; congruence]). subst s'. apply V'. }
    pose proof (height_val s t0 _ S0 S1 As Av F0 T0 St) as Hi. rewrite l0, Rmult_0_l, (rd_0 prec emax), Rplus_0_r, (rd_id prec emax _ _ Fz) in Hi.
    pose proof (Rabs_le_inv _ _ Inz) as Iz. rewrite (leb_true _ _ _ _ Hi Fh) by lra. rewrite (leb_true _ _ _ _ Fn Hi) by lra. cbn [andb].
    eexists _, _, t0. split; [reflexivity|]. split; [exact F0|]. apply lat_in_hit; [exact T0|exact Q0|]. rewrite l0, Rmult_0_r, Rplus_0_r, (ez_is prec hz z0). lra.
  - pose proof (eqb_zero _ _ Fl El) as Nl.
    assert (Capped : (forall sg t, sg = 1 \/ sg = -1 -> 0 < sg * l -> t = rd (rd (sg * hz - z0) / l) -> 0 <= t -> rad t <= 1 + e) ->
      exists n ft t, @cyl_caps _ FN fh rot fo fd = Some (n, ft) /\ isf ft t /\ in_hit t).
    { intros Hr. destruct (caps_from rot Nl) as (n & ft & sg & t & E & Ht & Hsg & Sl & Et & T0 & Eh). exists n, ft, t. split; [exact E|]. split; [exact Ht|].
      apply (cap_in_hit sg); [exact Hsg|exact T0|apply (Hr sg); assumption|exact Eh]. }
    destruct (@neqb _ FN fj n0 && @neqb _ FN fk n0)%bool eqn:Ejk.
    + apply andb_prop in Ejk as [Ej Ek]. pose proof (isF_eqb prec emax _ _ _ _ Fj Zf Ej) as j0. pose proof (isF_eqb prec emax _ _ _ _ Fk Zf Ek) as k0.
      change (@nmul _ FN (@nmul _ FN (@nmul _ FN fa fa) fb) fb) with (fK prec emax fa fb). fold (cap_sum prec emax fa fb fx fy).
      destruct (@neqb _ FN (cap_sum prec emax fa fb fx fy) (fK prec emax fa fb)) eqn:Eq.
      { exfalso. pose proof (org_eq_test prec emax Hfmt v W Hv HW Hlow Htop fa fb a b Fa Fb Aa Ab Rm fx fy x0 y0 HR AaR AbR Fx Fy Hor Eq). lra. }
      apply Capped. intros sg t _ _ _ _. rewrite j0, k0, !Rmult_0_r, !Rplus_0_r. lra.
    + assert (Njk : ~ (j = 0 /\ k = 0)). { intros [E1 E2]. rewrite (eqb_zero' _ _ Fj E1), (eqb_zero' _ _ Fk E2) in Ejk. discriminate Ejk. }
      destruct (inside_root Njk) as (s & c & t0 & t1 & S0 & S1 & As & Hc & C0 & F0 & F1 & (T1 & T0) & St & Q0 & Inn).
      rewrite (ltb_false _ _ _ _ Hc Zf C0). rewrite (ltb_false _ _ _ _ Zf F1 (Rlt_le _ _ T1)). cbn [andb]. rewrite (ltb_true _ _ _ _ Zf F0 T0). cbn [andb].
      assert (Av : v <= a * s). { destruct Hlat as [E|(s' & S' & E & V' & _)]; [contradiction|]. assert (s' = s) by (apply Rsqr_inj; [lra|lra|unfold Rsqr; congruence]). subst s'. apply V'. }
      pose proof (height_val s t0 _ S0 S1 As Av F0 T0 St) as Hi. pose proof (Rabs_le_inv _ _ Inz) as Iz.
      assert (Avl : v <= Rabs l) by (destruct Hl as [|Hl]; [contradiction|exact Hl]).
      assert (Shift : forall t, s * (t - t0) <= 7 * (u * Rm) -> 0 <= t -> rad t <= 1 + e).
      { intros t Sh Tt. destruct (Rle_lt_dec t t0) as [L|L]; [pose proof (Inn t ltac:(lra)); lra|].
        apply Rabs_le_inv in Q0. pose proof (rr_shift a b (x0 + t0 * j) (y0 + t0 * k) j k s (t - t0) 1.02 pa pb S1 (Rlt_le _ _ S0) ltac:(lra) ltac:(lra)) as R.
        replace (x0 + t0 * j + (t - t0) * j) with (x0 + t * j) in R by ring. replace (y0 + t0 * k + (t - t0) * k) with (y0 + t * k) in R by ring.
        rewrite Rabs_pos_eq in R by lra. rewrite (Rmult_comm (t - t0) s) in R. set (w := s * (t - t0)) in *. assert (w0 : 0 <= w) by (apply Rmult_le_pos; lra).
        assert (w * w <= 7 * (u * Rm) * (7 * (u * Rm))) by (apply Rmult_le_compat; lra).
        assert (7 * (u * Rm) * (7 * (u * Rm)) <= 1 * (u * Rm)) by (replace (7 * (u * Rm) * (7 * (u * Rm))) with (49 * (u * Rm) * (u * Rm)) by ring; apply Rmult_le_compat_r; lra). lra. }
      assert (Sg : (0 < l -> 0 <= rd (l * t0)) /\ (l < 0 -> rd (l * t0) <= 0)) by (split; intros; [apply (rd_pos prec emax), Rmult_le_pos; lra|apply (rd_neg prec emax); assert (0 <= - l * t0) by (apply Rmult_le_pos; lra); lra]).
      assert (Mz : (0 < l -> z0 <= rd (z0 + rd (l * t0))) /\ (l < 0 -> rd (z0 + rd (l * t0)) <= z0)).
      { destruct Sg as [Sp Sn]. split; intros L; [specialize (Sp L)|specialize (Sn L)]; rewrite <- (rd_id prec emax _ _ Fz); [rewrite (rd_id prec emax _ _ Fz) at 2|rewrite (rd_id prec emax _ _ Fz) at 1]; apply (rd_mono prec emax); lra. }
      destruct (@nleb _ FN (@nadd _ FN fz (@nmul _ FN fl (cyl_t0 fa fb fx fy fj fk))) fH) eqn:B1;
        [destruct (@nleb _ FN fHn (@nadd _ FN fz (@nmul _ FN fl (cyl_t0 fa fb fx fy fj fk)))) eqn:B2|]; cbn [andb].
      * eexists _, _, t0. split; [reflexivity|]. split; [exact F0|]. apply lat_in_hit; [exact T0|exact Q0|].
        apply (height_ok prec emax Hfmt v W a b hz x0 y0 z0 j k l Rm fa fb fh fx fy fz fj fk fl Hall _ _ F0 B1 B2).
      * pose proof (leb_not _ _ _ _ Fn Hi B2) as Lo.
        assert (ln : l < 0) by (destruct (Rle_lt_dec 0 l) as [L|L]; [|exact L]; exfalso; destruct Mz as [Mz _]; assert (0 < l) by lra; specialize (Mz ltac:(assumption)); lra).
        apply Capped. intros sg t Hsg Sl Et Tt. apply Shift; [|exact Tt]. destruct Hsg as [-> | ->]; [exfalso; lra|].
        rewrite (Rabs_left l ln) in Avl.
        pose proof (cap_first s (- z0) (- l) t0 S0 As ltac:(rewrite Rabs_Ropp; exact Inz) ltac:(eexists; apply (isF_opp prec emax), Fz) Avl T0 St) as Cf.
        replace (- z0 + rd (- l * t0)) with (- (z0 + rd (l * t0))) in Cf by (replace (- l * t0) with (- (l * t0)) by ring; rewrite (rd_opp prec emax); ring).
        rewrite (rd_opp prec emax) in Cf. replace (rd (hz - - z0) / - l) with (rd (-1 * hz - z0) / l) in Cf.
        2: { replace (-1 * hz - z0) with (- (hz - - z0)) by ring. rewrite (rd_opp prec emax). field. lra. }
        rewrite Et. apply Cf. lra.
      * pose proof (leb_not _ _ _ _ Hi Fh B1) as Lo.
        assert (lp : 0 < l) by (destruct (Rle_lt_dec l 0) as [L|L]; [|exact L]; exfalso; destruct Mz as [_ Mz]; assert (l < 0) by lra; specialize (Mz ltac:(assumption)); lra).
        apply Capped. intros sg t Hsg Sl Et Tt. apply Shift; [|exact Tt]. destruct Hsg as [-> | ->]; [|exfalso; lra].
        rewrite (Rabs_pos_eq l) in Avl by lra. rewrite Et, Rmult_1_l. apply (cap_first s z0 l t0); try assumption. eexists. exact Fz.
Qed.
End In.
End F.
