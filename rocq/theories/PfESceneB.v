(** The bounds of cylinders whose matrix maps axes to axes, and Embree's traversal. *)

From Coq Require Import Reals ZArith List Bool Lra Lia Psatz Floats.SpecFloat.
From Flocq Require Import Core IEEE754.BinarySingleNaN.
From Verif Require Import Num NumR NumF Vec Ray Bvh Cylinder Scene Embree EmbreeScene SpecReal SpecIEEE SpecTriF SpecSphF SpecPlane SpecPlaneF SpecScene SpecEmbScene SpecEmbF SpecTubeF SpecTubeN SpecAxis.
From Verif Require Import PfIEEE PfIEEE2 PfIEEE3 PfTriF PfDirF PfX PfSphF2 PfPlaneF PfPlaneF3 PfPlaneF6 PfTubeF3 PfTubeF6 PfTubeF8 PfTubeF9 PfTubeG PfECylF PfECylO PfESceneC.
Import ListNotations.

(** One axis of the box. *)
Section Any.
Context {T : Type} {N : num T}.
Local Open Scope num_scope.
Definition pick (f : T -> list T -> T) (fc fa fb fh : T) (row : vec T) : T :=
  f (fc + dot row (V fa n0 n0)) [fc + dot row (V n0 fb n0); fc - dot row (V fa n0 n0); fc - dot row (V n0 fb n0); fc + dot row (V n0 n0 fh); fc - dot row (V n0 n0 fh)].
Lemma ecyl_axes c a b h m g : ecyl_bounds (ECyl c a b h m g) 0 =
  Ok (V (pick smin_list (vx c) a b (h / n2) (vx m)) (pick smin_list (vy c) a b (h / n2) (vy m)) (pick smin_list (vz c) a b (h / n2) (vz m)),
      V (pick smax_list (vx c) a b (h / n2) (vx m)) (pick smax_list (vy c) a b (h / n2) (vy m)) (pick smax_list (vz c) a b (h / n2) (vz m))).
Proof. reflexivity. Qed.
End Any.

Local Open Scope R_scope.
Section F.
Variables prec emax : Z.
Context {Hprec : Prec_gt_0 prec} {Hmax : Prec_lt_emax prec emax}.
Hypothesis Hfmt : usual_format prec emax.
Notation FN := (Fnum prec emax).
Notation isf := (isF prec emax).
Notation rd := (rnd prec emax).
Notation u := (ulpf prec).
Notation hi0 := (top emax).
Notation low0 := (least emax).
Variable M : R.
Hypothesis HM : scale_ok prec emax M.
Notation sign_ x := (x = 0 \/ x = 1 \/ x = -1).

Lemma small_top x : Rabs x <= 2 * M -> Rabs (rd x) < hi0.
Proof. intros H. destruct (uM_facts prec emax Hfmt M HM) as (_ & _ & V1 & _ & _ & _ & _ & _ & T1 & _). apply (rd_half_top prec emax (p6 prec emax Hfmt)). lra. Qed.
Lemma keep_r x y a : isf x a -> isf y 0 -> Rabs a <= M -> isf (@nadd _ FN x y) a.
Proof.
  intros Hx Hy B. assert (1 <= M) by apply HM. pose proof (isF_add prec emax _ _ _ _ Hx Hy) as P. rewrite Rplus_0_r in P. specialize (P (small_top a ltac:(lra))).
  rewrite (rd_id prec emax _ _ Hx) in P. exact P.
Qed.
Lemma keep_l x y a : isf x 0 -> isf y a -> Rabs a <= M -> isf (@nadd _ FN x y) a.
Proof.
  intros Hx Hy B. assert (1 <= M) by apply HM. pose proof (isF_add prec emax _ _ _ _ Hx Hy) as P. rewrite Rplus_0_l in P. specialize (P (small_top a ltac:(lra))).
  rewrite (rd_id prec emax _ _ Hy) in P. exact P.
Qed.
Lemma signed_abs q a : sign_ q -> Rabs a <= M -> Rabs (q * a) <= M.
Proof.
  intros [ -> |[ -> | -> ]] H; [rewrite Rmult_0_l, Rabs_R0; pose proof (Rabs_pos a); lra|rewrite Rmult_1_l; exact H|].
  replace (-1 * a) with (- a) by ring. rewrite Rabs_Ropp. exact H.
Qed.
Lemma signed_mul x y q a : isf x q -> isf y a -> sign_ q -> Rabs a <= M -> isf (@nmul _ FN x y) (q * a).
Proof.
  intros Hx Hy S B. assert (1 <= M) by apply HM. pose proof (signed_abs q a S B) as G. pose proof (isF_mul prec emax _ _ _ _ Hx Hy (small_top (q * a) ltac:(lra))) as P.
  replace (rd (q * a)) with (q * a) in P; [exact P|]. symmetry. destruct S as [ -> |[ -> | -> ]].
  - rewrite Rmult_0_l. apply (rd_0 prec emax).
  - rewrite Rmult_1_l. apply (rd_id prec emax _ _ Hy).
  - replace (-1 * a) with (- a) by ring. rewrite (rd_opp prec emax). f_equal. apply (rd_id prec emax _ _ Hy).
Qed.
Section Row.
Variables (row : vec spec_float) (q : vec R) (fc fa fb fh : spec_float) (C a b h : R).
Hypothesis Hrow : visF prec emax row q.
Hypothesis Hq : sign_ (vx q) /\ sign_ (vy q) /\ sign_ (vz q).
Hypothesis Hc : isf fc C.
Hypothesis Ha : isf fa a.
Hypothesis Hb : isf fb b.
Hypothesis Hh : isf fh h.
Hypothesis Bc : Rabs C <= M.
Hypothesis Ba : 0 <= a <= M.
Hypothesis Bb : 0 <= b <= M.
Hypothesis Bh : 0 <= h <= M.
Notation Z0 := (@n0 _ FN).
Lemma dot_x : isf (@dot _ FN row (V fa Z0 Z0)) (vx q * a).
Proof.
  destruct Hrow as (R1 & R2 & R3), Hq as (Q1 & Q2 & Q3). assert (Aa : Rabs a <= M) by (rewrite Rabs_pos_eq; lra). unfold dot. cbn [vx vy vz].
  apply keep_r; [apply keep_r; [apply signed_mul; assumption|apply (mul_zero prec emax _ _ _ 0 R2 (zero_isF prec emax)); right; reflexivity|apply signed_abs; assumption]
    |apply (mul_zero prec emax _ _ _ 0 R3 (zero_isF prec emax)); right; reflexivity|apply signed_abs; assumption].
Qed.
Lemma dot_y : isf (@dot _ FN row (V Z0 fb Z0)) (vy q * b).
Proof.
  destruct Hrow as (R1 & R2 & R3), Hq as (Q1 & Q2 & Q3). assert (Aa : Rabs b <= M) by (rewrite Rabs_pos_eq; lra). unfold dot. cbn [vx vy vz].
  apply keep_r; [apply keep_l; [apply (mul_zero prec emax _ _ _ 0 R1 (zero_isF prec emax)); right; reflexivity|apply signed_mul; assumption|apply signed_abs; assumption]
    |apply (mul_zero prec emax _ _ _ 0 R3 (zero_isF prec emax)); right; reflexivity|apply signed_abs; assumption].
Qed.
Lemma dot_z : isf (@dot _ FN row (V Z0 Z0 fh)) (vz q * h).
Proof.
  destruct Hrow as (R1 & R2 & R3), Hq as (Q1 & Q2 & Q3). assert (Aa : Rabs h <= M) by (rewrite Rabs_pos_eq; lra). unfold dot. cbn [vx vy vz].
  apply keep_l; [apply (add_zero prec emax); [apply (mul_zero prec emax _ _ _ 0 R1 (zero_isF prec emax)); right; reflexivity|apply (mul_zero prec emax _ _ _ 0 R2 (zero_isF prec emax)); right; reflexivity]
    |apply signed_mul; assumption|apply signed_abs; assumption].
Qed.
Lemma plus_ f p : isf f p -> Rabs p <= M -> isf (@nadd _ FN fc f) (rd (C + p)).
Proof. intros H B. apply (isF_add prec emax _ _ _ _ Hc H), small_top. eapply Rle_trans; [apply Rabs_triang|]. lra. Qed.
Lemma minus_ f p : isf f p -> Rabs p <= M -> isf (@nsub _ FN fc f) (rd (C - p)).
Proof. intros H B. apply (isF_sub prec emax _ _ _ _ Hc H), small_top. unfold Rminus. eapply Rle_trans; [apply Rabs_triang|]. rewrite Rabs_Ropp. lra. Qed.
Lemma near_ p : Rabs p <= M -> Rabs (rd (C + p) - (C + p)) <= 3 * (u * M).
Proof.
  intros B. destruct (uM_facts prec emax Hfmt M HM) as (U0 & U1 & V1 & UM & UM1 & UM2 & LP & LS & T1 & _).
  pose proof (rd_low prec emax (C + p)) as E. pose proof (Rabs_triang C p). assert (u * Rabs (C + p) <= u * (2 * M)) by (apply Rmult_le_compat_l; lra).
  assert (/ 1000000 * u <= u) by lra. lra.
Qed.
Notation ax := (@dot _ FN row (V fa Z0 Z0)).
Notation bx := (@dot _ FN row (V Z0 fb Z0)).
Notation hx := (@dot _ FN row (V Z0 Z0 fh)).
(** The point's local coordinates keep a margin of 3 u M. *)
Lemma row_box X x y z : X = C + (vx q * x + vy q * y + vz q * z) -> vx q * vx q + vy q * vy q + vz q * vz q = 1 ->
  Rabs x <= a - 3 * (u * M) -> Rabs y <= b - 3 * (u * M) -> Rabs z <= h - 3 * (u * M) ->
  exists lo hi, isf (@pick _ FN (@smin_list _ FN) fc fa fb fh row) lo /\ isf (@pick _ FN (@smax_list _ FN) fc fa fb fh row) hi /\ lo <= X <= hi.
Proof.
  intros EX N X1 Y1 Z1. destruct Hq as (Q1 & Q2 & Q3).
  assert (Aa : Rabs (vx q * a) <= M) by (apply signed_abs; [exact Q1|rewrite Rabs_pos_eq; lra]).
  assert (Ab : Rabs (vy q * b) <= M) by (apply signed_abs; [exact Q2|rewrite Rabs_pos_eq; lra]).
  assert (Ah : Rabs (vz q * h) <= M) by (apply signed_abs; [exact Q3|rewrite Rabs_pos_eq; lra]).
  assert (F5 : Forall2 isf [@nadd _ FN fc bx; @nsub _ FN fc ax; @nsub _ FN fc bx; @nadd _ FN fc hx; @nsub _ FN fc hx]
    [rd (C + vy q * b); rd (C - vx q * a); rd (C - vy q * b); rd (C + vz q * h); rd (C - vz q * h)]).
  { apply Forall2_cons; [apply plus_; [exact dot_y|exact Ab]|]. apply Forall2_cons; [apply minus_; [exact dot_x|exact Aa]|]. apply Forall2_cons; [apply minus_; [exact dot_y|exact Ab]|].
    apply Forall2_cons; [apply plus_; [exact dot_z|exact Ah]|]. apply Forall2_cons; [apply minus_; [exact dot_z|exact Ah]|]. apply Forall2_nil. }
  destruct (min_list_F prec emax _ _ _ _ (plus_ _ _ dot_x Aa) F5) as (lo & L1 & _ & L2 & L3).
  destruct (max_list_F prec emax _ _ _ _ (plus_ _ _ dot_x Aa) F5) as (hi & H1 & _ & H2 & H3).
  exists lo, hi. split; [exact L1|]. split; [exact H1|].
  pose proof (L3 _ (or_introl eq_refl)) as Lb. pose proof (L3 _ (or_intror (or_introl eq_refl))) as La'. pose proof (L3 _ (or_intror (or_intror (or_introl eq_refl)))) as Lb'.
  pose proof (L3 _ (or_intror (or_intror (or_intror (or_introl eq_refl))))) as Lh. pose proof (L3 _ (or_intror (or_intror (or_intror (or_intror (or_introl eq_refl)))))) as Lh'.
  pose proof (H3 _ (or_introl eq_refl)) as Hb_. pose proof (H3 _ (or_intror (or_introl eq_refl))) as Ha'. pose proof (H3 _ (or_intror (or_intror (or_introl eq_refl)))) as Hb'.
  pose proof (H3 _ (or_intror (or_intror (or_intror (or_introl eq_refl))))) as Hh_. pose proof (H3 _ (or_intror (or_intror (or_intror (or_intror (or_introl eq_refl)))))) as Hh'.
  pose proof (near_ _ Aa) as Na. pose proof (near_ _ Ab) as Nb. pose proof (near_ _ Ah) as Nh.
  assert (Na' : Rabs (rd (C - vx q * a) - (C - vx q * a)) <= 3 * (u * M)) by (apply (near_ (- (vx q * a))); rewrite Rabs_Ropp; exact Aa).
  assert (Nb' : Rabs (rd (C - vy q * b) - (C - vy q * b)) <= 3 * (u * M)) by (apply (near_ (- (vy q * b))); rewrite Rabs_Ropp; exact Ab).
  assert (Nh' : Rabs (rd (C - vz q * h) - (C - vz q * h)) <= 3 * (u * M)) by (apply (near_ (- (vz q * h))); rewrite Rabs_Ropp; exact Ah).
  apply Rabs_le_inv in Na, Nb, Nh, Na', Nb', Nh', X1, Y1, Z1. clear - EX N X1 Y1 Z1 Q1 Q2 Q3 Na Nb Nh Na' Nb' Nh' L2 Lb La' Lb' Lh Lh' H2 Hb_ Ha' Hb' Hh_ Hh'.
  destruct Q1 as [E1|[E1|E1]], Q2 as [E2|[E2|E2]], Q3 as [E3|[E3|E3]]; rewrite E1, E2, E3 in *; lra.
Qed.
End Row.
End F.

(** Margins. *)
Lemma shrink x a e g : 0 < a -> 0 <= e -> (x / a) * (x / a) < 1 - e -> g <= a * e / 2 -> Rabs x <= a - g.
Proof.
  intros Pa Pe H G. assert (E : x = a * (x / a)) by (field; lra). set (w := x / a) in *. assert (B : Rabs w <= 1 - e / 2).
  { apply Rabs_le. split; nra. }
  rewrite E, Rabs_mult, (Rabs_pos_eq a) by lra. assert (a * Rabs w <= a * (1 - e / 2)) by (apply Rmult_le_compat_l; lra). lra.
Qed.
Lemma unit_rows (Q : mat R) : orthogonal Q -> forall w, w = vx Q \/ w = vy Q \/ w = vz Q -> vx w * vx w + vy w * vy w + vz w * vz w = 1.
Proof.
  intros H w Hw. destruct Q as [[a1 a2 a3] [b1 b2 b3] [c1 c2 c3]].
  pose proof (f_equal vx (proj2 (H (V 1 0 0)))) as E1. pose proof (f_equal vy (proj2 (H (V 0 1 0)))) as E2. pose proof (f_equal vz (proj2 (H (V 0 0 1)))) as E3.
  unfold rv_mul, rv_trans, rv_dot in E1, E2, E3. cbn [vx vy vz] in *. destruct Hw as [ -> |[ -> | -> ]]; cbn [vx vy vz]; lra.
Qed.

Section Say.
Variables prec emax : Z.
Context {Hprec : Prec_gt_0 prec} {Hmax : Prec_lt_emax prec emax}.
Notation FN := (Fnum prec emax).
Notation u := (ulpf prec).
Variables (M rr v : R) (c : vec spec_float) (fa fb fh : spec_float) (m : mat spec_float) (O U C : vec R) (a b h : R) (Q : mat R) (B : vec R) (r : ray spec_float).
Hypothesis Ht : tube_ray prec emax M rr v (origin r) (direction r) c fa fb fh m O U C a b h Q B.
Hypothesis HC : coords M C.
Hypothesis Hm : visF prec emax (vx m) (vx Q) /\ visF prec emax (vy m) (vy Q) /\ visF prec emax (vz m) (vz Q).
Hypothesis Hq : axis_entries (vx Q) /\ axis_entries (vy Q) /\ axis_entries (vz Q).
Notation e := (tube_err prec M rr).
Notation ez := (cap_err prec M).
Lemma tube_box g bb X : @ecyl_bounds _ FN (ECyl c fa fb fh m g) 0 = Ok bb -> deep_in e ez a b h (local C Q X) ->
  exists low high, visF prec emax (fst bb) low /\ visF prec emax (snd bb) high /\ in_box low high X.
Proof.
  intros Eb [D1 D2]. destruct (org_off prec emax M rr v (origin r) (direction r) c fa fb fh m O U C a b h Q B Ht) as (A & HA & OA & NA).
  pose proof (tl_fh _ _ _ _ _ _ _ _ _ _ _ _ _ _ _ _ _ _ _ _ _ _ _ (tame_here prec emax M rr v (origin r) (direction r) c fa fb fh m O U C a b h Q B Ht A HA NA)) as Fh. clear A HA OA NA.
  destruct Ht. destruct (uM_facts prec emax tu_format M tu_scale) as (U0 & U1 & V1 & UM & UM1 & UM2 & LP & LS & T1 & _).
  destruct tu_rot as [Or _]. destruct tu_sizes as ((A1 & A2) & (B1 & B2) & (H1 & H2)). assert (P : 0 < rr) by lra.
  set (L := local C Q X) in *. unfold radial in D1.
  assert (E0 : 0 <= e) by (unfold tube_err; apply Rmult_le_pos; [lra|apply Rle_0_sqr]).
  assert (K : forall s, rr <= s -> 3 * (u * M) <= s * e / 2).
  { intros s Hs. unfold tube_err. assert (W : 1 <= M / rr) by (apply (Rmult_le_reg_r rr); [lra|]; unfold Rdiv; rewrite Rmult_assoc, Rinv_l, Rmult_1_r by lra; lra).
    assert (W1 : M <= s * (M / rr)) by (replace M with (rr * (M / rr)) at 1 by (field; lra); apply Rmult_le_compat_r; lra).
    assert (W2 : s * (M / rr) * 1 <= s * (M / rr) * (M / rr)) by (apply Rmult_le_compat_l; lra).
    assert (W3 : u * M <= u * (s * (M / rr) * (M / rr))) by (apply Rmult_le_compat_l; lra).
    replace (s * (2048 * u * (M / rr * (M / rr))) / 2) with (1024 * (u * (s * (M / rr) * (M / rr)))) by (unfold Rdiv; lra). lra. }
  pose proof (Rle_0_sqr (vx L / a)) as S1. pose proof (Rle_0_sqr (vy L / b)) as S2. unfold Rsqr in S1, S2.
  assert (X1 : Rabs (vx L) <= a - 3 * (u * M)) by (apply (shrink _ a e); [lra|exact E0|lra|apply K; lra]).
  assert (Y1 : Rabs (vy L) <= b - 3 * (u * M)) by (apply (shrink _ b e); [lra|exact E0|lra|apply K; lra]).
  assert (Z1 : Rabs (vz L) <= h - 3 * (u * M)) by (unfold cap_err in D2; lra).
  assert (EX : rv_mul Q L = rv_sub X C) by apply Or.
  destruct Hm as (M1 & M2 & M3), Hq as (Q1 & Q2 & Q3), HC as (C1 & C2 & C3), tu_center as (c1 & c2 & c3).
  assert (X_ : vx X = vx C + (vx (vx Q) * vx L + vy (vx Q) * vy L + vz (vx Q) * vz L)) by (apply (f_equal vx) in EX; unfold rv_mul, rv_sub, rv_dot in EX; cbn [vx] in EX; lra).
  assert (Y_ : vy X = vy C + (vx (vy Q) * vx L + vy (vy Q) * vy L + vz (vy Q) * vz L)) by (apply (f_equal vy) in EX; unfold rv_mul, rv_sub, rv_dot in EX; cbn [vy] in EX; lra).
  assert (Z_ : vz X = vz C + (vx (vz Q) * vx L + vy (vz Q) * vy L + vz (vz Q) * vz L)) by (apply (f_equal vz) in EX; unfold rv_mul, rv_sub, rv_dot in EX; cbn [vz] in EX; lra).
  assert (a0 : 0 <= a <= M) by lra. assert (b0 : 0 <= b <= M) by lra. assert (h0 : 0 <= h <= M) by lra.
  destruct (row_box prec emax tu_format M tu_scale _ _ _ _ _ _ _ _ _ _ M1 Q1 c1 tu_a tu_b Fh C1 a0 b0 h0 _ _ _ _ X_ (unit_rows Q Or _ (or_introl eq_refl)) X1 Y1 Z1) as (l1 & h1 & I1 & J1 & K1).
  destruct (row_box prec emax tu_format M tu_scale _ _ _ _ _ _ _ _ _ _ M2 Q2 c2 tu_a tu_b Fh C2 a0 b0 h0 _ _ _ _ Y_ (unit_rows Q Or _ (or_intror (or_introl eq_refl))) X1 Y1 Z1) as (l2 & h2 & I2 & J2 & K2).
  destruct (row_box prec emax tu_format M tu_scale _ _ _ _ _ _ _ _ _ _ M3 Q3 c3 tu_a tu_b Fh C3 a0 b0 h0 _ _ _ _ Z_ (unit_rows Q Or _ (or_intror (or_intror eq_refl))) X1 Y1 Z1) as (l3 & h3 & I3 & J3 & K3).
  rewrite ecyl_axes in Eb. apply (f_equal (fun o => match o with Ok w => w | _ => bb end)) in Eb. cbv beta iota in Eb. rewrite <- Eb. cbn [fst snd].
  exists (V l1 l2 l3), (V h1 h2 h3). split; [split; [exact I1|split; [exact I2|exact I3]]|]. split; [split; [exact J1|split; [exact J2|exact J3]]|].
  split; [exact K1|split; [exact K2|exact K3]].
Qed.

Variables (part : (nat -> bool) -> list nat -> list nat * list nat) (tri : nat -> list (vec spec_float) -> list (vec nat) -> rtc_rayhit spec_float -> rtc_rayhit spec_float)
  (calls : escene spec_float -> ray spec_float -> list nat) (opt : options) (cs : list (vec spec_float)) (sa sb hs : list spec_float) (ms : list (mat spec_float))
  (q : escene spec_float) (l : list (reply spec_float)).
Hypothesis Hrun : @e_run _ FN part true tri calls (@new_escene _ opt) [AddCylinders (c :: cs) (fa :: sa) (fb :: sb) (fh :: hs) (m :: ms); Commit] = Ok (q, l).
Variable ids : list nat.
Hypothesis Hids : forall i, In i ids -> i = 0%nat.
Notation X t := (local C Q (at_t O U t)).
Variables (lo : R) (mesh : nat -> R -> Prop).
Hypothesis Hcov : forall w, @intersect_calls _ FN tri q ids (@rtc_start _ FN r) = Ok w -> covers_near prec emax mesh q ids O U lo w.
Lemma scene_called t : lo <= t -> (forall s, isF prec emax (max_hit_distance r) s -> t < s) -> deep_in e ez a b h (X t) -> ids <> [].
Proof.
  intros Lt Far Dp ->. specialize (Hcov _ eq_refl 0%nat). destruct (run_only _ _ _ _ _ _ _ _ _ _ _ _ _ _ _ _ Hrun) as (G & K & _). rewrite G in Hcov.
  specialize (Hcov _ eq_refl (fun x => x)). unfold bounds_call, live in Hcov. rewrite K in Hcov. cbn [Nat.eqb] in Hcov.
  destruct (@ecyl_bounds _ FN (ECyl c fa fb fh m (Some 0%nat)) 0) as [bb| |] eqn:E; [|discriminate E..]. cbn [bind] in Hcov.
  destruct (tube_box _ _ _ E Dp) as (low & high & I1 & I2 & I3). exact (Hcov low high t I1 I2 Lt Far I3).
Qed.
Lemma scene_found rh t : lo <= t -> (forall s, isF prec emax (max_hit_distance r) s -> t < s) ->
  clear_outside e ez a b h (local C Q O) -> 0 <= t -> deep_in e ez a b h (X t) -> (forall s, 0 <= s <= t -> ~ near_rim e ez a b h (X s)) ->
  exists out x, @e_intersect1 _ FN true tri ids q r rh = Ok (true, out) /\ isF prec emax (h_distance out) x /\ x < t.
Proof. intros Lt Far Cl T0 Dp Rim. eapply scene_not_missed; eauto. exact (scene_called t Lt Far Dp). Qed.
End Say.
