(** Closest point on a triangle: the region decision finds the minimum. *)

From Coq Require Import Reals Lra Psatz.
From Verif Require Import Num NumR NumX Vec TriDist Trimesh SpecReal SpecTri PfX.
Local Open Scope R_scope.

(** Facts about the quadratic form with coefficients [a], [b], [c]. *)
Section Quad.
Variables a b c d e : R.
Hypothesis Ha : 0 < a.
Hypothesis Hc : 0 < c.
Hypothesis Hdet : 0 < a * c - b * b.
Let S := b * e - c * d.
Let T := b * d - a * e.
Let det := a * c - b * b.
Let den := a - 2 * b + c.
Let g := S + T - det.

Lemma den_pos : 0 < den.
Proof. unfold den. assert (0 < a * (a - 2 * b + c)) by (pose proof (Rle_0_sqr (a - b)); unfold Rsqr in *; nra). nra. Qed.
Lemma det_pos x : 0 <= det * x -> 0 <= x.
Proof. unfold det. intros H. destruct (Rle_dec 0 x); [assumption|]. nra. Qed.

Lemma e1 : det * (b + d - (c + e)) = (c - b) * g - den * S.
Proof. unfold det, g, den, S, T, det. ring. Qed.
Lemma e2 : det * (c + e) = (c - b) * S - c * g.
Proof. unfold det, g, S, T, det. ring. Qed.

(** Left of the triangle at its corner (0, 0). *)
Lemma left_low : S < 0 -> 0 <= T -> 0 <= e -> 0 <= d.
Proof.
  unfold S, T. intros. destruct (Rle_dec 0 b); [nra|].
  assert (b * (b * e) >= b * (c * d)) by nra. assert (c * (a * e) <= c * (b * d)) by nra. nra.
Qed.
Lemma left_low2 : S < 0 -> 0 < T -> 0 <= e -> 0 <= d.
Proof. intros. apply left_low; lra. Qed.
(** At its corner (0, 1). *)
Lemma left_high : S < 0 -> g <= 0 -> c + e <= 0 -> 0 <= b + d - (c + e).
Proof.
  pose proof den_pos as Hd. intros H1 H2 H3. apply det_pos. rewrite e1.
  assert (H4 : (c - b) * S - c * g <= 0) by (rewrite <- e2; unfold det in *; nra).
  assert (Hq : c * den - (c - b) * (c - b) = det) by (unfold den, det; ring). assert (Hdt : 0 < det) by exact Hdet.
  clearbody g S den det.
  destruct (Rle_dec (c - b) 0); [nra|].
  assert (0 <= (c - b) * ((c - b) * g - den * S)); [|nra].
  assert (den * ((c - b) * S) <= den * (c * g)) by nra. nra.
Qed.
(** Beyond the slanted edge at (0, 1). *)
Lemma beyond_high : 0 <= S -> 0 < g -> c + e - b - d <= 0 -> c + e <= 0.
Proof.
  pose proof den_pos as Hd. intros H1 H2 H3.
  assert (H4 : 0 <= (c - b) * g - den * S) by (rewrite <- e1; unfold det in *; nra).
  assert (Hq : c * den - (c - b) * (c - b) = det) by (unfold den, det; ring). assert (Hdt : 0 < det) by exact Hdet.
  assert (0 <= - (c + e)); [|lra]. apply det_pos. replace (det * - (c + e)) with (c * g - (c - b) * S) by (pose proof e2; lra).
  clearbody g S den det.
  assert (0 <= c - b) by nra.
  assert (den * ((c - b) * S) <= (c - b) * ((c - b) * g)) by nra.
  assert (0 <= den * (c * g - (c - b) * S)) by nra. nra.
Qed.
(** The gradient along the slanted edge. *)
Lemma slant s : den * s = c + e - b - d -> den * (a * s + b * (1 - s) + d) = - g.
Proof.
  intros H. unfold g, S, T, det. replace (den * (a * s + b * (1 - s) + d)) with (a * (den * s) + b * (den - den * s) + d * den) by ring.
  rewrite H. unfold den. ring.
Qed.
End Quad.

(** First-order optimality of (s, t) in the unit triangle. *)
Definition best_at (a b c d e s t : R) : Prop :=
  0 <= s /\ 0 <= t /\ s + t <= 1 /\
  (forall s' t', 0 <= s' -> 0 <= t' -> s' + t' <= 1 ->
     0 <= (a * s + b * t + d) * (s' - s) + (b * s + c * t + e) * (t' - t)).

Lemma best_corners a b c d e s t : 0 <= s -> 0 <= t -> s + t <= 1 ->
  s * (a * s + b * t + d) + t * (b * s + c * t + e) <= 0 ->
  s * (a * s + b * t + d) + t * (b * s + c * t + e) <= a * s + b * t + d ->
  s * (a * s + b * t + d) + t * (b * s + c * t + e) <= b * s + c * t + e ->
  best_at a b c d e s t.
Proof.
  intros H1 H2 H3 H4 H5 H6. split; [lra|]. split; [lra|]. split; [lra|]. intros s' t' K1 K2 K3.
  set (p := a * s + b * t + d) in *. set (q := b * s + c * t + e) in *. nra.
Qed.

Lemma div_lt x y : 0 < y -> 0 < x -> x < y -> 0 < x / y < 1 /\ y * (x / y) = x.
Proof.
  intros H1 H2 H3. assert (E : y * (x / y) = x) by (field; lra). split; [|exact E]. split; nra.
Qed.

Lemma ltb_cases a b : (Rltb a b = true /\ a < b) \/ (Rltb a b = false /\ b <= a).
Proof. destruct (Rltb a b) eqn:E; [left|right]; split; auto; [apply Rltb_spec|apply Rltb_false]; exact E. Qed.
Lemma leb_cases a b : (Rleb a b = true /\ a <= b) \/ (Rleb a b = false /\ b < a).
Proof. destruct (Rleb a b) eqn:E; [left|right]; split; auto; [apply Rleb_spec|apply Rleb_false]; exact E. Qed.

Lemma isR_to x r r' : isR x r -> r = r' -> isR x r'.
Proof. intros H <-. exact H. Qed.

Create HintDb isr.
#[local] Hint Resolve isR_fin isR_opp isR_add isR_sub isR_mul : isr.
Ltac isr := solve [eauto 12 with isr].
Section Region.
Variables big tiny eps : R.
Notation XN := (Xnum big tiny eps).
Variables (xa xb xc xd xe : xr) (a b c d e : R).
Hypothesis Xa : isR xa a.
Hypothesis Xb : isR xb b.
Hypothesis Xc : isR xc c.
Hypothesis Xd : isR xd d.
Hypothesis Xe : isR xe e.
Hypothesis Ha : 0 < a.
Hypothesis Hc : 0 < c.
Hypothesis Hdet : 0 < a * c - b * b.
Notation S := (b * e - c * d).
Notation T := (b * d - a * e).
Notation det := (a * c - b * b).
Notation den := (a - 2 * b + c).

Definition solves (q : xr * xr) : Prop := exists s t, isR (fst q) s /\ isR (snd q) t /\ best_at a b c d e s t.

Ltac branch H :=
  lazymatch goal with
  | |- solves (if xleb ?x ?y then _ else _) => erewrite (isR_leb x y) by isr
  | |- solves (if xltb ?x ?y then _ else _) => erewrite (isR_ltb x y) by isr
  | |- context [if xleb ?x ?y then _ else _] => erewrite (isR_leb x y) by isr
  end;
  lazymatch goal with
  | |- solves (if Rleb ?a ?b then _ else _) => destruct (leb_cases a b) as [[-> H]|[-> H]]
  | |- solves (if Rltb ?a ?b then _ else _) => destruct (ltb_cases a b) as [[-> H]|[-> H]]
  | |- context [Rleb ?a ?b] => destruct (leb_cases a b) as [[-> H]|[-> H]]
  end.
Ltac ops := cbn [nadd nsub nmul ndiv nopp nltb nleb nofZ n0 n1 n2 Xnum].
Let Xden : isR (xadd (xsub xa (xmul (Fin 2) xb)) xc) den.
Proof. isr. Qed.
Let Hden : 0 < den := den_pos a b c Ha Hdet.

(** A corner. *)
Lemma at_corner s t x y : isR x s -> isR y t -> best_at a b c d e s t -> solves (x, y).
Proof. intros. exists s, t. auto. Qed.

Lemma best00 : 0 <= d -> 0 <= e -> best_at a b c d e 0 0.
Proof. intros. apply best_corners; lra. Qed.
Lemma best01 : c + e <= 0 -> c + e <= b + d -> best_at a b c d e 0 1.
Proof. intros. apply best_corners; lra. Qed.
Lemma best10 : a + d <= 0 -> a + d <= b + e -> best_at a b c d e 1 0.
Proof. intros. apply best_corners; lra. Qed.
Lemma best0t : e < 0 -> - e < c -> S <= 0 -> exists x, c * x = - e /\ best_at a b c d e 0 x /\ x = - e / c.
Proof.
  intros H1 H2 H3. destruct (div_lt (- e) c) as [H4 H5]; try lra. exists (- e / c). split; [exact H5|]. split; [|reflexivity].
  set (x := - e / c) in *. clearbody x.
  assert (0 <= b * x + d). { assert (0 <= c * (b * x + d)); [|nra]. replace (c * (b * x + d)) with (b * (c * x) + c * d) by ring. rewrite H5. lra. }
  assert (E : b * 0 + c * x + e = 0) by lra. apply best_corners; rewrite ?E; lra.
Qed.
Lemma bests0 : d < 0 -> - d < a -> T <= 0 -> exists x, a * x = - d /\ best_at a b c d e x 0 /\ x = - d / a.
Proof.
  intros H1 H2 H3. destruct (div_lt (- d) a) as [H4 H5]; try lra. exists (- d / a). split; [exact H5|]. split; [|reflexivity].
  set (x := - d / a) in *. clearbody x.
  assert (0 <= b * x + e). { assert (0 <= a * (b * x + e)); [|nra]. replace (a * (b * x + e)) with (b * (a * x) + a * e) by ring. rewrite H5. lra. }
  assert (E : a * x + b * 0 + d = 0) by lra. apply best_corners; rewrite ?E; lra.
Qed.
Lemma bestst : 0 < c + e - b - d -> c + e - b - d < den -> 0 <= S + T - det ->
  best_at a b c d e ((c + e - b - d) / den) (1 - (c + e - b - d) / den).
Proof.
  intros H1 H2 H3. destruct (div_lt (c + e - b - d) den) as [H4 H5]; try lra.
  pose proof (slant a b c d e _ H5) as H6. set (s := (c + e - b - d) / den) in *. clearbody s.
  assert (H7 : a * s + b * (1 - s) + d <= 0) by nra.
  assert (H8 : b * s + c * (1 - s) + e = a * s + b * (1 - s) + d) by lra.
  apply best_corners; try lra; rewrite H8; nra.
Qed.

Lemma r1_ok : 0 <= S -> 0 <= T -> 0 < S + T - det -> solves (@r1 _ XN xa xb xc xd xe).
Proof.
  intros H1 H2 H3. unfold r1. ops. 
  branch H4.
  - apply (at_corner 0 1); [apply isR_fin| |].
    + eapply isR_to; [isr|ring].
    + apply best01; [|lra]. apply (beyond_high a b c d e); auto.
  - branch H5.
    + apply (at_corner 1 0); [apply isR_fin| |].
      * eapply isR_to; [isr|ring].
      * apply best10; [|lra]. apply (beyond_high c b a e d); auto; lra.
    + eapply at_corner; [eapply isR_div; [isr|exact Xden|lra] | |].
      * eapply isR_sub; [apply isR_fin|]. eapply isR_div; [isr|exact Xden|lra].
      * apply bestst; lra.
Qed.

Lemma r2_ok : S < 0 -> 0 < S + T - det -> solves (@r2 _ XN xa xb xc xd xe).
Proof.
  intros H1 H2. unfold r2. ops. branch H3.
  - branch H4.
    + apply (at_corner 1 0); [apply isR_fin| |].
      * eapply isR_to; [isr|ring].
      * apply best10; [|lra]. apply (beyond_high c b a e d); auto; lra.
    + assert (E : c + e - (b + d) = c + e - b - d) by ring.
      eapply at_corner; [eapply isR_div; [isr|exact Xden|lra] | |].
      * eapply isR_sub; [apply isR_fin|]. eapply isR_div; [isr|exact Xden|lra].
      * rewrite E. apply bestst; lra.
  - branch H4; [apply (at_corner 0 1); try apply isR_fin; apply best01; lra|].
    branch H5; [apply (at_corner 0 0); try apply isR_fin; apply best00; [|lra]|].
    + apply (left_low a b c d e); auto; lra.
    + destruct best0t as (x & _ & Hx & ->); try lra.
      apply (at_corner 0 (- e / c)); [apply isR_fin| |exact Hx]. apply isR_div; [isr|exact Xc|lra].
Qed.

Lemma r6_ok : T < 0 -> 0 < S + T - det -> solves (@r6 _ XN xa xb xc xd xe).
Proof.
  intros H1 H2. unfold r6. ops. branch H3.
  - branch H4.
    + apply (at_corner 0 1); [eapply isR_to; [isr|ring]|apply isR_fin|].
      apply best01; [|lra]. apply (beyond_high a b c d e); auto; lra.
    + assert (E : a + d - (b + e) = den - (c + e - b - d)) by ring.
      assert (E2 : 1 - (a + d - (b + e)) / den = (c + e - b - d) / den) by (field; lra).
      assert (E3 : (a + d - (b + e)) / den = 1 - (c + e - b - d) / den) by (field; lra).
      eapply at_corner; [eapply isR_sub; [apply isR_fin|]; eapply isR_div; [isr|exact Xden|lra]
                        |eapply isR_div; [isr|exact Xden|lra]|].
      rewrite E2, E3. apply bestst; lra.
  - branch H4; [apply (at_corner 1 0); try apply isR_fin; apply best10; lra|].
    branch H5; [apply (at_corner 0 0); try apply isR_fin; apply best00; [lra|]|].
    + apply (left_low c b a e d); auto; lra.
    + destruct bests0 as (x & _ & Hx & ->); try lra.
      apply (at_corner (- d / a) 0); [|apply isR_fin|exact Hx]. apply isR_div; [isr|exact Xa|lra].
Qed.

Lemma r3_ok : S < 0 -> 0 <= T -> S + T - det <= 0 -> solves (@r3 _ XN xc xe).
Proof.
  intros H1 H2 H3. unfold r3. ops. branch H4.
  - apply (at_corner 0 0); try apply isR_fin. apply best00; [|lra]. apply (left_low a b c d e); auto; lra.
  - branch H5.
    + apply (at_corner 0 1); try apply isR_fin. apply best01; [lra|].
      pose proof (left_high a b c d e Ha Hdet). lra.
    + destruct best0t as (x & _ & Hx & ->); try lra.
      apply (at_corner 0 (- e / c)); [apply isR_fin| |exact Hx]. apply isR_div; [isr|exact Xc|lra].
Qed.

Lemma r5_ok : T < 0 -> 0 <= S -> S + T - det <= 0 -> solves (@r5 _ XN xa xd).
Proof.
  intros H1 H2 H3. unfold r5. ops. branch H4.
  - apply (at_corner 0 0); try apply isR_fin. apply best00; [lra|]. apply (left_low c b a e d); auto; lra.
  - branch H5.
    + apply (at_corner 1 0); try apply isR_fin. apply best10; [lra|].
      assert (Hdet2 : 0 < c * a - b * b) by lra. pose proof (left_high c b a e d Hc Hdet2). lra.
    + destruct bests0 as (x & _ & Hx & ->); try lra.
      apply (at_corner (- d / a) 0); [|apply isR_fin|exact Hx]. apply isR_div; [isr|exact Xa|lra].
Qed.

Lemma r4_ok : S < 0 -> T < 0 -> solves (@r4 _ XN xa xc xd xe).
Proof.
  intros H1 H2. unfold r4. ops. branch H3.
  - branch H4.
    + apply (at_corner 1 0); try apply isR_fin. apply best10; [lra|].
      assert (Hdet2 : 0 < c * a - b * b) by lra. pose proof (left_high c b a e d Hc Hdet2). lra.
    + destruct bests0 as (x & _ & Hx & ->); try lra.
      apply (at_corner (- d / a) 0); [|apply isR_fin|exact Hx]. apply isR_div; [isr|exact Xa|lra].
  - branch H4; [apply (at_corner 0 0); try apply isR_fin; apply best00; lra|]. branch H5.
    + apply (at_corner 0 1); try apply isR_fin. apply best01; [lra|].
      pose proof (left_high a b c d e Ha Hdet). lra.
    + destruct best0t as (x & _ & Hx & ->); try lra.
      apply (at_corner 0 (- e / c)); [apply isR_fin| |exact Hx]. apply isR_div; [isr|exact Xc|lra].
Qed.

Lemma region_ok : solves (@region _ XN xa xb xc xd xe).
Proof.
  unfold region. ops. branch H1; branch H2.
  - branch H3; [apply r4_ok|apply r3_ok]; lra.
  - branch H3; [apply r5_ok; lra|]. unfold r0. ops.
    assert (Hinv : isR (xdiv (Fin 1) (xsub (xmul xa xc) (xmul xb xb))) (1 / det)) by (apply isR_div; [isr|isr|lra]).
    exists (S * (1 / det)), (T * (1 / det)). split; [apply isR_mul; [isr|exact Hinv]|].
    split; [apply isR_mul; [isr|exact Hinv]|].
    assert (E1 : a * (S * (1 / det)) + b * (T * (1 / det)) + d = 0) by (field; lra).
    assert (E2 : b * (S * (1 / det)) + c * (T * (1 / det)) + e = 0) by (field; lra).
    assert (Hp : 0 < 1 / det) by (apply Rdiv_lt_0_compat; lra).
    assert (Hd : det * (1 / det) = 1) by (field; lra).
    apply best_corners; rewrite ?E1, ?E2; try lra; try nra.
  - apply r2_ok; lra.
  - branch H3; [apply r6_ok|apply r1_ok]; lra.
Qed.
End Region.

(** First-order optimality is optimality. *)
Lemma best_min a b c d e s t s' t' : 0 < a -> 0 < a * c - b * b -> best_at a b c d e s t ->
  0 <= s' -> 0 <= t' -> s' + t' <= 1 ->
  a * s * s + 2 * b * s * t + c * t * t + 2 * d * s + 2 * e * t <=
  a * s' * s' + 2 * b * s' * t' + c * t' * t' + 2 * d * s' + 2 * e * t'.
Proof.
  intros Ha Hd (_ & _ & _ & H) H1 H2 H3. specialize (H s' t' H1 H2 H3).
  set (x := s' - s) in *. set (y := t' - t) in *.
  assert (Q : 0 <= a * x * x + 2 * b * x * y + c * y * y).
  { assert (0 <= a * (a * x * x + 2 * b * x * y + c * y * y)).
    { replace (a * _) with ((a * x + b * y) * (a * x + b * y) + (a * c - b * b) * (y * y)) by ring.
      pose proof (Rle_0_sqr (a * x + b * y)). pose proof (Rle_0_sqr y). unfold Rsqr in *. nra. }
    nra. }
  replace s' with (s + x) by (unfold x; ring). replace t' with (t + y) by (unfold y; ring). nra.
Qed.

Lemma closest_ok big tiny eps a b c p A B C P :
  visR a A -> visR b B -> visR c C -> visR p P -> tri_cross A B C <> rv_zero ->
  exists q, visR (@closest_point_on_triangle _ (Xnum big tiny eps) a b c p) q /\ on_tri A B C q /\
    forall q', on_tri A B C q' -> rv_norm (rv_sub P q) <= rv_norm (rv_sub P q').
Proof.
  intros VA VB VC VP Hn. set (E0 := rv_sub B A). set (E1 := rv_sub C A). set (D := rv_sub A P).
  assert (V0 : visR (@vsub _ (Xnum big tiny eps) b a) E0) by (apply visR_sub; assumption).
  assert (V1 : visR (@vsub _ (Xnum big tiny eps) c a) E1) by (apply visR_sub; assumption).
  assert (V2 : visR (@vsub _ (Xnum big tiny eps) a p) D) by (apply visR_sub; assumption).
  assert (Hdet : 0 < rv_dot E0 E0 * rv_dot E1 E1 - rv_dot E0 E1 * rv_dot E0 E1).
  { replace (_ - _) with (rv_dot (tri_cross A B C) (tri_cross A B C)) by (unfold tri_cross, E0, E1, rv_dot, rv_cross, rv_sub; cbn [vx vy vz]; ring).
    destruct (tri_cross A B C) as [x y z]. unfold rv_dot. cbn [vx vy vz].
    pose proof (Rle_0_sqr x). pose proof (Rle_0_sqr y). pose proof (Rle_0_sqr z). unfold Rsqr in *.
    destruct (Req_dec x 0) as [->|]; [|nra]. destruct (Req_dec y 0) as [->|]; [|nra]. destruct (Req_dec z 0) as [->|]; [|nra].
    destruct Hn. reflexivity. }
  assert (H00 : 0 <= rv_dot E0 E0) by (unfold rv_dot; nra).
  assert (H11 : 0 <= rv_dot E1 E1) by (unfold rv_dot; nra).
  assert (Ha : 0 < rv_dot E0 E0) by (pose proof (Rle_0_sqr (rv_dot E0 E1)); unfold Rsqr in *; nra).
  assert (Hc : 0 < rv_dot E1 E1) by (pose proof (Rle_0_sqr (rv_dot E0 E1)); unfold Rsqr in *; nra).
  destruct (region_ok big tiny eps _ _ _ _ _ _ _ _ _ _ (isR_dot big tiny eps _ _ _ _ V0 V0) (isR_dot big tiny eps _ _ _ _ V0 V1)
    (isR_dot big tiny eps _ _ _ _ V1 V1) (isR_dot big tiny eps _ _ _ _ V0 V2) (isR_dot big tiny eps _ _ _ _ V1 V2) Ha Hc Hdet)
    as (s & t & Hs & Ht & Hbest).
  exists (rv_add (rv_add A (rv_scale s E0)) (rv_scale t E1)).
  unfold closest_point_on_triangle. destruct (region _ _ _ _ _) as [xs xt]. cbn [fst snd] in *.
  assert (Eb : forall s t, rv_add (rv_add A (rv_scale s E0)) (rv_scale t E1) = bary A B C s t).
  { intros. unfold bary, E0, E1. apply vec_eq; unfold rv_add, rv_scale, rv_sub; cbn [vx vy vz]; ring. }
  split; [|split].
  - apply visR_add; [apply visR_add|]; [assumption|apply visR_scale; assumption|apply visR_scale; assumption].
  - exists s, t. destruct Hbest as (B1 & B2 & B3 & _). rewrite Eb. auto.
  - intros q' (s' & t' & S1 & S2 & S3 & ->). rewrite <- Eb.
    unfold rv_norm. apply sqrt_le_1_alt.
    assert (Q : forall s t, rv_dot (rv_sub P (rv_add (rv_add A (rv_scale s E0)) (rv_scale t E1)))
                       (rv_sub P (rv_add (rv_add A (rv_scale s E0)) (rv_scale t E1))) =
      rv_dot E0 E0 * s * s + 2 * rv_dot E0 E1 * s * t + rv_dot E1 E1 * t * t + 2 * rv_dot E0 D * s + 2 * rv_dot E1 D * t + rv_dot D D).
    { intros. replace (rv_sub P _) with (rv_scale (-1) (rv_add (rv_add D (rv_scale s0 E0)) (rv_scale t0 E1)))
        by (unfold D; apply vec_eq; unfold rv_sub, rv_add, rv_scale; cbn [vx vy vz]; ring).
      unfold rv_dot, rv_add, rv_scale. cbn [vx vy vz]. ring. }
    rewrite !Q. pose proof (best_min _ _ _ _ _ _ _ s' t' Ha Hdet Hbest S1 S2 S3). lra.
Qed.

(** distance_to_surface looks at the triangle A, C, -B. *)
Lemma distance_of big tiny eps a b c id p A B C P :
  visR a A -> visR b B -> visR c C -> visR p P -> tri_cross A C (rv_scale (-1) B) <> rv_zero ->
  exists q, visR (@triangle_distance _ (Xnum big tiny eps) (@make_triangle _ (Xnum big tiny eps) a b c id) p) q /\
    on_tri A C (rv_scale (-1) B) q /\
    forall q', on_tri A C (rv_scale (-1) B) q' -> rv_norm (rv_sub P q) <= rv_norm (rv_sub P q').
Proof.
  intros VA VB VC VP Hn. unfold triangle_distance, make_triangle. cbn [tr_a tr_b tr_c].
  apply closest_ok; auto.
  - replace C with (rv_add (rv_sub C A) A) by (apply vec_eq; unfold rv_add, rv_sub; cbn [vx vy vz]; ring).
    apply visR_add; [apply visR_sub; assumption|assumption].
  - replace (rv_scale (-1) B) with (rv_sub (rv_sub A B) A) by (apply vec_eq; unfold rv_scale, rv_sub; cbn [vx vy vz]; ring).
    apply visR_sub; [apply visR_sub; assumption|assumption].
Qed.

Lemma on_tri_swap A B C q : on_tri A B C q <-> on_tri A C B q.
Proof.
  split; intros (u & v & H1 & H2 & H3 & ->); exists v, u; (split; [lra|split; [lra|split; [lra|]]]);
    apply vec_eq; unfold bary, rv_add, rv_scale; cbn [vx vy vz]; ring.
Qed.

(** Right if the second vertex is the origin. *)
Lemma distance_origin big tiny eps a b c id p A C P :
  visR a A -> visR b rv_zero -> visR c C -> visR p P -> tri_cross A rv_zero C <> rv_zero ->
  exists q, visR (@triangle_distance _ (Xnum big tiny eps) (@make_triangle _ (Xnum big tiny eps) a b c id) p) q /\
    on_tri A rv_zero C q /\
    forall q', on_tri A rv_zero C q' -> rv_norm (rv_sub P q) <= rv_norm (rv_sub P q').
Proof.
  intros VA VB VC VP Hn.
  assert (E : rv_scale (-1) rv_zero = rv_zero) by (apply vec_eq; unfold rv_scale, rv_zero; cbn [vx vy vz]; ring).
  destruct (distance_of big tiny eps a b c id p A rv_zero C P VA VB VC VP) as (q & H1 & H2 & H3).
  - rewrite E. intros H. apply Hn.
    replace (tri_cross A rv_zero C) with (rv_scale (-1) (tri_cross A C rv_zero))
      by (apply vec_eq; unfold tri_cross, rv_cross, rv_scale, rv_sub, rv_zero; cbn [vx vy vz]; ring).
    rewrite H. exact E.
  - rewrite E in *. exists q. split; [exact H1|]. split; [apply on_tri_swap, H2|]. intros q' Hq. apply H3, on_tri_swap, Hq.
Qed.

(** The point B of the triangle (0,0,0), B = (0,1,0), (1,0,0): the result is at distance 1. *)
Lemma distance_refutes big tiny eps : exists a b c p A B C P q,
  visR a A /\ visR b B /\ visR c C /\ visR p P /\ tri_cross A B C <> rv_zero /\ on_tri A B C P /\
  visR (@triangle_distance _ (Xnum big tiny eps) (@make_triangle _ (Xnum big tiny eps) a b c 0) p) q /\
  1 <= rv_norm (rv_sub P q).
Proof.
  exists (vfin (V 0 0 0)), (vfin (V 0 1 0)), (vfin (V 1 0 0)), (vfin (V 0 1 0)).
  exists (V 0 0 0), (V 0 1 0), (V 1 0 0), (V 0 1 0).
  destruct (distance_of big tiny eps (vfin (V 0 0 0)) (vfin (V 0 1 0)) (vfin (V 1 0 0)) 0 (vfin (V 0 1 0))
    (V 0 0 0) (V 0 1 0) (V 1 0 0) (V 0 1 0)) as (q & H1 & (u & v & U1 & U2 & U3 & ->) & _); try apply visR_fin.
  { intros H. apply (f_equal vz) in H. unfold tri_cross, rv_cross, rv_scale, rv_sub, rv_zero in H. cbn [vx vy vz] in H. lra. }
  eexists. do 4 (split; [apply visR_fin|]). split; [|split; [|split; [exact H1|]]].
  - intros H. apply (f_equal vz) in H. unfold tri_cross, rv_cross, rv_sub, rv_zero in H. cbn [vx vy vz] in H. lra.
  - exists 1, 0. split; [lra|]. split; [lra|]. split; [lra|]. apply vec_eq; unfold bary, rv_add, rv_scale; cbn [vx vy vz]; ring.
  - unfold rv_norm. rewrite <- sqrt_1 at 1. apply sqrt_le_1_alt.
    unfold rv_dot, rv_sub, bary, rv_add, rv_scale. cbn [vx vy vz]. nra.
Qed.

(** C28's hypotheses: a point outside the triangle, whose nearest point is a corner. *)
Lemma closest_case big tiny eps : exists q,
  visR (@closest_point_on_triangle _ (Xnum big tiny eps) (vfin (V 0 0 0)) (vfin (V 4 0 0)) (vfin (V 0 4 0)) (vfin (V 6 (-1) 7))) q /\
  q = V 4 0 0.
Proof.
  destruct (closest_ok big tiny eps (vfin (V 0 0 0)) (vfin (V 4 0 0)) (vfin (V 0 4 0)) (vfin (V 6 (-1) 7))
    (V 0 0 0) (V 4 0 0) (V 0 4 0) (V 6 (-1) 7)) as (q & H1 & (u & v & U1 & U2 & U3 & Eq) & H3); try apply visR_fin.
  { intros H. apply (f_equal vz) in H. unfold tri_cross, rv_cross, rv_sub, rv_zero in H. cbn [vx vy vz] in H. lra. }
  exists q. split; [exact H1|].
  assert (Hc : on_tri (V 0 0 0) (V 4 0 0) (V 0 4 0) (V 4 0 0)).
  { exists 1, 0. split; [lra|]. split; [lra|]. split; [lra|]. apply vec_eq; unfold bary, rv_add, rv_scale; cbn [vx vy vz]; ring. }
  specialize (H3 _ Hc). unfold rv_norm in H3. apply sqrt_le_0 in H3; [|unfold rv_dot; nra|unfold rv_dot; nra].
  subst q. unfold rv_dot, rv_sub, bary, rv_add, rv_scale in *. cbn [vx vy vz] in *.
  assert (u = 1 /\ v = 0) by (split; nra). destruct H as [-> ->]. apply vec_eq; cbn [vx vy vz]; ring.
Qed.
