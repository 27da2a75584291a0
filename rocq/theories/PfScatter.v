(** The choice of an interaction. *)

From Coq Require Import Reals ZArith List Bool Arith Lra Lia Psatz.
From Verif Require Import Num NumR NumX Vec PathTracer SpecReal SpecOptics SpecScatter PfX PfOptics.
Local Open Scope R_scope.

Section S.
Variables big tiny eps : R.
Notation XN := (Xnum big tiny eps).

Lemma shares_range s f : physical s -> 0 <= f <= 1 -> 1 / 10000 <= likely_sum s f -> shares_ok s f.
Proof.
  intros Hs Hf Hsum. split.
  - intros e. pose proof (likely_nonneg s f e Hs Hf). unfold share.
    apply Rmult_le_pos; [assumption|]. left. apply Rinv_0_lt_compat. lra.
  - unfold share, likely_sum in *. field. lra.
Qed.

Lemma choice_ok m s x f rnd r : material_is m s -> physical s -> isR x f -> 0 <= f <= 1 -> isR rnd r -> 0 <= r <= 1 ->
  chosen_by s f r (@choose_event _ XN (@rho _ XN m x) rnd).
Proof.
  intros Hm Hs Hx Hf Hr Rr.
  destruct (event_ok big tiny eps _ s f rnd r (rho_ok big tiny eps _ _ _ _ Hm Hx) Hr (proj1 Rr)) as [H0 H1].
  set (e := @choose_event _ XN _ _) in *. split; [exact H0|].
  assert (Hall : 1 / 10000 <= likely_sum s f -> r < 1 -> forall e', e' <> Stop -> (e = e' <-> from s f e' <= r < from s f e' + share s f e')).
  { intros Hsum Hlt. destruct (H1 Hsum) as (A & B & C & D). destruct (shares_range s f Hs Hf Hsum) as [S0 S1].
    pose proof (S0 Glossy). pose proof (S0 Diffuse). pose proof (S0 Refract). pose proof (S0 Emit).
    intros e' He'. destruct e'; cbn [from]; [rewrite A|rewrite B|rewrite C|rewrite D|congruence]; split; intros; lra. }
  split; [exact Hall|].
  intros Hsum ->. destruct (H1 Hsum) as (A & B & C & D). destruct (shares_range s f Hs Hf Hsum) as [S0 S1].
  pose proof (S0 Glossy). pose proof (S0 Diffuse). pose proof (S0 Refract). pose proof (S0 Emit). apply D. lra.
Qed.

(** The dissolve value takes part the wrong way round: at 1 nothing is scattered
    diffusely, at 0 nothing is let through. *)
Lemma dissolve_one m s x f rnd r : material_is m s -> physical s -> isR x f -> 0 <= f <= 1 -> isR rnd r -> 0 <= r <= 1 ->
  sf_dissolve s = 1 -> @choose_event _ XN (@rho _ XN m x) rnd <> Diffuse.
Proof.
  intros Hm Hs Hx Hf Hr Rr Hd He.
  destruct (event_ok big tiny eps _ s f rnd r (rho_ok big tiny eps _ _ _ _ Hm Hx) Hr (proj1 Rr)) as [H0 H1].
  destruct (Rlt_le_dec (likely_sum s f) (1 / 10000)) as [Hl|Hl].
  - apply H0 in Hl. congruence.
  - destruct (H1 Hl) as (_ & B & _). apply B in He. unfold share in He. cbn [likely] in He. rewrite Hd in He.
    replace (mean (sf_diffuse s) * (1 - f) * (1 - 1) / likely_sum s f) with 0 in He by (field; lra). lra.
Qed.
Lemma dissolve_zero m s x f rnd r : material_is m s -> physical s -> isR x f -> 0 <= f <= 1 -> isR rnd r -> 0 <= r <= 1 ->
  sf_dissolve s = 0 -> @choose_event _ XN (@rho _ XN m x) rnd <> Refract.
Proof.
  intros Hm Hs Hx Hf Hr Rr Hd He.
  destruct (event_ok big tiny eps _ s f rnd r (rho_ok big tiny eps _ _ _ _ Hm Hx) Hr (proj1 Rr)) as [H0 H1].
  destruct (Rlt_le_dec (likely_sum s f) (1 / 10000)) as [Hl|Hl].
  - apply H0 in Hl. congruence.
  - destruct (H1 Hl) as (_ & _ & C & _). apply C in He. unfold share in He. cbn [likely] in He. rewrite Hd in He.
    replace (mean (sf_transmittance s) * (1 - f) * 0 / likely_sum s f) with 0 in He by (field; lra). lra.
Qed.

(** The normals used for shading. *)
Lemma normals_ok h d Nn U : visR h Nn -> visR d U ->
  visR (fst (@shading_normals _ XN h d)) (rv_scale (-1) Nn) /\
  (rv_dot Nn U <> 0 -> visR (snd (@shading_normals _ XN h d)) (facing Nn U)) /\
  (exists W, visR (snd (@shading_normals _ XN h d)) W /\ (W = Nn \/ W = rv_scale (-1) Nn) /\ rv_dot W U <= 0).
Proof.
  intros Hh Hd. pose proof (visR_opp _ _ Hh) as Ho. unfold shading_normals. cbn [fst snd].
  change (@nopp _ XN) with xopp. split; [exact Ho|].
  pose proof (isR_dot big tiny eps _ _ _ _ Ho Hd) as Hdot.
  assert (Ed : rv_dot (rv_scale (-1) Nn) U = - rv_dot Nn U) by (unfold rv_dot, rv_scale; cbn; ring). rewrite Ed in Hdot.
  change (@nltb _ XN) with xltb. rewrite (isR_ltb _ _ _ _ (isR_n0 big tiny eps) Hdot).
  assert (Hback : visR (@vscaler _ XN (vmap xopp h) (xopp (@n1 _ XN))) Nn).
  { assert (H : visR (@vscaler _ XN (vmap xopp h) (xopp (@n1 _ XN))) (rv_scale (- (1)) (rv_scale (-1) Nn))).
    { apply visR_scaler; [apply isR_opp, isR_n1|exact Ho]. }
    replace (rv_scale (- (1)) (rv_scale (-1) Nn)) with Nn in H by (apply vec_eq; cbn; ring). exact H. }
  unfold facing. destruct (Rltb 0 (- rv_dot Nn U)) eqn:E.
  - apply Rltb_spec in E. split.
    + intros _. destruct (Rle_dec _ _); [exact Hback|lra].
    + exists Nn. split; [exact Hback|]. split; [auto|lra].
  - apply Rltb_false in E. split.
    + intros Hne. destruct (Rle_dec _ _); [lra|exact Ho].
    + exists (rv_scale (-1) Nn). split; [exact Ho|]. split; [auto|lra].
Qed.

(** The index ratio by the side of the surface. *)
Lemma ratio_ok h d Nn U ior n : visR h Nn -> visR d U -> isR ior n -> n <> 0 ->
  let ins := @inside _ XN d (fst (@shading_normals _ XN h d)) in
  (rv_dot U Nn <= 0 -> isR ins 1 /\ isR (@index_ratio _ XN ior ins) n) /\
  (0 < rv_dot U Nn -> isR ins (-1) /\ isR (@index_ratio _ XN ior ins) (/ n)).
Proof.
  intros Hh Hd Hi Hn. cbv zeta. destruct (normals_ok h d Nn U Hh Hd) as (H1 & _).
  set (o := fst _) in *. pose proof (isR_dot big tiny eps _ _ _ _ Hd H1) as Hdot.
  assert (Ed : rv_dot U (rv_scale (-1) Nn) = - rv_dot U Nn) by (unfold rv_dot, rv_scale; cbn; ring). rewrite Ed in Hdot.
  unfold inside, sign, index_ratio. change (@nltb _ XN) with xltb. rewrite (isR_ltb _ _ _ _ Hdot (isR_ofZ big tiny eps 0)).
  split; intros Hs.
  - replace (Rltb (- rv_dot U Nn) 0) with false by (symmetry; apply Rltb_false; lra). split; [reflexivity|].
    rewrite (isR_ltb _ _ _ _ (isR_ofZ big tiny eps 1) (isR_ofZ big tiny eps 0)).
    replace (Rltb 1 0) with false by (symmetry; apply Rltb_false; lra). exact Hi.
  - replace (Rltb (- rv_dot U Nn) 0) with true by (symmetry; apply Rltb_spec; lra). split; [reflexivity|].
    rewrite (isR_ltb _ _ _ _ (isR_ofZ big tiny eps (-1)) (isR_ofZ big tiny eps 0)).
    replace (Rltb (-1) 0) with true by (symmetry; apply Rltb_spec; lra).
    replace (/ n) with (1 / n) by (field; exact Hn). apply isR_div; [reflexivity|exact Hi|exact Hn].
Qed.

Lemma unit_dot_range U Nn : rv_dot U U = 1 -> rv_dot Nn Nn = 1 -> -1 <= rv_dot U Nn <= 1.
Proof.
  intros HU HN.
  destruct U as [a b c], Nn as [x y z]. unfold rv_dot in *. cbn [vx vy vz] in *.
  pose proof (Rle_0_sqr (a + x)). pose proof (Rle_0_sqr (b + y)). pose proof (Rle_0_sqr (c + z)).
  pose proof (Rle_0_sqr (a - x)). pose proof (Rle_0_sqr (b - y)). pose proof (Rle_0_sqr (c - z)). unfold Rsqr in *. nra.
Qed.

(** The reflectance at a hit. *)
Lemma reflectance_ok h d Nn U eta e : visR h Nn -> visR d U -> rv_dot U U = 1 -> rv_dot Nn Nn = 1 ->
  isR eta e -> 0 < e ->
  let eta2 := @ndiv _ XN (@n1 _ XN) eta in
  let f := @fresnel_schlick _ XN (vmap (@nopp _ XN) d) (snd (@shading_normals _ XN h d))
             (@ndiv _ XN (@nsub _ XN eta eta2) (@nadd _ XN eta eta2)) in
  isR f (schlick e (Rabs (rv_dot U Nn))) /\ schlick0 e <= schlick e (Rabs (rv_dot U Nn)) <= 1 /\ 0 <= schlick e (Rabs (rv_dot U Nn)).
Proof.
  intros Hh Hd HU HN He Hp. cbv zeta.
  destruct (normals_ok h d Nn U Hh Hd) as (_ & _ & W & HW & HWN & Hneg).
  assert (H2 : isR (@ndiv _ XN (@n1 _ XN) eta) (/ e)).
  { replace (/ e) with (1 / e) by (field; lra). apply isR_div; [reflexivity|exact He|lra]. }
  pose proof (Rinv_0_lt_compat e Hp) as Hip.
  assert (H3 : isR (@ndiv _ XN (@nsub _ XN eta (@ndiv _ XN (@n1 _ XN) eta)) (@nadd _ XN eta (@ndiv _ XN (@n1 _ XN) eta)))
    ((e - / e) / (e + / e))).
  { apply isR_div; [apply isR_sub; assumption|apply isR_add; assumption|lra]. }
  pose proof (visR_opp _ _ Hd) as Hmd. change (@nopp _ XN) with xopp.
  pose proof (fresnel_ok big tiny eps _ _ _ _ _ _ Hmd HW H3) as Hf.
  assert (Ec : rv_dot (rv_scale (-1) U) W = Rabs (rv_dot U Nn)).
  { assert (E1 : rv_dot (rv_scale (-1) U) W = - rv_dot W U) by (unfold rv_dot, rv_scale; cbn; ring). rewrite E1.
    destruct HWN as [->| ->].
    - assert (E2 : rv_dot Nn U = rv_dot U Nn) by (unfold rv_dot; ring). rewrite E2 in *. rewrite Rabs_left1 by lra. reflexivity.
    - assert (E2 : rv_dot (rv_scale (-1) Nn) U = - rv_dot U Nn) by (unfold rv_dot, rv_scale; cbn; ring). rewrite E2 in *.
      rewrite Rabs_right by lra. ring. }
  rewrite Ec in Hf. pose proof (unit_dot_range U Nn HU HN) as Hr.
  assert (Hc : 0 <= Rabs (rv_dot U Nn) <= 1) by (split; [apply Rabs_pos|apply Rabs_le; lra]).
  pose proof (schlick_range e _ Hp Hc). pose proof (schlick0_range e Hp). split; [exact Hf|]. split; lra.
Qed.
End S.
