(** Cylinder intersection: the four areas. *)

From Coq Require Import Reals ZArith List Bool Arith Lra Lia.
From Verif Require Import Num NumR NumX Vec Ray Bvh Traverse Cylinder SpecBvh SpecReal SpecNearest SpecPlane SpecCyl.
From Verif Require Import PfBuild PfX PfPlane PfClosest PfCyl.
Import ListNotations.
Local Open Scope R_scope.

Section Local.
Variables big tiny eps : R.
Notation XN := (Xnum big tiny eps).
Variables (xa xb xh : xr) (a b h : R) (rot : mat xr) (Rm : mat R).
Hypothesis Xa : isR xa a.
Hypothesis Xb : isR xb b.
Hypothesis Xh : isR xh h.
Hypothesis Xr : misR rot Rm.
Hypothesis Ha : 0 < a.
Hypothesis Hb : 0 < b.
Hypothesis Hh : 0 < h.
Variables (org dir : vec xr) (x0 y0 z0 j k l : R).
Notation o := (V x0 y0 z0).
Notation d := (V j k l).
Hypothesis Xo : visR org o.
Hypothesis Xd : visR dir d.
Notation A := (a * a * k * k + b * b * j * j).
Notation B := (a * a * k * y0 + b * b * j * x0).
Notation Cc := (a * a * k * k + b * b * j * j - j * j * y0 * y0 + 2 * j * k * x0 * y0 - k * k * x0 * x0).
Notation F := (Fq a b x0 y0 j k).
Notation r0 := (root0 a b x0 y0 j k).
Notation r1 := (root1 a b x0 y0 j k).
Notation zt t := (z0 + t * l).
Notation surf t := (on_surface a b h (at_t o d t)).

(** A correct answer. *)
Definition good (q : option (vec xr * xr)) : Prop :=
  match q with
  | None => forall u, 0 < u -> surf u ->
      on_side a b h (at_t o d u) /\ rv_dot d (side_g a b (at_t o d u)) = 0
  | Some (n, t) => exists s g c, isR t s /\ 0 < s /\ surf s /\ (forall u, 0 < u < s -> ~ surf u) /\
      outward a b h (at_t o d s) g /\ 0 < c /\
      ((~ (inside a b h o /\ l <> 0 /\ on_side a b h (at_t o d s)) /\ visR n (rv_scale c (rv_mul Rm g))) \/
       ((inside a b h o /\ l <> 0 /\ on_side a b h (at_t o d s)) /\ visR n (rv_scale c g)))
  end.
Lemma out_F : 0 < F 0 -> ~ inside a b h o.
Proof. intros H Hi. rewrite <- (at_zero x0 y0 z0 j k l) in Hi. apply (inside_iff a b h Ha Hb) in Hi. lra. Qed.
Lemma out_z sg : h / 2 < sg * z0 -> (sg = 1 \/ sg = -1) -> ~ inside a b h o.
Proof.
  intros H Hsg Hi. rewrite <- (at_zero x0 y0 z0 j k l) in Hi. apply (inside_iff a b h Ha Hb) in Hi. destruct Hsg as [-> | ->]; lra.
Qed.

Ltac surf_in H := apply (surf_iff a b h Ha Hb Hh) in H as (?HF & ?HZ & ?HE).

Lemma F_const : A = 0 -> forall t u, F t = F u.
Proof. intros HA t u. destruct (A_zero a b Ha Hb j k HA). apply Fq_flat; assumption. Qed.
Lemma F_outer u : 0 < A -> 0 <= Cc -> F u <= 0 -> r1 <= u <= r0.
Proof.
  intros HA HC H. rewrite (Fq_roots a b x0 y0 j k u HA HC) in H.
  pose proof (roots_le a b Ha Hb x0 y0 j k HA HC).
  assert (H' : A * ((u - r0) * (u - r1)) <= 0) by lra.
  assert (H2 : (u - r0) * (u - r1) <= 0) by nra.
  split; destruct (Rle_or_lt r1 u), (Rle_or_lt u r0); try lra; nra.
Qed.
Lemma F_before u : 0 < A -> 0 <= Cc -> u < r1 -> 0 < F u.
Proof.
  intros HA HC H. rewrite (Fq_roots a b x0 y0 j k u HA HC).
  pose proof (roots_le a b Ha Hb x0 y0 j k HA HC).
  assert (0 < (r0 - u) * (r1 - u)) by (apply Rmult_lt_0_compat; lra).
  replace (A * (u - r0) * (u - r1)) with (A * ((r0 - u) * (r1 - u))) by ring. apply Rmult_lt_0_compat; lra.
Qed.
Lemma F_after u : 0 < A -> 0 <= Cc -> r0 < u -> 0 < F u.
Proof.
  intros HA HC H. rewrite (Fq_roots a b x0 y0 j k u HA HC).
  pose proof (roots_le a b Ha Hb x0 y0 j k HA HC).
  assert (0 < (u - r0) * (u - r1)) by (apply Rmult_lt_0_compat; lra).
  rewrite Rmult_assoc. apply Rmult_lt_0_compat; lra.
Qed.
Lemma F_between u : 0 < A -> 0 <= Cc -> r1 < u < r0 -> F u < 0.
Proof.
  intros HA HC H. rewrite (Fq_roots a b x0 y0 j k u HA HC).
  assert (0 < (r0 - u) * (u - r1)) by (apply Rmult_lt_0_compat; lra).
  assert (0 < A * ((r0 - u) * (u - r1))) by (apply Rmult_lt_0_compat; lra). lra.
Qed.
Lemma F_root0 : 0 < A -> 0 <= Cc -> F r0 = 0.
Proof. intros HA HC. rewrite (Fq_roots a b x0 y0 j k r0 HA HC). ring. Qed.
Lemma F_root1 : 0 < A -> 0 <= Cc -> F r1 = 0.
Proof. intros HA HC. rewrite (Fq_roots a b x0 y0 j k r1 HA HC). ring. Qed.
(** A double root is a tangent point. *)
Lemma double_root u : 0 < A -> 0 <= Cc -> r0 = r1 -> 0 < u -> surf u ->
  on_side a b h (at_t o d u) /\ rv_dot d (side_g a b (at_t o d u)) = 0.
Proof.
  intros HA HC E Hu Hs. surf_in Hs. pose proof (F_outer u HA HC HF) as Hr.
  assert (Eu : u = r1) by lra. split.
  - apply (side_iff a b h Ha Hb). split; [|exact HZ]. rewrite Eu. apply F_root1; assumption.
  - apply (tangent a b Ha Hb). rewrite Eu.
    assert (E2 : A * r1 + A * r0 = - 2 * B) by (unfold root0, root1; field; lra). nra.
Qed.

(** The lateral surface reached first. *)
Lemma side_first n t c : ~ inside a b h o -> 0 < A -> 0 <= Cc -> isR t r1 -> 0 < r1 -> - (h / 2) <= zt r1 <= h / 2 -> 0 < c ->
  visR n (rv_scale c (rv_mul Rm (side_g a b (at_t o d r1)))) -> good (Some (n, t)).
Proof.
  intros Hin HA HC Ht Hp Hz Hc Hn. exists r1, (side_g a b (at_t o d r1)), c.
  assert (Hs : on_side a b h (at_t o d r1)).
  { apply (side_iff a b h Ha Hb). split; [apply F_root1|]; assumption. }
  split; [exact Ht|]. split; [exact Hp|]. split; [left; exact Hs|]. split.
  - intros u Hu Hx. surf_in Hx. pose proof (F_before u HA HC (proj2 Hu)). lra.
  - split; [left; split; [exact Hs|reflexivity]|]. split; [exact Hc|]. left; split; [tauto|exact Hn].
Qed.

(** Area 3. *)
Lemma area3 : 0 < F 0 -> - (h / 2) < z0 < h / 2 -> good (@cyl_outside _ XN xa xb xh rot org dir).
Proof.
  intros HF0 Hz0.
  pose proof (outside_x big tiny eps xa xb xh a b h rot Rm Xa Xb Xh Xr Ha Hb org dir x0 y0 z0 j k l Xo Xd) as H.
  destruct (@cyl_outside _ XN xa xb xh rot org dir) as [[n t]|].
  - destruct H as (HA & HC & Hlt & Ht & Hp & Hz & c & Hc & Hn).
    apply (side_first n t c); try assumption. apply out_F, HF0.
  - intros u Hu Hs. destruct H as [HA|[H|[(HA & HC & E)|(HA & HC & Hlt & H)]]].
    + exfalso. surf_in Hs. rewrite (F_const HA u 0) in HF. lra.
    + exfalso. surf_in Hs. specialize (H u). lra.
    + apply double_root; assumption.
    + exfalso. surf_in Hs. pose proof (F_outer u HA HC HF) as Hr.
      assert (H1 : 0 < r1).
      { destruct (Rle_or_lt r1 0) as [H1|]; [|assumption]. exfalso.
        assert (0 < r0) by lra. destruct (Req_dec r1 0) as [E|E].
        - pose proof (F_root1 HA HC). rewrite E in H2. lra.
        - pose proof (F_between 0 HA HC ltac:(lra)). lra. }
      destruct H as [H|H]; [lra|]. apply H. destruct HZ as [Z1 Z2]. destruct Hz0.
      assert (r1 <= u) by lra. split; nra.
Qed.

(** Areas 1 and 2. *)
Lemma beyond zc nz sg : isR zc (sg * (h / 2)) -> isR nz sg -> (sg = 1 \/ sg = -1) -> h / 2 < sg * z0 ->
  good (@cyl_beyond _ XN xa xb xh zc nz rot org dir).
Proof.
  intros Hzc Hnz Hsg Hz0. unfold cyl_beyond. cbv zeta.
  change (@nltb _ XN) with xltb. change (@nleb _ XN) with xleb. change (@neqb _ XN) with xeqb.
  change (@n0 _ XN) with (Fin 0).
  pose proof (proj2 (proj2 Xd)) as Xl. change (vz d) with l in Xl.
  pose proof (proj2 (proj2 Xo)) as Xz. change (vz o) with z0 in Xz.
  rewrite (isR_eqb _ _ _ _ Xl (isR_fin 0)).
  assert (Hsurf : forall u, surf u -> sg * zt u <= h / 2).
  { intros u Hs. surf_in Hs. destruct Hsg as [-> | ->]; lra. }
  destruct (Req_dec l 0) as [El|Hl].
  { rewrite (Reqb_true l 0 El). intros u Hu Hs. exfalso. specialize (Hsurf u Hs). rewrite El in Hsurf.
    rewrite Rmult_0_r, Rplus_0_r in Hsurf. lra. }
  rewrite (Reqb_no l 0 Hl).
  set (tc := (sg * (h / 2) - z0) / l).
  assert (Xt : isR (@ndiv _ XN (@nsub _ XN zc (vz org)) (vz dir)) tc).
  { apply isR_div; [apply isR_sub; assumption|exact Xl|exact Hl]. }
  assert (Etc : zt tc = sg * (h / 2)) by (unfold tc; field; exact Hl).
  assert (Esg : sg * sg = 1) by (destruct Hsg as [-> | ->]; lra).
  assert (Etc' : sg * z0 + tc * (sg * l) = h / 2).
  { replace (sg * z0 + tc * (sg * l)) with (sg * zt tc) by ring. rewrite Etc. rewrite <- Rmult_assoc, Esg. ring. }
  rewrite (isR_ltb _ _ _ _ Xt (isR_fin 0)).
  assert (Hsurf' : forall u, surf u -> sg * z0 + u * (sg * l) <= h / 2).
  { intros u Hs. specialize (Hsurf u Hs). lra. }
  destruct (ltb_cases tc 0) as [[-> Htc]|[-> Htc]].
  { intros u Hu Hs. exfalso. specialize (Hsurf' u Hs).
    assert (0 < sg * l) by nra. nra. }
  assert (Htc0 : 0 < tc). { destruct (Req_dec tc 0) as [E|]; [|lra]. rewrite E in Etc'. lra. }
  assert (Hsl : sg * l < 0) by nra.
  assert (Hlate : forall u, surf u -> tc <= u). { intros u Hs. specialize (Hsurf' u Hs). nra. }
  pose proof (X_at' big tiny eps org dir x0 y0 z0 j k l Xo Xd _ _ Xt) as I.
  assert (XI : isR (@nadd _ XN (@nmul _ XN (@nmul _ XN (@nmul _ XN xb xb) (vx (@vadd _ XN org (@vscale _ XN (@ndiv _ XN (@nsub _ XN zc (vz org)) (vz dir)) dir)))) (vx (@vadd _ XN org (@vscale _ XN (@ndiv _ XN (@nsub _ XN zc (vz org)) (vz dir)) dir))))
     (@nmul _ XN (@nmul _ XN (@nmul _ XN xa xa) (vy (@vadd _ XN org (@vscale _ XN (@ndiv _ XN (@nsub _ XN zc (vz org)) (vz dir)) dir)))) (vy (@vadd _ XN org (@vscale _ XN (@ndiv _ XN (@nsub _ XN zc (vz org)) (vz dir)) dir)))))
     (F tc + a * a * b * b)).
  { eapply isR_to; [apply isR_add; apply isR_mul; [apply isR_mul; [apply isR_mul; eassumption|]| | apply isR_mul; [apply isR_mul; eassumption|]|];
      [apply (proj1 I)|apply (proj1 I)|apply (proj1 (proj2 I))|apply (proj1 (proj2 I))]|].
    unfold Fq. cbn [vx vy vz at_t rv_add rv_scale]. ring. }
  assert (XR : isR (@nmul _ XN (@nmul _ XN (@nmul _ XN xa xa) xb) xb) (a * a * b * b)).
  { repeat (apply isR_mul; try eassumption). }
  rewrite (isR_leb _ _ _ _ XI XR).
  destruct (leb_cases (F tc + a * a * b * b) (a * a * b * b)) as [[-> HF]|[-> HF]].
  - assert (Hn1 : visR (V (Fin 0) (Fin 0) nz) (V 0 0 sg)) by (repeat split; exact Hnz).
    destruct (rot_normal_x big tiny eps rot Rm Xr _ _ Hn1) as (c & Hc & Hn).
    { intros E. apply rv_norm_zero in E. injection E as E. rewrite E in Esg. lra. }
    assert (HE : ellipse a b (at_t o d tc) <= 1).
    { apply (ellipse_le _ _ _ Ha Hb). change (F tc <= 0). lra. }
    exists tc, (V 0 0 sg), c.
    split; [exact Xt|]. split; [exact Htc0|].
    assert (Hcap : outward a b h (at_t o d tc) (V 0 0 sg)).
    { unfold outward, on_top, on_bottom. change (vz (at_t o d tc)) with (zt tc). rewrite Etc. right.
      destruct Hsg as [-> | ->]; [left|right]; (split; [split; [exact HE|lra]|reflexivity]). }
    split. { destruct Hcap as [[? _]|[[? _]|[? _]]]; unfold on_surface; auto. }
    split. { intros u Hu Hs. specialize (Hlate u Hs). lra. }
    split; [exact Hcap|]. split; [exact Hc|]. left; split; [|exact Hn].
    pose proof (out_z sg Hz0 Hsg). tauto.
  - pose proof (outside_x big tiny eps xa xb xh a b h rot Rm Xa Xb Xh Xr Ha Hb org dir x0 y0 z0 j k l Xo Xd) as H.
    destruct (@cyl_outside _ XN xa xb xh rot org dir) as [[n t]|].
    + destruct H as (HA & HC & Hlt & Ht & Hp & Hz & c & Hc & Hn).
      apply (side_first n t c); try assumption. apply (out_z sg); assumption.
    + intros u Hu Hs. destruct H as [HA|[H|[(HA & HC & E)|(HA & HC & Hlt & H)]]].
      * exfalso. surf_in Hs. rewrite (F_const HA u tc) in HF0. lra.
      * exfalso. surf_in Hs. specialize (H u). lra.
      * apply double_root; assumption.
      * exfalso. pose proof (Hlate u Hs) as Hl1. pose proof Hs as Hs'. surf_in Hs'. pose proof (F_outer u HA HC HF0) as Hr.
        assert (H1 : tc < r1).
        { destruct (Rle_or_lt r1 tc) as [H1|]; [|assumption]. exfalso.
          destruct (Req_dec r1 tc) as [E|E]; [pose proof (F_root1 HA HC) as E2; rewrite E in E2; lra|].
          destruct (Req_dec r0 tc) as [E'|E']; [pose proof (F_root0 HA HC) as E2; rewrite E' in E2; lra|].
          pose proof (F_between tc HA HC ltac:(lra)). lra. }
        destruct H as [H|H]; [lra|]. apply H.
        assert (Q1 : sg * z0 + r1 * (sg * l) <= h / 2) by nra.
        assert (Q2 : sg * z0 + u * (sg * l) <= sg * z0 + r1 * (sg * l)) by nra.
        assert (Q3 : - (h / 2) <= sg * z0 + u * (sg * l)) by (destruct Hsg as [-> | ->]; lra).
        destruct Hsg as [E | E]; rewrite E in *; lra.
Qed.

(** Area 4: the origin is inside. *)
Lemma inside_A : F 0 < 0 -> 0 < A -> 0 <= Cc /\ r1 < 0 < r0.
Proof.
  intros HF HA. assert (HC : 0 <= Cc).
  { destruct (Rle_or_lt 0 Cc) as [|H]; [assumption|]. pose proof (Fq_neg a b Ha Hb x0 y0 j k H 0). lra. }
  split; [exact HC|]. pose proof (F_outer 0 HA HC ltac:(lra)).
  pose proof (F_root0 HA HC). pose proof (F_root1 HA HC).
  split; [destruct (Req_dec r1 0) as [E|]; [rewrite E in *; lra|lra]|destruct (Req_dec r0 0) as [E|]; [rewrite E in *; lra|lra]].
Qed.
Lemma inside_x rotated : F 0 < 0 -> 0 < A ->
  @cyl_inside _ XN xa xb xh rot rotated org dir =
  if Rleb (zt r0) (h / 2) && Rleb (- (h / 2)) (zt r0)
  then let t0 := @cyl_t0 _ XN xa xb (vx org) (vy org) (vx dir) (vy dir) in
    Some (Some (if rotated then @cyl_rot_normal _ XN rot (@cyl_side_normal _ XN xa xb (@vadd _ XN org (@vscaler _ XN dir t0)))
          else @cyl_side_normal _ XN xa xb (@vadd _ XN org (@vscaler _ XN dir t0)), t0))
  else Some None.
Proof.
  intros HF HA. destruct (inside_A HF HA) as (HC & H1 & H0).
  unfold cyl_inside. cbv zeta.
  change (@nltb _ XN) with xltb. change (@nleb _ XN) with xleb. change (@n0 _ XN) with (Fin 0).
  rewrite (isR_ltb _ _ _ _ (X_C big tiny eps xa xb a b Xa Xb org dir x0 y0 z0 j k l Xo Xd) (isR_fin 0)).
  rewrite (Rltb_no Cc 0) by exact HC.
  pose proof (X_t0 big tiny eps xa xb a b Xa Xb org dir x0 y0 z0 j k l Xo Xd HA HC) as T0.
  pose proof (X_t1 big tiny eps xa xb a b Xa Xb org dir x0 y0 z0 j k l Xo Xd HA HC) as T1.
  rewrite (isR_ltb _ _ _ _ (isR_fin 0) T1), (isR_ltb _ _ _ _ (isR_fin 0) T0).
  rewrite (Rltb_no 0 r1) by lra. rewrite (Rltb_yes 0 r0) by lra. cbn [andb].
  pose proof (X_at big tiny eps org dir x0 y0 z0 j k l Xo Xd _ _ T0) as I0.
  rewrite (isR_leb _ _ _ _ (proj2 (proj2 I0)) (X_h2 big tiny eps xh h Xh)).
  rewrite (isR_leb _ _ _ _ (X_mh2 big tiny eps xh h Xh) (proj2 (proj2 I0))).
  reflexivity.
Qed.
(** Convexity: strictly inside the slab before reaching it. *)
Lemma slab_before u s : - (h / 2) < z0 < h / 2 -> 0 < u < s -> - (h / 2) <= zt s <= h / 2 -> - (h / 2) < zt u < h / 2.
Proof. intros Hz Hu Hs. split; nra. Qed.
Lemma in_nosurf u : F u < 0 -> - (h / 2) < zt u < h / 2 -> ~ surf u.
Proof. intros H1 H2 Hs. surf_in Hs. lra. Qed.

Lemma caps_x : F 0 < 0 -> - (h / 2) < z0 < h / 2 -> l <> 0 ->
  (forall u, - (h / 2) <= zt u <= h / 2 -> 0 <= u -> F u < 0) -> good (@cyl_caps _ XN xh rot org dir).
Proof.
  intros HF Hz Hl HFu. unfold cyl_caps. cbv zeta.
  change (@nltb _ XN) with xltb. change (@n0 _ XN) with (Fin 0).
  pose proof (proj2 (proj2 Xd)) as Xl. change (vz d) with l in Xl.
  pose proof (proj2 (proj2 Xo)) as Xz. change (vz o) with z0 in Xz.
  rewrite (isR_ltb _ _ _ _ Xl (isR_fin 0)), (isR_ltb _ _ _ _ (isR_fin 0) Xl).
  assert (Cap : forall zc n t nz sg s, isR t s -> 0 < s -> (sg = 1 \/ sg = -1) -> zt s = sg * (h / 2) -> zc = sg ->
     visR nz (V 0 0 sg) -> n = @cyl_rot_normal _ XN rot nz -> good (Some (n, t))).
  { intros zc n t nz sg s Ht Hs Hsg Es _ Hnz ->.
    destruct (rot_normal_x big tiny eps rot Rm Xr _ _ Hnz) as (c & Hc & Hn).
    { intros E. apply rv_norm_zero in E. injection E as E. destruct Hsg; lra. }
    assert (Hzs : - (h / 2) <= zt s <= h / 2) by (destruct Hsg as [-> | ->]; lra).
    assert (HFs : F s < 0) by (apply HFu; [exact Hzs|lra]).
    assert (HE : ellipse a b (at_t o d s) <= 1).
    { apply (ellipse_le _ _ _ Ha Hb). change (F s <= 0). lra. }
    assert (Hcap : outward a b h (at_t o d s) (V 0 0 sg)).
    { unfold outward, on_top, on_bottom. change (vz (at_t o d s)) with (zt s). rewrite Es. right.
      destruct Hsg as [-> | ->]; [left|right]; (split; [split; [exact HE|lra]|reflexivity]). }
    exists s, (V 0 0 sg), c. split; [exact Ht|]. split; [exact Hs|].
    split. { destruct Hcap as [[? _]|[[? _]|[? _]]]; unfold on_surface; auto. }
    split. { intros u Hu. pose proof (slab_before u s Hz Hu Hzs) as Hzu. apply in_nosurf; [apply HFu; lra|exact Hzu]. }
    split; [exact Hcap|]. split; [exact Hc|]. left; split; [|exact Hn].
    intros (_ & _ & Hx). apply (side_iff a b h Ha Hb) in Hx. lra. }
  pose proof (X_h2 big tiny eps xh h Xh) as B1. pose proof (X_mh2 big tiny eps xh h Xh) as B2.
  destruct (ltb_cases l 0) as [[-> Hl0]|[-> Hl0]].
  - apply (Cap (-1) _ _ (V (Fin 0) (Fin 0) (@nopp _ XN (@n1 _ XN))) (-1) ((- (h / 2) - z0) / l)).
    + apply isR_div; [apply isR_sub; [exact B2|exact Xz]|exact Xl|exact Hl].
    + pose proof (Rinv_lt_0_compat l Hl0). unfold Rdiv. nra.
    + right; reflexivity.
    + field. exact Hl.
    + reflexivity.
    + repeat split; cbn; lra.
    + reflexivity.
  - rewrite (Rltb_yes 0 l) by lra.
    apply (Cap 1 _ _ (V (Fin 0) (Fin 0) (@n1 _ XN)) 1 ((h / 2 - z0) / l)).
    + apply isR_div; [apply isR_sub; [exact B1|exact Xz]|exact Xl|exact Hl].
    + apply Rmult_lt_0_compat; [lra|]. apply Rinv_0_lt_compat. lra.
    + left; reflexivity.
    + field. exact Hl.
    + reflexivity.
    + repeat split; cbn; lra.
    + reflexivity.
Qed.

Lemma area4 : F 0 < 0 -> - (h / 2) < z0 < h / 2 -> (j <> 0 \/ k <> 0 \/ l <> 0) ->
  good (@cyl_area4 _ XN xa xb xh rot org dir).
Proof.
  intros HF Hz Hd. unfold cyl_area4. cbv zeta.
  change (@neqb _ XN) with xeqb. change (@n0 _ XN) with (Fin 0).
  destruct Xd as (Xj & Xk & Xl). change (vx d) with j in Xj. change (vy d) with k in Xk. change (vz d) with l in Xl.
  destruct Xo as (Xx & Xy & Xz). change (vx o) with x0 in Xx. change (vy o) with y0 in Xy. change (vz o) with z0 in Xz.
  rewrite (isR_eqb _ _ _ _ Xl (isR_fin 0)), (isR_eqb _ _ _ _ Xj (isR_fin 0)), (isR_eqb _ _ _ _ Xk (isR_fin 0)).
  assert (Side : forall (rotated : bool) s n t, 0 < A -> s = r0 -> - (h / 2) <= zt s <= h / 2 ->
    t = @cyl_t0 _ XN xa xb (vx org) (vy org) (vx dir) (vy dir) ->
    n = (if rotated then @cyl_rot_normal _ XN rot (@cyl_side_normal _ XN xa xb (@vadd _ XN org (@vscaler _ XN dir t)))
          else @cyl_side_normal _ XN xa xb (@vadd _ XN org (@vscaler _ XN dir t))) ->
    (rotated = true -> l = 0) -> (rotated = false -> l <> 0) -> good (Some (n, t))).
  { intros rotated s n t HA -> Hzs -> -> Hrot0 Hrot. destruct (inside_A HF HA) as (HC & H1 & H0).
    pose proof (X_t0 big tiny eps xa xb a b Xa Xb org dir x0 y0 z0 j k l Xo Xd HA HC) as T0.
    pose proof (X_at big tiny eps org dir x0 y0 z0 j k l Xo Xd _ _ T0) as I0.
    assert (Hs : on_side a b h (at_t o d r0)).
    { apply (side_iff a b h Ha Hb). split; [apply F_root0|]; assumption. }
    assert (Hn : exists c, 0 < c /\
      ((~ (inside a b h o /\ l <> 0 /\ on_side a b h (at_t o d r0)) /\
        visR (if rotated then @cyl_rot_normal _ XN rot (@cyl_side_normal _ XN xa xb (@vadd _ XN org (@vscaler _ XN dir (@cyl_t0 _ XN xa xb (vx org) (vy org) (vx dir) (vy dir)))))
          else @cyl_side_normal _ XN xa xb (@vadd _ XN org (@vscaler _ XN dir (@cyl_t0 _ XN xa xb (vx org) (vy org) (vx dir) (vy dir))))) (rv_scale c (rv_mul Rm (side_g a b (at_t o d r0))))) \/
       ((inside a b h o /\ l <> 0 /\ on_side a b h (at_t o d r0)) /\
        visR (if rotated then @cyl_rot_normal _ XN rot (@cyl_side_normal _ XN xa xb (@vadd _ XN org (@vscaler _ XN dir (@cyl_t0 _ XN xa xb (vx org) (vy org) (vx dir) (vy dir)))))
          else @cyl_side_normal _ XN xa xb (@vadd _ XN org (@vscaler _ XN dir (@cyl_t0 _ XN xa xb (vx org) (vy org) (vx dir) (vy dir))))) (rv_scale c (side_g a b (at_t o d r0)))))).
    { destruct rotated.
      - destruct (rot_side_x big tiny eps xa xb a b rot Rm Xa Xb Xr Ha Hb _ _ I0 (proj1 Hs)) as (c & Hc & Hv).
        exists c. split; [exact Hc|]. left; split; [|exact Hv]. specialize (Hrot0 eq_refl). tauto.
      - exists 2. split; [lra|]. right. split; [|apply side_normal_x; assumption]. split.
        { rewrite <- (at_zero x0 y0 z0 j k l). apply (inside_iff a b h Ha Hb). split; [exact HF|]. lra. }
        split; [auto|exact Hs]. }
    destruct Hn as (c & Hc & Hn).
    exists r0, (side_g a b (at_t o d r0)), c.
    split; [exact T0|]. split; [exact H0|]. split; [left; exact Hs|]. split.
    { intros u Hu. apply in_nosurf; [apply F_between; try assumption; lra|]. apply (slab_before u r0); assumption. }
    split; [left; split; [exact Hs|reflexivity]|]. split; [exact Hc|]. exact Hn. }
  destruct (Req_dec l 0) as [El|Hl].
  - rewrite (Reqb_true l 0 El).
    assert (HA : 0 < A).
    { destruct (Rle_lt_or_eq_dec 0 A (A_nonneg a b j k)) as [|E]; [assumption|]. symmetry in E.
      destruct (A_zero a b Ha Hb j k E). exfalso. tauto. }
    rewrite (isR_eqb _ _ _ _ Xz (X_mh2 big tiny eps xh h Xh)), (isR_eqb _ _ _ _ Xz (X_h2 big tiny eps xh h Xh)).
    rewrite !Reqb_no by lra. cbn [orb].
    rewrite (inside_x true HF HA).
    rewrite (proj2 (Rleb_spec (zt r0) (h / 2))) by (rewrite El; lra).
    rewrite (proj2 (Rleb_spec (- (h / 2)) (zt r0))) by (rewrite El; lra). cbn [andb]. cbv zeta.
    eapply (Side true r0); [exact HA|reflexivity|rewrite El; lra|reflexivity|reflexivity|auto|discriminate].
  - rewrite (Reqb_no l 0 Hl).
    destruct (Rle_lt_or_eq_dec 0 A (A_nonneg a b j k)) as [HA|HA].
    + assert (Hjk : Reqb j 0 && Reqb k 0 = false).
      { destruct (Req_dec j 0) as [E1|E1]; [|rewrite (Reqb_no j 0 E1); reflexivity].
        destruct (Req_dec k 0) as [E2|E2]; [|rewrite (Reqb_no k 0 E2); apply andb_false_r].
        exfalso. rewrite E1, E2 in HA. lra. }
      rewrite Hjk, (inside_x false HF HA).
      destruct (inside_A HF HA) as (HC & H1 & H0).
      destruct (leb_cases (zt r0) (h / 2)) as [[-> Hz1]|[-> Hz1]].
      * destruct (leb_cases (- (h / 2)) (zt r0)) as [[-> Hz2]|[-> Hz2]]; cbn [andb]; cbv zeta.
        -- eapply (Side false r0); [exact HA|reflexivity|lra|reflexivity|reflexivity|discriminate|auto].
        -- apply caps_x; try assumption. intros u Hu Hu0. apply F_between; try assumption. split; [lra|]. nra.
      * cbn [andb]. apply caps_x; try assumption. intros u Hu Hu0. apply F_between; try assumption. split; [lra|]. nra.
    + symmetry in HA. destruct (A_zero a b Ha Hb j k HA) as [Ej Ek].
      rewrite (Reqb_true j 0 Ej), (Reqb_true k 0 Ek). cbn [andb].
      assert (XG : isR (@nadd _ XN (@nmul _ XN (@nmul _ XN (@nmul _ XN xb xb) (vx org)) (vx org)) (@nmul _ XN (@nmul _ XN (@nmul _ XN xa xa) (vy org)) (vy org))) (F 0 + a * a * b * b)).
      { eapply isR_to; [apply isR_add; apply isR_mul; [apply isR_mul; [apply isR_mul|]| |apply isR_mul; [apply isR_mul|]|]; eassumption|].
        unfold Fq. ring. }
      assert (XR : isR (@nmul _ XN (@nmul _ XN (@nmul _ XN xa xa) xb) xb) (a * a * b * b)).
      { repeat (apply isR_mul; try eassumption). }
      rewrite (isR_eqb _ _ _ _ XG XR), Reqb_no by lra.
      apply caps_x; try assumption. intros u _ _. rewrite (F_const HA u 0). exact HF.
Qed.

(** All areas; only rays starting beside a cap are left out. *)
Lemma local_good : (j <> 0 \/ k <> 0 \/ l <> 0) -> ~ on_surface a b h o ->
  @cyl_local _ XN xa xb xh rot org dir <> None \/ ~ beside_cap a b h o ->
  good (@cyl_local _ XN xa xb xh rot org dir).
Proof.
  intros Hd Hoff Hside. revert Hside. rewrite <- (at_zero x0 y0 z0 j k l) in Hoff. rewrite (surf_iff a b h Ha Hb Hh) in Hoff.
  rewrite Rmult_0_l, Rplus_0_r in Hoff.
  unfold cyl_local. cbv zeta.
  change (@nltb _ XN) with xltb. change (@nleb _ XN) with xleb.
  destruct Xo as (Xx & Xy & Xz). change (vx o) with x0 in Xx. change (vy o) with y0 in Xy. change (vz o) with z0 in Xz.
  pose proof (X_h2 big tiny eps xh h Xh) as B1. pose proof (X_mh2 big tiny eps xh h Xh) as B2.
  assert (XG : isR (@nadd _ XN (@nmul _ XN (@nmul _ XN (@nmul _ XN (vx org) (vx org)) xb) xb) (@nmul _ XN (@nmul _ XN (@nmul _ XN (vy org) (vy org)) xa) xa)) (F 0 + a * a * b * b)).
  { eapply isR_to; [apply isR_add; apply isR_mul; [apply isR_mul; [apply isR_mul|]| |apply isR_mul; [apply isR_mul|]|]; eassumption|].
    unfold Fq. ring. }
  assert (XR : isR (@nmul _ XN (@nmul _ XN (@nmul _ XN xa xa) xb) xb) (a * a * b * b)).
  { repeat (apply isR_mul; try eassumption). }
  rewrite (isR_ltb _ _ _ _ B1 Xz), (isR_ltb _ _ _ _ Xz B2), (isR_ltb _ _ _ _ B2 Xz), (isR_ltb _ _ _ _ Xz B1),
    (isR_leb _ _ _ _ B2 Xz), (isR_leb _ _ _ _ Xz B1), (isR_ltb _ _ _ _ XR XG), (isR_leb _ _ _ _ XG XR).
  assert (Else : forall x : option (vec xr * xr), match x with Some r => Some r | None => None end = x) by (intros [?|]; reflexivity).
  destruct (ltb_cases (h / 2) z0) as [[-> H1]|[-> H1]].
  { intros _. destruct (leb_cases z0 (h / 2)) as [[_ ?]|[-> _]]; [lra|]. rewrite andb_false_r. cbn [andb]. rewrite Else.
    apply (beyond _ _ 1); [rewrite Rmult_1_l; exact B1|apply isR_fin|left; reflexivity|lra]. }
  destruct (ltb_cases z0 (- (h / 2))) as [[-> H2]|[-> H2]].
  { intros _. destruct (leb_cases (- (h / 2)) z0) as [[_ ?]|[-> _]]; [lra|]. cbn [andb]. rewrite Else.
    apply (beyond _ _ (-1)); [eapply isR_to; [exact B2|ring]|cbn; lra|right; reflexivity|lra]. }
  destruct (leb_cases z0 (h / 2)) as [[-> _]|[_ ?]]; [|lra].
  destruct (leb_cases (- (h / 2)) z0) as [[-> _]|[_ ?]]; [|lra]. cbn [andb].
  destruct (leb_cases (F 0 + a * a * b * b) (a * a * b * b)) as [[-> HF]|[-> HF]].
  - intros _. rewrite (Rltb_no (a * a * b * b)) by lra. rewrite andb_false_r. apply area4; try exact Hd.
    + destruct (Req_dec (F 0) 0); [|lra]. exfalso. apply Hoff. lra.
    + destruct (Req_dec z0 (h / 2)); [exfalso; apply Hoff; lra|].
      destruct (Req_dec z0 (- (h / 2))); [exfalso; apply Hoff; lra|]. lra.
  - rewrite (Rltb_yes (a * a * b * b)) by lra. rewrite andb_true_r.
    destruct (ltb_cases (- (h / 2)) z0) as [[-> H3]|[-> H3]].
    + destruct (ltb_cases z0 (h / 2)) as [[-> H4]|[-> H4]]; cbn [andb].
      * intros _. rewrite Else. apply area3; lra.
      * intros [[]|H]; [reflexivity|]. exfalso. apply H. split.
        { cbn [vz]. rewrite Rabs_pos_eq; lra. }
        destruct (Rlt_or_le 1 (ellipse a b o)) as [|He]; [assumption|]. apply (ellipse_le _ _ _ Ha Hb) in He.
        cbn [vx vy] in He. unfold Fq in HF. lra.
    + cbn [andb]. intros [[]|H]; [reflexivity|]. exfalso. apply H. split.
      { cbn [vz]. rewrite Rabs_left1; lra. }
      destruct (Rlt_or_le 1 (ellipse a b o)) as [|He]; [assumption|]. apply (ellipse_le _ _ _ Ha Hb) in He.
      cbn [vx vy] in He. unfold Fq in HF. lra.
Qed.
(** From beside a cap nothing is ever found. *)
Lemma local_beside : beside_cap a b h o -> @cyl_local _ XN xa xb xh rot org dir = None.
Proof.
  intros [Hz He]. cbn [vz] in Hz.
  assert (HF : 0 < F 0).
  { destruct (Rlt_or_le 0 (F 0)) as [|H]; [assumption|]. exfalso.
    assert (ellipse a b o <= 1); [|lra]. apply (ellipse_le _ _ _ Ha Hb). cbn [vx vy]. unfold Fq in H. lra. }
  unfold cyl_local. cbv zeta.
  change (@nltb _ XN) with xltb. change (@nleb _ XN) with xleb.
  destruct Xo as (Xx & Xy & Xz). change (vx o) with x0 in Xx. change (vy o) with y0 in Xy. change (vz o) with z0 in Xz.
  pose proof (X_h2 big tiny eps xh h Xh) as B1. pose proof (X_mh2 big tiny eps xh h Xh) as B2.
  assert (XG : isR (@nadd _ XN (@nmul _ XN (@nmul _ XN (@nmul _ XN (vx org) (vx org)) xb) xb) (@nmul _ XN (@nmul _ XN (@nmul _ XN (vy org) (vy org)) xa) xa)) (F 0 + a * a * b * b)).
  { eapply isR_to; [apply isR_add; apply isR_mul; [apply isR_mul; [apply isR_mul|]| |apply isR_mul; [apply isR_mul|]|]; eassumption|].
    unfold Fq. ring. }
  assert (XR : isR (@nmul _ XN (@nmul _ XN (@nmul _ XN xa xa) xb) xb) (a * a * b * b)).
  { repeat (apply isR_mul; try eassumption). }
  rewrite (isR_ltb _ _ _ _ B1 Xz), (isR_ltb _ _ _ _ Xz B2), (isR_ltb _ _ _ _ B2 Xz), (isR_ltb _ _ _ _ Xz B1),
    (isR_leb _ _ _ _ B2 Xz), (isR_leb _ _ _ _ Xz B1), (isR_ltb _ _ _ _ XR XG), (isR_leb _ _ _ _ XG XR).
  assert (Hz' : z0 = h / 2 \/ z0 = - (h / 2)) by (unfold Rabs in Hz; destruct (Rcase_abs z0); lra).
  rewrite (Rltb_no (h / 2) z0), (Rltb_no z0 (- (h / 2))) by lra.
  destruct (leb_cases (F 0 + a * a * b * b) (a * a * b * b)) as [[_ ?]|[-> _]]; [lra|]. rewrite andb_false_r.
  destruct Hz' as [E|E].
  - rewrite (Rltb_no z0 (h / 2)) by lra. rewrite andb_false_r. reflexivity.
  - rewrite (Rltb_no (- (h / 2)) z0) by lra. reflexivity.
Qed.
End Local.
