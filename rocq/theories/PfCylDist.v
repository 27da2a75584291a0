(** distance_to_surface for cylinders, in exact arithmetic. *)

From Coq Require Import Reals ZArith List Bool Arith Lra Lia.
From Verif Require Import Num NumR NumX Vec Ray Cylinder CylDist SpecReal SpecPlane SpecCyl.
From Verif Require Import PfX PfPlane PfClosest PfCyl PfCyl3 PfCyl4.
Import ListNotations.
Local Open Scope R_scope.

Lemma norm_sq v : rv_norm v * rv_norm v = rv_dot v v.
Proof. unfold rv_norm. apply sqrt_sqrt, rv_dot_nonneg. Qed.
Lemma norm_ge v d : 0 <= d -> d * d <= rv_dot v v -> d <= rv_norm v.
Proof. intros Hd H. unfold rv_norm. rewrite <- (sqrt_square d Hd). apply sqrt_le_1; [nra|apply rv_dot_nonneg|exact H]. Qed.
Lemma norm_is v d : 0 <= d -> d * d = rv_dot v v -> d = rv_norm v.
Proof. intros Hd H. unfold rv_norm. rewrite <- H, sqrt_square; [reflexivity|exact Hd]. Qed.

(** A point of the ellipse on the way from an outer point to one within. *)
Lemma crossing a b P W : 0 < a -> 0 < b -> 1 < ellipse a b P -> ellipse a b W <= 1 ->
  exists K, ellipse a b K = 1 /\ vz K = 0 /\
    (vx P - vx K) * (vx P - vx K) + (vy P - vy K) * (vy P - vy K) <=
    (vx P - vx W) * (vx P - vx W) + (vy P - vy W) * (vy P - vy W).
Proof.
  intros Ha Hb HP HW. destruct P as [px py pz], W as [wx wy wz]. unfold ellipse in *. cbn [vx vy vz] in *.
  set (f := fun s => (px + s * (wx - px)) / a * ((px + s * (wx - px)) / a) + (py + s * (wy - py)) / b * ((py + s * (wy - py)) / b) - 1).
  assert (Hf : continuity f) by (unfold f, Rdiv; reg).
  destruct (IVT_cor f 0 1 Hf Rle_0_1) as (s & Hs & Es).
  { assert (f 0 = px / a * (px / a) + py / b * (py / b) - 1) as -> by (unfold f; rewrite !Rmult_0_l, !Rplus_0_r; reflexivity).
    assert (f 1 = wx / a * (wx / a) + wy / b * (wy / b) - 1) as ->.
    { unfold f. replace (px + 1 * (wx - px)) with wx by ring. replace (py + 1 * (wy - py)) with wy by ring. reflexivity. }
    nra. }
  exists (V (px + s * (wx - px)) (py + s * (wy - py)) 0). cbn [vx vy vz]. unfold f in Es. split; [lra|]. split; [reflexivity|].
  replace (px - (px + s * (wx - px))) with (s * (px - wx)) by ring. replace (py - (py + s * (wy - py))) with (s * (py - wy)) by ring.
  assert (s * s <= 1) by nra. pose proof (Rle_0_sqr (px - wx)). pose proof (Rle_0_sqr (py - wy)). unfold Rsqr in *. nra.
Qed.

Section D.
Variables big tiny eps : R.
Notation XN := (Xnum big tiny eps).
Variables (newton_eps percentage : xr) (iszero : xr -> bool).
Variables (xa xb : xr) (a b : R).
Hypothesis Xa : isR xa a.
Hypothesis Xb : isR xb b.
Hypothesis Ha : 0 < a.
Hypothesis Hb : 0 < b.

Lemma ba_x : isR (@ndiv _ XN xb xa) (b / a).
Proof. apply isR_div; [exact Xb|exact Xa|lra]. Qed.
Lemma mba_x : isR (@ndiv _ XN (@nopp _ XN xb) xa) (- b / a).
Proof. apply isR_div; [apply isR_opp, Xb|exact Xa|lra]. Qed.
Lemma ab_x : isR (@ndiv _ XN xa xb) (a / b).
Proof. apply isR_div; [exact Xa|exact Xb|lra]. Qed.
Lemma mab_x : isR (@ndiv _ XN (@nopp _ XN xa) xb) (- a / b).
Proof. apply isR_div; [apply isR_opp, Xa|exact Xb|lra]. Qed.

(** Whatever abscissa the iteration ends with, the computed distance is not a number or
    that of a point of the ellipse. *)
Lemma point_dist xc c xf f xm (x0 y0 : xr) X0 Y0 : isR xc c -> isR xf f -> isR x0 X0 -> isR y0 Y0 ->
  let ym := xmul xf (xsqrt (xsub (xmul xc xc) (xmul xm xm))) in
  let r := xsqrt (xadd (xmul (xsub x0 xm) (xsub x0 xm)) (xmul (xsub y0 ym) (xsub y0 ym))) in
  r = Xnan \/ exists u, 0 <= c * c - u * u /\
    isR r (sqrt ((X0 - u) * (X0 - u) + (Y0 - f * sqrt (c * c - u * u)) * (Y0 - f * sqrt (c * c - u * u)))).
Proof.
  intros Hc Hf Hx Hy ym r. subst ym r.
  assert (Nan : forall x, xsqrt (xadd x (xmul (xsub y0 Xnan) (xsub y0 Xnan))) = Xnan).
  { intros x. destruct y0 as [|?|? ?]; destruct x as [|?|? ?]; reflexivity. }
  assert (Nan2 : xmul xf Xnan = Xnan) by (destruct xf; reflexivity).
  destruct xm as [|s|s u].
  - left. replace (xmul Xnan Xnan) with Xnan by reflexivity.
    replace (xsub (xmul xc xc) Xnan) with Xnan by (destruct (xmul xc xc); reflexivity).
    cbn [xsqrt]. rewrite Nan2, Nan. reflexivity.
  - left. replace (xsqrt (xsub (xmul xc xc) (xmul (Xinf s) (Xinf s)))) with Xnan.
    + rewrite Nan2, Nan. reflexivity.
    + pose proof (isR_mul _ _ _ _ Hc Hc) as H. apply isR_ex in H as (s' & ->). destruct s; reflexivity.
  - assert (Hu : isR (Xf s u) u) by reflexivity.
    pose proof (isR_sub _ _ _ _ (isR_mul _ _ _ _ Hc Hc) (isR_mul _ _ _ _ Hu Hu)) as HD.
    destruct (Rlt_or_le (c * c - u * u) 0) as [Hn|Hn].
    + left. apply isR_ex in HD as (s' & ->). cbn [xsqrt]. destruct (Rlt_dec (c * c - u * u) 0); [|lra]. rewrite Nan2, Nan. reflexivity.
    + right. exists u. split; [exact Hn|]. apply isR_sqrt.
      * apply isR_add; apply isR_mul; apply isR_sub; try assumption; apply isR_mul; try assumption; apply isR_sqrt; assumption.
      * pose proof (Rle_0_sqr (X0 - u)). pose proof (Rle_0_sqr (Y0 - f * sqrt (c * c - u * u))). unfold Rsqr in *. lra.
Qed.

Definition found (r : xr) (x y : R) : Prop :=
  r = Xnan \/ exists p, on_ellipse a b p /\ isR r (rv_norm (rv_sub (V x y 0) p)).

Lemma found_x f u x y : f * f = b * b / (a * a) -> 0 <= a * a - u * u -> forall r,
  isR r (sqrt ((x - u) * (x - u) + (y - f * sqrt (a * a - u * u)) * (y - f * sqrt (a * a - u * u)))) ->
  exists p, on_ellipse a b p /\ isR r (rv_norm (rv_sub (V x y 0) p)).
Proof.
  intros Hf Hu r Hr. exists (V u (f * sqrt (a * a - u * u)) 0). split.
  - split; [|reflexivity]. unfold ellipse. cbn [vx vy].
    replace (f * sqrt (a * a - u * u) / b * (f * sqrt (a * a - u * u) / b)) with (f * f * (sqrt (a * a - u * u) * sqrt (a * a - u * u)) / (b * b)) by (field; lra).
    rewrite sqrt_sqrt, Hf by exact Hu. field. split; lra.
  - eapply isR_to; [exact Hr|]. unfold rv_norm, rv_dot, rv_sub. cbn [vx vy vz]. f_equal. ring.
Qed.
Lemma found_y f u x y : f * f = a * a / (b * b) -> 0 <= b * b - u * u -> forall r,
  isR r (sqrt ((y - u) * (y - u) + (x - f * sqrt (b * b - u * u)) * (x - f * sqrt (b * b - u * u)))) ->
  exists p, on_ellipse a b p /\ isR r (rv_norm (rv_sub (V x y 0) p)).
Proof.
  intros Hf Hu r Hr. exists (V (f * sqrt (b * b - u * u)) u 0). split.
  - split; [|reflexivity]. unfold ellipse. cbn [vx vy].
    replace (f * sqrt (b * b - u * u) / a * (f * sqrt (b * b - u * u) / a)) with (f * f * (sqrt (b * b - u * u) * sqrt (b * b - u * u)) / (a * a)) by (field; lra).
    rewrite sqrt_sqrt, Hf by exact Hu. field. split; lra.
  - eapply isR_to; [exact Hr|]. unfold rv_norm, rv_dot, rv_sub. cbn [vx vy vz]. f_equal. ring.
Qed.

Lemma find_found xq yq x y : isR xq x -> isR yq y ->
  found (@find_minimum_distance_to_ellipse _ XN newton_eps percentage xa xb xq yq) x y.
Proof.
  intros Hx Hy. unfold find_minimum_distance_to_ellipse. cbv zeta.
  destruct (_ || _); [|destruct (_ || _); [|destruct (_ && _)]].
  - match goal with |- context [newton_iteration ?e ?h ?g ?p ?q ?r ?s ?t] => generalize (@newton_iteration _ XN e h g p q r s t) end. intros xm.
    destruct (point_dist xa a _ _ xm xq yq x y Xa ba_x Hx Hy) as [E|(u & Hu & Hr)]; [left; exact E|right].
    apply (found_x (b / a) u); [field; lra|exact Hu|exact Hr].
  - match goal with |- context [newton_iteration ?e ?h ?g ?p ?q ?r ?s ?t] => generalize (@newton_iteration _ XN e h g p q r s t) end. intros xm.
    destruct (point_dist xa a _ _ xm xq yq x y Xa mba_x Hx Hy) as [E|(u & Hu & Hr)]; [left; exact E|right].
    apply (found_x (- b / a) u); [field; lra|exact Hu|exact Hr].
  - match goal with |- context [newton_iteration ?e ?h ?g ?p ?q ?r ?s ?t] => generalize (@newton_iteration _ XN e h g p q r s t) end. intros xm.
    destruct (point_dist xb b _ _ xm yq xq y x Xb ab_x Hy Hx) as [E|(u & Hu & Hr)]; [left; exact E|right].
    apply (found_y (a / b) u); [field; lra|exact Hu|exact Hr].
  - match goal with |- context [newton_iteration ?e ?h ?g ?p ?q ?r ?s ?t] => generalize (@newton_iteration _ XN e h g p q r s t) end. intros xm.
    destruct (point_dist xb b _ _ xm yq xq y x Xb mab_x Hy Hx) as [E|(u & Hu & Hr)]; [left; exact E|right].
    apply (found_y (- a / b) u); [field; lra|exact Hu|exact Hr].
Qed.

(** The distance routine, case by case. *)
Variables (xh : xr) (h : R).
Hypothesis Xh : isR xh h.
Hypothesis Hh : 0 < h.
Hypothesis Heps : 0 < eps.
Hypothesis Hzero : forall x r, isR x r -> (iszero x = true <-> r = 0).
Variables (x y z : R).
Notation q := (V x y z).
Notation top := (Rabs (z - h / 2)).
Notation bot := (Rabs (z + h / 2)).
Hypothesis Hband : ellipse a b q = 1 \/ eps <= Rabs (ellipse a b q - 1).

Definition outcome (res ds : xr) : Prop :=
  (x = 0 /\ y = 0 /\ h / 2 < Rabs z /\ exists m, isR res m /\ (m = top \/ m = bot) /\ m <= top /\ m <= bot) \/
  (x = 0 /\ y = 0 /\ Rabs z <= h / 2 /\ exists m, isR res m /\ (m = a \/ m = b \/ m = top \/ m = bot) /\ m <= a /\ m <= b /\ m <= top /\ m <= bot) \/
  (ellipse a b q = 1 /\ h / 2 < Rabs z /\ exists m, isR res m /\ (m = top \/ m = bot) /\ m <= top /\ m <= bot) \/
  (ellipse a b q = 1 /\ Rabs z <= h / 2 /\ isR res 0) \/
  (ellipse a b q < 1 /\ h / 2 <= z /\ isR res top) \/
  (ellipse a b q < 1 /\ z <= - (h / 2) /\ isR res bot) \/
  (ellipse a b q < 1 /\ (x <> 0 \/ y <> 0) /\ Rabs z < h / 2 /\
     (ds = Xnan -> res = Xnan) /\
     forall d, isR ds d -> exists m, isR res m /\ (m = d \/ m = top \/ m = bot) /\ m <= d /\ m <= top /\ m <= bot) \/
  (1 < ellipse a b q /\ Rabs z < h / 2 /\ res = ds) \/
  (1 < ellipse a b q /\ h / 2 <= Rabs z /\
     (ds = Xnan -> res = Xnan) /\
     forall d, isR ds d -> exists m, isR res m /\ (m = sqrt (d * d + top * top) \/ m = sqrt (d * d + bot * bot)) /\
        m <= sqrt (d * d + top * top) /\ m <= sqrt (d * d + bot * bot)).

Lemma two_min u v r1 r2 : isR u r1 -> isR v r2 -> exists m, isR (@smin_list _ XN u [v]) m /\ (m = r1 \/ m = r2) /\ m <= r1 /\ m <= r2.
Proof.
  intros H1 H2. destruct (isR_smin_list big tiny eps [v] u r1 [r2] H1) as (m & M1 & M2 & M3 & M4); [repeat constructor; assumption|].
  exists m. split; [exact M1|]. split; [destruct M2 as [->|[->|[]]]; auto|]. split; [exact M3|]. apply M4. left; reflexivity.
Qed.

Lemma distance_outcome rot c p : visR (@mulmv _ XN (@trans _ rot) (@vsub _ XN p c)) q ->
  forall i, outcome (@cylinder_distance _ XN newton_eps percentage iszero (Cylinder c xa xb xh rot i) p)
    (@find_minimum_distance_to_ellipse _ XN newton_eps percentage xa xb
       (vx (@mulmv _ XN (@trans _ rot) (@vsub _ XN p c))) (vy (@mulmv _ XN (@trans _ rot) (@vsub _ XN p c)))).
Proof.
  intros HL i. unfold cylinder_distance. cbn [cy_rot cy_center cy_h cy_a cy_b]. cbv zeta.
  set (lp := @mulmv _ XN (@trans _ rot) (@vsub _ XN p c)) in *. destruct HL as (Lx & Ly & Lz). cbn [vx vy vz] in Lx, Ly, Lz.
  set (ds := @find_minimum_distance_to_ellipse _ XN newton_eps percentage xa xb (vx lp) (vy lp)).
  pose proof (X_h2 big tiny eps xh h Xh) as B1. pose proof (X_mh2 big tiny eps xh h Xh) as B2.
  assert (Tt : isR (@nabs _ XN (@nsub _ XN (vz lp) (@ndiv _ XN xh (@n2 _ XN)))) top) by (apply isR_abs, isR_sub; assumption).
  assert (Tb : isR (@nabs _ XN (@nadd _ XN (vz lp) (@ndiv _ XN xh (@n2 _ XN)))) bot) by (apply isR_abs, isR_add; assumption).
  set (xt := @nabs _ XN (@nsub _ XN (vz lp) (@ndiv _ XN xh (@n2 _ XN)))) in *.
  set (xbt := @nabs _ XN (@nadd _ XN (vz lp) (@ndiv _ XN xh (@n2 _ XN)))) in *.
  change (@nltb _ XN) with xltb. change (@nleb _ XN) with xleb. change (@n0 _ XN) with (Fin 0).
  rewrite (isR_ltb _ _ _ _ B1 Lz), (isR_ltb _ _ _ _ Lz B2), (isR_leb _ _ _ _ B1 Lz), (isR_leb _ _ _ _ Lz B2), (isR_ltb _ _ _ _ Lz B1), (isR_ltb _ _ _ _ B2 Lz).
  assert (Out : Rltb (h / 2) z || Rltb z (- (h / 2)) = true <-> h / 2 < Rabs z).
  { rewrite orb_true_iff, !Rltb_spec. unfold Rabs. destruct (Rcase_abs z); lra. }
  unfold outcome.
  destruct (iszero (vx lp) && iszero (vy lp)) eqn:Ez.
  { apply andb_true_iff in Ez as [E1 E2]. apply (Hzero _ _ Lx) in E1. apply (Hzero _ _ Ly) in E2.
    destruct (Rltb (h / 2) z || Rltb z (- (h / 2))) eqn:Eo.
    - left. split; [exact E1|]. split; [exact E2|]. split; [apply Out; reflexivity|]. apply two_min; assumption.
    - right; left. split; [exact E1|]. split; [exact E2|]. split.
      { destruct (Rle_or_lt (Rabs z) (h / 2)) as [|H]; [assumption|]. apply Out in H. discriminate. }
      destruct (isR_smin_list big tiny eps [xb; xt; xbt] xa a [b; top; bot] Xa) as (m & M1 & M2 & M3 & M4); [repeat constructor; assumption|].
      exists m. split; [exact M1|]. split; [destruct M2 as [->|[->|[->|[->|[]]]]]; auto|]. split; [exact M3|].
      split; [|split]; apply M4; cbn; auto. }
  assert (Hxy : x <> 0 \/ y <> 0).
  { destruct (Req_dec x 0) as [E1|]; [|auto]. destruct (Req_dec y 0) as [E2|]; [|auto]. exfalso.
    apply (Hzero _ _ Lx) in E1. apply (Hzero _ _ Ly) in E2. rewrite E1, E2 in Ez. discriminate. }
  assert (XE : isR (@ellipse_equation _ XN xa xb (vx lp) (vy lp)) (ellipse a b q - 1)).
  { unfold ellipse_equation.
    eapply isR_to; [apply isR_sub; [apply isR_add; apply isR_div; try (apply isR_mul; eassumption); nra|apply isR_fin]|].
    unfold ellipse. cbn [vx vy]. field. split; lra. }
  change (@nabs _ XN) with xabs. change (@neps _ XN) with (Fin eps).
  rewrite (isR_ltb _ _ _ _ (isR_abs _ _ XE) (isR_fin eps)), (isR_ltb _ _ _ _ XE (isR_fin 0)), (isR_ltb _ _ _ _ (isR_fin 0) XE).
  destruct (Rtotal_order (ellipse a b q) 1) as [HE|[HE|HE]].
  - destruct Hband as [|Hb1]; [lra|]. rewrite (Rltb_no (Rabs _)) by lra. rewrite (Rltb_yes (ellipse a b q - 1)) by lra.
    destruct (leb_cases (h / 2) z) as [[-> Hz]|[-> Hz]].
    { do 4 right. left. auto. }
    destruct (leb_cases z (- (h / 2))) as [[-> Hz']|[-> Hz']].
    { do 5 right. left. auto. }
    do 6 right. left. split; [exact HE|]. split; [exact Hxy|]. split; [apply Rabs_lt_iff; lra|]. split.
    + intros ->. unfold smin_list. cbn [fold_left]. change (@nltb _ XN) with xltb.
      destruct xbt as [|?|? ?]; cbn [xltb]; destruct xt as [|?|? ?]; reflexivity.
    + intros d Hd. destruct (isR_smin_list big tiny eps [xbt; xt] ds d [bot; top] Hd) as (m & M1 & M2 & M3 & M4); [repeat constructor; assumption|].
      exists m. split; [exact M1|]. split; [destruct M2 as [->|[->|[->|[]]]]; auto|]. split; [exact M3|].
      split; apply M4; cbn; auto.
  - replace (ellipse a b q - 1) with 0 by lra. rewrite Rabs_R0, (Rltb_yes 0 eps) by exact Heps.
    destruct (Rltb (h / 2) z || Rltb z (- (h / 2))) eqn:Eo.
    + do 2 right. left. split; [exact HE|]. split; [apply Out; reflexivity|].
      exists (Rmin bot top). split; [apply isR_smin; assumption|]. unfold Rmin. destruct (Rle_dec bot top); lra.
    + do 3 right. left. split; [exact HE|]. split; [|apply isR_fin].
      destruct (Rle_or_lt (Rabs z) (h / 2)) as [|H]; [assumption|]. apply Out in H. discriminate.
  - destruct Hband as [|Hb1]; [lra|]. rewrite (Rltb_no (Rabs _)) by lra. rewrite (Rltb_no (ellipse a b q - 1)) by lra.
    rewrite (Rltb_yes 0 (ellipse a b q - 1)) by lra.
    destruct (Rltb z (h / 2) && Rltb (- (h / 2)) z) eqn:Ei.
    + do 7 right. left. apply andb_true_iff in Ei as [I1 I2]. apply Rltb_spec in I1, I2. split; [lra|].
      split; [apply Rabs_lt_iff; lra|reflexivity].
    + do 8 right. split; [lra|]. split.
      { destruct (Rle_or_lt (h / 2) (Rabs z)) as [|H]; [assumption|]. exfalso. apply Rabs_lt_iff in H.
        rewrite (Rltb_yes z), (Rltb_yes (- (h / 2))) in Ei by lra. discriminate. }
      split.
      * intros ->. unfold smin_list. cbn [fold_left]. reflexivity.
      * intros d Hd. apply two_min.
        -- apply isR_sqrt; [apply isR_add; apply isR_mul; assumption|]. pose proof (Rle_0_sqr d). pose proof (Rle_0_sqr top). unfold Rsqr in *. lra.
        -- apply isR_sqrt; [apply isR_add; apply isR_mul; assumption|]. pose proof (Rle_0_sqr d). pose proof (Rle_0_sqr bot). unfold Rsqr in *. lra.
Qed.
End D.
