(** Sampling and scattering of the path tracer. *)

From Coq Require Import Reals ZArith List Bool Lra Lia Psatz.
From Verif Require Import Num NumR NumX Vec PathTracer SpecReal SpecOptics PfX.
Import ListNotations.
Local Open Scope R_scope.

Lemma visR_opp v a : visR v a -> visR (vmap xopp v) (rv_scale (-1) a).
Proof.
  intros (A & B & C). repeat split; cbn; [apply isR_opp in A|apply isR_opp in B|apply isR_opp in C];
    match goal with H : isR (xopp ?x) _ |- isR (xopp ?x) ?b => replace b with (- (b / -1)) by field; refine (eq_ind _ (isR _) H _ _); field end.
Qed.

Section S.
Variables big tiny eps : R.
Notation XN := (Xnum big tiny eps).

Lemma isR_n0 : isR (@n0 _ XN) 0. Proof. reflexivity. Qed.
Lemma isR_n1 : isR (@n1 _ XN) 1. Proof. reflexivity. Qed.
Lemma isR_n2 : isR (@n2 _ XN) 2. Proof. reflexivity. Qed.
Lemma isR_ofZ z : isR (@nofZ _ XN z) (IZR z). Proof. reflexivity. Qed.

(** C59 *)
Lemma onb_ok n Nn : visR n Nn -> rv_dot Nn Nn = 1 ->
  exists B1 B2, visR (fst (@revised_onb _ XN n)) B1 /\ visR (snd (@revised_onb _ XN n)) B2 /\ frame B1 B2 Nn.
Proof.
  intros (Hx & Hy & Hz) Hn. destruct Nn as [x y z]. cbn [vx vy vz] in *. unfold rv_dot in Hn. cbn [vx vy vz] in Hn.
  unfold revised_onb. change (@nltb _ XN) with xltb. rewrite (isR_ltb _ _ _ _ Hz isR_n0).
  destruct (Rltb z 0) eqn:E.
  - apply Rltb_spec in E. assert (H1 : 1 - z <> 0) by lra.
    assert (Ha : isR (@ndiv _ XN (@n1 _ XN) (@nsub _ XN (@n1 _ XN) (vz n))) (1 / (1 - z))).
    { apply isR_div; [apply isR_n1|apply isR_sub; [apply isR_n1|exact Hz]|exact H1]. }
    cbn [fst snd]. set (a := 1 / (1 - z)) in *.
    assert (Ea : a * (1 - z) = 1) by (unfold a; field; lra).
    exists (V (1 - x * x * a) (- (x * y * a)) x), (V (x * y * a) (y * y * a - 1) (- y)).
    split; [|split].
    + repeat split; cbn [vx vy vz].
      * apply isR_sub; [apply isR_n1|]. apply isR_mul; [apply isR_mul; assumption|exact Ha].
      * apply isR_opp. apply isR_mul; [apply isR_mul; assumption|exact Ha].
      * exact Hx.
    + repeat split; cbn [vx vy vz].
      * apply isR_mul; [apply isR_mul; assumption|exact Ha].
      * apply isR_sub; [|apply isR_n1]. apply isR_mul; [apply isR_mul; assumption|exact Ha].
      * apply isR_opp; exact Hy.
    + assert (Es : a * (x * x + y * y) = 1 + z).
      { replace (x * x + y * y) with ((1 - z) * (1 + z)) by nra. rewrite <- Rmult_assoc, Ea. ring. }
      assert (Es2 : (x * x + y * y) = (1 - z) * (1 + z)) by nra.
      unfold frame, rv_dot, rv_cross; cbn [vx vy vz].
      assert (Ezz : z = 1 - (1 - z)) by ring.
      repeat split.
      * replace ((1 - x * x * a) * (1 - x * x * a) + - (x * y * a) * - (x * y * a) + x * x)
          with (1 - 2 * a * (x * x) + a * (x * x) * (a * (x * x + y * y)) + x * x) by ring. rewrite Es.
        replace (1 - 2 * a * (x * x) + a * (x * x) * (1 + z) + x * x) with (1 + x * x * (1 - a * (1 - z))) by ring. rewrite Ea. ring.
      * replace (x * y * a * (x * y * a) + (y * y * a - 1) * (y * y * a - 1) + - y * - y)
          with (1 - 2 * a * (y * y) + a * (y * y) * (a * (x * x + y * y)) + y * y) by ring. rewrite Es.
        replace (1 - 2 * a * (y * y) + a * (y * y) * (1 + z) + y * y) with (1 + y * y * (1 - a * (1 - z))) by ring. rewrite Ea. ring.
      * exact Hn.
      * replace ((1 - x * x * a) * (x * y * a) + - (x * y * a) * (y * y * a - 1) + x * - y)
          with (x * y * a * (2 - a * (x * x + y * y)) - x * y) by ring. rewrite Es.
        replace (x * y * a * (2 - (1 + z)) - x * y) with (x * y * (a * (1 - z) - 1)) by ring. rewrite Ea. ring.
      * replace ((1 - x * x * a) * x + - (x * y * a) * y + x * z)
          with (x * (1 + z - a * (x * x + y * y))) by ring. rewrite Es. ring.
      * replace (x * y * a * x + (y * y * a - 1) * y + - y * z)
          with (y * (a * (x * x + y * y) - 1 - z)) by ring. rewrite Es. ring.
      * apply vec_eq; cbn [vx vy vz].
        -- replace (- (x * y * a) * - y - x * (y * y * a - 1)) with x by ring. reflexivity.
        -- replace (x * (x * y * a) - (1 - x * x * a) * - y) with y by ring. reflexivity.
        -- replace ((1 - x * x * a) * (y * y * a - 1) - - (x * y * a) * (x * y * a)) with (a * (x * x + y * y) - 1) by ring.
           rewrite Es. ring.
  - apply Rltb_false in E. assert (H1 : 1 + z <> 0) by lra.
    assert (Ha : isR (@ndiv _ XN (@n1 _ XN) (@nadd _ XN (@n1 _ XN) (vz n))) (1 / (1 + z))).
    { apply isR_div; [apply isR_n1|apply isR_add; [apply isR_n1|exact Hz]|exact H1]. }
    cbn [fst snd]. set (a := 1 / (1 + z)) in *.
    assert (Ea : a * (1 + z) = 1) by (unfold a; field; lra).
    exists (V (1 - x * x * a) (- x * y * a) (- x)), (V (- x * y * a) (1 - y * y * a) (- y)).
    split; [|split].
    + repeat split; cbn [vx vy vz].
      * apply isR_sub; [apply isR_n1|]. apply isR_mul; [apply isR_mul; assumption|exact Ha].
      * apply isR_mul; [apply isR_mul; [apply isR_opp|]; assumption|exact Ha].
      * apply isR_opp; exact Hx.
    + repeat split; cbn [vx vy vz].
      * apply isR_mul; [apply isR_mul; [apply isR_opp|]; assumption|exact Ha].
      * apply isR_sub; [apply isR_n1|]. apply isR_mul; [apply isR_mul; assumption|exact Ha].
      * apply isR_opp; exact Hy.
    + assert (Es : a * (x * x + y * y) = 1 - z).
      { replace (x * x + y * y) with ((1 + z) * (1 - z)) by nra. rewrite <- Rmult_assoc, Ea. ring. }
      unfold frame, rv_dot, rv_cross; cbn [vx vy vz].
      repeat split.
      * replace ((1 - x * x * a) * (1 - x * x * a) + - x * y * a * (- x * y * a) + - x * - x)
          with (1 - 2 * a * (x * x) + a * (x * x) * (a * (x * x + y * y)) + x * x) by ring. rewrite Es.
        replace (1 - 2 * a * (x * x) + a * (x * x) * (1 - z) + x * x) with (1 + x * x * (1 - a * (1 + z))) by ring. rewrite Ea. ring.
      * replace (- x * y * a * (- x * y * a) + (1 - y * y * a) * (1 - y * y * a) + - y * - y)
          with (1 - 2 * a * (y * y) + a * (y * y) * (a * (x * x + y * y)) + y * y) by ring. rewrite Es.
        replace (1 - 2 * a * (y * y) + a * (y * y) * (1 - z) + y * y) with (1 + y * y * (1 - a * (1 + z))) by ring. rewrite Ea. ring.
      * exact Hn.
      * replace ((1 - x * x * a) * (- x * y * a) + - x * y * a * (1 - y * y * a) + - x * - y)
          with (x * y * a * (a * (x * x + y * y) - 2) + x * y) by ring. rewrite Es.
        replace (x * y * a * (1 - z - 2) + x * y) with (x * y * (1 - a * (1 + z))) by ring. rewrite Ea. ring.
      * replace ((1 - x * x * a) * x + - x * y * a * y + - x * z)
          with (x * (1 - z - a * (x * x + y * y))) by ring. rewrite Es. ring.
      * replace (- x * y * a * x + (1 - y * y * a) * y + - y * z)
          with (y * (1 - z - a * (x * x + y * y))) by ring. rewrite Es. ring.
      * apply vec_eq; cbn [vx vy vz].
        -- replace (- x * y * a * - y - - x * (1 - y * y * a)) with x by ring. reflexivity.
        -- replace (- x * (- x * y * a) - (1 - x * x * a) * - y) with y by ring. reflexivity.
        -- replace ((1 - x * x * a) * (1 - y * y * a) - - x * y * a * (- x * y * a)) with (1 - a * (x * x + y * y)) by ring.
           rewrite Es. ring.
Qed.

Lemma isR_uniform rm k x y a b : random_number rm k -> isR x a -> isR y b ->
  isR (@uniform _ XN rm k x y) (a + unit_share rm k * (b - a)).
Proof.
  intros [H1 H2] Hx Hy. unfold uniform, unit_share. apply isR_add; [exact Hx|].
  apply isR_mul; [|apply isR_sub; assumption].
  apply isR_div; [apply isR_ofZ|apply isR_ofZ|]. apply not_0_IZR. lia.
Qed.
Lemma share_range rm k : random_number rm k -> 0 <= unit_share rm k <= 1.
Proof.
  intros [H1 [H2 H3]]. unfold unit_share. apply IZR_lt in H1. apply IZR_le in H2, H3.
  split.
  - apply Rmult_le_pos; [exact H2|]. left. apply Rinv_0_lt_compat, H1.
  - apply Rmult_le_reg_r with (IZR rm); [exact H1|]. unfold Rdiv. rewrite Rmult_assoc, Rinv_l by lra. lra.
Qed.

(** C60 *)
Lemma cos_theta_ok fcos fsin pi p rm k1 k2 n Nn :
  computes fcos cos -> computes fsin sin -> isR pi p -> random_number rm k1 -> random_number rm k2 ->
  visR n Nn -> rv_dot Nn Nn = 1 ->
  exists W B1 B2, visR (@direction_cos_theta _ XN fcos fsin pi rm k1 k2 n) W /\ frame B1 B2 Nn /\
    visR (fst (@revised_onb _ XN n)) B1 /\ visR (snd (@revised_onb _ XN n)) B2 /\
    rv_dot W W = 1 /\
    rv_dot W B1 = sqrt (unit_share rm k1) * cos (2 * p * unit_share rm k2) /\
    rv_dot W B2 = sqrt (unit_share rm k1) * sin (2 * p * unit_share rm k2) /\
    rv_dot W Nn = sqrt (1 - unit_share rm k1).
Proof.
  intros Hcos Hsin Hpi H1 H2 Hn Hu. destruct (onb_ok n Nn Hn Hu) as (B1 & B2 & V1 & V2 & F).
  pose proof (share_range rm k1 H1) as R1.
  set (u1 := unit_share rm k1) in *. set (u2 := unit_share rm k2) in *.
  unfold direction_cos_theta.
  assert (E1 : isR (@uniform _ XN rm k1 (@n0 _ XN) (@n1 _ XN)) u1).
  { replace u1 with (0 + unit_share rm k1 * (1 - 0)) by (unfold u1; ring).
    apply isR_uniform; [exact H1|apply isR_n0|apply isR_n1]. }
  assert (E2 : isR (@uniform _ XN rm k2 (@n0 _ XN) (@nmul _ XN (@n2 _ XN) pi)) (2 * p * u2)).
  { replace (2 * p * u2) with (0 + unit_share rm k2 * (2 * p - 0)) by (unfold u2; ring).
    apply isR_uniform; [exact H2|apply isR_n0|apply isR_mul; [apply isR_n2|exact Hpi]]. }
  assert (E3 : isR (@nsqrt _ XN (@uniform _ XN rm k1 (@n0 _ XN) (@n1 _ XN))) (sqrt u1)) by (apply isR_sqrt; [exact E1|lra]).
  assert (E4 : isR (@nsqrt _ XN (@nsub _ XN (@n1 _ XN) (@uniform _ XN rm k1 (@n0 _ XN) (@n1 _ XN)))) (sqrt (1 - u1))).
  { apply isR_sqrt; [|lra]. apply isR_sub; [apply isR_n1|exact E1]. }
  destruct (@revised_onb _ XN n) as [xDir yDir]. cbn [fst snd] in V1, V2 |- *.
  set (c := sqrt u1 * cos (2 * p * u2)). set (s := sqrt u1 * sin (2 * p * u2)). set (z := sqrt (1 - u1)).
  exists (rv_add (rv_add (rv_scale c B1) (rv_scale s B2)) (rv_scale z Nn)), B1, B2.
  split; [|split; [exact F|split; [exact V1|split; [exact V2|]]]].
  { apply visR_add; [apply visR_add|].
    - apply visR_scaler; [apply isR_mul; [exact E3|apply Hcos, E2]|exact V1].
    - apply visR_scaler; [apply isR_mul; [exact E3|apply Hsin, E2]|exact V2].
    - apply visR_scale; [exact E4|exact Hn]. }
  destruct F as (F1 & F2 & F3 & F4 & F5 & F6 & _).
  assert (Hlin : forall v, rv_dot (rv_add (rv_add (rv_scale c B1) (rv_scale s B2)) (rv_scale z Nn)) v =
    c * rv_dot B1 v + s * rv_dot B2 v + z * rv_dot Nn v).
  { intros v. unfold rv_dot; cbn. ring. }
  assert (Hc : forall u v, rv_dot u v = rv_dot v u) by (intros; unfold rv_dot; ring).
  assert (Ecs : c * c + s * s = u1).
  { unfold c, s. replace (sqrt u1 * cos (2 * p * u2) * (sqrt u1 * cos (2 * p * u2)) + sqrt u1 * sin (2 * p * u2) * (sqrt u1 * sin (2 * p * u2)))
      with ((sqrt u1 * sqrt u1) * (Rsqr (sin (2 * p * u2)) + Rsqr (cos (2 * p * u2)))) by (unfold Rsqr; ring).
    rewrite sin2_cos2, sqrt_sqrt by lra. ring. }
  assert (Ez : z * z = 1 - u1) by (unfold z; apply sqrt_sqrt; lra).
  split; [|split; [|split]].
  - rewrite Hlin, (Hc B1), (Hc B2), (Hc Nn), !Hlin, (Hc B2 B1), (Hc Nn B1), (Hc Nn B2), F1, F2, F3, F4, F5, F6.
    replace (c * (c * 1 + s * 0 + z * 0) + s * (c * 0 + s * 1 + z * 0) + z * (c * 0 + s * 0 + z * 1))
      with (c * c + s * s + z * z) by ring. lra.
  - rewrite Hlin, (Hc B2 B1), (Hc Nn B1), F1, F4, F5. ring.
  - rewrite Hlin, (Hc Nn B2), F2, F4, F6. ring.
  - rewrite Hlin, F3, F5, F6. ring.
Qed.

(** C61 *)
Lemma reflect_ok i n Iv Nn : visR i Iv -> visR n Nn -> rv_dot Nn Nn = 1 ->
  exists W, visR (@reflect _ XN i n) W /\ across Nn W = across Nn Iv /\ along Nn W = rv_scale (-1) (along Nn Iv) /\
    rv_norm W = rv_norm Iv /\ (forall w, visR w W -> visR (@reflect _ XN w n) Iv).
Proof.
  intros Hi Hn Hu.
  assert (Hr : forall j Jv, visR j Jv -> visR (@reflect _ XN j n) (rv_sub Jv (rv_scale (2 * rv_dot Jv Nn) Nn))).
  { intros j Jv Hj. unfold reflect. apply visR_sub; [exact Hj|]. apply visR_scale; [|exact Hn].
    apply isR_mul; [apply isR_n2|apply isR_dot; assumption]. }
  set (W := rv_sub Iv (rv_scale (2 * rv_dot Iv Nn) Nn)).
  assert (Ed : rv_dot W Nn = - rv_dot Iv Nn).
  { unfold W. replace (rv_dot (rv_sub Iv (rv_scale (2 * rv_dot Iv Nn) Nn)) Nn)
      with (rv_dot Iv Nn - 2 * rv_dot Iv Nn * rv_dot Nn Nn) by (unfold rv_dot, rv_sub, rv_scale; cbn; ring). rewrite Hu. ring. }
  exists W. split; [apply Hr, Hi|]. split; [|split; [|split]].
  - unfold across, along. rewrite Ed. apply vec_eq; unfold W; cbn; ring.
  - unfold along. rewrite Ed. apply vec_eq; cbn; ring.
  - unfold rv_norm. f_equal. unfold W.
    replace (rv_dot (rv_sub Iv (rv_scale (2 * rv_dot Iv Nn) Nn)) (rv_sub Iv (rv_scale (2 * rv_dot Iv Nn) Nn)))
      with (rv_dot Iv Iv - 4 * rv_dot Iv Nn * rv_dot Iv Nn + 4 * rv_dot Iv Nn * rv_dot Iv Nn * rv_dot Nn Nn)
      by (unfold rv_dot, rv_sub, rv_scale; cbn; ring). rewrite Hu. ring.
  - intros w Hw. replace Iv with (rv_sub W (rv_scale (2 * rv_dot W Nn) Nn)); [apply Hr, Hw|].
    rewrite Ed. apply vec_eq; unfold W; cbn; ring.
Qed.

(** C62 *)
Lemma refract_ok i n eta Iv Nn e : visR i Iv -> visR n Nn -> isR eta e -> rv_dot Iv Iv = 1 -> rv_dot Nn Nn = 1 ->
  let k := 1 - e * e * (1 - rv_dot Nn Iv * rv_dot Nn Iv) in
  (k < 0 -> visR (@refract _ XN i n eta) rv_zero) /\
  (0 <= k -> exists W, visR (@refract _ XN i n eta) W /\ rv_dot W W = 1 /\
     across Nn W = rv_scale e (across Nn Iv) /\ rv_dot W Nn = - sqrt k).
Proof.
  intros Hi Hn He Hi1 Hn1. cbv zeta. unfold refract.
  pose proof (isR_dot big tiny eps _ _ _ _ Hn Hi) as Hd.
  assert (Hk : isR (@nsub _ XN (@n1 _ XN) (@nmul _ XN (@nmul _ XN eta eta)
      (@nsub _ XN (@n1 _ XN) (@nmul _ XN (@dot _ XN n i) (@dot _ XN n i)))))
    (1 - e * e * (1 - rv_dot Nn Iv * rv_dot Nn Iv))).
  { apply isR_sub; [apply isR_n1|]. apply isR_mul; [apply isR_mul; assumption|].
    apply isR_sub; [apply isR_n1|]. apply isR_mul; assumption. }
  set (k := 1 - e * e * (1 - rv_dot Nn Iv * rv_dot Nn Iv)) in *.
  change (@nltb _ XN) with xltb. rewrite (isR_ltb _ _ _ _ Hk isR_n0). split; intros Hk0.
  - rewrite (proj2 (Rltb_spec k 0) Hk0). repeat split.
  - rewrite (proj2 (Rltb_false k 0) Hk0).
    set (dn := rv_dot Nn Iv) in *.
    exists (rv_sub (rv_scale e Iv) (rv_scale (e * dn + sqrt k) Nn)).
    assert (Es : sqrt k * sqrt k = k) by (apply sqrt_sqrt, Hk0).
    assert (Ec : rv_dot Iv Nn = dn) by (unfold dn, rv_dot; ring).
    assert (En : rv_dot (rv_sub (rv_scale e Iv) (rv_scale (e * dn + sqrt k) Nn)) Nn = - sqrt k).
    { replace (rv_dot (rv_sub (rv_scale e Iv) (rv_scale (e * dn + sqrt k) Nn)) Nn)
        with (e * rv_dot Iv Nn - (e * dn + sqrt k) * rv_dot Nn Nn) by (unfold rv_dot, rv_sub, rv_scale; cbn; ring).
      rewrite Ec, Hn1. ring. }
    split; [|split; [|split]].
    + apply visR_sub; [apply visR_scale; assumption|]. apply visR_scale; [|exact Hn].
      apply isR_add; [apply isR_mul; assumption|]. apply isR_sqrt; assumption.
    + replace (rv_dot (rv_sub (rv_scale e Iv) (rv_scale (e * dn + sqrt k) Nn)) (rv_sub (rv_scale e Iv) (rv_scale (e * dn + sqrt k) Nn)))
        with (e * e * rv_dot Iv Iv - 2 * e * (e * dn + sqrt k) * rv_dot Iv Nn + (e * dn + sqrt k) * (e * dn + sqrt k) * rv_dot Nn Nn)
        by (unfold rv_dot, rv_sub, rv_scale; cbn; ring).
      rewrite Hi1, Hn1, Ec.
      replace (e * e * 1 - 2 * e * (e * dn + sqrt k) * dn + (e * dn + sqrt k) * (e * dn + sqrt k) * 1)
        with (e * e * (1 - dn * dn) + sqrt k * sqrt k) by ring. rewrite Es. unfold k. ring.
    + unfold across, along. rewrite En, Ec. apply vec_eq; cbn; ring.
    + exact En.
Qed.

(** C63 *)
Lemma schlick0_range e : 0 < e -> 0 <= schlick0 e < 1.
Proof.
  intros He. unfold schlick0. pose proof (Rinv_0_lt_compat e He) as Hi. split; [apply Rle_0_sqr|].
  rewrite <- Rsqr_1. apply Rsqr_lt_abs_1. rewrite Rabs_R1.
  unfold Rdiv. rewrite Rabs_mult, Rabs_inv, (Rabs_right (e + / e)) by lra.
  apply Rmult_lt_reg_r with (e + / e); [lra|]. rewrite Rmult_assoc, Rinv_l by lra.
  rewrite Rmult_1_r, Rmult_1_l. apply Rabs_def1; lra.
Qed.
Lemma schlick_range e c : 0 < e -> 0 <= c <= 1 -> schlick0 e <= schlick e c <= 1.
Proof.
  intros He Hc. pose proof (schlick0_range e He) as Hr. unfold schlick.
  assert (Hp : 0 <= (1 - c) ^ 5 <= 1).
  { split; [apply pow_le; lra|]. rewrite <- (pow1 5). apply pow_incr. lra. }
  split; nra.
Qed.
Lemma fresnel_ok h n x Hv Nn e : visR h Hv -> visR n Nn -> isR x ((e - / e) / (e + / e)) ->
  isR (@fresnel_schlick _ XN h n x) (schlick e (rv_dot Hv Nn)).
Proof.
  intros Hh Hn Hx. unfold fresnel_schlick, schlick, schlick0.
  assert (Hr : isR (@nmul _ XN x x) (Rsqr ((e - / e) / (e + / e)))) by (apply isR_mul; assumption).
  apply isR_add; [exact Hr|]. apply isR_mul; [apply isR_sub; [apply isR_n1|exact Hr]|].
  assert (Hd : isR (@nsub _ XN (@n1 _ XN) (@dot _ XN h n)) (1 - rv_dot Hv Nn)).
  { apply isR_sub; [apply isR_n1|apply isR_dot; assumption]. }
  unfold pow5. replace ((1 - rv_dot Hv Nn) ^ 5) with ((1 - rv_dot Hv Nn) * (1 - rv_dot Hv Nn) * (1 - rv_dot Hv Nn) * (1 - rv_dot Hv Nn) * (1 - rv_dot Hv Nn)) by ring.
  repeat (apply isR_mul; [|exact Hd]). exact Hd.
Qed.

Lemma third_dot_ok c Cv : visR c Cv -> isR (@third_dot _ XN c) (mean Cv).
Proof.
  intros H. unfold third_dot.
  assert (Ht : visR (@vdivs _ XN (V (@nofZ _ XN 1) (@nofZ _ XN 1) (@nofZ _ XN 1)) (@nofZ _ XN 3)) (rv_scale (/ 3) (V 1 1 1))).
  { apply visR_divs; [reflexivity|lra|repeat split]. }
  replace (mean Cv) with (rv_dot (rv_scale (/ 3) (V 1 1 1)) Cv); [apply isR_dot; assumption|].
  unfold mean, rv_dot; cbn. field.
Qed.

Lemma mean_nonneg v : vnonneg v -> 0 <= mean v.
Proof. intros (A & B & C). unfold mean. lra. Qed.

Lemma likely_nonneg s f e : physical s -> 0 <= f <= 1 -> 0 <= likely s f e.
Proof.
  intros (P1 & P2 & P3 & P4 & _ & P6) Hf.
  apply mean_nonneg in P1, P2, P3, P4. destruct e; cbn [likely]; try lra.
  - apply Rmult_le_pos; lra.
  - apply Rmult_le_pos; [apply Rmult_le_pos|]; lra.
  - apply Rmult_le_pos; [apply Rmult_le_pos|]; lra.
Qed.

Definition rhos_are (q : xr * xr * xr * xr) (s : surface) (f : R) : Prop :=
  isR (fst (fst (fst q))) (likely s f Glossy) /\ isR (snd (fst (fst q))) (likely s f Diffuse) /\
  isR (snd (fst q)) (likely s f Refract) /\ isR (snd q) (likely s f Emit).
Lemma rho_ok m s x f : material_is m s -> isR x f -> rhos_are (@rho _ XN m x) s f.
Proof.
  intros (M1 & M2 & M3 & M4 & M5 & M6) Hx. unfold rhos_are, rho. cbn [fst snd likely].
  apply third_dot_ok in M1, M2, M3, M4.
  assert (H1 : isR (@nsub _ XN (@n1 _ XN) x) (1 - f)) by (apply isR_sub; [apply isR_n1|exact Hx]).
  repeat split; repeat apply isR_mul; try assumption. apply isR_sub; [apply isR_n1|exact M6].
Qed.

Lemma event_ok q s f x r : rhos_are q s f -> isR x r -> 0 <= r ->
  (@choose_event _ XN q x = Stop <-> likely_sum s f < 1 / 10000) /\
  (1 / 10000 <= likely_sum s f ->
   (@choose_event _ XN q x = Glossy <-> r < share s f Glossy) /\
   (@choose_event _ XN q x = Diffuse <-> ~ r < share s f Glossy /\ r < share s f Glossy + share s f Diffuse) /\
   (@choose_event _ XN q x = Refract <-> ~ r < share s f Glossy /\ ~ r < share s f Glossy + share s f Diffuse /\
      r < share s f Glossy + share s f Diffuse + share s f Refract) /\
   (@choose_event _ XN q x = Emit <-> ~ r < share s f Glossy /\ ~ r < share s f Glossy + share s f Diffuse /\
      ~ r < share s f Glossy + share s f Diffuse + share s f Refract)).
Proof.
  destruct q as [[[qs qd] qr] qe]. intros (Q1 & Q2 & Q3 & Q4) Hx Hr. cbn [fst snd] in *. unfold choose_event.
  assert (Ht : isR (@nadd _ XN (@nadd _ XN (@nadd _ XN qs qd) qr) qe) (likely_sum s f)).
  { unfold likely_sum. repeat apply isR_add; assumption. }
  assert (Hl : isR (@ndiv _ XN (@nofZ _ XN 1) (@nofZ _ XN 10000)) (1 / 10000)).
  { apply isR_div; [reflexivity|reflexivity|lra]. }
  change (@nltb _ XN) with xltb. rewrite (isR_ltb _ _ _ _ Ht Hl).
  destruct (Rltb (likely_sum s f) (1 / 10000)) eqn:E.
  { apply Rltb_spec in E. split; [tauto|]. intros. lra. }
  apply Rltb_false in E. assert (H0 : likely_sum s f <> 0) by lra.
  assert (D1 : isR (@ndiv _ XN qs (@nadd _ XN (@nadd _ XN (@nadd _ XN qs qd) qr) qe)) (share s f Glossy)) by (apply isR_div; assumption).
  assert (D2 : isR (@ndiv _ XN qd (@nadd _ XN (@nadd _ XN (@nadd _ XN qs qd) qr) qe)) (share s f Diffuse)) by (apply isR_div; assumption).
  assert (D3 : isR (@ndiv _ XN qr (@nadd _ XN (@nadd _ XN (@nadd _ XN qs qd) qr) qe)) (share s f Refract)) by (apply isR_div; assumption).
  set (tt := @nadd _ XN (@nadd _ XN (@nadd _ XN qs qd) qr) qe) in *.
  assert (D12 : isR (@nadd _ XN (@ndiv _ XN qs tt) (@ndiv _ XN qd tt)) (share s f Glossy + share s f Diffuse)) by (apply isR_add; assumption).
  assert (D123 : isR (@nadd _ XN (@nadd _ XN (@ndiv _ XN qd tt) (@ndiv _ XN qs tt)) (@ndiv _ XN qr tt))
    (share s f Glossy + share s f Diffuse + share s f Refract)).
  { rewrite (Rplus_comm (share s f Glossy)). apply isR_add; [apply isR_add|]; assumption. }
  rewrite (isR_ltb _ _ _ _ Hx D1), (isR_ltb _ _ _ _ Hx D12), (isR_ltb _ _ _ _ Hx D123).
  split.
  { unfold Rltb. split; [|lra]. repeat destruct (Rlt_dec _ _); discriminate. }
  intros _. unfold Rltb.
  destruct (Rlt_dec r (share s f Glossy)) as [A|A]; [split; [tauto|]; split; [split; [discriminate|tauto]|];
    split; split; try discriminate; tauto|].
  destruct (Rlt_dec r (share s f Glossy + share s f Diffuse)) as [B|B].
  { split; [split; [discriminate|tauto]|]. split; [tauto|]. split; split; try discriminate; tauto. }
  destruct (Rlt_dec r (share s f Glossy + share s f Diffuse + share s f Refract)) as [C|C].
  { split; [split; [discriminate|tauto]|]. split; [split; [discriminate|tauto]|]. split; [tauto|]. split; try discriminate; tauto. }
  split; [split; [discriminate|tauto]|]. split; [split; [discriminate|tauto]|]. split; [split; [discriminate|tauto]|tauto].
Qed.
End S.
