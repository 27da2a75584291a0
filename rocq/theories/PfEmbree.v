(** The Embree sphere callbacks. *)

From Coq Require Import Reals ZArith List Bool Lra Lia.
From Verif Require Import Num NumR NumX Vec Ray Sphere Embree SpecReal SpecSphere SpecEmbree PfX PfSphere.
Import ListNotations.
Local Open Scope R_scope.

(** ** Any arithmetic *)
Section Any.
Context {T : Type} {N : num T}.
Local Open Scope num_scope.

Definition sp_D (c : vec T) (r : T) (org dir : vec T) : T :=
  let v := vsub org c in
  let B := n2 * dot v dir in
  B * B - n4 * dot dir dir * (dot v v - r * r).
Definition sp_t0 (c : vec T) (r : T) (org dir : vec T) : T :=
  nhalf * (n1 / dot dir dir) * (- (n2 * dot (vsub org c) dir) - nsqrt (sp_D c r org dir)).
Definition sp_t1 (c : vec T) (r : T) (org dir : vec T) : T :=
  nhalf * (n1 / dot dir dir) * (- (n2 * dot (vsub org c) dir) + nsqrt (sp_D c r org dir)).

Definition sp_report (c : vec T) g inst (t : T) (rh : rtc_rayhit T) : rtc_rayhit T :=
  if (r_tnear (rh_ray rh) <? t) && (t <? r_tfar (rh_ray rh)) then
    set_ray_hit rh (normalize (vsub (vadd (r_org (rh_ray rh)) (vscale t (r_dir (rh_ray rh)))) c)) n0 n0
                (Some 0%nat) g inst (norm (vscale t (r_dir (rh_ray rh))))
  else rh.

Lemma esphere_eq c r g inst rh : esphere_intersect (ESphere c r g) 0 true inst rh =
  Ok (if sp_D c r (r_org (rh_ray rh)) (r_dir (rh_ray rh)) <? n0 then rh
      else sp_report c g inst (sp_t1 c r (r_org (rh_ray rh)) (r_dir (rh_ray rh)))
             (sp_report c g inst (sp_t0 c r (r_org (rh_ray rh)) (r_dir (rh_ray rh))) rh)).
Proof.
  unfold esphere_intersect, user, at_. cbn [nth_error bind negb es_center es_radius es_geom].
  fold (sp_D c r (r_org (rh_ray rh)) (r_dir (rh_ray rh))).
  destruct (sp_D c r (r_org (rh_ray rh)) (r_dir (rh_ray rh)) <? n0); [reflexivity|].
  fold (sp_t0 c r (r_org (rh_ray rh)) (r_dir (rh_ray rh))). fold (sp_t1 c r (r_org (rh_ray rh)) (r_dir (rh_ray rh))).
  f_equal. unfold sp_report.
  destruct ((r_tnear (rh_ray rh) <? sp_t0 c r (r_org (rh_ray rh)) (r_dir (rh_ray rh))) && (sp_t0 c r (r_org (rh_ray rh)) (r_dir (rh_ray rh)) <? r_tfar (rh_ray rh)));
    reflexivity.
Qed.

Lemma esphere_occ_eq c r g ry : esphere_occluded (ESphere c r g) 0 true ry =
  Ok (if sp_D c r (r_org ry) (r_dir ry) <? n0 then ry
      else
        let t0 := sp_t0 c r (r_org ry) (r_dir ry) in
        let t1 := sp_t1 c r (r_org ry) (r_dir ry) in
        let r1 := if (r_tnear ry <? t0) && (t0 <? r_tfar ry) then set_tfar ry ninf_neg else ry in
        if (r_tnear r1 <? t0) && (t1 <? r_tfar r1) then set_tfar r1 ninf_neg else r1).
Proof.
  unfold esphere_occluded, user, at_. cbn [nth_error bind negb es_center es_radius es_geom].
  fold (sp_D c r (r_org ry) (r_dir ry)).
  destruct (sp_D c r (r_org ry) (r_dir ry) <? n0); reflexivity.
Qed.

Lemma sphere_native_eq org dir mn uv hd pr c r k ray_ :
  sphere_intersect (SphereIsect org dir mn uv hd pr) (Sphere c r k) ray_ =
  if sp_D c r org dir <? n0 then (false, SphereIsect org dir mn uv hd pr)
  else
    let t0 := sp_t0 c r org dir in
    let t1 := sp_t1 c r org dir in
    if (mn <? t0) && (t0 <? hd) then (true, SphereIsect org dir mn uv (norm (vscale t0 dir)) (Some k))
    else if (mn <? t1) && (t1 <? hd) then (true, SphereIsect org dir mn uv (norm (vscale t1 dir)) (Some k))
    else (false, SphereIsect org dir mn uv hd pr).
Proof. reflexivity. Qed.

(** The verdict agrees with the native one in any arithmetic. *)
Lemma esphere_verdict c r g inst rh uv pr k ray_ : e_geom (rh_hit rh) = None ->
  exists rh', esphere_intersect (ESphere c r (Some g)) 0 true inst rh = Ok rh' /\
    (e_geom (rh_hit rh') = Some g <->
     fst (sphere_intersect (SphereIsect (r_org (rh_ray rh)) (r_dir (rh_ray rh)) (r_tnear (rh_ray rh)) uv
                              (r_tfar (rh_ray rh)) pr) (Sphere c r k) ray_) = true).
Proof.
  intros Hg. rewrite esphere_eq, sphere_native_eq. eexists. split; [reflexivity|].
  destruct (sp_D c r (r_org (rh_ray rh)) (r_dir (rh_ray rh)) <? n0).
  { rewrite Hg. cbn. split; discriminate. }
  cbv zeta. set (t0 := sp_t0 _ _ _ _). set (t1 := sp_t1 _ _ _ _).
  unfold sp_report at 2.
  destruct ((r_tnear (rh_ray rh) <? t0) && (t0 <? r_tfar (rh_ray rh))) eqn:E0.
  - unfold sp_report. match goal with |- context [if ?b then _ else _] => destruct b end; cbn; tauto.
  - unfold sp_report.
    destruct ((r_tnear (rh_ray rh) <? t1) && (t1 <? r_tfar (rh_ray rh))) eqn:E1.
    + cbn. tauto.
    + rewrite Hg. cbn. split; discriminate.
Qed.

Lemma esphere_bounds_eq c r g : esphere_bounds (ESphere c r g) 0 = Ok (sphere_box c r).
Proof. reflexivity. Qed.
Lemma esphere_distance_eq c r g k p : esphere_distance (ESphere c r g) p = sphere_distance (Sphere c r k) p.
Proof. reflexivity. Qed.
End Any.

(** ** Exact arithmetic *)
Section Exact.
Variables big tiny eps : R.
Notation XN := (Xnum big tiny eps).

(** The roots for a direction of any length. *)
Definition gdisc (C : vec R) (rad : R) (O U : vec R) : R :=
  rv_dot (rv_sub O C) U * rv_dot (rv_sub O C) U - rv_dot U U * (rv_dot (rv_sub O C) (rv_sub O C) - rad * rad).
Definition groot0 C rad O U : R := (- rv_dot (rv_sub O C) U - sqrt (gdisc C rad O U)) / rv_dot U U.
Definition groot1 C rad O U : R := (- rv_dot (rv_sub O C) U + sqrt (gdisc C rad O U)) / rv_dot U U.

Lemma on_sphere_gen C O U t : rv_dot (rv_sub (at_t O U t) C) (rv_sub (at_t O U t) C) =
  t * t * rv_dot U U + 2 * t * rv_dot (rv_sub O C) U + rv_dot (rv_sub O C) (rv_sub O C).
Proof. unfold rv_dot, rv_sub, at_t, rv_add, rv_scale; cbn. ring. Qed.

Lemma on_sphere_groots C rad O U t : 0 < rv_dot U U ->
  on_sphere C rad (at_t O U t) <-> 0 <= gdisc C rad O U /\ (t = groot0 C rad O U \/ t = groot1 C rad O U).
Proof.
  intros HU. unfold on_sphere. rewrite on_sphere_gen. unfold groot0, groot1, gdisc.
  set (a := rv_dot U U) in *. set (b := rv_dot (rv_sub O C) U). set (c := rv_dot (rv_sub O C) (rv_sub O C)).
  set (q := b * b - a * (c - rad * rad)). split.
  - intros H. assert (E : (a * t + b) * (a * t + b) = q) by (unfold q; nra).
    assert (Hq : 0 <= q) by (rewrite <- E; apply Rle_0_sqr).
    split; [exact Hq|]. pose proof (sqrt_sqrt q Hq) as Hs.
    assert (Hf : (a * t + b - sqrt q) * (a * t + b + sqrt q) = 0) by (rewrite <- Hs in E; nra).
    apply Rmult_integral in Hf as [Hf|Hf]; [right|left]; apply (Rmult_eq_reg_l a); try lra; field_simplify; lra.
  - intros [Hq Ht]. pose proof (sqrt_sqrt q Hq) as Hs.
    assert (E : (a * t + b) * (a * t + b) = q).
    { assert (Et : a * t + b = - sqrt q \/ a * t + b = sqrt q) by (destruct Ht as [-> | ->]; [left|right]; field; lra).
      destruct Et as [-> | ->]; nra. }
    assert (a * (t * t * a + 2 * t * b + c) = a * (rad * rad)) by (unfold q in E; nra).
    apply (Rmult_eq_reg_l a); lra.
Qed.

Lemma groot_le C rad O U : 0 < rv_dot U U -> groot0 C rad O U <= groot1 C rad O U.
Proof.
  intros HU. unfold groot0, groot1. pose proof (sqrt_pos (gdisc C rad O U)).
  apply Rmult_le_compat_r; [left; apply Rinv_0_lt_compat; exact HU|lra].
Qed.

Section Data.
Variables (c : vec xr) (r : xr) (org dir : vec xr) (O U C : vec R) (rad : R).
Hypotheses (HO : visR org O) (HU : visR dir U) (HC : visR c C) (Hr : isR r rad).

Lemma sp_D_is : isR (@sp_D _ XN c r org dir) (4 * gdisc C rad O U).
Proof.
  replace (4 * gdisc C rad O U) with (2 * rv_dot (rv_sub O C) U * (2 * rv_dot (rv_sub O C) U) -
      4 * rv_dot U U * (rv_dot (rv_sub O C) (rv_sub O C) - rad * rad)) by (unfold gdisc; ring).
  assert (Hv : visR (@vsub _ XN org c) (rv_sub O C)) by (apply visR_sub; assumption).
  assert (HB : isR (xmul (Fin 2) (@dot _ XN (@vsub _ XN org c) dir)) (2 * rv_dot (rv_sub O C) U)).
  { apply isR_mul; [reflexivity|apply isR_dot; assumption]. }
  exact (isR_sub _ _ _ _ (isR_mul _ _ _ _ HB HB)
    (isR_mul _ _ _ _ (isR_mul _ _ _ _ (isR_fin 4) (isR_dot big tiny eps _ _ _ _ HU HU))
       (isR_sub _ _ _ _ (isR_dot big tiny eps _ _ _ _ Hv Hv) (isR_mul _ _ _ _ Hr Hr)))).
Qed.

Hypothesis HU0 : 0 < rv_dot U U.
Hypothesis Hq : 0 <= gdisc C rad O U.

Lemma sp_sqrt_is : isR (xsqrt (@sp_D _ XN c r org dir)) (2 * sqrt (gdisc C rad O U)).
Proof.
  replace (2 * sqrt (gdisc C rad O U)) with (sqrt (4 * gdisc C rad O U)).
  - apply isR_sqrt; [apply sp_D_is|lra].
  - replace 4 with (2 * 2) by ring. rewrite sqrt_mult_alt by lra. rewrite sqrt_square by lra. reflexivity.
Qed.
Lemma sp_half_is : isR (xmul (xdiv (Fin 1) (Fin 2)) (xdiv (Fin 1) (@dot _ XN dir dir))) (1 / 2 * (1 / rv_dot U U)).
Proof.
  apply isR_mul; apply isR_div; try reflexivity; try lra. apply isR_dot; assumption.
Qed.
Lemma sp_B_is : isR (xopp (xmul (Fin 2) (@dot _ XN (@vsub _ XN org c) dir))) (- (2 * rv_dot (rv_sub O C) U)).
Proof.
  apply isR_opp, isR_mul; [reflexivity|]. apply isR_dot; [|exact HU]. apply visR_sub; assumption.
Qed.
Lemma sp_t0_is : isR (@sp_t0 _ XN c r org dir) (groot0 C rad O U).
Proof.
  replace (groot0 C rad O U) with (1 / 2 * (1 / rv_dot U U) * (- (2 * rv_dot (rv_sub O C) U) - 2 * sqrt (gdisc C rad O U)))
    by (unfold groot0; field; lra).
  exact (isR_mul _ _ _ _ sp_half_is (isR_sub _ _ _ _ sp_B_is sp_sqrt_is)).
Qed.
Lemma sp_t1_is : isR (@sp_t1 _ XN c r org dir) (groot1 C rad O U).
Proof.
  replace (groot1 C rad O U) with (1 / 2 * (1 / rv_dot U U) * (- (2 * rv_dot (rv_sub O C) U) + 2 * sqrt (gdisc C rad O U)))
    by (unfold groot1; field; lra).
  exact (isR_mul _ _ _ _ sp_half_is (isR_add _ _ _ _ sp_B_is sp_sqrt_is)).
Qed.
End Data.

Lemma xltb_l x t y : isR x t -> xltb x y = xltb (Fin t) y.
Proof. intros Hx. destruct (isR_ex _ _ Hx) as (sg & ->). destruct y; reflexivity. Qed.
Lemma xltb_r x t y : isR x t -> xltb y x = xltb y (Fin t).
Proof. intros Hx. destruct (isR_ex _ _ Hx) as (sg & ->). destruct y as [|[]|]; reflexivity. Qed.
Lemma xltb_le t u y : t <= u -> xltb (Fin u) y = true -> xltb (Fin t) y = true.
Proof. intros H. destruct y as [|[]|sg a]; cbn; auto. intros Hu. apply Rltb_spec in Hu. apply Rltb_spec. lra. Qed.

(** ** C42 *)
Lemma esphere_agrees c r g inst rh k ray_ O U m C rad :
  visR (r_org (rh_ray rh)) O -> visR (r_dir (rh_ray rh)) U -> isR (r_tnear (rh_ray rh)) m ->
  visR c C -> isR r rad -> rv_dot U U = 1 -> 0 <= m -> e_geom (rh_hit rh) = None ->
  exists rh' h i',
    @esphere_intersect _ XN (ESphere c r (Some g)) 0 true inst rh = Ok rh' /\
    @sphere_intersect _ XN (SphereIsect (r_org (rh_ray rh)) (r_dir (rh_ray rh)) (r_tnear (rh_ray rh)) (Fin 0, Fin 0)
        (r_tfar (rh_ray rh)) None) (Sphere c r k) ray_ = (h, i') /\
    (e_geom (rh_hit rh') = Some g <-> h = true) /\
    (h = false -> rh' = rh) /\
    (h = true -> exists t, isR (r_tfar (rh_ray rh')) t /\ isR (si_hd i') t /\ m < t /\
       e_prim (rh_hit rh') = Some 0%nat /\ (e_u (rh_hit rh'), e_v (rh_hit rh')) = si_uv i' /\
       (forall s rhn, nth_error (ss_centers s) k = Some c -> rad <> 0 ->
          exists rn n, @sphere_post _ XN s i' rhn = Ok rn /\ visR (h_normal rn) n /\
            visR (e_ng (rh_hit rh')) n /\ rv_norm n = 1)).
Proof.
  intros HO HU Hm HC Hr H1 Hm0 Hg.
  assert (HU0 : 0 < rv_dot U U) by lra.
  set (org := r_org (rh_ray rh)) in *. set (dir := r_dir (rh_ray rh)) in *.
  rewrite esphere_eq, sphere_native_eq. fold org dir.
  change (@nltb _ XN) with xltb. change (@n0 _ XN) with (Fin 0).
  rewrite (isR_ltb _ _ _ _ (sp_D_is c r org dir O U C rad HO HU HC Hr) (isR_fin 0)).
  destruct (Rltb (4 * gdisc C rad O U) 0) eqn:ED.
  { do 3 eexists. split; [reflexivity|]. split; [reflexivity|]. split; [rewrite Hg; split; discriminate|].
    split; [reflexivity|discriminate]. }
  apply Rltb_false in ED. assert (Hq : 0 <= gdisc C rad O U) by lra.
  pose proof (sp_t0_is c r org dir O U C rad HO HU HC Hr HU0 Hq) as T0.
  pose proof (sp_t1_is c r org dir O U C rad HO HU HC Hr HU0 Hq) as T1.
  cbv zeta. set (t0 := @sp_t0 _ XN c r org dir) in *. set (t1 := @sp_t1 _ XN c r org dir) in *.
  assert (Hnorm : forall x t, isR x t -> m < t -> isR (@norm _ XN (@vscale _ XN x dir)) t).
  { intros x t Hx Ht. assert (E : rv_norm (rv_scale t U) = t).
    { rewrite rv_norm_scale, rv_norm_unit by exact H1. rewrite Rabs_pos_eq; lra. }
    rewrite <- E. apply isR_norm. apply visR_scale; assumption. }
  assert (Hpost : forall x t, isR x t -> m < t -> on_sphere C rad (at_t O U t) -> rad <> 0 ->
    forall s rhn, nth_error (ss_centers s) k = Some c ->
    exists rn n, @sphere_post _ XN s (SphereIsect org dir (r_tnear (rh_ray rh)) (Fin 0, Fin 0)
        (@norm _ XN (@vscale _ XN x dir)) (Some k)) rhn = Ok rn /\
      visR (h_normal rn) n /\ visR (@normalize _ XN (@vsub _ XN (@vadd _ XN org (@vscale _ XN x dir)) c)) n /\ rv_norm n = 1).
  { intros x t Hx Ht Hon Hrad s rhn Hs.
    destruct (sphere_normal big tiny eps s (SphereIsect org dir (r_tnear (rh_ray rh)) (Fin 0, Fin 0)
        (@norm _ XN (@vscale _ XN x dir)) (Some k)) rhn O U C rad t k c HO HU (Hnorm x t Hx Ht) eq_refl Hs HC Hon Hrad)
      as (rn & E & Hn & Hu & _).
    exists rn. eexists. split; [exact E|]. split; [exact Hn|]. split; [|exact Hu].
    assert (En : rv_norm (rv_sub (at_t O U t) C) = Rabs rad).
    { apply rv_norm_of_sq; [apply Rabs_pos|]. rewrite Hon. pose proof (Rsqr_abs rad) as E2. unfold Rsqr in E2. exact E2. }
    pose proof (Rabs_pos_lt rad Hrad).
    rewrite <- En. apply visR_normalize; [|rewrite En; lra].
    apply visR_sub; [|exact HC]. apply visR_add; [exact HO|]. apply visR_scale; assumption. }
  pose proof (groot_le C rad O U HU0) as H01.
  unfold sp_report at 2. change (@nltb _ XN) with xltb. rewrite (isR_ltb _ _ _ _ Hm T0).
  destruct (Rltb m (groot0 C rad O U) && xltb t0 (r_tfar (rh_ray rh))) eqn:E0.
  - apply andb_true_iff in E0 as (E0 & _). apply Rltb_spec in E0.
    unfold sp_report, set_ray_hit. cbn [rh_ray rh_hit r_org r_dir r_tnear r_tfar]. change (@nltb _ XN) with xltb.
    fold dir. rewrite (isR_ltb _ _ _ _ T1 (Hnorm _ _ T0 E0)).
    assert (Ef : Rltb (groot1 C rad O U) (groot0 C rad O U) = false) by (apply Rltb_false; lra).
    rewrite Ef, andb_false_r. do 3 eexists. split; [reflexivity|]. split; [reflexivity|].
    cbn [rh_ray rh_hit r_org r_dir r_tnear r_tfar e_geom e_prim e_u e_v e_ng si_hd si_uv].
    split; [tauto|]. split; [discriminate|]. intros _. exists (groot0 C rad O U).
    split; [apply (Hnorm _ _ T0 E0)|]. split; [apply (Hnorm _ _ T0 E0)|]. split; [exact E0|].
    split; [reflexivity|]. split; [reflexivity|]. intros s rhn Hs Hrad.
    apply (Hpost _ _ T0 E0); auto. apply on_sphere_groots; auto.
  - unfold sp_report. change (@nltb _ XN) with xltb. rewrite (isR_ltb _ _ _ _ Hm T1).
    destruct (Rltb m (groot1 C rad O U) && xltb t1 (r_tfar (rh_ray rh))) eqn:E1.
    + apply andb_true_iff in E1 as (E1 & _). apply Rltb_spec in E1.
      do 3 eexists. split; [reflexivity|]. split; [reflexivity|].
      unfold set_ray_hit. cbn [rh_ray rh_hit r_org r_dir r_tnear r_tfar e_geom e_prim e_u e_v e_ng si_hd si_uv].
      split; [tauto|]. split; [discriminate|]. intros _. exists (groot1 C rad O U).
      split; [apply (Hnorm _ _ T1 E1)|]. split; [apply (Hnorm _ _ T1 E1)|]. split; [exact E1|].
      split; [reflexivity|]. split; [reflexivity|]. intros s rhn Hs Hrad.
      apply (Hpost _ _ T1 E1); auto. apply on_sphere_groots; auto.
    + do 3 eexists. split; [reflexivity|]. split; [reflexivity|]. split; [rewrite Hg; split; discriminate|].
      split; [reflexivity|discriminate].
Qed.

(** ** C43 *)

(** The callback marks the ray exactly if the first crossing of the whole line lies in
    the interval. *)
Lemma esphere_occ_is c r g ry O U m C rad :
  visR (r_org ry) O -> visR (r_dir ry) U -> isR (r_tnear ry) m -> visR c C -> isR r rad -> 0 < rv_dot U U ->
  r_tfar ry <> @ninf_neg _ XN ->
  exists r', @esphere_occluded _ XN (ESphere c r (Some g)) 0 true ry = Ok r' /\
    (r_tfar r' = @ninf_neg _ XN <->
     exists t, on_sphere C rad (at_t O U t) /\ xltb (Fin t) (r_tfar ry) = true /\
       forall u, on_sphere C rad (at_t O U u) -> m < u /\ t <= u).
Proof.
  intros HO HU Hm HC Hr HU0 Hf. rewrite esphere_occ_eq. change (@nltb _ XN) with xltb. change (@n0 _ XN) with (Fin 0).
  rewrite (isR_ltb _ _ _ _ (sp_D_is c r _ _ O U C rad HO HU HC Hr) (isR_fin 0)).
  destruct (Rltb (4 * gdisc C rad O U) 0) eqn:ED.
  { eexists. split; [reflexivity|]. apply Rltb_spec in ED. split; [intros E; destruct (Hf E)|].
    intros (t & Ht & _). apply on_sphere_groots in Ht as (Hq & _); [lra|exact HU0]. }
  apply Rltb_false in ED. assert (Hq : 0 <= gdisc C rad O U) by lra.
  pose proof (sp_t0_is c r _ _ O U C rad HO HU HC Hr HU0 Hq) as T0.
  pose proof (sp_t1_is c r _ _ O U C rad HO HU HC Hr HU0 Hq) as T1.
  cbv zeta. set (t0 := @sp_t0 _ XN c r _ _) in *. set (t1 := @sp_t1 _ XN c r _ _) in *.
  pose proof (groot_le C rad O U HU0) as H01.
  rewrite (isR_ltb _ _ _ _ Hm T0). eexists. split; [reflexivity|].
  rewrite (xltb_l _ _ (r_tfar ry) T0).
  assert (S0 : on_sphere C rad (at_t O U (groot0 C rad O U))) by (apply on_sphere_groots; auto).
  assert (Iff : (exists t, on_sphere C rad (at_t O U t) /\ xltb (Fin t) (r_tfar ry) = true /\
       forall u, on_sphere C rad (at_t O U u) -> m < u /\ t <= u) <->
     Rltb m (groot0 C rad O U) && xltb (Fin (groot0 C rad O U)) (r_tfar ry) = true).
  { rewrite andb_true_iff. split.
    - intros (t & Ht & Hx & Hl). split; [apply Rltb_spec, (Hl _ S0)|].
      apply xltb_le with t; [|exact Hx].
      apply on_sphere_groots in Ht as (_ & [-> | ->]); auto; lra.
    - intros (Hm0 & Hx). apply Rltb_spec in Hm0. exists (groot0 C rad O U). split; [exact S0|]. split; [exact Hx|].
      intros u Hu. apply on_sphere_groots in Hu as (_ & [-> | ->]); auto; lra. }
  rewrite Iff. clear Iff.
  destruct (Rltb m (groot0 C rad O U) && xltb (Fin (groot0 C rad O U)) (r_tfar ry)) eqn:E0.
  - split; [reflexivity|]. intros _. match goal with |- context [if ?b then _ else _] => destruct b end; reflexivity.
  - split; [|discriminate]. rewrite (isR_ltb _ _ _ _ Hm T0), (xltb_l _ _ _ T1).
    destruct (Rltb m (groot0 C rad O U)); cbn [andb] in *.
    + destruct (xltb (Fin (groot1 C rad O U)) (r_tfar ry)) eqn:E1; [|intros E; destruct (Hf E)].
      rewrite (xltb_le _ _ _ H01 E1) in E0. discriminate.
    + intros E. destruct (Hf E).
Qed.

(** The intersect callback, for directions of any length. *)
Lemma esphere_int_is c r g inst rh O U m C rad :
  visR (r_org (rh_ray rh)) O -> visR (r_dir (rh_ray rh)) U -> isR (r_tnear (rh_ray rh)) m ->
  visR c C -> isR r rad -> 0 < rv_dot U U -> e_geom (rh_hit rh) = None ->
  exists rh', @esphere_intersect _ XN (ESphere c r (Some g)) 0 true inst rh = Ok rh' /\
    (e_geom (rh_hit rh') = Some g <->
     exists t, on_sphere C rad (at_t O U t) /\ m < t /\ xltb (Fin t) (r_tfar (rh_ray rh)) = true).
Proof.
  intros HO HU Hm HC Hr HU0 Hg. rewrite esphere_eq. change (@nltb _ XN) with xltb. change (@n0 _ XN) with (Fin 0).
  rewrite (isR_ltb _ _ _ _ (sp_D_is c r _ _ O U C rad HO HU HC Hr) (isR_fin 0)).
  eexists. split; [reflexivity|].
  destruct (Rltb (4 * gdisc C rad O U) 0) eqn:ED.
  { apply Rltb_spec in ED. rewrite Hg. split; [discriminate|].
    intros (t & Ht & _). apply on_sphere_groots in Ht as (Hq & _); [lra|exact HU0]. }
  apply Rltb_false in ED. assert (Hq : 0 <= gdisc C rad O U) by lra.
  pose proof (sp_t0_is c r _ _ O U C rad HO HU HC Hr HU0 Hq) as T0.
  pose proof (sp_t1_is c r _ _ O U C rad HO HU HC Hr HU0 Hq) as T1.
  set (t0 := @sp_t0 _ XN c r _ _) in *. set (t1 := @sp_t1 _ XN c r _ _) in *.
  assert (S0 : on_sphere C rad (at_t O U (groot0 C rad O U))) by (apply on_sphere_groots; auto).
  assert (S1 : on_sphere C rad (at_t O U (groot1 C rad O U))) by (apply on_sphere_groots; auto).
  unfold sp_report at 2. change (@nltb _ XN) with xltb. rewrite (isR_ltb _ _ _ _ Hm T0), (xltb_l _ _ _ T0).
  destruct (Rltb m (groot0 C rad O U) && xltb (Fin (groot0 C rad O U)) (r_tfar (rh_ray rh))) eqn:E0.
  - apply andb_true_iff in E0 as (E0 & E0'). apply Rltb_spec in E0.
    split; [intros _; exists (groot0 C rad O U); auto|]. intros _.
    unfold sp_report. match goal with |- context [if ?b then _ else _] => destruct b end; reflexivity.
  - unfold sp_report. change (@nltb _ XN) with xltb. rewrite (isR_ltb _ _ _ _ Hm T1), (xltb_l _ _ _ T1).
    destruct (Rltb m (groot1 C rad O U) && xltb (Fin (groot1 C rad O U)) (r_tfar (rh_ray rh))) eqn:E1.
    + apply andb_true_iff in E1 as (E1 & E1'). apply Rltb_spec in E1.
      split; [intros _; exists (groot1 C rad O U); auto|reflexivity].
    + rewrite Hg. split; [discriminate|]. intros (t & Ht & Hmt & Hx).
      apply on_sphere_groots in Ht as (_ & [-> | ->]); auto;
        apply Rltb_spec in Hmt; rewrite Hmt, Hx in *; discriminate.
Qed.

(** Agreement if the ray's first point is outside the sphere. *)
Lemma esphere_same_verdict c r g inst rh O U m C rad :
  visR (r_org (rh_ray rh)) O -> visR (r_dir (rh_ray rh)) U -> isR (r_tnear (rh_ray rh)) m ->
  visR c C -> isR r rad -> 0 < rv_dot U U ->
  rad * rad < rv_dot (rv_sub (at_t O U m) C) (rv_sub (at_t O U m) C) ->
  @same_verdict _ XN rh g (@esphere_occluded _ XN (ESphere c r (Some g)) 0 true (rh_ray rh))
    (@esphere_intersect _ XN (ESphere c r (Some g)) 0 true inst rh).
Proof.
  intros HO HU Hm HC Hr HU0 Hout Hf Hg.
  destruct (esphere_occ_is c r g (rh_ray rh) O U m C rad HO HU Hm HC Hr HU0 Hf) as (r' & E1 & I1).
  destruct (esphere_int_is c r g inst rh O U m C rad HO HU Hm HC Hr HU0 Hg) as (rh' & E2 & I2).
  exists r', rh'. split; [exact E1|]. split; [exact E2|]. rewrite I1, I2. split.
  - intros (t & Ht & Hx & Hl). exists t. split; [exact Ht|]. split; [apply (Hl t Ht)|exact Hx].
  - intros (t & Ht & Hmt & Hx).
    assert (Hall : forall u, on_sphere C rad (at_t O U u) -> m < u).
    { intros u Hu. destruct (Rlt_le_dec m u) as [|Hle]; [assumption|exfalso].
      unfold on_sphere in Ht, Hu. rewrite on_sphere_gen in Ht, Hu, Hout.
      set (a := rv_dot U U) in *. set (b := rv_dot (rv_sub O C) U) in *. set (cc := rv_dot (rv_sub O C) (rv_sub O C)) in *.
      (* convexity: m lies between u and t *)
      assert ((t - u) * (m * m * a + 2 * m * b + cc) <= (t - u) * (rad * rad)).
      { assert (E : (t - u) * (m * m * a + 2 * m * b + cc) =
          (t - m) * (u * u * a + 2 * u * b + cc) + (m - u) * (t * t * a + 2 * t * b + cc)
          - a * ((t - m) * (m - u)) * (t - u)) by ring.
        rewrite E, Ht, Hu. assert (0 <= (t - m) * (m - u)) by (apply Rmult_le_pos; lra).
        assert (0 <= a * ((t - m) * (m - u)) * (t - u)) by (apply Rmult_le_pos; [apply Rmult_le_pos|]; lra). lra. }
      assert (0 < t - u) by lra. nra. }
    assert (Hq : 0 <= gdisc C rad O U) by (apply (proj1 (on_sphere_groots C rad O U t HU0) Ht)).
    assert (S0 : on_sphere C rad (at_t O U (groot0 C rad O U))) by (apply on_sphere_groots; auto).
    pose proof (groot_le C rad O U HU0) as H01.
    exists (groot0 C rad O U). split; [exact S0|]. split.
    + apply xltb_le with t; [|exact Hx]. apply on_sphere_groots in Ht as (_ & [-> | ->]); auto; lra.
    + intros u Hu. split; [apply Hall, Hu|]. apply on_sphere_groots in Hu as (_ & [-> | ->]); auto; lra.
Qed.

(** An occluded ray is always one with a hit. *)
Lemma esphere_occ_sound c r g inst rh O U m C rad r' :
  visR (r_org (rh_ray rh)) O -> visR (r_dir (rh_ray rh)) U -> isR (r_tnear (rh_ray rh)) m ->
  visR c C -> isR r rad -> 0 < rv_dot U U ->
  r_tfar (rh_ray rh) <> @ninf_neg _ XN -> e_geom (rh_hit rh) = None ->
  @esphere_occluded _ XN (ESphere c r (Some g)) 0 true (rh_ray rh) = Ok r' -> r_tfar r' = @ninf_neg _ XN ->
  exists rh', @esphere_intersect _ XN (ESphere c r (Some g)) 0 true inst rh = Ok rh' /\ e_geom (rh_hit rh') = Some g.
Proof.
  intros HO HU Hm HC Hr HU0 Hf Hg Ho Hn.
  destruct (esphere_occ_is c r g (rh_ray rh) O U m C rad HO HU Hm HC Hr HU0 Hf) as (r2 & E1 & I1).
  destruct (esphere_int_is c r g inst rh O U m C rad HO HU Hm HC Hr HU0 Hg) as (rh' & E2 & I2).
  rewrite Ho in E1. injection E1 as <-. exists rh'. split; [exact E2|]. apply I2.
  apply I1 in Hn as (t & Ht & Hx & Hl). exists t. split; [exact Ht|]. split; [apply (Hl t Ht)|exact Hx].
Qed.
End Exact.
