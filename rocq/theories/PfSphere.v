(** Sphere proofs. *)

From Coq Require Import Reals ZArith List Bool Arith Lra Lia.
From Verif Require Import Num NumR NumX Vec Ray Bvh Traverse Sphere SpecBvh SpecReal SpecNearest SpecSphere.
From Verif Require Import PfBuild PfX.
Import ListNotations.
Local Open Scope R_scope.

Section Sphere.
Variables big tiny eps : R.
Notation XN := (Xnum big tiny eps).

(** The two roots. *)
Definition sroot_b (C O U : vec R) : R := rv_dot (rv_sub O C) U.
Definition sroot_q (C : vec R) (rad : R) (O U : vec R) : R :=
  sroot_b C O U * sroot_b C O U - (rv_dot (rv_sub O C) (rv_sub O C) - rad * rad).
Definition sroot0 C rad O U : R := - sroot_b C O U - sqrt (sroot_q C rad O U).
Definition sroot1 C rad O U : R := - sroot_b C O U + sqrt (sroot_q C rad O U).

Lemma on_sphere_quad C rad O U t : rv_dot U U = 1 ->
  on_sphere C rad (at_t O U t) <->
  (t + sroot_b C O U) * (t + sroot_b C O U) = sroot_q C rad O U.
Proof.
  intros HU. unfold on_sphere.
  assert (E : rv_dot (rv_sub (at_t O U t) C) (rv_sub (at_t O U t) C) =
    t * t * rv_dot U U + 2 * t * sroot_b C O U + rv_dot (rv_sub O C) (rv_sub O C)).
  { unfold sroot_b, rv_dot, rv_sub, at_t, rv_add, rv_scale; cbn. ring. }
  rewrite E, HU. unfold sroot_q. split; intros H; nra.
Qed.

Lemma on_sphere_roots C rad O U t : rv_dot U U = 1 ->
  on_sphere C rad (at_t O U t) <->
  0 <= sroot_q C rad O U /\ (t = sroot0 C rad O U \/ t = sroot1 C rad O U).
Proof.
  intros HU. rewrite on_sphere_quad by exact HU. unfold sroot0, sroot1.
  set (b := sroot_b C O U). set (q := sroot_q C rad O U). split.
  - intros H. assert (Hq : 0 <= q) by (rewrite <- H; apply Rle_0_sqr).
    split; [exact Hq|]. pose proof (sqrt_sqrt q Hq) as Hs. pose proof (sqrt_pos q).
    assert (Hf : (t + b - sqrt q) * (t + b + sqrt q) = 0) by (rewrite <- Hs in H; lra).
    apply Rmult_integral in Hf as [Hf|Hf]; [right|left]; lra.
  - intros [Hq [-> | ->]]; pose proof (sqrt_sqrt q Hq); nra.
Qed.

Definition sphere_best (C : vec R) (rad : R) (O U : vec R) (m : R) : option R :=
  if Rlt_dec (sroot_q C rad O U) 0 then None
  else if Rlt_dec m (sroot0 C rad O U) then Some (sroot0 C rad O U)
  else if Rlt_dec m (sroot1 C rad O U) then Some (sroot1 C rad O U)
  else None.

(** [sphere_best] is the least parameter beyond [m]. *)
Lemma sphere_best_some C rad O U m t : rv_dot U U = 1 ->
  sphere_best C rad O U m = Some t ->
  on_sphere C rad (at_t O U t) /\ m < t /\
  forall u, on_sphere C rad (at_t O U u) -> m < u -> t <= u.
Proof.
  intros HU. unfold sphere_best.
  destruct (Rlt_dec (sroot_q C rad O U) 0) as [|Hq]; [discriminate|].
  pose proof (sqrt_pos (sroot_q C rad O U)) as Hs.
  assert (H01 : sroot0 C rad O U <= sroot1 C rad O U) by (unfold sroot0, sroot1; lra).
  destruct (Rlt_dec m (sroot0 C rad O U)) as [H0|H0]; [|destruct (Rlt_dec m (sroot1 C rad O U)) as [H1|H1]];
    intros E; try discriminate; injection E as <-.
  - split; [apply on_sphere_roots; auto; split; [lra|auto]|]. split; [exact H0|].
    intros u Hu _. apply on_sphere_roots in Hu as [_ [-> | ->]]; auto; lra.
  - split; [apply on_sphere_roots; auto; split; [lra|auto]|]. split; [exact H1|].
    intros u Hu Hm. apply on_sphere_roots in Hu as [_ [-> | ->]]; auto; lra.
Qed.
Lemma sphere_best_none C rad O U m : rv_dot U U = 1 ->
  sphere_best C rad O U m = None -> forall u, on_sphere C rad (at_t O U u) -> ~ m < u.
Proof.
  intros HU. unfold sphere_best.
  destruct (Rlt_dec (sroot_q C rad O U) 0) as [Hq|Hq].
  - intros _ u Hu. apply on_sphere_roots in Hu as [H _]; auto. lra.
  - destruct (Rlt_dec m (sroot0 C rad O U)) as [H0|H0]; [discriminate|].
    destruct (Rlt_dec m (sroot1 C rad O U)) as [H1|H1]; [discriminate|].
    intros _ u Hu. apply on_sphere_roots in Hu as [_ [-> | ->]]; auto.
Qed.

(** The code on finite data. *)
Lemma sphere_step i s r O U m C rad :
  visR (si_org i) O -> visR (si_dir i) U -> isR (si_min i) m ->
  visR (sp_center s) C -> isR (sp_radius s) rad -> rv_dot U U = 1 -> 0 <= m ->
  match sphere_best C rad O U m with
  | Some t =>
      if xltb (Fin t) (si_hd i)
      then exists hd, isR hd t /\
        @sphere_intersect _ XN i s r =
          (true, SphereIsect (si_org i) (si_dir i) (si_min i) (si_uv i) hd (Some (sp_id s)))
      else @sphere_intersect _ XN i s r = (false, i)
  | None => @sphere_intersect _ XN i s r = (false, i)
  end.
Proof.
  intros HO HU Hm HC Hr H1 Hm0.
  unfold sphere_intersect. cbn [nadd nsub nmul ndiv nopp nabs nsqrt nltb nleb nofZ XN Xnum n0 n1 n2 n4 nhalf].
  set (v := vsub (si_org i) (sp_center s)).
  assert (Hv : visR v (rv_sub O C)) by (apply visR_sub; assumption).
  set (A := dot (si_dir i) (si_dir i)).
  assert (HA : isR A 1) by (rewrite <- H1; apply isR_dot; assumption).
  set (B := xmul (Fin 2) (dot v (si_dir i))).
  assert (HB : isR B (2 * sroot_b C O U)) by (apply isR_mul; [reflexivity|apply isR_dot; assumption]).
  set (Cc := xsub (dot v v) (xmul (sp_radius s) (sp_radius s))).
  assert (HCc : isR Cc (rv_dot (rv_sub O C) (rv_sub O C) - rad * rad)).
  { apply isR_sub; [apply isR_dot; assumption|apply isR_mul; assumption]. }
  set (D := xsub (xmul B B) (xmul (xmul (Fin 4) A) Cc)).
  assert (HD : isR D (4 * sroot_q C rad O U)).
  { replace (4 * sroot_q C rad O U) with (2 * sroot_b C O U * (2 * sroot_b C O U) -
      4 * 1 * (rv_dot (rv_sub O C) (rv_sub O C) - rad * rad)) by (unfold sroot_q; ring).
    apply isR_sub; [apply isR_mul; assumption|]. apply isR_mul; [apply isR_mul; [reflexivity|exact HA]|exact HCc]. }
  rewrite (isR_ltb _ _ _ _ HD (isR_fin 0)).
  unfold sphere_best. set (q := sroot_q C rad O U) in *.
  destruct (Rlt_dec q 0) as [Hq|Hq].
  { assert (E : Rltb (4 * q) 0 = true) by (apply Rltb_spec; lra). rewrite E. reflexivity. }
  assert (E : Rltb (4 * q) 0 = false) by (apply Rltb_false; lra). rewrite E. clear E.
  assert (HQ : isR (xsqrt D) (2 * sqrt q)).
  { replace (2 * sqrt q) with (sqrt (4 * q)).
    - apply isR_sqrt; [exact HD|lra].
    - replace 4 with (2 * 2) by ring. rewrite sqrt_mult_alt by lra. rewrite sqrt_square by lra. reflexivity. }
  assert (HrA : isR (xdiv (Fin 1) A) 1).
  { replace 1 with (1 / 1) at 2 by field. apply isR_div; [reflexivity|exact HA|lra]. }
  assert (Hh : isR (xdiv (Fin 1) (Fin 2)) (1 / 2)) by (apply isR_div; [reflexivity|reflexivity|lra]).
  set (t0 := xmul (xmul (xdiv (Fin 1) (Fin 2)) (xdiv (Fin 1) A)) (xsub (xopp B) (xsqrt D))).
  set (t1 := xmul (xmul (xdiv (Fin 1) (Fin 2)) (xdiv (Fin 1) A)) (xadd (xopp B) (xsqrt D))).
  assert (Ht0 : isR t0 (sroot0 C rad O U)).
  { replace (sroot0 C rad O U) with (1 / 2 * 1 * (- (2 * sroot_b C O U) - 2 * sqrt q)) by (unfold sroot0, q; field).
    apply isR_mul; [apply isR_mul; assumption|]. apply isR_sub; [apply isR_opp; assumption|assumption]. }
  assert (Ht1 : isR t1 (sroot1 C rad O U)).
  { replace (sroot1 C rad O U) with (1 / 2 * 1 * (- (2 * sroot_b C O U) + 2 * sqrt q)) by (unfold sroot1, q; field).
    apply isR_mul; [apply isR_mul; assumption|]. apply isR_add; [apply isR_opp; assumption|assumption]. }
  assert (Hnorm : forall x t, isR x t -> m < t -> isR (@norm _ XN (@vscale _ XN x (si_dir i))) t).
  { intros x t Hx Ht. assert (E : rv_norm (rv_scale t U) = t).
    { rewrite rv_norm_scale, rv_norm_unit by exact H1. rewrite Rabs_pos_eq; lra. }
    rewrite <- E. apply isR_norm. apply visR_scale; assumption. }
  assert (Hhd : forall x t, isR x t -> xltb x (si_hd i) = xltb (Fin t) (si_hd i)).
  { intros x t Hx. destruct (isR_ex _ _ Hx) as (sg & ->). destruct (si_hd i); reflexivity. }
  rewrite (isR_ltb _ _ _ _ Hm Ht0), (isR_ltb _ _ _ _ Hm Ht1), (Hhd _ _ Ht0), (Hhd _ _ Ht1).
  pose proof (sqrt_pos q) as Hsq.
  assert (H01 : sroot0 C rad O U <= sroot1 C rad O U) by (unfold sroot0, sroot1; fold q; lra).
  destruct (Rlt_dec m (sroot0 C rad O U)) as [H0|H0].
  - assert (E : Rltb m (sroot0 C rad O U) = true) by (apply Rltb_spec; exact H0). rewrite E. cbn [andb].
    destruct (xltb (Fin (sroot0 C rad O U)) (si_hd i)) eqn:El.
    + eexists. split; [|reflexivity]. apply Hnorm; assumption.
    + assert (El1 : xltb (Fin (sroot1 C rad O U)) (si_hd i) = false).
      { destruct (si_hd i) as [|[]|sg a]; cbn in *; auto. apply Rltb_false in El. apply Rltb_false. lra. }
      rewrite El1, andb_false_r. reflexivity.
  - assert (E : Rltb m (sroot0 C rad O U) = false) by (apply Rltb_false; lra). rewrite E. cbn [andb].
    destruct (Rlt_dec m (sroot1 C rad O U)) as [H2|H2].
    + assert (E2 : Rltb m (sroot1 C rad O U) = true) by (apply Rltb_spec; exact H2). rewrite E2. cbn [andb].
      destruct (xltb (Fin (sroot1 C rad O U)) (si_hd i)) eqn:El; [|reflexivity].
      eexists. split; [|reflexivity]. apply Hnorm; assumption.
    + assert (E2 : Rltb m (sroot1 C rad O U) = false) by (apply Rltb_false; lra). rewrite E2. reflexivity.
Qed.

(** C16. *)
Lemma sphere_exact i s r O U m C rad h i' :
  visR (si_org i) O -> visR (si_dir i) U -> isR (si_min i) m ->
  visR (sp_center s) C -> isR (sp_radius s) rad -> rv_dot U U = 1 -> 0 <= m ->
  @sphere_intersect _ XN i s r = (h, i') ->
  (h = true <-> exists t, on_sphere C rad (at_t O U t) /\ m < t /\ xltb (Fin t) (si_hd i) = true) /\
  (h = true -> exists t, isR (si_hd i') t /\ si_prim i' = Some (sp_id s) /\
     on_sphere C rad (at_t O U t) /\ m < t /\ xltb (Fin t) (si_hd i) = true /\
     forall u, on_sphere C rad (at_t O U u) -> m < u -> t <= u) /\
  (h = false -> i' = i).
Proof.
  intros HO HU Hm HC Hr H1 Hm0 H.
  pose proof (sphere_step i s r O U m C rad HO HU Hm HC Hr H1 Hm0) as Hst.
  assert (Hle : forall t u, t <= u -> xltb (Fin u) (si_hd i) = true -> xltb (Fin t) (si_hd i) = true).
  { intros t u Htu. destruct (si_hd i) as [|[]|sg a]; cbn; auto. intros Hu. apply Rltb_spec in Hu. apply Rltb_spec. lra. }
  destruct (sphere_best C rad O U m) as [t|] eqn:Eb.
  - destruct (sphere_best_some _ _ _ _ _ _ H1 Eb) as (S1 & S2 & S3).
    destruct (xltb (Fin t) (si_hd i)) eqn:El.
    + destruct Hst as (hd & Hhd & E). rewrite E in H. injection H as <- <-.
      split; [split; [intros _; exists t; auto|reflexivity]|]. split; [|discriminate].
      intros _. exists t. cbn [si_hd si_prim]. auto 10.
    + rewrite Hst in H. injection H as <- <-. split; [split; [discriminate|]|split; [discriminate|reflexivity]].
      intros (u & U1 & U2 & U3). rewrite (Hle t u (S3 u U1 U2) U3) in El. discriminate.
  - rewrite Hst in H. injection H as <- <-. split; [split; [discriminate|]|split; [discriminate|reflexivity]].
    intros (u & U1 & U2 & U3). destruct (sphere_best_none _ _ _ _ _ H1 Eb u U1 U2).
Qed.

(** C17. *)
Lemma sphere_normal s i rh O U C rad t k c0 :
  visR (si_org i) O -> visR (si_dir i) U -> isR (si_hd i) t -> si_prim i = Some k ->
  nth_error (ss_centers s) k = Some c0 -> visR c0 C ->
  on_sphere C rad (at_t O U t) -> rad <> 0 ->
  exists rh', @sphere_post _ XN s i rh = Ok rh' /\
    visR (h_normal rh') (rv_scale (/ Rabs rad) (rv_sub (at_t O U t) C)) /\
    rv_norm (rv_scale (/ Rabs rad) (rv_sub (at_t O U t) C)) = 1 /\
    h_distance rh' = si_hd i /\ h_prim rh' = Some k /\ h_geom rh' = h_geom rh.
Proof.
  intros HO HU Ht Hp Hc HC Hs Hr. unfold sphere_post, at_. rewrite Hp. cbn [bind]. rewrite Hc. cbn [bind].
  eexists. split; [reflexivity|]. cbn [h_normal h_distance h_prim h_geom].
  assert (Hn : rv_norm (rv_sub (at_t O U t) C) = Rabs rad).
  { apply rv_norm_of_sq; [apply Rabs_pos|]. rewrite Hs. pose proof (Rsqr_abs rad) as E. unfold Rsqr in E. exact E. }
  pose proof (Rabs_pos_lt rad Hr).
  split; [|split; [|auto]].
  - rewrite <- Hn. apply visR_normalize; [|rewrite Hn; lra].
    apply visR_sub; [|exact HC]. apply visR_add; [exact HO|]. apply visR_scale; assumption.
  - rewrite rv_norm_scale, Hn. rewrite Rabs_pos_eq by (left; apply Rinv_0_lt_compat; assumption). field. lra.
Qed.

(** C18. *)
Lemma sphere_box_ok c0 x C rad : visR c0 C -> isR x rad -> 0 <= rad ->
  exists m M, visR (fst (@sphere_box _ XN c0 x)) m /\ visR (snd (@sphere_box _ XN c0 x)) M /\
    (forall p, rv_dot (rv_sub p C) (rv_sub p C) <= rad * rad -> in_box m M p) /\
    in_box m M C /\
    (forall k a, vget m k = Some a -> exists p, on_sphere C rad p /\ vget p k = Some a) /\
    (forall k a, vget M k = Some a -> exists p, on_sphere C rad p /\ vget p k = Some a).
Proof.
  intros (c1 & c2 & c3) Hr H0.
  exists (V (vx C - rad) (vy C - rad) (vz C - rad)), (V (vx C + rad) (vy C + rad) (vz C + rad)).
  split; [repeat split; cbn; apply isR_sub; assumption|].
  split; [repeat split; cbn; apply isR_add; assumption|].
  split; [|split; [|split]].
  - intros p Hp. unfold rv_dot, rv_sub in Hp. cbn in Hp. unfold in_box; cbn.
    assert (Hc : forall a b, a * a + b <= rad * rad -> 0 <= b -> - rad <= a <= rad).
    { intros a b Hab Hb. split; nra. }
    pose proof (Rle_0_sqr (vx p - vx C)). pose proof (Rle_0_sqr (vy p - vy C)). pose proof (Rle_0_sqr (vz p - vz C)).
    unfold Rsqr in *.
    pose proof (Hc (vx p - vx C) ((vy p - vy C) * (vy p - vy C) + (vz p - vz C) * (vz p - vz C))).
    pose proof (Hc (vy p - vy C) ((vx p - vx C) * (vx p - vx C) + (vz p - vz C) * (vz p - vz C))).
    pose proof (Hc (vz p - vz C) ((vx p - vx C) * (vx p - vx C) + (vy p - vy C) * (vy p - vy C))).
    lra.
  - unfold in_box; cbn. lra.
  - intros [|[|[|k]]] a E; cbn in E; try discriminate; injection E as <-.
    + exists (V (vx C - rad) (vy C) (vz C)). split; [unfold on_sphere, rv_dot, rv_sub; cbn; ring|reflexivity].
    + exists (V (vx C) (vy C - rad) (vz C)). split; [unfold on_sphere, rv_dot, rv_sub; cbn; ring|reflexivity].
    + exists (V (vx C) (vy C) (vz C - rad)). split; [unfold on_sphere, rv_dot, rv_sub; cbn; ring|reflexivity].
  - intros [|[|[|k]]] a E; cbn in E; try discriminate; injection E as <-.
    + exists (V (vx C + rad) (vy C) (vz C)). split; [unfold on_sphere, rv_dot, rv_sub; cbn; ring|reflexivity].
    + exists (V (vx C) (vy C + rad) (vz C)). split; [unfold on_sphere, rv_dot, rv_sub; cbn; ring|reflexivity].
    + exists (V (vx C) (vy C) (vz C + rad)). split; [unfold on_sphere, rv_dot, rv_sub; cbn; ring|reflexivity].
Qed.

(** C19. *)
Lemma sphere_distance_ok s p C rad Q : visR (sp_center s) C -> isR (sp_radius s) rad -> 0 <= rad ->
  visR p Q ->
  exists dist, isR (@sphere_distance _ XN s p) dist /\
    (forall q, on_sphere C rad q -> dist <= rv_norm (rv_sub q Q)) /\
    (exists q, on_sphere C rad q /\ rv_norm (rv_sub q Q) = dist).
Proof.
  intros HC Hr H0 HQ. exists (Rabs (rv_norm (rv_sub C Q) - rad)).
  split; [|split].
  - unfold sphere_distance. cbn [nabs nsub XN Xnum]. apply isR_abs, isR_sub; [|exact Hr].
    apply isR_norm, visR_sub; assumption.
  - intros q Hq. assert (Hn : rv_norm (rv_sub C q) = rad).
    { rewrite rv_norm_opp. apply rv_norm_of_sq; assumption. }
    rewrite <- Hn. replace (rv_sub q Q) with (rv_sub (rv_sub C Q) (rv_sub C q)) by (apply vec_eq; cbn; ring).
    apply rv_norm_reverse.
  - set (n := rv_norm (rv_sub C Q)). destruct (Req_EM_T n 0) as [Hn|Hn].
    + exists (V (vx C + rad) (vy C) (vz C)). split; [unfold on_sphere, rv_dot, rv_sub; cbn; ring|].
      apply rv_norm_zero in Hn. injection Hn as E1 E2 E3.
      assert (En : n = 0).
      { unfold n, rv_norm, rv_dot, rv_sub. cbn. rewrite E1, E2, E3. replace (0*0+0*0+0*0) with 0 by ring. apply sqrt_0. }
      rewrite En. replace (0 - rad) with (- rad) by ring. rewrite Rabs_Ropp, Rabs_pos_eq by exact H0.
      apply rv_norm_of_sq; [exact H0|]. unfold rv_dot, rv_sub; cbn.
      replace (vx C + rad - vx Q) with (rad + (vx C - vx Q)) by ring. rewrite E1, E2, E3. ring.
    + exists (rv_sub C (rv_scale (rad / n) (rv_sub C Q))).
      assert (Hsq : rv_dot (rv_sub C Q) (rv_sub C Q) = n * n) by (unfold n; rewrite rv_norm_sq; reflexivity).
      split.
      * unfold on_sphere.
        replace (rv_dot _ _) with (rad / n * (rad / n) * rv_dot (rv_sub C Q) (rv_sub C Q))
          by (unfold rv_dot, rv_sub, rv_scale; cbn; ring).
        rewrite Hsq. field. exact Hn.
      * replace (rv_sub (rv_sub C (rv_scale (rad / n) (rv_sub C Q))) Q) with (rv_scale (1 - rad / n) (rv_sub C Q))
          by (apply vec_eq; cbn; ring).
        rewrite rv_norm_scale. fold n. pose proof (rv_norm_nonneg (rv_sub C Q)) as Hn0. fold n in Hn0.
        rewrite <- (Rabs_pos_eq n Hn0) at 2. rewrite <- Rabs_mult. f_equal. field. exact Hn.
Qed.
End Sphere.
