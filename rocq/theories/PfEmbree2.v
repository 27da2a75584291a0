(** The Embree plane callbacks. *)

From Coq Require Import Reals ZArith List Bool Lra Lia Floats.SpecFloat.
From Verif Require Import Num NumR NumX NumF Vec Ray Plane Embree SpecReal SpecPlane SpecEmbree PfX PfPlane.
Import ListNotations.

Section Any.
Context {T : Type} {N : num T}.
Local Open Scope num_scope.

Lemma eplane_bounds_eq c x y m g : eplane_bounds (EPlane c x y m g) 0 = Ok (plane_box c x y m).
Proof. reflexivity. Qed.

(** C44, in any arithmetic with sound comparisons. *)
Lemma eplane_same_verdict c x y m g valid inst rh : comparisons N ->
  (- x / n2 <? x / n2) = true -> (- y / n2 <? y / n2) = true ->
  same_verdict rh g (eplane_occluded (EPlane c x y m (Some g)) 0 valid (rh_ray rh))
    (eplane_intersect (EPlane c x y m (Some g)) 0 valid inst rh).
Proof.
  intros L Hx Hy Hf Hg. unfold eplane_occluded, eplane_intersect, user, at_.
  cbn [nth_error bind ep_center ep_d1 ep_d2 ep_rot ep_geom].
  destruct valid; cbn [negb].
  2: { do 2 eexists. split; [reflexivity|]. split; [reflexivity|]. rewrite Hg.
       split; [intros E; destruct (Hf E)|discriminate]. }
  set (org := mulmv (trans m) (vsub (r_org (rh_ray rh)) c)). set (dir := mulmv (trans m) (r_dir (rh_ray rh))).
  set (t1 := - vz org / vz dir). set (ic := vadd org (vscale t1 dir)).
  set (xm := - x / n2) in *. set (xM := x / n2) in *. set (ym := - y / n2) in *. set (yM := y / n2) in *.
  rewrite !(cmp_le L), !(cmp_sym L xm), !(cmp_sym L ym).
  assert (X0 : (vx ic =? xm) = true -> (vx ic <? xM) = true) by (intros E; rewrite (cmp_eq_l L _ _ _ E); exact Hx).
  assert (X1 : (vx ic =? xM) = true -> (xm <? vx ic) = true) by (intros E; rewrite (cmp_eq_r L _ _ _ E); exact Hx).
  assert (Y0 : (vy ic =? ym) = true -> (vy ic <? yM) = true) by (intros E; rewrite (cmp_eq_l L _ _ _ E); exact Hy).
  assert (Y1 : (vy ic =? yM) = true -> (ym <? vy ic) = true) by (intros E; rewrite (cmp_eq_r L _ _ _ E); exact Hy).
  cbv zeta.
  destruct (xm <? vx ic), (vx ic <? xM), (ym <? vy ic), (vy ic <? yM),
    (vx ic =? xm), (vx ic =? xM), (vy ic =? ym), (vy ic =? yM);
    try (specialize (X0 eq_refl); discriminate X0); try (specialize (X1 eq_refl); discriminate X1);
    try (specialize (Y0 eq_refl); discriminate Y0); try (specialize (Y1 eq_refl); discriminate Y1);
    clear X0 X1 Y0 Y1;
    destruct (r_tnear (rh_ray rh) <? t1), (t1 <? r_tfar (rh_ray rh));
    cbn [andb orb]; do 2 eexists; (split; [reflexivity|]); (split; [reflexivity|]);
    solve [ split; reflexivity | rewrite Hg; split; [intros E; destruct (Hf E)|discriminate] ].
Qed.

(** The native routine on the same data. *)
Lemma eplane_agrees c x y m g inst rh k ray_ uv pr nrm : e_geom (rh_hit rh) = None ->
  exists rh' h i', eplane_intersect (EPlane c x y m (Some g)) 0 true inst rh = Ok rh' /\
    plane_intersect (PlaneIsect nrm (r_org (rh_ray rh)) (r_dir (rh_ray rh)) (r_tnear (rh_ray rh)) uv
        (r_tfar (rh_ray rh)) pr) (Plane c x y m k) ray_ = (h, i') /\
    (e_geom (rh_hit rh') = Some g <-> h = true) /\
    (h = false -> rh' = rh) /\
    (h = true -> r_tfar (rh_ray rh') = pi_hd i' /\ e_prim (rh_hit rh') = Some 0%nat /\
       (e_ng (rh_hit rh') = normalize (pi_normal i') \/
        (e_ng (rh_hit rh') = pi_normal i' /\
         let z := vz (mulmv (trans m) (vsub (r_org (rh_ray rh)) c)) in
         pi_normal i' = vscale (z / nabs z) (mulmv m (V n0 n0 n1))))).
Proof.
  intros Hg. unfold eplane_intersect, plane_intersect, user, at_.
  cbn [nth_error bind ep_center ep_d1 ep_d2 ep_rot ep_geom negb pl_center pl_dx pl_dy pl_rot pl_id pi_org pi_dir pi_min pi_uv pi_hd].
  set (org := mulmv (trans m) (vsub (r_org (rh_ray rh)) c)). set (dir := mulmv (trans m) (r_dir (rh_ray rh))).
  set (t1 := - vz org / vz dir). set (ic := vadd org (vscale t1 dir)). cbv zeta.
  repeat match goal with
  | |- context [if ?b then Ok _ else _] =>
      destruct b;
      [ do 3 eexists; split; [reflexivity|]; split; [reflexivity|]; cbn [rh_ray rh_hit set_ray_hit e_geom r_tfar e_prim e_ng pi_hd pi_normal];
        split; [tauto|]; split; [discriminate|]; intros _; split; [reflexivity|]; split; [reflexivity|];
        solve [left; reflexivity | right; split; reflexivity] |]
  end.
  do 3 eexists. split; [reflexivity|]. split; [reflexivity|]. split; [rewrite Hg; split; discriminate|].
  split; [reflexivity|discriminate].
Qed.
End Any.

(** The comparison laws. *)
Lemma x_comparisons big tiny eps : comparisons (Xnum big tiny eps).
Proof.
  constructor; cbn [nleb nltb neqb Xnum].
  - intros [|[]|s a] [|[]|s' b]; try reflexivity. cbn. unfold Rleb, Rltb, Reqb.
    destruct (Rle_dec a b), (Rlt_dec a b), (Req_EM_T a b); cbn; try reflexivity; exfalso; lra.
  - intros [|[]|s a] [|[]|s' b]; try reflexivity. cbn. unfold Reqb.
    destruct (Req_EM_T a b), (Req_EM_T b a); try reflexivity; exfalso; lra.
  - intros [|[]|s a] [|[]|s' b] z; try discriminate; try reflexivity. cbn. unfold Reqb.
    destruct (Req_EM_T a b) as [->|]; [|discriminate]. intros _. destruct z as [|[]|]; reflexivity.
  - intros [|[]|s a] [|[]|s' b] z; try discriminate; try reflexivity. cbn. unfold Reqb.
    destruct (Req_EM_T a b) as [->|]; [|discriminate]. intros _. destruct z as [|[]|]; reflexivity.
  - intros [|[]|s a] [|[]|s' b]; try discriminate; try reflexivity. cbn. unfold Rltb, Rleb.
    destruct (Rlt_dec a b), (Rle_dec b a); try discriminate; try reflexivity. lra.
Qed.

Lemma f_comparisons prec emax : comparisons (Fnum prec emax).
Proof.
  assert (Eq : forall a b, SFcompare a b = Some Eq ->
    (exists s s', a = S754_zero s /\ b = S754_zero s') \/ a = b).
  { intros [s|s| |s m e] [s'|s'| |s' m' e']; cbn; intros H; try discriminate; try (left; eauto; fail);
      try (destruct s; discriminate); try (destruct s'; discriminate).
    - right. destruct s, s'; try discriminate; reflexivity.
    - right. destruct s, s'; try discriminate; destruct (Z.compare_spec e e') as [->| |]; try discriminate; f_equal.
      + apply Pos.compare_eq. unfold Pos.compare. destruct (Pos.compare_cont _ m m'); cbn in H; congruence.
      + apply Pos.compare_eq. unfold Pos.compare. destruct (Pos.compare_cont _ m m'); cbn in H; congruence. }
  constructor; cbn [nleb nltb neqb Fnum]; unfold SFleb, SFltb, SFeqb.
  - intros a b. destruct (SFcompare a b) as [[]|]; reflexivity.
  - intros a b. destruct (SFcompare a b) as [[]|] eqn:E1, (SFcompare b a) as [[]|] eqn:E2; try reflexivity; exfalso.
    all: try (destruct (Eq _ _ E1) as [(? & ? & -> & ->)|<-]; [discriminate|congruence]).
    all: destruct (Eq _ _ E2) as [(? & ? & -> & ->)|<-]; [discriminate|congruence].
  - intros x a b H. destruct (SFcompare x a) as [[]|] eqn:E; try discriminate.
    apply Eq in E as [(? & ? & -> & ->)|<-]; reflexivity.
  - intros x a b H. destruct (SFcompare x a) as [[]|] eqn:E; try discriminate.
    apply Eq in E as [(? & ? & -> & ->)|<-]; [|reflexivity]. destruct b; reflexivity.
  - intros a b H. destruct (SFcompare a b) as [[]|] eqn:E; try discriminate. clear H.
    destruct a as [s|s| |s m e], b as [s'|s'| |s' m' e']; cbn in *; try discriminate;
      try (destruct s; try discriminate; reflexivity); try (destruct s'; try discriminate; reflexivity).
    + destruct s, s'; try discriminate; reflexivity.
    + rewrite (Z.compare_antisym e e').
      pose proof (Pos.compare_cont_antisym m m' Datatypes.Eq) as Ha. cbn [CompOpp] in Ha.
      destruct s, s'; try discriminate; try reflexivity; destruct (e ?= e')%Z; cbn [CompOpp] in *; try discriminate; try reflexivity;
        rewrite <- Ha; destruct (Pos.compare_cont _ m m'); try discriminate; reflexivity.
Qed.

Section Exact.
Variables big tiny eps : R.
Notation XN := (Xnum big tiny eps).
Local Open Scope R_scope.

Lemma half_lt x d : isR x d -> 0 < d -> xltb (xdiv (xopp x) (Fin 2)) (xdiv x (Fin 2)) = true.
Proof.
  intros Hx Hd.
  rewrite (isR_ltb _ _ (- d / 2) (d / 2)); [apply Rltb_spec; lra| |];
    apply isR_div; try reflexivity; try lra; [apply isR_opp|]; assumption.
Qed.

Lemma eplane_same_verdict_exact c x y m g valid inst rh dx dy : isR x dx -> isR y dy -> 0 < dx -> 0 < dy ->
  @same_verdict _ XN rh g (@eplane_occluded _ XN (EPlane c x y m (Some g)) 0 valid (rh_ray rh))
    (@eplane_intersect _ XN (EPlane c x y m (Some g)) 0 valid inst rh).
Proof.
  intros Hx Hy H1 H2. apply eplane_same_verdict; [apply x_comparisons|exact (half_lt x dx Hx H1)|exact (half_lt y dy Hy H2)].
Qed.

(** The Embree normal is the native one. *)
Lemma eplane_agrees_exact c x y mt g inst rh k ray_ O U m C dx dy Rm :
  visR (r_org (rh_ray rh)) O -> visR (r_dir (rh_ray rh)) U -> isR (r_tnear (rh_ray rh)) m ->
  visR c C -> isR x dx -> isR y dy -> misR mt Rm ->
  0 < dx -> 0 < dy -> orthogonal Rm -> rv_dot U U = 1 -> 0 <= m -> e_geom (rh_hit rh) = None ->
  exists rh' h i', @eplane_intersect _ XN (EPlane c x y mt (Some g)) 0 true inst rh = Ok rh' /\
    @plane_intersect _ XN (PlaneIsect (vconst (Fin 0)) (r_org (rh_ray rh)) (r_dir (rh_ray rh)) (r_tnear (rh_ray rh)) (Fin 0, Fin 0)
        (r_tfar (rh_ray rh)) None) (Plane c x y mt k) ray_ = (h, i') /\
    (e_geom (rh_hit rh') = Some g <-> h = true) /\
    (h = false -> rh' = rh) /\
    (h = true -> r_tfar (rh_ray rh') = pi_hd i' /\ e_prim (rh_hit rh') = Some 0%nat /\
       forall rhn, exists rn n, @plane_post _ XN i' rhn = Ok rn /\ visR (h_normal rn) n /\
         visR (e_ng (rh_hit rh')) n /\ rv_norm n = 1).
Proof.
  intros HO HU Hm HC Hx Hy HM H1 H2 Hort HU1 Hm0 Hg.
  destruct (@eplane_agrees _ XN c x y mt g inst rh k ray_ (Fin 0, Fin 0) None (vconst (Fin 0)) Hg)
    as (rh' & h & i' & E1 & E2 & A & B & D).
  exists rh', h, i'. split; [exact E1|]. split; [exact E2|]. split; [exact A|]. split; [exact B|].
  intros ->. destruct (D eq_refl) as (D1 & D2 & D3). split; [exact D1|]. split; [exact D2|]. intros rhn.
  destruct (plane_normal big tiny eps
    (PlaneIsect (vconst (Fin 0)) (r_org (rh_ray rh)) (r_dir (rh_ray rh)) (r_tnear (rh_ray rh)) (Fin 0, Fin 0)
        (r_tfar (rh_ray rh)) None) (Plane c x y mt k) ray_ rhn O U m C dx dy Rm i' HO HU Hm HC Hx Hy HM H1 H2 Hort HU1 Hm0 E2)
    as (rn & n & t & P1 & P2 & P3 & P4 & P5 & P6 & _).
  exists rn, n. split; [exact P1|]. split; [exact P5|]. split; [|exact P6].
  unfold plane_post in P1. injection P1 as <-. cbn [h_normal] in P5.
  destruct D3 as [D3|(D3 & D4)]; [rewrite D3; exact P5|]. rewrite D3.
  cbv zeta in D4. set (z := vz (@mulmv _ XN (trans mt) (@vsub _ XN (r_org (rh_ray rh)) c))) in *.
  assert (Hz : isR z (vz (rv_mul (rv_trans Rm) (rv_sub O C)))).
  { apply (visR_mul big tiny eps (trans mt) _ (rv_trans Rm) (rv_sub O C)).
    - apply misR_trans, HM. - apply visR_sub; assumption. }
  set (zr := vz (rv_mul (rv_trans Rm) (rv_sub O C))) in *. clearbody zr.
  destruct (Req_EM_T zr 0) as [Ez|Ez].
  - (* the normal would not be finite *)
    exfalso. clear - D4 P5 Hz Ez. rewrite D4 in P5. destruct P5 as (P & _). revert P.
    unfold normalize, vdivs, vscale, vmap. cbn [vx]. change (@ndiv _ XN) with xdiv. change (@nmul _ XN) with xmul.
    change (@nabs _ XN) with xabs.
    destruct (isR_ex _ _ Hz) as (s & ->). rewrite Ez.
    assert (En : xdiv (Xf s 0) (xabs (Xf s 0)) = Xnan).
    { cbn. unfold xdiv. destruct (Req_EM_T (Rabs 0) 0) as [|Hn]; [|destruct Hn; apply Rabs_R0].
      destruct (Req_EM_T 0 0); [reflexivity|lra]. }
    rewrite En. cbn. tauto.
  - set (N := rv_scale (zr / Rabs zr) (rv_mul Rm (V 0 0 1))).
    assert (HN : visR (pi_normal i') N).
    { rewrite D4. apply visR_scale.
      - change (isR (xdiv z (xabs z)) (zr / Rabs zr)). apply isR_div; [exact Hz|apply isR_abs, Hz|apply Rabs_no_R0, Ez].
      - apply visR_mul; [exact HM|]. repeat split. }
    assert (HN1 : rv_norm N = 1).
    { apply rv_norm_unit. unfold N.
      replace (rv_dot _ _) with (zr / Rabs zr * (zr / Rabs zr) * rv_dot (rv_mul Rm (V 0 0 1)) (rv_mul Rm (V 0 0 1)))
        by (unfold rv_dot, rv_scale; cbn; ring).
      rewrite orth_dot by exact Hort. unfold rv_dot; cbn.
      assert (Hs : zr / Rabs zr * (zr / Rabs zr) = 1).
      { replace (zr / Rabs zr * (zr / Rabs zr)) with (zr * zr / (Rabs zr * Rabs zr)) by (field; apply Rabs_no_R0, Ez).
        pose proof (Rsqr_abs zr) as Es. unfold Rsqr in Es. rewrite <- Es. field. exact Ez. }
      rewrite Hs. ring. }
    assert (HNn : visR (@normalize _ XN (pi_normal i')) (rv_scale (/ rv_norm N) N)) by (apply visR_normalize; [exact HN|lra]).
    assert (n = N).
    { rewrite HN1 in HNn. destruct P5 as (p1 & p2 & p3), HNn as (q1 & q2 & q3).
      apply vec_eq.
      - rewrite (isR_inj _ _ _ p1 q1). cbn [vx vy vz rv_scale]. rewrite Rinv_1. apply Rmult_1_l.
      - rewrite (isR_inj _ _ _ p2 q2). cbn [vx vy vz rv_scale]. rewrite Rinv_1. apply Rmult_1_l.
      - rewrite (isR_inj _ _ _ p3 q3). cbn [vx vy vz rv_scale]. rewrite Rinv_1. apply Rmult_1_l. }
    subst n. exact HN.
Qed.
End Exact.
