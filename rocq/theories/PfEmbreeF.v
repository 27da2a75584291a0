(** The Embree callbacks of spheres and planes with rounding. *)

From Coq Require Import Reals ZArith List Bool Lra Lia Psatz Floats.SpecFloat.
From Flocq Require Import Core IEEE754.BinarySingleNaN.
From Verif Require Import Num NumR NumF Vec Ray Sphere Plane Embree SpecReal SpecIEEE SpecTriF SpecSphF SpecPlane SpecPlaneF SpecEmbF.
From Verif Require Import PfIEEE PfIEEE2 PfIEEE3 PfTriF PfTriF2 PfDirF PfX PfEmbree PfSphF PfSphF2 PfSphF3 PfSphN PfPlaneF2 PfPlaneF3 PfPlaneF4 PfPlaneF5.
Import ListNotations.
Local Open Scope R_scope.

(** ** Any arithmetic *)
Section Any.
Context {T : Type} {N : num T}.
Local Open Scope num_scope.
(** The plane's callback against the native routine. *)
Lemma eplane_native c x y m g inst rh uv pr nn k ray_ :
  let st := PlaneIsect nn (r_org (rh_ray rh)) (r_dir (rh_ray rh)) (r_tnear (rh_ray rh)) uv (r_tfar (rh_ray rh)) pr in
  (fst (plane_intersect st (Plane c x y m k) ray_) = false /\ eplane_intersect (EPlane c x y m g) 0 true inst rh = Ok rh) \/
  (exists st' n, plane_intersect st (Plane c x y m k) ray_ = (true, st') /\
     eplane_intersect (EPlane c x y m g) 0 true inst rh = Ok (set_ray_hit rh n n0 n0 (Some 0%nat) g inst (pi_hd st')) /\
     (n = normalize (pi_normal st') \/ n = vscale (p_s st c m) (mulmv m (V n0 n0 n1)))).
Proof.
  intros st. unfold eplane_intersect, user, at_. cbn [nth_error bind negb ep_center ep_d1 ep_d2 ep_rot ep_geom]. cbv zeta.
  unfold plane_intersect. cbv zeta. cbn [pl_rot pl_center pl_dx pl_dy pl_id].
  change (mulmv (trans m) (vsub (r_org (rh_ray rh)) c)) with (p_org st c m). change (mulmv (trans m) (r_dir (rh_ray rh))) with (p_dir st m).
  change (mulmv (trans m) (vsub (pi_org st) c)) with (p_org st c m). change (mulmv (trans m) (pi_dir st)) with (p_dir st m).
  change (- vz (p_org st c m) / vz (p_dir st m)) with (p_t st c m). fold (p_ic st c m). fold (p_s st c m).
  change (r_tnear (rh_ray rh)) with (pi_min st). change (r_tfar (rh_ray rh)) with (pi_hd st). fold (p_inr st c m).
  destruct (p_inr st c m); cbn [andb]; [|left; split; reflexivity].
  destruct (- x / n2 <? vx (p_ic st c m)), (vx (p_ic st c m) <? x / n2), (- y / n2 <? vy (p_ic st c m)), (vy (p_ic st c m) <? y / n2);
  destruct (vx (p_ic st c m) =? - x / n2), (vx (p_ic st c m) =? x / n2), (vy (p_ic st c m) =? - y / n2), (vy (p_ic st c m) =? y / n2);
  cbn [andb fst]; first [left; split; reflexivity
    | right; do 2 eexists; split; [reflexivity|]; split; [reflexivity|]; cbn [pi_normal]; first [right; reflexivity | left; reflexivity]].
Qed.
End Any.

Section F.
Variables prec emax : Z.
Context {Hprec : Prec_gt_0 prec} {Hmax : Prec_lt_emax prec emax}.
Hypothesis Hfmt : usual_format prec emax.
Notation FN := (Fnum prec emax).
Notation isf := (isF prec emax).
Notation u := (ulpf prec).
Variable M : R.
Hypothesis HM : scale_ok prec emax M.
Variables (rh : rtc_rayhit spec_float) (O U : vec R) (lo : R).
Notation o := (r_org (rh_ray rh)).
Notation d := (r_dir (rh_ray rh)).
Hypothesis Ho : visF prec emax o O.
Hypothesis Hd : unit_near prec emax d U.
Hypothesis Hlo : isf (r_tnear (rh_ray rh)) lo.
Hypothesis L0 : 0 <= lo.

Section Ball.
Variables (c : vec spec_float) (fr : spec_float) (C : vec R) (r : R) (g : nat) (inst : option nat).
Hypothesis Hs : sphere_isF prec emax M O c fr C r.
Notation P t := (power C r (at_t O U t)).
Notation lin := (PfSphF2.lin O C U).
Notation rep ft := (@sp_report _ FN c (Some g) inst ft).

(** What is reported for a root [t]. *)
Lemma report_F rh1 ft t : same_ray rh rh1 ->
  isf ft t -> Rabs t <= 2.1 * M -> Rabs (2 * t + lin) <= 2.02 * M -> Rabs (P t) <= 193 * (u * M ^ 2) ->
  (rep ft rh1 = rh1 /\ (@nltb _ FN (r_tnear (rh_ray rh)) ft && @nltb _ FN ft (r_tfar (rh_ray rh1)))%bool = false) \/
  (same_ray rh (rep ft rh1) /\ (exists x, records prec emax g (rep ft rh1) x /\ ball_near prec emax M C r O U t x (e_ng (rh_hit (rep ft rh1)))) /\ lo < t /\ @nltb _ FN ft (r_tfar (rh_ray rh1)) = true).
Proof.
  intros (E1 & E2 & E3) It Bt St Pt. unfold sp_report. rewrite E1, E2, E3. destruct (_ && _)%bool eqn:Hc; [right|left; auto].
  pose proof (u_pos prec) as U0. pose proof (u_small prec emax Hfmt) as U1. pose proof (M1' prec emax M HM) as V1.
  assert (uM0 : 0 <= u * M) by (apply Rmult_le_pos; lra). assert (uM : u * M <= / 1000000 * M) by (apply Rmult_le_compat_r; lra).
  assert (uMM : 0 <= u * M ^ 2) by (apply Rmult_le_pos; [lra|apply pow_le; lra]).
  apply andb_true_iff in Hc as [Hc1 Hc2]. rewrite (isF_ltb prec emax _ _ _ _ Hlo It) in Hc1. apply Rltb_spec in Hc1.
  destruct (distance_F prec emax Hfmt M HM d U Hd ft t It Bt) as (x & Hx & X0 & Ex). rewrite (Rabs_pos_eq t) in Ex by lra. rewrite (Rabs_pos_eq t) in Bt by lra.
  assert (Pt' : Rabs (P t) <= power_err prec M) by (unfold power_err; lra).
  unfold same_ray, records, ball_near, set_ray_hit. cbn [rh_ray rh_hit r_org r_dir r_tnear r_tfar e_prim e_geom e_ng]. split; [auto|]. split; [|split; [exact Hc1|exact Hc2]].
  exists x. split; [auto|]. split; [apply Rabs_le_inv in Ex; lra|]. split; [exact Ex|]. split.
  - replace (P x) with (P t + (x - t) * ((2 * t + lin) + (x - t))) by (rewrite !(power_poly prec emax d O C U r Hd); ring).
    assert (W : Rabs ((x - t) * ((2 * t + lin) + (x - t))) <= 28 * (u * M) * (2.021 * M)).
    { apply Rabs_mul_le; [exact Ex|]. eapply Rle_trans; [apply Rabs_add_le; [exact St|exact Ex]|]. lra. }
    unfold power_err. replace (28 * (u * M) * (2.021 * M)) with (28 * 2.021 * (u * M ^ 2)) in W by ring.
    eapply Rle_trans; [apply Rabs_add_le; [exact Pt|exact W]|]. lra.
  - intros HC Hl. destruct Hs as (Hc & _ & Hr & Hn). apply (normal_F prec emax Hfmt M HM); try assumption; [apply Hd|lra].
Qed.

Hypothesis Hfar : limit prec emax (r_tfar (rh_ray rh)).
Lemma limit_ltb ft t h : isf ft t -> limit prec emax h -> (@nltb _ FN ft h = true <-> forall b, isf h b -> t < b).
Proof.
  intros It [-> | (b & Hb)].
  - split; [intros _ b Hb; destruct Hb as (_ & Hb & _); discriminate Hb|intros _; apply (inf_ltb prec emax _ _ It)].
  - rewrite (isF_ltb prec emax _ _ _ _ It Hb). rewrite Rltb_spec. split; [|intros H; apply (H b Hb)].
    intros H b' Hb'. rewrite (isF_fun prec emax _ _ _ Hb' Hb). exact H.
Qed.
(** Where the roots are when the surface is crossed. *)
Lemma crossing_roots y0 y : lo <= y0 -> crosses (power_err prec M) C r O U y0 y ->
  @nltb _ FN (@sp_D _ FN c fr o d) (@n0 _ FN) = false /\
  forall t0 t1, isf (@sp_t0 _ FN c fr o d) t0 -> isf (@sp_t1 _ FN c fr o d) t1 -> t0 < y /\ (lo < t0 \/ (lo < t1 /\ t1 < y)) /\ (P y <= - power_err prec M -> lo < t0).
Proof.
  intros Hy0 [Hyy Hcr]. destruct (roots prec emax Hfmt M HM o c d fr O C U r Ho Hd Hs) as (Dv & HD & ED & Hr).
  pose proof (u_pos prec) as U0. pose proof (u_small prec emax Hfmt) as U1. pose proof (M1' prec emax M HM) as V1.
  assert (uM2 : 0 < u * M ^ 2) by (apply Rmult_lt_0_compat; [lra|apply pow_lt; lra]).
  unfold power_err in Hcr. rewrite !(square_form prec emax d O C U r Hd) in Hcr. replace (256 * u * M ^ 2) with (256 * (u * M ^ 2)) in Hcr by ring.
  set (V := - lin / 2) in *. set (Dl := (lin * lin - 4 * PfSphF2.cst O C r) / 4) in *.
  assert (DD : 4 * Dl = lin * lin - 4 * PfSphF2.cst O C r) by (unfold Dl; field). rewrite <- DD in ED. apply Rabs_le_inv in ED.
  assert (D0 : 0 <= Dv).
  { pose proof (Rle_0_sqr (y0 - V)) as Z0. pose proof (Rle_0_sqr (y - V)) as Z1. unfold Rsqr in Z0, Z1. destruct Hcr as [[_ Q]|[Q _]]; lra. }
  split.
  { change (@sp_D _ FN c fr o d) with (fD prec emax o c d fr). rewrite (D_sign prec emax o c d fr _ HD). destruct (Rltb Dv 0) eqn:E; [|reflexivity]. apply Rltb_spec in E. lra. }
  intros s0 s1 J0 J1. destruct (Hr D0) as (t0 & t1 & I0 & I1 & T01 & B0 & B1 & _ & _ & P0 & P1 & G0 & G1).
  rewrite (isF_fun prec emax _ _ _ J0 I0), (isF_fun prec emax _ _ _ J1 I1). clear s0 s1 J0 J1.
  rewrite (square_form prec emax d O C U r Hd) in P0, P1. fold V Dl in P0, P1, G0, G1.
  assert (Hu : 0 < u <= / 1000000) by lra.
  assert (In : forall z, (z - V) * (z - V) - Dl <= - (256 * (u * M ^ 2)) -> t0 < z < t1) by (intros z; apply (below_inside u M V Dl t0 t1); assumption).
  destruct Hcr as [[Q1 Q2]|[Q1 Q2]].
  - destruct (In _ Q2). assert (lo < t0) by (apply Rle_lt_trans with y0; [exact Hy0|]; apply (left_outside u M V Dl t0) with (y := y); assumption). auto.
  - destruct (In _ Q1). split; [lra|]. split.
    + right. split; [lra|]. apply (right_outside u M V Dl t1) with (y := y0); assumption.
    + intros X. unfold power_err in X. rewrite (square_form prec emax d O C U r Hd) in X. fold V Dl in X. replace (256 * u * M ^ 2) with (256 * (u * M ^ 2)) in X by ring. lra.
Qed.

Lemma esphere_F : exists rh', @esphere_intersect _ FN (ESphere c fr (Some g)) 0 true inst rh = Ok rh' /\ same_ray rh rh' /\
  ((rh' = rh /\ forall y0 y, lo <= y0 -> crosses (power_err prec M) C r O U y0 y -> ~ at_least prec emax (r_tfar (rh_ray rh)) y) \/
   (exists t x, records prec emax g rh' x /\ lo < t /\ ball_near prec emax M C r O U t x (e_ng (rh_hit rh')) /\
      (forall h, isf (r_tfar (rh_ray rh)) h -> t < h + 28 * (u * M)) /\
      (forall y0 y, lo <= y0 -> crosses (power_err prec M) C r O U y0 y -> x <= y + 56 * (u * M)))).
Proof.
  rewrite esphere_eq. eexists. split; [reflexivity|]. destruct (roots prec emax Hfmt M HM o c d fr O C U r Ho Hd Hs) as (Dv & HD & ED & Hr).
  assert (Self : same_ray rh rh) by (split; auto).
  assert (uM0 : 0 <= u * M). { pose proof (u_pos prec). pose proof (M1' prec emax M HM). apply Rmult_le_pos; lra. }
  pose proof crossing_roots as CR.
  destruct (@nltb _ FN (@sp_D _ FN c fr o d) (@n0 _ FN)) eqn:Es.
  { split; [exact Self|]. left. split; [reflexivity|]. intros y0 y Hy Hc. destruct (CR y0 y Hy Hc) as [X _]. discriminate X. }
  change (@sp_D _ FN c fr o d) with (fD prec emax o c d fr) in Es. rewrite (D_sign prec emax o c d fr _ HD) in Es.
  assert (D0 : 0 <= Dv). { apply Rnot_lt_le. intros X. apply Rltb_spec in X. congruence. }
  destruct (Hr D0) as (t0 & t1 & I0 & I1 & T01 & B0 & B1 & S0 & S1 & P0 & P1 & _).
  assert (CR' : forall y0 y, lo <= y0 -> crosses (power_err prec M) C r O U y0 y -> t0 < y /\ (lo < t0 \/ (lo < t1 /\ t1 < y))).
  { intros y0 y Hy Hc. destruct (proj2 (CR y0 y Hy Hc) t0 t1 I0 I1) as (X & Y & _). auto. }
  change (PfSphF2.ft0 prec emax o c d fr) with (@sp_t0 _ FN c fr o d) in *. change (PfSphF2.ft1 prec emax o c d fr) with (@sp_t1 _ FN c fr o d) in *.
  set (f0 := @sp_t0 _ FN c fr o d) in *. set (f1 := @sp_t1 _ FN c fr o d) in *.
  assert (Near : forall t x n, ball_near prec emax M C r O U t x n -> x <= t + 28 * (u * M)).
  { intros t x n (_ & E & _). apply Rabs_le_inv in E. lra. }
  destruct (report_F rh f0 t0 Self I0 B0 S0 P0) as [[E0 C0]|(K0 & (x0 & F0 & X0) & L1 & C0)].
  - rewrite E0. destruct (report_F rh f1 t1 Self I1 B1 S1 P1) as [[E1 C1]|(K1 & (x1 & F1 & X1) & L2 & C1)].
    + rewrite E1. split; [exact Self|]. left. split; [reflexivity|]. intros y0 y Hy Hc Hal. destruct (CR' y0 y Hy Hc) as [T0 T1].
      assert (Q : forall ft t, isf ft t -> lo < t -> t < y -> (@nltb _ FN (r_tnear (rh_ray rh)) ft && @nltb _ FN ft (r_tfar (rh_ray rh)))%bool = true).
      { intros ft t It H1 H2. apply andb_true_iff. split; [rewrite (isF_ltb prec emax _ _ _ _ Hlo It); apply Rltb_spec, H1|].
        apply (limit_ltb ft t _ It Hfar). intros b Hb. destruct Hal as [Hi|(b' & Hb' & Hge)]; [rewrite Hi in Hb; destruct Hb as (_ & Hb & _); discriminate Hb|].
        rewrite (isF_fun prec emax _ _ _ Hb Hb'). lra. }
      destruct T1 as [T1|[T1 T2]]; [rewrite (Q _ _ I0 T1 T0) in C0; discriminate C0|rewrite (Q _ _ I1 T1 T2) in C1; discriminate C1].
    + split; [exact K1|]. right. exists t1, x1. split; [exact F1|]. split; [exact L2|]. split; [exact X1|]. pose proof (proj1 (limit_ltb _ _ _ I1 Hfar) C1) as G1. split.
      * intros h Hh. specialize (G1 h Hh). lra.
      * intros y0 y Hy Hc. destruct (CR' y0 y Hy Hc) as [T0 T1]. pose proof (Near _ _ _ X1) as Nx. destruct T1 as [T1|[_ T2]]; [exfalso|lra].
        assert (G0 : @nltb _ FN f0 (r_tfar (rh_ray rh)) = true) by (apply (limit_ltb _ _ _ I0 Hfar); intros b Hb; specialize (G1 b Hb); lra).
        rewrite G0, andb_true_r, (isF_ltb prec emax _ _ _ _ Hlo I0) in C0. apply Rltb_spec in T1. congruence.
  - pose proof (proj1 (limit_ltb _ _ _ I0 Hfar) C0) as G0. pose proof (Near _ _ _ X0) as N0.
    destruct (report_F _ f1 t1 K0 I1 B1 S1 P1) as [[E1 C1]|(K1 & (x1 & F1 & X1) & L2 & C1)].
    + rewrite E1. split; [exact K0|]. right. exists t0, x0. split; [exact F0|]. split; [exact L1|]. split; [exact X0|]. split; [intros h Hh; specialize (G0 h Hh); lra|].
      intros y0 y Hy Hc. destruct (CR' y0 y Hy Hc) as [T0 _]. lra.
    + split; [exact K1|]. right. exists t1, x1. split; [exact F1|]. split; [exact L2|]. split; [exact X1|]. pose proof (Near _ _ _ X1) as N1.
      destruct F0 as (_ & _ & F0).
      pose proof (proj1 (limit_ltb _ _ _ I1 (or_intror (ex_intro _ x0 F0))) C1 x0 F0) as G1. split.
      * intros h Hh. specialize (G0 h Hh). lra.
      * intros y0 y Hy Hc. destruct (CR' y0 y Hy Hc) as [T0 _]. lra.
Qed.

Lemma esphere_occ_F : exists ry', @esphere_occluded _ FN (ESphere c fr (Some g)) 0 true (rh_ray rh) = Ok ry' /\
  ((ry' = rh_ray rh /\ forall y0 y, lo <= y0 -> crosses (power_err prec M) C r O U y0 y -> P y <= - power_err prec M -> ~ at_least prec emax (r_tfar (rh_ray rh)) y) \/
   (ry' = set_tfar (rh_ray rh) (@ninf_neg _ FN) /\ exists t, lo < t <= 2.1 * M /\ Rabs (P t) <= power_err prec M /\ forall h, isf (r_tfar (rh_ray rh)) h -> t < h)).
Proof.
  rewrite esphere_occ_eq. eexists. split; [reflexivity|]. destruct (roots prec emax Hfmt M HM o c d fr O C U r Ho Hd Hs) as (Dv & HD & ED & Hr).
  pose proof crossing_roots as CR.
  destruct (@nltb _ FN (@sp_D _ FN c fr o d) (@n0 _ FN)) eqn:Es.
  { left. split; [reflexivity|]. intros y0 y Hy Hc. destruct (CR y0 y Hy Hc) as [X _]. discriminate X. }
  change (@sp_D _ FN c fr o d) with (fD prec emax o c d fr) in Es. rewrite (D_sign prec emax o c d fr _ HD) in Es.
  assert (D0 : 0 <= Dv). { apply Rnot_lt_le. intros X. apply Rltb_spec in X. congruence. }
  destruct (Hr D0) as (t0 & t1 & I0 & I1 & T01 & B0 & B1 & S0 & S1 & P0 & P1 & _).
  assert (CR' : forall y0 y, lo <= y0 -> crosses (power_err prec M) C r O U y0 y -> P y <= - power_err prec M -> t0 < y /\ lo < t0).
  { intros y0 y Hy Hc Hp. destruct (proj2 (CR y0 y Hy Hc) t0 t1 I0 I1) as (X & _ & Y). auto. }
  change (PfSphF2.ft0 prec emax o c d fr) with (@sp_t0 _ FN c fr o d) in *. change (PfSphF2.ft1 prec emax o c d fr) with (@sp_t1 _ FN c fr o d) in *.
  set (f0 := @sp_t0 _ FN c fr o d) in *. set (f1 := @sp_t1 _ FN c fr o d) in *. cbv zeta.
  assert (uMM : 0 <= u * M ^ 2). { pose proof (u_pos prec). pose proof (M1' prec emax M HM). apply Rmult_le_pos; [lra|apply pow_le; lra]. }
  rewrite (isF_ltb prec emax _ _ _ _ Hlo I0). destruct (Rltb lo t0) eqn:El; cbn [andb].
  - apply Rltb_spec in El. assert (Bt : lo < t0 <= 2.1 * M) by (split; [exact El|]; apply Rabs_le_inv in B0; lra).
    assert (Pt : Rabs (P t0) <= power_err prec M) by (unfold power_err; lra).
    assert (Mono : @nltb _ FN f1 (r_tfar (rh_ray rh)) = true -> @nltb _ FN f0 (r_tfar (rh_ray rh)) = true).
    { intros H. apply (limit_ltb _ _ _ I0 Hfar). intros b Hb. pose proof (proj1 (limit_ltb _ _ _ I1 Hfar) H b Hb). lra. }
    destruct (@nltb _ FN f0 (r_tfar (rh_ray rh))) eqn:E0.
    + right. pose proof (proj1 (limit_ltb _ _ _ I0 Hfar) E0) as G0. split; [|exists t0; auto].
      unfold set_tfar at 1 2 3. cbn [r_tnear r_tfar]. destruct (_ && _)%bool; reflexivity.
    + left. rewrite (isF_ltb prec emax _ _ _ _ Hlo I0). apply Rltb_spec in El. rewrite El. cbn [andb].
      destruct (@nltb _ FN f1 (r_tfar (rh_ray rh))) eqn:E1; [specialize (Mono eq_refl); discriminate Mono|]. split; [reflexivity|].
      intros y0 y Hy Hc Hp Hal. destruct (CR' y0 y Hy Hc Hp) as [X _].
      assert (Y : @nltb _ FN f0 (r_tfar (rh_ray rh)) = true); [|congruence]. apply (limit_ltb _ _ _ I0 Hfar). intros b Hb.
      destruct Hal as [Hi|(b' & Hb' & Hge)]; [rewrite Hi in Hb; destruct Hb as (_ & Hb & _); discriminate Hb|]. rewrite (isF_fun prec emax _ _ _ Hb Hb'). lra.
  - left. rewrite (isF_ltb prec emax _ _ _ _ Hlo I0), El. cbn [andb]. split; [reflexivity|]. intros y0 y Hy Hc Hp _. destruct (CR' y0 y Hy Hc Hp) as [_ X]. apply Rltb_spec in X. congruence.
Qed.
End Ball.

Section Patch.
Variables (c : vec spec_float) (fx fy : spec_float) (m : mat spec_float) (C : vec R) (dx dy : R) (Q : mat R) (g : nat) (inst : option nat).
Hypothesis Hp : plane_isF prec emax M O c fx fy m C dx dy Q.

Lemma eplane_F : exists rh', @eplane_intersect _ FN (EPlane c fx fy m (Some g)) 0 true inst rh = Ok rh' /\ same_ray rh rh' /\
  ((rh' = rh /\ forall l t, lo <= l -> pierces (patch_err prec M) C dx dy Q O U l t ->
      ~ at_least prec emax (r_tfar (rh_ray rh)) (t + patch_err prec M / steepness Q U)) \/
   (exists t x, records prec emax g rh' x /\ lo < t /\ patch_near prec emax M C dx dy Q O U t x (e_ng (rh_hit rh')) /\
      (forall h, isf (r_tfar (rh_ray rh)) h -> t < h) /\
      (forall l t, lo <= l -> pierces (patch_err prec M) C dx dy Q O U l t -> x <= t + patch_err prec M / steepness Q U))).
Proof.
  set (z := V (@n0 _ FN) (@n0 _ FN) (@n0 _ FN)).
  set (ry := @Ray spec_float z z z (V true true true) (@n0 _ FN) (@n0 _ FN) true).
  set (st := PlaneIsect z o d (r_tnear (rh_ray rh)) (@n0 _ FN, @n0 _ FN) (r_tfar (rh_ray rh)) None).
  assert (Hst : pi_org st = o /\ pi_dir st = d) by (split; reflexivity).
  assert (Pi : forall l t, lo <= l -> pierces (patch_err prec M) C dx dy Q O U l t ->
    (at_least prec emax (pi_hd st) (t + patch_err prec M / steepness Q U) -> fst (@plane_intersect _ FN st (Plane c fx fy m 0) ry) = true) /\
    (forall st', @plane_intersect _ FN st (Plane c fx fy m 0) ry = (true, st') -> exists x, isf (pi_hd st') x /\ x <= t + patch_err prec M / steepness Q U)).
  { intros l t Hl Hpi. exact (plane_pierced prec emax Hfmt M HM o c d fx fy m O C U dx dy Q Ho Hd Hp st ry 0 Hst lo l t Hlo L0 Hl Hpi). }
  destruct (eplane_native (N := FN) c fx fy m (Some g) inst rh (@n0 _ FN, @n0 _ FN) None z 0 ry) as [[Hno ->]|(st' & n & Hyes & -> & Hn)].
  - fold st in Hno. eexists. split; [reflexivity|]. split; [split; auto|]. left. split; [reflexivity|]. intros l t Hl Hpi Hal.
    rewrite (proj1 (Pi l t Hl Hpi) Hal) in Hno. discriminate Hno.
  - fold st in Hyes, Hn. eexists. split; [reflexivity|]. split; [split; auto|]. right.
    destruct (plane_sound2 prec emax Hfmt M HM o c d fx fy m O C U dx dy Q Ho Hd Hp st ry 0 Hst st' lo Hlo L0 Hyes)
      as (_ & _ & _ & _ & t & x & Hx & Bx & Ex & Bt & Np & Lt & N1 & N2).
    exists t, x. unfold records, patch_near, set_ray_hit. cbn [rh_ray rh_hit r_org r_dir r_tnear r_tfar e_prim e_geom e_ng].
    split; [auto|]. split; [apply Bt|]. split.
    + split; [exact Bx|]. split; [exact Ex|]. split; [exact Np|]. destruct Hn as [-> | ->]; assumption.
    + split; [exact Lt|]. intros l t1 Hl Hpi. destruct (proj2 (Pi l t1 Hl Hpi) st' Hyes) as (x' & Hx' & Le).
      rewrite (isF_fun prec emax _ _ _ Hx Hx'). exact Le.
Qed.
End Patch.
End F.
