(** The Embree cylinder callbacks in world coordinates. *)

From Coq Require Import Reals ZArith List Bool Lra Lia.
From Verif Require Import Num NumR NumX Vec Ray Cylinder Embree SpecReal SpecPlane SpecCyl SpecEmbree PfX PfPlane PfClosest PfCyl PfCyl2 PfCyl3 PfEmbree2 PfEmbree3.
Import ListNotations.
Local Open Scope R_scope.

Section World.
Variables big tiny eps : R.
Notation XN := (Xnum big tiny eps).
Variables (c : vec xr) (xa xb xh : xr) (m : mat xr) (g : nat) (valid : bool) (inst : option nat) (rh : rtc_rayhit xr).
Variables (O U C : vec R) (a b h : R) (Rm : mat R).
Hypothesis HO : visR (r_org (rh_ray rh)) O.
Hypothesis HU : visR (r_dir (rh_ray rh)) U.
Hypothesis HC : visR c C.
Hypothesis Xa : isR xa a.
Hypothesis Xb : isR xb b.
Hypothesis Xh : isR xh h.
Hypothesis Xr : misR m Rm.
Hypothesis Ha : 0 < a.
Hypothesis Hb : 0 < b.
Notation o := (to_local C Rm O).
Notation d := (rv_mul (rv_trans Rm) U).
Notation org := (@mulmv _ XN (trans m) (@vsub _ XN (r_org (rh_ray rh)) c)).
Notation dir := (@mulmv _ XN (trans m) (r_dir (rh_ray rh))).
Notation occ := (@ecyl_occluded _ XN (ECyl c xa xb xh m (Some g)) 0 valid (rh_ray rh)).
Notation int := (@ecyl_intersect _ XN (ECyl c xa xb xh m (Some g)) 0 valid inst rh).

Lemma w_org : visR org o.
Proof. apply visR_mul; [apply misR_trans, Xr|]. apply visR_sub; assumption. Qed.
Lemma w_dir : visR dir d.
Proof. apply visR_mul; [apply misR_trans, Xr|assumption]. Qed.
Lemma w_org' : visR org (V (vx o) (vy o) (vz o)).
Proof. exact w_org. Qed.
Lemma w_dir' : visR dir (V (vx d) (vy d) (vz d)).
Proof. exact w_dir. Qed.

Lemma w_native : same_hit (@cyl_rot_normal _ XN m) (@ecyl_local _ XN xa xb xh m org dir) (@cyl_local _ XN xa xb xh m org dir).
Proof. exact (ecyl_native big tiny eps xa xb xh a b h m Xa Xb Xh Ha Hb _ _ _ _ _ _ _ _ w_org' w_dir'). Qed.

(** Any cylinder: same hit, same distance as the native routine. *)
Lemma w_agrees k i ray_ : valid = true -> e_geom (rh_hit rh) = None ->
  ci_org i = r_org (rh_ray rh) -> ci_dir i = r_dir (rh_ray rh) ->
  exists rh' hit i', int = Ok rh' /\
    @cylinder_intersect _ XN i (Cylinder c xa xb xh m k) ray_ = (hit, i') /\
    (e_geom (rh_hit rh') = Some g <-> hit = true) /\
    (hit = false -> rh' = rh) /\
    (hit = true -> r_tfar (rh_ray rh') = ci_hd i' /\ e_prim (rh_hit rh') = Some 0%nat /\
       (e_ng (rh_hit rh') = ci_normal i' \/ e_ng (rh_hit rh') = @cyl_rot_normal _ XN m (ci_normal i'))).
Proof.
  intros -> Hg Ho Hd.
  exact (@ecyl_agrees _ XN c xa xb xh m g inst rh k i ray_ w_native Hg Ho Hd).
Qed.

Hypothesis Ho : orthogonal Rm.
Hypothesis Hu : rv_norm U <> 0.

Lemma w_d : vx d <> 0 \/ vy d <> 0 \/ vz d <> 0.
Proof.
  assert (Hd : rv_norm d <> 0) by (rewrite orth_norm' by exact Ho; exact Hu).
  destruct (Req_dec (vx d) 0) as [E1|]; [|auto]. destruct (Req_dec (vy d) 0) as [E2|]; [|auto].
  destruct (Req_dec (vz d) 0) as [E3|]; [|auto]. exfalso. apply Hd. unfold rv_norm.
  replace (rv_dot d d) with 0; [apply sqrt_0|]. unfold rv_dot at 1. rewrite E1, E2, E3. ring.
Qed.

Lemma w_past : world (past_caps h) C Rm O -> 0 < h -> same_verdict (N := XN) rh g occ int.
Proof.
  intros Hp Hh. apply (@ecyl_same_verdict_beyond _ XN); [apply x_comparisons|]. cbv zeta.
  apply (world_local _ C Rm O Ho) in Hp. unfold past_caps in Hp.
  pose proof (proj2 (proj2 w_org)) as Xz.
  change (@nltb _ XN) with xltb.
  rewrite (isR_ltb _ _ _ _ (X_h2 big tiny eps xh h Xh) Xz), (isR_ltb _ _ _ _ Xz (X_mh2 big tiny eps xh h Xh)).
  revert Hp. unfold Rabs. destruct (Rcase_abs _); intros Hp; [right|left]; apply Rltb_yes; lra.
Qed.

Lemma w_inside : world (inside a b h) C Rm O ->
  @ecyl_occ_local _ XN xa xb xh org dir = true /\ @ecyl_local _ XN xa xb xh m org dir <> None.
Proof.
  intros Hi. apply (world_local _ C Rm O Ho) in Hi.
  replace o with (V (vx o) (vy o) (vz o)) in Hi by (destruct o; reflexivity).
  rewrite <- (at_zero (vx o) (vy o) (vz o) (vx d) (vy d) (vz d)) in Hi. apply (inside_iff a b h Ha Hb) in Hi as [HF Hz].
  rewrite Rmult_0_l, Rplus_0_r in Hz.
  exact (verdict_inside big tiny eps xa xb xh a b h m Xa Xb Xh Ha Hb _ _ _ _ _ _ _ _ w_org' w_dir' HF Hz w_d).
Qed.
Lemma w_inside_verdict : world (inside a b h) C Rm O -> same_verdict (N := XN) rh g occ int.
Proof. intros Hi. apply (@ecyl_verdict _ XN). destruct (w_inside Hi). tauto. Qed.

Lemma w_beside_F : world (beside a b h) C Rm O ->
  0 < Fq a b (vx o) (vy o) (vx d) (vy d) 0 /\ - (h / 2) < vz o < h / 2.
Proof.
  intros Hi. apply (world_local _ C Rm O Ho) in Hi as [Hz He].
  split; [|revert Hz; unfold Rabs; destruct (Rcase_abs _); lra].
  apply Rnot_le_lt. intros HF. apply (Rlt_not_le _ _ He), (ellipse_le _ _ _ Ha Hb). unfold Fq in HF. lra.
Qed.
Lemma w_beside_verdict : world (beside a b h) C Rm O -> clear_view a b h C Rm O U -> same_verdict (N := XN) rh g occ int.
Proof.
  intros Hi [Hpar Hv]. destruct (w_beside_F Hi) as [HF Hz].
  assert (HF0 : forall u, Fq a b (vx o) (vy o) (vx d) (vy d) u = 0 ->
      world (fun q => ellipse a b q = 1) C Rm (at_t O U u)).
  { intros u HF0. apply (world_local _ C Rm _ Ho). rewrite to_local_at. apply (ellipse_eq _ _ _ Ha Hb). exact HF0. }
  apply (@ecyl_verdict _ XN).
  apply (verdict_beside big tiny eps xa xb xh a b h m Xa Xb Xh Ha Hb _ _ _ _ _ _ _ _ w_org' w_dir' HF Hz).
  - destruct (Req_dec (vx d) 0) as [E1|]; [|auto]. destruct (Req_dec (vy d) 0) as [E2|]; [|auto].
    exfalso. apply (Hpar (vz d)). rewrite <- (proj2 (Ho U)) at 1.
    replace d with (rv_scale (vz d) (V 0 0 1)) at 1 by (apply vec_eq; cbn [rv_scale vx vy vz]; rewrite ?E1, ?E2; ring).
    unfold normal_of. apply vec_eq; cbn; unfold rv_dot; cbn; ring.
  - intros u Hu0 HFu. destruct (Hv u Hu0 (HF0 u HFu)) as [Hs _]. apply (world_local _ C Rm _ Ho) in Hs.
    rewrite to_local_at in Hs. destruct Hs as [_ Hs]. apply Rabs_le_iff in Hs. exact Hs.
  - intros u Hu0 HFu E. destruct (Hv u Hu0 (HF0 u HFu)) as [Hs Ht]. apply Ht. apply (world_local _ C Rm _ Ho) in Hs.
    exists (to_local C Rm (at_t O U u)). split; [apply from_local, Ho|]. split; [exact Hs|].
    rewrite <- rv_adjoint'. rewrite to_local_at in Hs |- *. fold (side_g a b (at_t o d u)).
    assert (Hjk : vx d <> 0 \/ vy d <> 0).
    { destruct (Req_dec (vx d) 0) as [E1|]; [|auto]. destruct (Req_dec (vy d) 0) as [E2|]; [|auto].
      exfalso. rewrite E1, E2 in HFu, HF. rewrite (Fq_flat a b (vx o) (vy o) 0 0 u 0 eq_refl eq_refl) in HFu. lra. }
    assert (HA : 0 < a * a * vy d * vy d + b * b * vx d * vx d).
    { destruct (Rle_lt_or_eq_dec 0 _ (A_nonneg a b (vx d) (vy d))) as [|E0]; [assumption|]. symmetry in E0.
      destruct (A_zero a b Ha Hb (vx d) (vy d) E0). exfalso. tauto. }
    assert (HCc : 0 <= a * a * vy d * vy d + b * b * vx d * vx d - vx d * vx d * vy o * vy o + 2 * vx d * vy d * vx o * vy o - vy d * vy d * vx o * vx o).
    { apply Rnot_lt_le. intros H. pose proof (Fq_neg a b Ha Hb (vx o) (vy o) (vx d) (vy d) H u). lra. }
    destruct (double_root a b h Ha Hb ltac:(lra) (vx o) (vy o) (vz o) (vx d) (vy d) (vz d) u) as [_ D]; try assumption.
    left. exact Hs.
Qed.

(** Whatever the intersection callback hits is marked. *)
Lemma w_sound : 0 < h -> ~ world (on_surface a b h) C Rm O -> r_tfar (rh_ray rh) <> (@ninf_neg _ XN) -> e_geom (rh_hit rh) = None ->
  exists r' rh', occ = Ok r' /\ int = Ok rh' /\ (e_geom (rh_hit rh') = Some g -> r_tfar r' = (@ninf_neg _ XN)).
Proof.
  intros Hh Hoff Hf Hg.
  assert (Hv : @ecyl_local _ XN xa xb xh m org dir <> None -> @ecyl_occ_local _ XN xa xb xh org dir = true).
  { destruct (Rlt_or_le (h / 2) (Rabs (vz o))) as [Hz|Hz].
    { apply (@ecyl_local_beyond _ XN (x_comparisons big tiny eps)).
      pose proof (proj2 (proj2 w_org)) as Xz. change (@nltb _ XN) with xltb.
      rewrite (isR_ltb _ _ _ _ (X_h2 big tiny eps xh h Xh) Xz), (isR_ltb _ _ _ _ Xz (X_mh2 big tiny eps xh h Xh)).
      revert Hz. unfold Rabs. destruct (Rcase_abs _); intros Hz; [right|left]; apply Rltb_yes; lra. }
    destruct (Rle_lt_or_eq_dec _ _ Hz) as [Hz'|Hz'].
    - destruct (Rtotal_order (ellipse a b o) 1) as [He|[He|He]].
      + intros _. apply (proj1 (w_inside (proj2 (world_local _ C Rm O Ho) (conj He Hz')))).
      + destruct Hoff. apply (world_local _ C Rm O Ho). left. split; assumption.
      + destruct (w_beside_F (proj2 (world_local (beside a b h) C Rm O Ho) (conj Hz' He))) as [HF Hzz].
        apply (@ecyl_local_beside _ XN (x_comparisons big tiny eps)).
        rewrite (e_be3 big tiny eps xa xb xh a b h Xa Xb Xh _ _ _ _ (vx d) (vy d) w_org').
        rewrite !Rltb_yes by lra. reflexivity.
    - intros Hn. exfalso. destruct (Rle_or_lt (ellipse a b o) 1) as [He|He].
      + apply Hoff. apply (world_local _ C Rm O Ho). revert Hz'. unfold Rabs. destruct (Rcase_abs _); intros Hz'; right.
        * right. split; [exact He|lra].
        * left. split; [exact He|exact Hz'].
      + apply (native_none big tiny eps xa xb xh a b h m Xa Xb Xh Ha Hb _ _ _ _ _ _ _ _ w_org' w_dir') in Hn. apply Hn.
        apply (local_beside big tiny eps xa xb xh a b h m Xa Xb Xh Ha Hb Hh org dir (vx o) (vy o) (vz o) (vx d) (vy d) w_org').
        split; [exact Hz'|exact He]. }
  unfold ecyl_occluded, ecyl_intersect, user, at_.
  cbn [nth_error bind ec_center ec_a ec_b ec_h ec_rot ec_geom].
  destruct valid; cbn [negb].
  2: { do 2 eexists. split; [reflexivity|]. split; [reflexivity|]. rewrite Hg. discriminate. }
  destruct (ecyl_local _ _ _ _ org dir) as [[n t]|].
  - rewrite (Hv ltac:(discriminate)). do 2 eexists. split; [reflexivity|]. split; [reflexivity|]. reflexivity.
  - destruct (ecyl_occ_local _ _ _ org dir); do 2 eexists; (split; [reflexivity|]); (split; [reflexivity|]); rewrite Hg; discriminate.
Qed.
End World.
