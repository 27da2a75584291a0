(** Nearest hits of Embree-backed scenes of meshes, spheres and planes. *)

From Coq Require Import Reals ZArith List Bool Arith Lra Lia.
From Verif Require Import Num NumR NumX Vec Ray Bvh Sphere Plane Scene Embree EmbreeScene.
From Verif Require Import SpecBvh SpecReal SpecSphere SpecPlane SpecScene SpecEmbree SpecEmbScene SpecEmbNear.
From Verif Require Import PfBuild PfX PfSphere PfPlane PfEmbree PfEmbree2 PfEmbScene.
Import ListNotations.
Local Open Scope R_scope.

Lemma visR_inj v a b : visR v a -> visR v b -> a = b.
Proof.
  intros (x & y & z) (x' & y' & z').
  apply vec_eq; [exact (isR_inj _ _ _ x x')|exact (isR_inj _ _ _ y y')|exact (isR_inj _ _ _ z z')].
Qed.
Lemma misR_inj v a b : misR v a -> misR v b -> a = b.
Proof.
  intros (x & y & z) (x' & y' & z'). destruct a, b. cbn in *.
  f_equal; eapply visR_inj; eassumption.
Qed.

(** A callback either replaces the record or leaves it; which, and by what, depends on
    the ray alone. *)
Definition replaces {T} (f : rtc_rayhit T -> res (rtc_rayhit T)) (g : nat) (ry : rtc_ray T) : Prop :=
  exists w, (forall h, f (RTCRayHit ry h) = Ok (match w with Some q => q | None => RTCRayHit ry h end)) /\
    forall q, w = Some q -> e_geom (rh_hit q) = Some g /\ e_prim (rh_hit q) = Some 0%nat /\
      r_org (rh_ray q) = r_org ry /\ r_dir (rh_ray q) = r_dir ry /\ r_tnear (rh_ray q) = r_tnear ry.

Section Any.
Context {T : Type} {N : num T}.
Lemma esphere_replaces c r g inst ry : replaces (esphere_intersect (ESphere c r (Some g)) 0 true inst) g ry.
Proof.
  unfold replaces.
  assert (E : forall h, esphere_intersect (ESphere c r (Some g)) 0 true inst (RTCRayHit ry h) = _) by (intros h; apply esphere_eq).
  cbn [rh_ray] in E.
  destruct (nltb (sp_D c r (r_org ry) (r_dir ry)) n0).
  { exists None. split; [exact E|discriminate]. }
  set (t0 := sp_t0 c r (r_org ry) (r_dir ry)) in *. set (t1 := sp_t1 c r (r_org ry) (r_dir ry)) in *.
  unfold sp_report at 2 in E. cbn [rh_ray] in E.
  destruct (nltb (r_tnear ry) t0 && nltb t0 (r_tfar ry))%bool eqn:E0.
  - unfold set_ray_hit in E. cbn [rh_ray] in E.
    eexists (Some _). split; [intros h; rewrite E; reflexivity|]. intros q Hq. injection Hq as <-.
    unfold sp_report, set_ray_hit. cbn [rh_ray r_tnear r_tfar r_org r_dir].
    match goal with |- context [if ?b then _ else _] => destruct b end; repeat split; reflexivity.
  - unfold sp_report in E. cbn [rh_ray] in E.
    destruct (nltb (r_tnear ry) t1 && nltb t1 (r_tfar ry))%bool eqn:E1.
    + unfold set_ray_hit in E. cbn [rh_ray] in E. eexists (Some _). split; [intros h; rewrite E; reflexivity|]. intros q Hq. injection Hq as <-. repeat split; reflexivity.
    + exists None. split; [exact E|discriminate].
Qed.

Lemma eplane_replaces c x y m g inst ry : replaces (eplane_intersect (EPlane c x y m (Some g)) 0 true inst) g ry.
Proof.
  unfold replaces, eplane_intersect, user, at_, set_ray_hit.
  cbn [nth_error bind ep_center ep_d1 ep_d2 ep_rot ep_geom negb rh_ray]. cbv zeta.
  repeat match goal with
  | |- context [if ?b then Ok _ else _] =>
      destruct b; [eexists (Some _); split; [intros h; reflexivity|]; intros q Hq; injection Hq as <-; repeat split; reflexivity|]
  end.
  exists None. split; [reflexivity|discriminate].
Qed.
End Any.

Section Exact.
Variables big tiny eps : R.
Notation XN := (Xnum big tiny eps).

(** What one callback does. *)
Definition stepped (H : R -> Prop) (N : R -> vec xr -> Prop) (user : bool) (g : nat)
    (f : rtc_rayhit xr -> res (rtc_rayhit xr)) (rh : rtc_rayhit xr) : Prop :=
  (f rh = Ok rh /\ forall u, H u -> xltb (Fin u) (r_tfar (rh_ray rh)) = false) \/
  (exists t q, f rh = Ok q /\ H t /\ xltb (Fin t) (r_tfar (rh_ray rh)) = true /\ (forall u, H u -> t <= u) /\
     r_org (rh_ray q) = r_org (rh_ray rh) /\ r_dir (rh_ray q) = r_dir (rh_ray rh) /\
     r_tnear (rh_ray q) = r_tnear (rh_ray rh) /\ isR (r_tfar (rh_ray q)) t /\ e_geom (rh_hit q) = Some g /\
     (user = true -> e_prim (rh_hit q) = Some 0%nat) /\ N t (e_ng (rh_hit q))).

Definition no_hit : rtc_hit xr := RTCHit (vconst (Fin 0)) (Fin 0) (Fin 0) None None None.

Section Ray.
Variables (O U : vec R) (m : R) (mesh : nat -> R -> Prop).
Hypotheses (HU1 : rv_dot U U = 1) (Hm0 : 0 <= m).

Lemma sphere_stepped e g rh : fine (GSphere e) -> es_geom e = Some g ->
  visR (r_org (rh_ray rh)) O -> visR (r_dir (rh_ray rh)) U -> isR (r_tnear (rh_ray rh)) m ->
  stepped (geom_hit mesh O U m g (GSphere e)) (geom_normal O U (GSphere e)) true g
    (@esphere_intersect _ XN e 0 true None) rh.
Proof.
  intros (C & rad & HC & Hr & Hr0) Hg HO HU Hm. destruct e as [c r ge]. cbn [es_center es_radius es_geom] in *. subst ge.
  destruct rh as [ry h]. cbn [rh_ray] in *.
  destruct (@esphere_replaces _ XN c r g None ry) as (w & Ew & Hw).
  destruct (esphere_agrees big tiny eps c r g None (RTCRayHit ry no_hit) 0%nat (Ray (r_org ry) (r_dir ry) (r_dir ry) (V false false false) (r_tnear ry) (r_tfar ry) false)
    O U m C rad HO HU Hm HC Hr HU1 Hm0 eq_refl) as (q0 & b & i' & E1 & E2 & A & B & D).
  cbn [rh_ray] in *. rewrite Ew in E1. injection E1 as E1.
  assert (Hit : forall u, geom_hit mesh O U m g (GSphere (ESphere c r (Some g))) u <-> on_sphere C rad (at_t O U u) /\ m < u).
  { intros u. unfold geom_hit. cbn [es_center es_radius]. split.
    - intros (Hmu & C' & rad' & HC' & Hr' & Hon). rewrite (visR_inj _ _ _ HC HC'), (isR_inj _ _ _ Hr Hr'). auto.
    - intros (Hon & Hmu). split; [exact Hmu|]. exists C, rad. auto. }
  pose proof (sphere_step big tiny eps (SphereIsect (r_org ry) (r_dir ry) (r_tnear ry) (Fin 0, Fin 0) (r_tfar ry) None)
    (Sphere c r 0%nat) (Ray (r_org ry) (r_dir ry) (r_dir ry) (V false false false) (r_tnear ry) (r_tfar ry) false) O U m C rad HO HU Hm HC Hr HU1 Hm0) as St.
  destruct b.
  - (* hit *)
    right. destruct (D eq_refl) as (t & Ht & Hi & Hmt & Hp & _ & Hn).
    destruct w as [q|]; [|rewrite <- E1 in A; cbn in A; destruct A as [_ A]; specialize (A eq_refl); discriminate].
    subst q0. destruct (Hw q eq_refl) as (G1 & G2 & G3 & G4 & G5).
    destruct (sphere_best C rad O U m) as [t'|] eqn:Eb; [|rewrite St in E2; discriminate].
    cbn [si_hd] in St. destruct (xltb (Fin t') (r_tfar ry)) eqn:El; [|rewrite St in E2; discriminate].
    destruct St as (hd & Hhd & St). rewrite St in E2. injection E2 as <-. cbn [si_hd] in Hi.
    pose proof (isR_inj _ _ _ Hhd Hi). subst t'.
    destruct (sphere_best_some _ _ _ _ _ _ HU1 Eb) as (Hon & _ & Hmin).
    exists t, q. rewrite Ew. split; [reflexivity|]. split; [apply Hit; auto|]. split; [exact El|].
    split; [intros u Hu; apply Hit in Hu as (? & ?); auto|]. cbn [rh_ray].
    split; [exact G3|]. split; [exact G4|]. split; [exact G5|]. split; [exact Ht|]. split; [exact G1|].
    split; [intros _; exact G2|].
    cbn [geom_normal es_center es_radius]. intros C' rad' HC' Hr' Hne.
    pose proof (visR_inj _ _ _ HC HC'). pose proof (isR_inj _ _ _ Hr Hr'). subst C' rad'.
    destruct (Hn (Spheres [c] [r] []) (RayHit (vconst (Fin 0)) (Fin 0, Fin 0) (Fin 0) None None) eq_refl Hne) as (rn & n & P1 & P2 & P3 & _).
    destruct (sphere_normal big tiny eps (Spheres [c] [r] []) (SphereIsect (r_org ry) (r_dir ry) (r_tnear ry) (Fin 0, Fin 0) hd (Some 0%nat))
      (RayHit (vconst (Fin 0)) (Fin 0, Fin 0) (Fin 0) None None) O U C rad t 0%nat c HO HU Hhd eq_refl eq_refl HC Hon Hne) as (rn' & Q1 & Q2 & _).
    cbn [sp_id] in P1. rewrite P1 in Q1. injection Q1 as <-. rewrite (visR_inj _ _ _ Q2 P2). exact P3.
  - (* no hit *)
    left. rewrite (B eq_refl) in E1.
    destruct w as [q|]; [destruct (Hw q eq_refl) as (G1 & _); rewrite E1 in G1; discriminate G1|].
    split; [apply Ew|]. intros u Hu. apply Hit in Hu as (Hon & Hmu). cbn [rh_ray].
    destruct (sphere_best C rad O U m) as [t'|] eqn:Eb.
    + cbn [si_hd] in St. destruct (sphere_best_some _ _ _ _ _ _ HU1 Eb) as (_ & _ & Hmin).
      destruct (xltb (Fin t') (r_tfar ry)) eqn:El; [destruct St as (hd & _ & St); rewrite St in E2; discriminate|].
      destruct (xltb (Fin u) (r_tfar ry)) eqn:Eu; [|reflexivity].
      rewrite (xltb_le _ _ _ (Hmin u Hon Hmu) Eu) in El. discriminate.
    + destruct (sphere_best_none _ _ _ _ _ HU1 Eb u Hon Hmu).
Qed.

Lemma plane_stepped e g rh : fine (GPlane e) -> ep_geom e = Some g ->
  visR (r_org (rh_ray rh)) O -> visR (r_dir (rh_ray rh)) U -> isR (r_tnear (rh_ray rh)) m ->
  stepped (geom_hit mesh O U m g (GPlane e)) (geom_normal O U (GPlane e)) true g
    (@eplane_intersect _ XN e 0 true None) rh.
Proof.
  intros (C & dx & dy & Rm & HC & Hx & Hy & HM & Px & Py & Ho) Hg HO HU Hm. destruct e as [c x y mt ge].
  cbn [ep_center ep_d1 ep_d2 ep_rot ep_geom] in *. subst ge.
  destruct rh as [ry h]. cbn [rh_ray] in *.
  destruct (@eplane_replaces _ XN c x y mt g None ry) as (w & Ew & Hw).
  destruct (eplane_agrees_exact big tiny eps c x y mt g None (RTCRayHit ry no_hit) 0%nat (Ray (r_org ry) (r_dir ry) (r_dir ry) (V false false false) (r_tnear ry) (r_tfar ry) false)
    O U m C dx dy Rm HO HU Hm HC Hx Hy HM Px Py Ho HU1 Hm0 eq_refl) as (q0 & b & i' & E1 & E2 & A & B & D).
  cbn [rh_ray] in *. rewrite Ew in E1. injection E1 as E1.
  assert (Hit : forall u, geom_hit mesh O U m g (GPlane (EPlane c x y mt (Some g))) u <-> crosses C dx dy Rm O U m u).
  { intros u. unfold geom_hit, crosses. cbn [ep_center ep_d1 ep_d2 ep_rot]. split.
    - intros (Hmu & C' & dx' & dy' & Rm' & HC' & Hx' & Hy' & HM' & Hn & Hon).
      rewrite (visR_inj _ _ _ HC HC'), (isR_inj _ _ _ Hx Hx'), (isR_inj _ _ _ Hy Hy'), (misR_inj _ _ _ HM HM'). auto.
    - intros (Hn & Hon & Hmu). split; [exact Hmu|]. exists C, dx, dy, Rm. auto 10. }
  pose proof (plane_step big tiny eps (PlaneIsect (vconst (Fin 0)) (r_org ry) (r_dir ry) (r_tnear ry) (Fin 0, Fin 0) (r_tfar ry) None)
    (Plane c x y mt 0%nat) (Ray (r_org ry) (r_dir ry) (r_dir ry) (V false false false) (r_tnear ry) (r_tfar ry) false) O U m C dx dy Rm HO HU Hm HC Hx Hy HM Px Py Ho HU1 Hm0) as St.
  destruct b.
  - right. destruct (D eq_refl) as (Ht & Hp & Hn).
    destruct w as [q|]; [|rewrite <- E1 in A; cbn in A; destruct A as [_ A]; specialize (A eq_refl); discriminate].
    subst q0. destruct (Hw q eq_refl) as (G1 & G2 & G3 & G4 & G5).
    destruct (plane_best C dx dy Rm O U m) as [t|] eqn:Eb; [|rewrite St in E2; discriminate].
    cbn [pi_hd] in St. destruct (xltb (Fin t) (r_tfar ry)) eqn:El; [|rewrite St in E2; discriminate].
    destruct St as (hd & n & Hhd & _ & St). pose proof E2 as E3. rewrite St in E2. injection E2 as <-. cbn [pi_hd] in Ht.
    destruct (plane_best_some _ _ _ _ _ _ _ _ Ho Eb) as (Hon & Hmin).
    exists t, q. rewrite Ew. split; [reflexivity|]. split; [apply Hit; exact Hon|]. split; [exact El|].
    split; [intros u Hu; apply Hit in Hu; rewrite (Hmin u Hu); lra|]. cbn [rh_ray].
    split; [exact G3|]. split; [exact G4|]. split; [exact G5|]. split; [rewrite Ht; exact Hhd|]. split; [exact G1|].
    split; [intros _; exact G2|].
    cbn [geom_normal ep_center ep_d1 ep_d2 ep_rot]. intros C' dx' dy' Rm' HC' Hx' Hy' HM'.
    pose proof (visR_inj _ _ _ HC HC'). pose proof (isR_inj _ _ _ Hx Hx').
    pose proof (isR_inj _ _ _ Hy Hy'). pose proof (misR_inj _ _ _ HM HM'). subst C' dx' dy' Rm'.
    pose (rhn := RayHit (vconst (Fin 0)) (Fin 0, Fin 0) (Fin 0) None None : rayhit xr).
    destruct (Hn rhn) as (rn & k & P1 & P2 & P3 & _).
    destruct (plane_normal big tiny eps (PlaneIsect (vconst (Fin 0)) (r_org ry) (r_dir ry) (r_tnear ry) (Fin 0, Fin 0) (r_tfar ry) None)
      (Plane c x y mt 0%nat) (Ray (r_org ry) (r_dir ry) (r_dir ry) (V false false false) (r_tnear ry) (r_tfar ry) false)
      rhn O U m C dx dy Rm _ HO HU Hm HC Hx Hy HM Px Py Ho HU1 Hm0 E3)
      as (rn' & k' & t' & Q1 & Q2 & _ & _ & Q5 & Q6 & Q7 & Q8).
    rewrite P1 in Q1. injection Q1 as <-. pose proof (visR_inj _ _ _ P2 Q5). subst k'.
    assert (t' = t). { unfold plane_post in P1. injection P1 as <-. cbn in Q2. exact (isR_inj _ _ _ Q2 Hhd). }
    subst t'. exists k. auto.
  - left. rewrite (B eq_refl) in E1.
    destruct w as [q|]; [destruct (Hw q eq_refl) as (G1 & _); rewrite E1 in G1; discriminate G1|].
    split; [apply Ew|]. intros u Hu. apply Hit in Hu. cbn [rh_ray].
    destruct (plane_best C dx dy Rm O U m) as [t|] eqn:Eb.
    + destruct (plane_best_some _ _ _ _ _ _ _ _ Ho Eb) as (_ & Hmin). rewrite (Hmin u Hu).
      cbn [pi_hd] in St. destruct (xltb (Fin t) (r_tfar ry)) eqn:El; [|reflexivity].
      destruct St as (hd & n & _ & _ & St). rewrite St in E2. discriminate.
    + destruct (plane_best_none _ _ _ _ _ _ _ Ho Eb u Hu).
Qed.

(** The scene after the commit. *)
Variable tri : nat -> list (vec xr) -> list (vec nat) -> rtc_rayhit xr -> rtc_rayhit xr.
Hypothesis Htri : finds mesh tri O U m.
Variable s : escene xr.
Hypothesis Hall : firstn (q_built s) (q_geoms s) = q_geoms s.
Hypothesis Hlive : forall g o, nth_error (q_geoms s) g = Some o -> live s g o = true.
Hypothesis Hfine : forall g o, nth_error (q_geoms s) g = Some o -> fine o.
Hypothesis Hids : forall g o, nth_error (q_geoms s) g = Some o ->
  match o with GSphere e => es_geom e = Some g | GPlane e => ep_geom e = Some g | _ => True end.

Definition is_user (o : egeom xr) : bool := match o with GMesh _ _ => false | _ => true end.

Lemma call_stepped g o rh : nth_error (q_geoms s) g = Some o ->
  visR (r_org (rh_ray rh)) O -> visR (r_dir (rh_ray rh)) U -> isR (r_tnear (rh_ray rh)) m ->
  stepped (geom_hit mesh O U m g o) (geom_normal O U o) (is_user o) g (@intersect_call _ XN tri s g) rh.
Proof.
  intros Ho HO HU Hm.
  assert (E : @intersect_call _ XN tri s g rh = match o with
    | GMesh vs fs => Ok (tri g vs fs rh)
    | GSphere e => @esphere_intersect _ XN e 0 true None rh
    | GPlane e => @eplane_intersect _ XN e 0 true None rh
    | GCyl e => @ecyl_intersect _ XN e 0 true None rh end).
  { unfold intersect_call, at_. rewrite Hall, Ho. cbn [bind]. rewrite (Hlive _ _ Ho). reflexivity. }
  pose proof (Hfine _ _ Ho) as Hf. pose proof (Hids _ _ Ho) as Hi.
  destruct o as [vs fs|e|e|e].
  - unfold stepped. rewrite E. destruct (Htri g vs fs rh HO HU Hm) as [(-> & H)|(t & A1 & A2 & A3 & A4 & A5 & A6 & A7 & A8 & A9)].
    + left. split; [reflexivity|]. intros u (Hmu & Hu). auto.
    + right. exists t, (tri g vs fs rh). split; [reflexivity|]. split; [split; assumption|]. split; [exact A3|].
      split; [intros u (Hmu & Hu); auto|]. split; [exact A5|]. split; [exact A6|]. split; [exact A7|]. split; [exact A8|].
      split; [exact A9|]. split; [discriminate|exact I].
  - pose proof (sphere_stepped e g rh Hf Hi HO HU Hm) as H. unfold stepped in *. rewrite E. exact H.
  - pose proof (plane_stepped e g rh Hf Hi HO HU Hm) as H. unfold stepped in *. rewrite E. exact H.
  - destruct Hf.
Qed.

Definition hits g t : Prop := exists o, nth_error (q_geoms s) g = Some o /\ geom_hit mesh O U m g o t.
(** The record after some callbacks on a ray that ended at [hi]. *)
Definition after (done : nat -> Prop) (hi : xr) (q : rtc_rayhit xr) : Prop :=
  visR (r_org (rh_ray q)) O /\ visR (r_dir (rh_ray q)) U /\ isR (r_tnear (rh_ray q)) m /\
  (forall g u, done g -> hits g u -> xltb (Fin u) (r_tfar (rh_ray q)) = false) /\
  ((e_geom (rh_hit q) = None /\ r_tfar (rh_ray q) = hi) \/
   exists g o t, nth_error (q_geoms s) g = Some o /\ geom_hit mesh O U m g o t /\ xltb (Fin t) hi = true /\
     isR (r_tfar (rh_ray q)) t /\ e_geom (rh_hit q) = Some g /\
     (is_user o = true -> e_prim (rh_hit q) = Some 0%nat) /\ geom_normal O U o t (e_ng (rh_hit q))).

Lemma xltb_trans_r a x t hi : isR x t -> xltb (Fin t) hi = true -> xltb (Fin a) x = true -> xltb (Fin a) hi = true.
Proof.
  intros Hx H1 H2. rewrite (xltb_r _ _ _ Hx) in H2. cbn in H2. apply Rltb_spec in H2. apply xltb_le with t; [lra|exact H1].
Qed.

Lemma calls_after ids : forall done hi q, after done hi q ->
  (forall g, In g ids -> (g < length (q_geoms s))%nat) ->
  exists q', @intersect_calls _ XN tri s ids q = Ok q' /\ after (fun g => done g \/ In g ids) hi q'.
Proof.
  induction ids as [|g ids IH]; intros done hi q Hq Hin.
  - exists q. split; [reflexivity|]. destruct Hq as (A & B & C & D & E). repeat (split; [assumption|]).
    split; [|exact E]. intros g u [H|[]] Hu. exact (D g u H Hu).
  - cbn [intersect_calls]. destruct Hq as (A & B & C & D & E).
    destruct (nth_error (q_geoms s) g) as [o|] eqn:Ho.
    2:{ apply nth_error_None in Ho. pose proof (Hin g (or_introl eq_refl)). lia. }
    assert (Hstep : exists q1, @intersect_call _ XN tri s g q = Ok q1 /\ after (fun k => done k \/ k = g) hi q1).
    { destruct (call_stepped g o q Ho A B C) as [(E1 & H)|(t & q1 & E1 & Ht & Hl & Hmin & F1 & F2 & F3 & F4 & F5 & F6 & F7)].
      - exists q. split; [exact E1|]. repeat (split; [assumption|]). split; [|exact E].
        intros k u [Hk| ->] Hu; [eauto|]. destruct Hu as (o' & Ho' & Hu). assert (o' = o) by congruence. subst o'. auto.
      - exists q1. split; [exact E1|]. unfold after. rewrite F1, F2, F3. repeat (split; [assumption|]).
        assert (Hle : xltb (Fin t) hi = true).
        { destruct E as [(_ & <-)|(g0 & o0 & t0 & _ & _ & L0 & R0 & _)]; [exact Hl|exact (xltb_trans_r _ _ _ _ R0 L0 Hl)]. }
        split.
        + intros k u [Hk| ->] Hu.
          * pose proof (D k u Hk Hu) as Hd. destruct (xltb (Fin u) (r_tfar (rh_ray q1))) eqn:Eu; [|reflexivity].
            rewrite (xltb_trans_r _ _ _ _ F4 Hl Eu) in Hd. discriminate.
          * destruct Hu as (o' & Ho' & Hu). assert (o' = o) by congruence. subst o'.
            rewrite (xltb_r _ _ _ F4). cbn. apply Rltb_false. apply Hmin, Hu.
        + right. exists g, o, t. repeat (split; [assumption|]). assumption. }
    destruct Hstep as (q1 & E1 & A1). rewrite E1. cbn [bind].
    destruct (IH _ hi q1 A1) as (q' & E2 & A2). { intros k Hk. apply Hin. right. exact Hk. }
    exists q'. split; [exact E2|]. destruct A2 as (a & b & c & d & e). repeat (split; [assumption|]). split; [|exact e].
    intros k u Hk. apply d. cbn in Hk. intuition.
Qed.

(** Left-out geometries. *)
Lemma covered q ids : 0 <= tiny -> covers XN mesh s ids O U m q ->
  forall g u, (g < length (q_geoms s))%nat -> ~ In g ids -> hits g u -> xltb (Fin u) (r_tfar (rh_ray q)) = false.
Proof.
  intros Ht Hc g u Hg Hin (o & Ho & Hmu & Hu). specialize (Hc g o Ho Hin).
  unfold bounds_call in Hc. rewrite (Hlive _ _ Ho) in Hc. pose proof (Hfine _ _ Ho) as Hf.
  destruct (xltb (Fin u) (r_tfar (rh_ray q))) eqn:E; [exfalso|reflexivity].
  destruct o as [vs fs|e|e|e].
  - rewrite (Hc u Hu Hmu) in E. discriminate.
  - destruct Hf as (C & rad & HC & Hr & Hr0). destruct Hu as (C' & rad' & HC' & Hr' & Hon).
    rewrite <- (visR_inj _ _ _ HC HC'), <- (isR_inj _ _ _ Hr Hr') in Hon.
    destruct (sphere_box_ok big tiny eps _ _ C rad HC Hr Hr0) as (lo & up & B1 & B2 & B3 & _).
    cbn in Hc. refine (Hc lo up u _ _ (Rlt_le _ _ Hmu) E (B3 _ _)); [exact B1|exact B2|]. unfold on_sphere in Hon. lra.
  - destruct Hf as (C & dx & dy & Rm & HC & Hx & Hy & HM & Px & Py & Hort).
    destruct Hu as (C' & dx' & dy' & Rm' & HC' & Hx' & Hy' & HM' & _ & Hon).
    rewrite <- (visR_inj _ _ _ HC HC'), <- (isR_inj _ _ _ Hx Hx'), <- (isR_inj _ _ _ Hy Hy'), <- (misR_inj _ _ _ HM HM') in Hon.
    destruct (plane_box_ok big tiny eps _ _ _ _ C dx dy Rm HC Hx Hy HM) as (lo & up & B1 & B2 & B3 & _); try lra.
    exact (Hc lo up u B1 B2 (Rlt_le _ _ Hmu) E (B3 _ Hon)).
  - destruct Hf.
Qed.
End Ray.

(** ** C54 *)
Theorem embree_nearest part tri calls opt cs q l O U m mesh ids r rh :
  (forall c, In c cs -> first_given c) ->
  @e_run _ XN part true tri calls (@new_escene _ opt) (cs ++ [Commit]) = Ok (q, l) ->
  (forall o, In o (q_geoms q) -> fine o) -> 0 <= tiny ->
  visR (origin r) O -> visR (direction r) U -> isR (min_hit_distance r) m -> rv_dot U U = 1 -> 0 <= m ->
  finds mesh tri O U m ->
  (forall g, In g ids -> (g < length cs)%nat) ->
  (forall w, @intersect_calls _ XN tri q ids (@rtc_start _ XN r) = Ok w -> covers XN mesh q ids O U m w) ->
  let hit g o t := nth_error (q_geoms q) g = Some o /\ geom_hit mesh O U m g o t /\ xltb (Fin t) (max_hit_distance r) = true in
  exists b rh', @e_intersect1 _ XN true tri ids q r rh = Ok (b, rh') /\
    (b = true <-> exists g o t, hit g o t) /\ (b = false -> rh' = rh) /\
    (b = true -> exists g o t, hit g o t /\ isR (h_distance rh') t /\ geom_normal O U o t (h_normal rh') /\
       ((forall v f, o <> GMesh v f) -> h_prim rh' = Some 0%nat) /\
       forall g' o' t', hit g' o' t' -> t <= t').
Proof.
  intros Hg Hrun Hfine Ht HO HU Hm HU1 Hm0 Htri Hin Hcov hit.
  destruct (@float_adds _ XN part tri calls opt cs Hg) as (q0 & E0 & A0).
  rewrite e_run_app, E0 in Hrun. cbn [bind e_run e_step] in Hrun.
  apply bind_ok in Hrun as ([q1 l1] & Ec & Hrun). injection Hrun as <- <-.
  apply bind_ok in Ec as ([q2 a2] & Ec & Ec'). injection Ec' as -> <-.
  apply bind_ok in Ec as ([q3 b3] & Ec & Ec'). injection Ec' as <- <-.
  pose proof A0 as (L & _ & Hnc & G & _). unfold e_commit in Ec. rewrite Hnc in Ec.
  apply bind_ok in Ec as (bs & Eb & Ec). injection Ec as <- <-.
  set (q := EScene _ _ _ _ _ _ _) in *.
  assert (Hgeoms : q_geoms q = q_geoms q0) by reflexivity.
  assert (Hall : firstn (q_built q) (q_geoms q) = q_geoms q) by (cbn; apply firstn_all).
  assert (Hlive : forall g o, nth_error (q_geoms q) g = Some o -> live q g o = true).
  { intros g o Ho. exact (proj1 (@bounds_calls_ok _ XN q0 (q_geoms q0) 0) (ex_intro _ bs Eb) g o Ho). }
  assert (Hf : forall g o, nth_error (q_geoms q) g = Some o -> fine o).
  { intros g o Ho. apply Hfine. apply nth_error_In with g. exact Ho. }
  assert (Hids : forall g o, nth_error (q_geoms q) g = Some o ->
    match o with GSphere e => es_geom e = Some g | GPlane e => ep_geom e = Some g | _ => True end).
  { intros g o Ho. assert (Hl : (g < length cs)%nat) by (rewrite <- L; apply nth_error_Some; rewrite <- Hgeoms; congruence).
    destruct (nth_error cs g) as [c|] eqn:E; [|apply nth_error_None in E; lia].
    destruct (G _ _ E) as (o' & Eo & At). rewrite <- Hgeoms in Eo. assert (o' = o) by congruence. subst o'.
    destruct c, o; cbn in At; try destruct At; try exact I; tauto. }
  destruct (calls_after O U m mesh HU1 Hm0 tri Htri q Hall Hlive Hf Hids ids (fun _ => False) (max_hit_distance r) (@rtc_start _ XN r))
    as (w & Ew & Aw).
  { split; [exact HO|]. split; [exact HU|]. split; [exact Hm|]. split; [tauto|]. left. split; reflexivity. }
  { intros g Hi. rewrite Hgeoms, L. auto. }
  specialize (Hcov w Ew).
  destruct Aw as (_ & _ & _ & D & E).
  assert (Hno : forall g o t, nth_error (q_geoms q) g = Some o -> geom_hit mesh O U m g o t ->
    xltb (Fin t) (r_tfar (rh_ray w)) = false).
  { intros g o t Ho Hh. destruct (in_dec Nat.eq_dec g ids) as [Hi|Hi].
    - apply D with g; [auto|]. exists o. auto.
    - apply (covered O U m mesh q Hlive Hf w ids Ht Hcov g t); [apply nth_error_Some; congruence|exact Hi|]. exists o. auto. }
  unfold e_intersect1. rewrite Ew. cbn [bind].
  destruct E as [(Eg & Ef)|(g & o & t & Ho & Hh & Hl & Hr & Eg & Hp & Hn)]; rewrite Eg.
  - do 2 eexists. split; [reflexivity|]. split; [|split; [reflexivity|discriminate]].
    split; [discriminate|]. intros (g & o & t & Ho & Hh & Hl).
    pose proof (Hno g o t Ho Hh) as X. rewrite Ef in X. congruence.
  - do 2 eexists. split; [reflexivity|]. cbn [h_distance h_prim h_normal]. split; [|split; [discriminate|]].
    + split; [intros _; exists g, o, t; exact (conj Ho (conj Hh Hl))|reflexivity].
    + intros _. exists g, o, t. split; [exact (conj Ho (conj Hh Hl))|]. split; [exact Hr|]. split; [exact Hn|].
      split; [intros Hv; apply Hp; destruct o; try reflexivity; destruct (Hv vertices faces); reflexivity|].
      intros g' o' t' (Ho' & Hh' & _). pose proof (Hno g' o' t' Ho' Hh') as X.
      rewrite (xltb_r _ _ _ Hr) in X. cbn in X. apply Rltb_false in X. exact X.
Qed.
End Exact.
