(** Scene queries on the scenes that histories of calls leave behind. *)

From Coq Require Import Reals ZArith List Bool Arith Lia Lra.
From Verif Require Import Num NumR NumX Vec Datatypes Ray Bvh Traverse Sphere Plane Trimesh Cylinder Scene.
From Verif Require Import SpecReal SpecBvh SpecTrav SpecNearest SpecSphere SpecPlane SpecTri SpecCyl SpecScene.
From Verif Require Import PfNumbered PfBuild PfTree PfBuild2 PfStack PfTrav PfTrav2 PfX PfNearest PfNearest3 PfSphere2 PfPlane2 PfTri3 PfCyl PfCyl6 PfCyl7 PfScene PfScene2 PfScene3.
Import ListNotations.
Local Open Scope R_scope.

Lemma isR_val x : finite x -> isR x (xval x).
Proof. intros (s & a & ->). reflexivity. Qed.
Lemma visR_val v : vfinite v -> visR v (vval v).
Proof. intros (H1 & H2 & H3). repeat split; cbn; apply isR_val; assumption. Qed.
Lemma misR_val m : mfinite m -> misR m (mval m).
Proof. intros (H1 & H2 & H3). repeat split; cbn; apply isR_val; first [apply H1|apply H2|apply H3]. Qed.

Lemma xn_are l i x : (forall x, In x l -> finite x) -> nth_error l i = Some x -> isR x (xn l i).
Proof. intros H E. unfold xn. rewrite (nth_error_nth _ _ _ E). apply isR_val, H. eapply nth_error_In, E. Qed.
Lemma vn_are l i x : (forall x, In x l -> vfinite x) -> nth_error l i = Some x -> visR x (vn l i).
Proof. intros H E. unfold vn. rewrite (nth_error_nth _ _ _ E). apply visR_val, H. eapply nth_error_In, E. Qed.
Lemma mn_are l i x : (forall x, In x l -> mfinite x) -> nth_error l i = Some x -> misR x (mn l i).
Proof. intros H E. unfold mn. rewrite (nth_error_nth _ _ _ E). apply misR_val, H. eapply nth_error_In, E. Qed.

Section S.
Variables big tiny eps : R.
Notation XN := (Xnum big tiny eps).

Lemma spheres_made ce ra s : @make_spheres _ XN ce ra = Ok s ->
  ss_centers s = ce /\ ss_radii s = ra /\ forall i, (i < length ce)%nat -> exists x, nth_error ra i = Some x.
Proof.
  unfold make_spheres. intros H. unbind H. injection H as <-. cbn. split; [reflexivity|]. split; [reflexivity|].
  intros i Hi. destruct (mapM_nth _ _ _ E i i (nth_error_seq0 _ _ Hi)) as (b & _ & Ef).
  unbind Ef. unbind Ef. apply at_inv in E1. eauto.
Qed.
Lemma planes_made ce dx dy ro s : @make_planes _ XN ce dx dy ro = Ok s ->
  ps_centers s = ce /\ ps_dxs s = dx /\ ps_dys s = dy /\ ps_rots s = ro /\
  forall i, (i < length ce)%nat -> (exists x, nth_error dx i = Some x) /\ (exists x, nth_error dy i = Some x) /\ (exists x, nth_error ro i = Some x).
Proof.
  unfold make_planes. intros H. unbind H. injection H as <-. cbn. do 4 (split; [reflexivity|]).
  intros i Hi. destruct (mapM_nth _ _ _ E i i (nth_error_seq0 _ _ Hi)) as (b & _ & Ef).
  unbind Ef. unbind Ef. unbind Ef. unbind Ef. apply at_inv in E1. apply at_inv in E2. apply at_inv in E3. repeat split; eexists; eassumption.
Qed.

Lemma mesh_faces vs fs m : @make_mesh _ XN vs fs = Ok m -> m_faces m = fs.
Proof. unfold make_mesh. intros H. apply bind_ok in H as ([[[? ?] ?] ?] & _ & H). injection H as <-. reflexivity. Qed.

Lemma spheres_data ce ra s : @make_spheres _ XN ce ra = Ok s ->
  (forall c, In c ce -> vfinite c) -> (forall x, In x ra -> finite x) -> spheres_are s (vn ce) (xn ra).
Proof.
  intros H F1 F2. destruct (spheres_made _ _ _ H) as (E1 & E2 & Hr). intros i Hi. rewrite E1, E2 in *.
  split.
  - destruct (nth_error ce i) as [c|] eqn:Ec; [|apply nth_error_None in Ec; lia]. exists c. split; [reflexivity|]. apply vn_are; assumption.
  - destruct (Hr i Hi) as (x & Ex). exists x. split; [exact Ex|]. apply xn_are; assumption.
Qed.
Lemma planes_data ce dx dy ro s : @make_planes _ XN ce dx dy ro = Ok s ->
  (forall c, In c ce -> vfinite c) -> (forall x, In x dx -> finite x) -> (forall x, In x dy -> finite x) ->
  (forall x, In x ro -> mfinite x) -> planes_are s (vn ce) (xn dx) (xn dy) (mn ro).
Proof.
  intros H F1 F2 F3 F4. destruct (planes_made _ _ _ _ _ H) as (E1 & E2 & E3 & E4 & Hr). intros i Hi. rewrite E1, E2, E3, E4 in *.
  destruct (Hr i Hi) as ((x & Ex) & (y & Ey) & (m & Em)).
  split; [|split; [|split]].
  - destruct (nth_error ce i) as [c|] eqn:Ec; [|apply nth_error_None in Ec; lia]. exists c. split; [reflexivity|]. apply vn_are; assumption.
  - exists x. split; [exact Ex|]. apply xn_are; assumption.
  - exists y. split; [exact Ey|]. apply xn_are; assumption.
  - exists m. split; [exact Em|]. apply mn_are; assumption.
Qed.

Lemma cylinders_made ce sa sb hs ro s : @make_cylinders _ XN ce sa sb hs ro = Ok s ->
  cs_centers s = ce /\ cs_as s = sa /\ cs_bs s = sb /\ cs_hs s = hs /\ cs_rots s = ro /\
  forall i, (i < length ce)%nat -> (exists x, nth_error sa i = Some x) /\ (exists x, nth_error sb i = Some x) /\
    (exists x, nth_error hs i = Some x) /\ (exists x, nth_error ro i = Some x).
Proof.
  unfold make_cylinders. intros H. unbind H. injection H as <-. cbn. do 5 (split; [reflexivity|]).
  intros i Hi. destruct (mapM_nth _ _ _ E i i (nth_error_seq0 _ _ Hi)) as (b & _ & Ef).
  unbind Ef. unbind Ef. unbind Ef. unbind Ef. unbind Ef. apply at_inv in E1. apply at_inv in E2. apply at_inv in E3. apply at_inv in E4.
  repeat split; eexists; eassumption.
Qed.
Lemma cylinders_data ce sa sb hs ro s : @make_cylinders _ XN ce sa sb hs ro = Ok s ->
  (forall c, In c ce -> vfinite c) -> (forall x, In x sa -> finite x) -> (forall x, In x sb -> finite x) ->
  (forall x, In x hs -> finite x) -> (forall x, In x ro -> mfinite x) -> cylinders_are s (vn ce) (xn sa) (xn sb) (xn hs) (mn ro).
Proof.
  intros H F1 F2 F3 F4 F5. destruct (cylinders_made _ _ _ _ _ _ H) as (E1 & E2 & E3 & E4 & E5 & Hr). intros i Hi. rewrite E1, E2, E3, E4, E5 in *.
  destruct (Hr i Hi) as ((x & Ex) & (y & Ey) & (z & Ez) & (m & Em)).
  split; [|split; [|split; [|split]]].
  - destruct (nth_error ce i) as [c|] eqn:Ec; [|apply nth_error_None in Ec; lia]. exists c. split; [reflexivity|]. apply vn_are; assumption.
  - exists x. split; [exact Ex|]. apply xn_are; assumption.
  - exists y. split; [exact Ey|]. apply xn_are; assumption.
  - exists z. split; [exact Ez|]. apply xn_are; assumption.
  - exists m. split; [exact Em|]. apply mn_are; assumption.
Qed.

Hypothesis Heps : 0 <= eps.
Hypothesis Htiny : 0 <= tiny.
Variable part : (nat -> bool) -> list nat -> list nat * list nat.
Hypothesis Hpart : partition_ok part.
Variables (o d : vec xr) (tmin tmax : xr) (any : bool) (O D : vec R) (m : R).
Hypothesis Had : admissible o d tmin O D m.
Notation r := (@make_ray _ XN o d tmin tmax any).
Notation U := (unit_of D).
Variables (opt0 : options) (cs : list (call xr)).
Notation used := (used_options opt0 cs).

(** Traversing a geometry's nodes is traversing a fresh build. *)
Lemma geo_traverse {C P I} (f : C -> coll xr P) (isx : isector xr P I) g : @geo_ok _ XN part _ _ f used true (Some g) ->
  (forall opt, used opt -> shallow opt (c_size (f (g_coll g)))) ->
  exists opt n st, @build _ XN _ part [] (f (g_coll g)) opt = Ok (n, st) /\
    (forall k d, node_depth n k d -> (d <= 26)%nat) /\
    forall q rh, @traverse _ XN _ _ isx (g_nodes g) q rh = @traverse _ XN _ _ isx n q rh.
Proof.
  intros H Hsh. destruct (H g eq_refl) as [_ H1]. destruct (H1 eq_refl) as (opt & n & st & x & Ho & B & En).
  exists opt, n, st. split; [exact B|]. split; [exact (shallow_depth part Hpart _ _ _ _ B (Hsh _ Ho))|].
  intros q rh. rewrite En. destruct (build_axes _ Hpart _ _ _ _ B) as (t & -> & Hax). apply traverse_more, Hax.
Qed.

Lemma hit_loose hit about b rh res : hit_answer hit about b rh res -> loose_answer hit hit about b rh res.
Proof.
  intros (h & rh' & E & H0 & H1 & H2). exists h, rh'. split; [exact E|]. split; [|exact H2].
  intros ->. split; [apply H1; reflexivity|]. intros j u Hu. assert (false = true) by (apply H0; eauto). discriminate.
Qed.

Lemma geo_mesh vs fs g : @geo_ok _ XN part _ _ (@mesh_coll _ XN) used true (Some g) -> (forall opt, used opt -> shallow opt (length fs)) ->
  @make_mesh _ XN vs fs = Ok (g_coll g) ->
  call_ok big tiny O D (AddMesh vs fs) -> forall rh,
  loose_answer (call_cross O U m tmax (AddMesh vs fs)) (call_hit (4 * eps) O U m tmax (AddMesh vs fs)) (call_about O U (AddMesh vs fs)) any rh
    (@traverse _ XN _ _ (@tri_isector _ XN (g_coll g)) (g_nodes g) r rh).
Proof.
  intros G Hsh Hm [Hd Hb] rh. destruct (geo_traverse (@mesh_coll _ XN) (@tri_isector _ XN (g_coll g)) g G ltac:(intros ? Ho; cbn [c_size mesh_coll]; rewrite (mesh_faces _ _ _ Hm); exact (Hsh _ Ho))) as (opt & n & st & B & Hdep & ->).
  cbn [call_cross call_hit call_about].
  eapply (mesh_query big tiny eps Heps vs fs (vn vs) (g_coll g) Hd Hm) with (part := part) (opt := opt) (st := st); try eassumption.
  - intros i Hi. destruct (Hb i Hi) as (H1 & H2 & _). auto.
  - intros Hz i Hi. destruct (Hb i Hi) as (_ & _ & H3). auto.
Qed.

Lemma geo_spheres ce ra g : @geo_ok _ XN part _ _ sphere_coll used true (Some g) -> (forall opt, used opt -> shallow opt (length ce)) ->
  @make_spheres _ XN ce ra = Ok (g_coll g) ->
  call_ok big tiny O D (AddSpheres ce ra) -> forall rh,
  loose_answer (call_cross O U m tmax (AddSpheres ce ra)) (call_hit (4 * eps) O U m tmax (AddSpheres ce ra)) (call_about O U (AddSpheres ce ra)) any rh
    (@traverse _ XN _ _ (@sphere_isector _ XN (g_coll g)) (g_nodes g) r rh).
Proof.
  intros G Hsh Hm (F1 & F2 & Hb) rh. destruct (geo_traverse sphere_coll (@sphere_isector _ XN (g_coll g)) g G ltac:(intros ? Ho; cbn [c_size sphere_coll]; rewrite (proj1 (spheres_made _ _ _ Hm)); exact (Hsh _ Ho))) as (opt & n & st & B & Hdep & ->).
  pose proof (spheres_data _ _ _ Hm F1 F2) as Hd. destruct (spheres_made _ _ _ Hm) as (E1 & _ & _).
  cbn [call_cross call_hit call_about]. apply hit_loose. rewrite <- E1 in Hb |- *.
  eapply (sphere_query big tiny eps Heps ce ra (g_coll g) Hm) with (part := part) (opt := opt) (st := st); try eassumption.
  - rewrite E1. exact Hd.
  - intros i Hi. destruct (Hb i Hi) as (H1 & _). exact H1.
  - intros i Hi. destruct (Hb i Hi) as (_ & H2 & H3 & _). auto.
  - intros Hz i Hi. destruct (Hb i Hi) as (_ & _ & _ & H3). apply (H3 Hz).
Qed.

Lemma geo_planes ce dx dy ro g : @geo_ok _ XN part _ _ plane_coll used true (Some g) -> (forall opt, used opt -> shallow opt (length ce)) ->
  @make_planes _ XN ce dx dy ro = Ok (g_coll g) ->
  call_ok big tiny O D (AddPlanes ce dx dy ro) -> forall rh,
  loose_answer (call_cross O U m tmax (AddPlanes ce dx dy ro)) (call_hit (4 * eps) O U m tmax (AddPlanes ce dx dy ro)) (call_about O U (AddPlanes ce dx dy ro)) any rh
    (@traverse _ XN _ _ (@plane_isector _ XN) (g_nodes g) r rh).
Proof.
  intros G Hsh Hm (F1 & F2 & F3 & F4 & Hb) rh. destruct (geo_traverse plane_coll (@plane_isector _ XN) g G ltac:(intros ? Ho; cbn [c_size plane_coll]; rewrite (proj1 (planes_made _ _ _ _ _ Hm)); exact (Hsh _ Ho))) as (opt & n & st & B & Hdep & ->).
  pose proof (planes_data _ _ _ _ _ Hm F1 F2 F3 F4) as Hd. destruct (planes_made _ _ _ _ _ Hm) as (E1 & _ & _).
  cbn [call_cross call_hit call_about]. apply hit_loose. rewrite <- E1 in Hb |- *.
  eapply (plane_query big tiny eps Heps Htiny ce dx dy ro (g_coll g) Hm) with (part := part) (opt := opt) (st := st); try eassumption.
  - rewrite E1. exact Hd.
  - intros i Hi. destruct (Hb i Hi) as (H1 & H2 & H3 & _). auto.
  - intros i Hi. destruct (Hb i Hi) as (_ & _ & _ & H2 & H3 & _). auto.
  - intros Hz i Hi. destruct (Hb i Hi) as (_ & _ & _ & _ & _ & H3). apply (H3 Hz).
Qed.

Lemma geo_cylinders ce sa sb hs ro g : @geo_ok _ XN part _ _ cylinder_coll used true (Some g) -> (forall opt, used opt -> shallow opt (length ce)) ->
  @make_cylinders _ XN ce sa sb hs ro = Ok (g_coll g) ->
  call_fine big tiny O D m (AddCylinders ce sa sb hs ro) -> forall rh,
  loose_answer (call_cross O U m tmax (AddCylinders ce sa sb hs ro)) (call_hit (4 * eps) O U m tmax (AddCylinders ce sa sb hs ro)) (call_about O U (AddCylinders ce sa sb hs ro)) any rh
    (@traverse _ XN _ _ (@cylinder_isector _ XN) (g_nodes g) r rh).
Proof.
  intros G Hsh Hm ((F1 & F2 & F3 & F4 & F5 & Em & Hb) & Hs) rh. destruct (geo_traverse cylinder_coll (@cylinder_isector _ XN) g G ltac:(intros ? Ho; cbn [c_size cylinder_coll]; rewrite (proj1 (cylinders_made _ _ _ _ _ _ Hm)); exact (Hsh _ Ho))) as (opt & n & st & B & Hdep & ->).
  pose proof (cylinders_data _ _ _ _ _ _ Hm F1 F2 F3 F4 F5) as Hd. destruct (cylinders_made _ _ _ _ _ _ Hm) as (E1 & _).
  cbn [call_cross call_hit call_about]. rewrite <- E1 in Hb, Hs |- *. pose proof Had as Had0. rewrite Em in Had0.
  eapply (cylinder_query big tiny eps Heps ce sa sb hs ro (g_coll g) Hm) with (part := part) (opt := opt) (st := st); try eassumption.
  - rewrite E1. exact Hd.
  - intros i Hi. destruct (Hb i Hi) as ((? & ? & ? & ? & _) & _). auto.
  - intros i Hi. destruct (Hb i Hi) as (_ & H2 & H3 & _). auto.
  - intros i Hi. apply (Hb i Hi).
  - intros Hz i Hi. destruct (Hb i Hi) as (_ & _ & _ & H3 & _). apply (H3 Hz).
  - intros i Hi. destruct (Hb i Hi) as (_ & _ & _ & _ & H3). exact H3.
Qed.

(** Any number of cylinders, if all are met within the interval. *)
Lemma geo_seen ce sa sb hs ro g : @geo_ok _ XN part _ _ cylinder_coll used true (Some g) -> (forall opt, used opt -> shallow opt (length ce)) ->
  @make_cylinders _ XN ce sa sb hs ro = Ok (g_coll g) ->
  call_seen big tiny O D m tmax (AddCylinders ce sa sb hs ro) -> forall rh,
  loose_answer (call_cross O U m tmax (AddCylinders ce sa sb hs ro)) (call_hit (4 * eps) O U m tmax (AddCylinders ce sa sb hs ro)) (call_about O U (AddCylinders ce sa sb hs ro)) true rh
    (@traverse _ XN _ _ (@cylinder_isector _ XN) (g_nodes g) r rh).
Proof.
  intros G Hsh Hm ((F1 & F2 & F3 & F4 & F5 & Em & Hb) & Hs) rh. destruct (geo_traverse cylinder_coll (@cylinder_isector _ XN) g G ltac:(intros ? Ho; cbn [c_size cylinder_coll]; rewrite (proj1 (cylinders_made _ _ _ _ _ _ Hm)); exact (Hsh _ Ho))) as (opt & n & st & B & Hdep & ->).
  pose proof (cylinders_data _ _ _ _ _ _ Hm F1 F2 F3 F4 F5) as Hd. destruct (cylinders_made _ _ _ _ _ _ Hm) as (E1 & _).
  cbn [call_cross call_hit call_about]. rewrite <- E1 in Hb, Hs |- *. pose proof Had as Had0. rewrite Em in Had0.
  eapply (cylinders_hit big tiny eps Heps ce sa sb hs ro (g_coll g) Hm) with (part := part) (opt := opt) (st := st); try eassumption.
  - rewrite E1. exact Hd.
  - intros i Hi. destruct (Hb i Hi) as ((? & ? & ? & ? & _) & _). auto.
  - intros i Hi. destruct (Hb i Hi) as (_ & H2 & H3 & _). auto.
  - intros Hz i Hi. destruct (Hb i Hi) as (_ & _ & _ & H3 & _). apply (H3 Hz).
  - intros i Hi. destruct (Hb i Hi) as (_ & _ & _ & _ & H3). exact H3.
  - intros i Hi. apply (Hb i Hi).
Qed.
Lemma loose_any firm hit about b rh res : loose_answer firm hit about b rh res -> loose_answer firm hit about true rh res.
Proof.
  intros (x & rh' & E & H0 & H1). exists x, rh'. split; [exact E|]. split; [exact H0|]. intros Ex.
  destruct (H1 Ex) as (i & t & A1 & A2 & A3 & A4 & A5 & _). exists i, t. repeat (split; [assumption|]). discriminate.
Qed.

Lemma about_geom c i t rh k : call_about O U c i t rh -> call_about O U c i t (with_geom k rh).
Proof. destruct c; exact (fun H => H). Qed.
Lemma hit_max tol c i t : call_hit tol O U m tmax c i t -> xltb (Fin t) tmax = true.
Proof. destruct c; cbn; try tauto. unfold mesh_hit. tauto. Qed.

Variables (s : scene xr) (l : list (reply xr)).
Hypothesis Hrun : @run _ XN part (new_scene opt0) cs = Ok (s, l).
Hypothesis Hcommit : In Commit cs.
Hypothesis Hopt : all_shallow opt0 cs l.
(** Whether the nearest hit is wanted. *)
Variable an : bool.
Hypothesis Hok : forall g c, geometry_of cs l g c ->
  (an = any /\ call_fine big tiny O D m c) \/ (an = true /\ call_seen big tiny O D m tmax c).
Variable rh : rayhit xr.
Hypothesis Hmax : forall t, xltb (Fin t) tmax = true -> xltb (Fin t) (h_distance rh) = true.

Notation firm := (fun g i t => exists c, geometry_of cs l g c /\ call_cross O U m tmax c i t).
Notation hit := (fun g i t => exists c, geometry_of cs l g c /\ call_hit (4 * eps) O U m tmax c i t).
Notation about := (fun g i t rh => exists c, geometry_of cs l g c /\ call_about O U c i t rh).

(** One block, for the geometries of kind [k]. *)
Notation upto ks F := (fun g i t => exists c k, geometry_of cs l g c /\ adds c = Some k /\ In k ks /\ F c i t).
Notation upto' ks F := (fun g i t rh => exists c k, geometry_of cs l g c /\ adds c = Some k /\ In k ks /\ F c i t rh).

Lemma blocks_kind {C P I} always (isx : C -> isector xr P I) ks k (g : option (geometry C xr P)) x :
  blocks an rh (upto ks (call_cross O U m tmax)) (upto ks (call_hit (4 * eps) O U m tmax)) (upto' ks (call_about O U)) x ->
  (always = true -> exists tmp, x = Ok (false, rh, tmp)) ->
  (g = None -> has s k = false) ->
  (forall y, g = Some y -> exists c, geometry_of cs l (g_id y) c /\ adds c = Some k /\
     forall tmp, loose_answer (call_cross O U m tmax c) (call_hit (4 * eps) O U m tmax c) (call_about O U c) an tmp
                  (@traverse _ XN _ _ (isx (g_coll y)) (g_nodes y) r tmp)) ->
  blocks an rh (upto (k :: ks) (call_cross O U m tmax)) (upto (k :: ks) (call_hit (4 * eps) O U m tmax)) (upto' (k :: ks) (call_about O U))
    (bind x (@query_block _ XN _ _ _ always isx g r)).
Proof.
  intros Hx Hal Hnone Hsome. destruct g as [y|].
  - destruct (Hsome y eq_refl) as (c & Gc & Kc & Q).
    pose proof (block_step big tiny eps r an rh always isx y _ _ _ _ _ _ x Hx Hal Q (fun i t rh k => about_geom c i t rh k) (fun i t Hi => Hmax _ (hit_max _ _ _ _ Hi))) as B.
    eapply answer_mono; [| | |exact B]; cbn beta.
    + intros g i t (c' & k' & G' & K' & [<-|I'] & F'); [|left; eauto 7].
      right. assert (E : g = g_id y).
      { destruct (run_inv _ _ _ _ _ Hrun) as ((_ & _ & HO) & _).
        destruct Gc as (j & Gj & Gj'), G' as (j' & Gk & Gk').
        assert (A : added cs l j k (Id (Some (g_id y)))) by (split; eauto).
        assert (A' : added cs l j' k (Id (Some g))) by (split; eauto).
        destruct (Nat.lt_trichotomy j j') as [Hj|[<-|Hj]].
        - destruct (HO _ _ _ A') as [_ HA]. destruct (proj1 HA (ex_intro _ g eq_refl)) as [_ HB]. destruct (HB _ _ Hj A). eexists; reflexivity.
        - congruence.
        - destruct (HO _ _ _ A) as [_ HA]. destruct (proj1 HA (ex_intro _ (g_id y) eq_refl)) as [_ HB]. destruct (HB _ _ Hj A'). eexists; reflexivity. }
      subst g. rewrite (geometry_unique _ _ _ _ _ _ _ _ Hrun Gc G'). auto.
    + intros g i t [(c' & k' & G' & K' & I' & F')|[-> F']].
      * exists c', k'. repeat split; auto. right; exact I'.
      * exists c, k. repeat split; auto. left; reflexivity.
    + intros g i t rh' [(c' & k' & G' & K' & I' & F')|[-> F']].
      * exists c', k'. repeat split; auto. right; exact I'.
      * exists c, k. repeat split; auto. left; reflexivity.
  - apply blocks_none. eapply answer_mono; [| | |exact Hx]; cbn beta.
    + intros g i t (c' & k' & G' & K' & [<-|I'] & F'); [|eauto 7]. exfalso.
      pose proof (Hnone eq_refl) as Hn. destruct (run_inv _ _ _ _ _ Hrun) as (_ & _ & _ & Hh).
      assert (has s k = true); [|congruence]. destruct G' as (j & Gj & Gj'). apply Hh. exists j, (Id (Some g)). split; [split; eauto|]. eexists; reflexivity.
    + intros g i t (c' & k' & G' & K' & I' & F'). exists c', k'. repeat split; auto. right; exact I'.
    + intros g i t rh' (c' & k' & G' & K' & I' & F'). exists c', k'. repeat split; auto. right; exact I'.
Qed.

Lemma scene_kinds : history_answer (4 * eps) cs l O U m tmax an rh (@intersect1 _ XN s r rh).
Proof.
  destruct (good_history part Hpart (used_options opt0 cs) opt0 cs s l (conj (or_introl eq_refl) (fun o H => or_intror H)) Hrun) as (_ & G1 & G2 & G3 & G4).
  assert (Hc : sc_committed s = true) by (eapply committed_in; eauto). rewrite Hc in *.
  assert (B0 : blocks an rh (upto [] (call_cross O U m tmax)) (upto [] (call_hit (4 * eps) O U m tmax)) (upto' [] (call_about O U)) (Ok (false, rh, @new_rayhit _ XN))).
  { exists false, rh. split; [reflexivity|]. split; [|discriminate]. intros _. split; [reflexivity|]. intros g j u (c & k & _ & _ & [] & _). }
  apply (blocks_kind true (@tri_isector _ XN) [] KMesh (sc_mesh s)) in B0.
  2: { eauto. }
  2: { intros E. cbn. rewrite E. reflexivity. }
  2: { intros y Ey. destruct (has_made _ _ _ _ _ KMesh Hrun) as (g & c & Gc & Kc & Mc); [cbn; rewrite Ey; reflexivity|].
       destruct c; try discriminate Kc. destruct Mc as (y' & Ey' & Eg & Em). rewrite Ey in Ey'. injection Ey' as <-. subst g.
       exists (AddMesh vertices faces). split; [exact Gc|]. split; [reflexivity|]. rewrite Ey in G1. intros tmp. destruct (Hok _ _ Gc) as [[-> Hf]|[-> Hf]]; [apply (geo_mesh _ _ _ G1 (fun o Ho => Hopt o _ _ Ho Gc) Em Hf)|eapply loose_any, (geo_mesh _ _ _ G1 (fun o Ho => Hopt o _ _ Ho Gc) Em Hf)]. }
  cbn [bind] in B0.
  apply (blocks_kind false (@sphere_isector _ XN) [KMesh] KSpheres (sc_spheres s)) in B0.
  2: { discriminate. }
  2: { intros E. cbn. rewrite E. reflexivity. }
  2: { intros y Ey. destruct (has_made _ _ _ _ _ KSpheres Hrun) as (g & c & Gc & Kc & Mc); [cbn; rewrite Ey; reflexivity|].
       destruct c; try discriminate Kc. destruct Mc as (y' & Ey' & Eg & Em). rewrite Ey in Ey'. injection Ey' as <-. subst g.
       exists (AddSpheres centers radii). split; [exact Gc|]. split; [reflexivity|]. rewrite Ey in G2. intros tmp. destruct (Hok _ _ Gc) as [[-> Hf]|[-> Hf]]; [apply (geo_spheres _ _ _ G2 (fun o Ho => Hopt o _ _ Ho Gc) Em Hf)|eapply loose_any, (geo_spheres _ _ _ G2 (fun o Ho => Hopt o _ _ Ho Gc) Em Hf)]. }
  apply (blocks_kind false (fun _ => @plane_isector _ XN) [KSpheres; KMesh] KPlanes (sc_planes s)) in B0.
  2: { discriminate. }
  2: { intros E. cbn. rewrite E. reflexivity. }
  2: { intros y Ey. destruct (has_made _ _ _ _ _ KPlanes Hrun) as (g & c & Gc & Kc & Mc); [cbn; rewrite Ey; reflexivity|].
       destruct c; try discriminate Kc. destruct Mc as (y' & Ey' & Eg & Em). rewrite Ey in Ey'. injection Ey' as <-. subst g.
       exists (AddPlanes centers dxs dys rots). split; [exact Gc|]. split; [reflexivity|]. rewrite Ey in G3. intros tmp. destruct (Hok _ _ Gc) as [[-> Hf]|[-> Hf]]; [apply (geo_planes _ _ _ _ _ G3 (fun o Ho => Hopt o _ _ Ho Gc) Em Hf)|eapply loose_any, (geo_planes _ _ _ _ _ G3 (fun o Ho => Hopt o _ _ Ho Gc) Em Hf)]. }
  apply (blocks_kind false (fun _ => @cylinder_isector _ XN) [KPlanes; KSpheres; KMesh] KCylinders (sc_cylinders s)) in B0.
  2: { discriminate. }
  2: { intros E. cbn. rewrite E. reflexivity. }
  2: { intros y Ey. destruct (has_made _ _ _ _ _ KCylinders Hrun) as (g & c & Gc & Kc & Mc); [cbn; rewrite Ey; reflexivity|].
       destruct c; try discriminate Kc. destruct Mc as (y' & Ey' & Eg & Em). rewrite Ey in Ey'. injection Ey' as <-. subst g.
       exists (AddCylinders centers sa sb hs rots). split; [exact Gc|]. split; [reflexivity|]. rewrite Ey in G4. intros tmp. destruct (Hok _ _ Gc) as [[-> Hf]|[-> Hf]]; [apply (geo_cylinders _ _ _ _ _ _ G4 (fun o Ho => Hopt o _ _ Ho Gc) Em Hf)|apply (geo_seen _ _ _ _ _ _ G4 (fun o Ho => Hopt o _ _ Ho Gc) Em Hf)]. }
  unfold blocks in B0. rewrite !bind_assoc in B0. unfold history_answer.
  assert (Hall : forall (c : call xr) k, adds c = Some k -> In k [KCylinders; KPlanes; KSpheres; KMesh]) by (intros c []; cbn; auto 6).
  eapply answer_mono; [| | |exact B0]; cbn beta.
  - intros g i t (c & Gc & F). assert (Ka : exists k, adds c = Some k) by (destruct c; cbn in F |- *; try contradiction; eauto).
    destruct Ka as (k & Kc). exists c, k. split; [exact Gc|]. split; [exact Kc|]. split; [eapply Hall, Kc|exact F].
  - intros g i t (c & k & Gc & _ & _ & F). eauto.
  - intros g i t rh' (c & k & Gc & _ & _ & F). eauto.
Qed.
End S.

Lemma scene_query big tiny eps : 0 <= eps -> 0 <= tiny -> forall part, partition_ok part ->
  forall o d tmin tmax any O D m, admissible o d tmin O D m ->
  forall opt0 cs s l, @run _ (Xnum big tiny eps) part (new_scene opt0) cs = Ok (s, l) -> In Commit cs ->
  all_shallow opt0 cs l ->
  (forall g c, geometry_of cs l g c -> call_fine big tiny O D m c) ->
  forall rh, (forall t, xltb (Fin t) tmax = true -> xltb (Fin t) (h_distance rh) = true) ->
  history_answer (4 * eps) cs l O (unit_of D) m tmax any rh
    (@intersect1 _ (Xnum big tiny eps) s (@make_ray _ (Xnum big tiny eps) o d tmin tmax any) rh).
Proof.
  intros He Ht part Hp o d tmin tmax any O D m Had opt0 cs s l Hrun Hc Ho Hok rh Hmax.
  apply (scene_kinds big tiny eps He Ht part Hp o d tmin tmax any O D m Had opt0 cs s l Hrun Hc Ho any); [|exact Hmax].
  intros g c Gc. left. split; [reflexivity|eauto].
Qed.
Lemma scene_hit big tiny eps : 0 <= eps -> 0 <= tiny -> forall part, partition_ok part ->
  forall o d tmin tmax any O D m, admissible o d tmin O D m ->
  forall opt0 cs s l, @run _ (Xnum big tiny eps) part (new_scene opt0) cs = Ok (s, l) -> In Commit cs ->
  all_shallow opt0 cs l ->
  (forall g c, geometry_of cs l g c -> call_seen big tiny O D m tmax c) ->
  forall rh, (forall t, xltb (Fin t) tmax = true -> xltb (Fin t) (h_distance rh) = true) ->
  history_answer (4 * eps) cs l O (unit_of D) m tmax true rh
    (@intersect1 _ (Xnum big tiny eps) s (@make_ray _ (Xnum big tiny eps) o d tmin tmax any) rh).
Proof.
  intros He Ht part Hp o d tmin tmax any O D m Had opt0 cs s l Hrun Hc Ho Hok rh Hmax.
  apply (scene_kinds big tiny eps He Ht part Hp o d tmin tmax any O D m Had opt0 cs s l Hrun Hc Ho true); [|exact Hmax].
  intros g c Gc. right. split; [reflexivity|eauto].
Qed.

Lemma ok_plain big tiny O D m c : call_ok big tiny O D c -> call_plain big tiny O D m c.
Proof. destruct c; auto. intros []. Qed.
Lemma fine_plain big tiny O D m c : call_fine big tiny O D m c -> call_plain big tiny O D m c.
Proof. destruct c; auto. intros [H _]. exact H. Qed.
Lemma seen_plain big tiny O D m tmax c : call_seen big tiny O D m tmax c -> call_plain big tiny O D m c.
Proof. destruct c; auto. intros [H _]. exact H. Qed.
Lemma ok_fine big tiny O D m c : call_ok big tiny O D c -> call_fine big tiny O D m c.
Proof. destruct c; auto. intros []. Qed.
Lemma call_exact big tiny O D U m tmax c i t : call_ok big tiny O D c -> call_cross O U m tmax c i t <-> call_hit (4 * 0) O U m tmax c i t.
Proof. destruct c; try (intros []; fail); intros _; try (cbn; tauto). apply mesh_hit_cross. Qed.

Lemma scene_exact big tiny part o d tmin tmax any O D m opt0 cs s l rh :
  0 <= tiny -> partition_ok part -> admissible o d tmin O D m ->
  @run _ (Xnum big tiny 0) part (new_scene opt0) cs = Ok (s, l) -> In Commit cs ->
  all_shallow opt0 cs l ->
  (forall g c, geometry_of cs l g c -> call_ok big tiny O D c) ->
  (forall t, xltb (Fin t) tmax = true -> xltb (Fin t) (h_distance rh) = true) ->
  exact_answer cs l O (unit_of D) m tmax any rh
    (@intersect1 _ (Xnum big tiny 0) s (@make_ray _ (Xnum big tiny 0) o d tmin tmax any) rh).
Proof.
  intros Ht Hp Had Hrun Hc Ho Hok Hmax.
  destruct (scene_query big tiny 0 (Rle_refl 0) Ht part Hp o d tmin tmax any O D m Had opt0 cs s l Hrun Hc Ho
    (fun g c Gc => ok_fine big tiny O D m c (Hok g c Gc)) rh Hmax)
    as (b & rh' & E & H0 & H1).
  exists b, rh'. split; [exact E|]. split; [|split].
  - split.
    + intros Eb. destruct (H1 Eb) as (g & i & t & (c & Gc & Hc') & _). exists g, c, i, t. split; [exact Gc|]. apply (call_exact big tiny O D), Hc'. eauto.
    + intros (g & c & i & t & Gc & Hc'). destruct b; [reflexivity|]. destruct (H0 eq_refl) as [_ Hn]. destruct (Hn g i t). eauto.
  - intros Eb. apply (H0 Eb).
  - intros Eb. destruct (H1 Eb) as (g & i & t & (c & Gc & Hc') & A1 & A2 & A3 & (c' & Gc' & A4) & A5).
    rewrite <- (geometry_unique _ _ _ _ _ _ _ _ Hrun Gc Gc') in A4.
    exists g, c, i, t. split; [exact Gc|]. split; [apply (call_exact big tiny O D), Hc'; eauto|]. repeat (split; [assumption|]).
    intros Ha g2 c2 j u G2 H2. apply (A5 Ha g2 j u). eauto.
Qed.
