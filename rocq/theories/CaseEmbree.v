(** The Embree callbacks: concrete cases and counterexamples. *)

From Coq Require Import Reals ZArith List Bool Lra Lia Floats.SpecFloat.
From Verif Require Import Num NumR NumX NumF Vec Ray Bvh Sphere Plane Cylinder Scene Embree EmbreeScene.
From Verif Require Import SpecReal SpecSphere SpecPlane SpecCyl SpecScene SpecEmbree SpecEmbScene.
From Verif Require Import PfPart PfX PfPlane PfCyl PfCyl3 PfEmbree PfEmbree2 PfEmbree3 PfEmbree4 PfEmbScene CaseSphere CasePlane CaseCyl.
Import ListNotations.
Local Open Scope R_scope.

(** ** binary32 *)
Definition sv (x y z : Z) : vec spec_float := V (f32 x 0) (f32 y 0) (f32 z 0).
Definition seye : mat spec_float := V (sv 1 0 0) (sv 0 1 0) (sv 0 0 1).
Definition srh (o d : vec spec_float) : rtc_rayhit spec_float :=
  RTCRayHit (RTCRay o d (f32 0 0) (f32 1 10)) (RTCHit (sv 0 0 0) (f32 0 0) (f32 0 0) (Some 0%nat) None None).

(** One side of a disagreement. *)
Lemma differs (rh : rtc_rayhit spec_float) g occ int r' rh' :
  r_tfar (rh_ray rh) <> @ninf_neg _ F32 -> e_geom (rh_hit rh) = None ->
  occ = Ok r' -> int = Ok rh' -> ~ (r_tfar r' = @ninf_neg _ F32 <-> e_geom (rh_hit rh') = Some g) ->
  ~ @same_verdict _ F32 rh g occ int.
Proof.
  intros Hf Hg -> -> Hn H. destruct (H Hf Hg) as (r1 & rh1 & E1 & E2 & I).
  injection E1 as <-. injection E2 as <-. contradiction.
Qed.

(** A ray from the center of a sphere. *)
Definition ball : esphere spec_float := ESphere (sv 0 0 0) (f32 1 0) (Some 0%nat).
Lemma sphere_refutes : exists e g rh, es_geom e = Some g /\
  ~ @same_verdict _ F32 rh g (@esphere_occluded _ F32 e 0 true (rh_ray rh)) (@esphere_intersect _ F32 e 0 true None rh).
Proof.
  exists ball, 0%nat, (srh (sv 0 0 0) (sv 1 0 0)). split; [reflexivity|].
  eapply differs; [vm_compute; discriminate|reflexivity|vm_compute; reflexivity|vm_compute; reflexivity|].
  intros [_ H]. specialize (H eq_refl). vm_compute in H. discriminate H.
Qed.

(** The smallest positive extent: half of it is 0. *)
Definition sliver : eplane spec_float := EPlane (sv 0 0 0) (f32 1 (-149)) (f32 1 0) seye (Some 0%nat).
Lemma plane_refutes : exists e g rh, ep_geom e = Some g /\
  @nltb _ F32 (@n0 _ F32) (ep_d1 e) = true /\ @nltb _ F32 (@n0 _ F32) (ep_d2 e) = true /\
  ~ @same_verdict _ F32 rh g (@eplane_occluded _ F32 e 0 true (rh_ray rh)) (@eplane_intersect _ F32 e 0 true None rh).
Proof.
  exists sliver, 0%nat, (srh (sv 0 0 5) (sv 0 0 (-1))). split; [reflexivity|].
  split; [vm_compute; reflexivity|]. split; [vm_compute; reflexivity|].
  eapply differs; [vm_compute; discriminate|reflexivity|vm_compute; reflexivity|vm_compute; reflexivity|].
  intros [H _]. specialize (H eq_refl). vm_compute in H. discriminate H.
Qed.

(** A ray that passes above a cylinder. *)
Definition tube : ecyl spec_float := ECyl (sv 0 0 0) (f32 1 0) (f32 1 0) (f32 2 0) seye (Some 0%nat).
Lemma cyl_refutes : exists e g rh, ec_geom e = Some g /\
  ~ @same_verdict _ F32 rh g (@ecyl_occluded _ F32 e 0 true (rh_ray rh)) (@ecyl_intersect _ F32 e 0 true None rh).
Proof.
  exists tube, 0%nat, (srh (sv 3 0 0) (sv (-1) 0 1)). split; [reflexivity|].
  eapply differs; [vm_compute; discriminate|reflexivity|vm_compute; reflexivity|vm_compute; reflexivity|].
  intros [H _]. specialize (H eq_refl). vm_compute in H. discriminate H.
Qed.
(** A ray that starts on the top cap and leaves: hit at distance 0, not marked. *)
Lemma cyl_refutes_cap : exists e g rh rh' r', ec_geom e = Some g /\
  @ecyl_intersect _ F32 e 0 true None rh = Ok rh' /\ e_geom (rh_hit rh') = Some g /\
  @ecyl_occluded _ F32 e 0 true (rh_ray rh) = Ok r' /\ r_tfar r' <> @ninf_neg _ F32.
Proof.
  exists tube, 0%nat, (srh (sv 0 0 1) (sv 0 0 1)). do 2 eexists. split; [reflexivity|].
  split; [vm_compute; reflexivity|]. split; [reflexivity|]. split; [vm_compute; reflexivity|]. vm_compute. discriminate.
Qed.

(** A scene with one sphere: hit, but no geometry id. *)
Definition one_ball : list (call spec_float) := [AddSpheres [sv 10 0 0] [f32 2 0]; Commit].
Definition x_ray : ray spec_float := @make_ray _ F32 (sv 0 0 0) (sv 1 0 0) (f32 0 0) (f32 1 10) false.
Lemma geom_id_refutes : exists q l rh,
  @e_run _ F32 libstdcxx_partition true (fun _ _ _ rh => rh) (fun _ _ => [0%nat]) (new_escene (Options 1 26 64)) one_ball = Ok (q, l) /\
  l = [Id (Some 0%nat); Done] /\
  @e_intersect1 _ F32 true (fun _ _ _ rh => rh) [0%nat] q x_ray (@new_rayhit _ F32) = Ok (true, rh) /\
  h_distance rh = f32 8 0 /\ h_geom rh = None.
Proof. do 3 eexists. split; [vm_compute; reflexivity|]. split; [reflexivity|]. split; [vm_compute; reflexivity|]. split; vm_compute; reflexivity. Qed.

(** The second sphere frees the first one. *)
Definition two_balls : list (call spec_float) := [AddSpheres [sv 10 0 0] [f32 2 0]; AddSpheres [sv 20 0 0] [f32 2 0]].
Lemma two_balls_case : (forall c, In c two_balls -> first_given c) /\ ~ each_once two_balls.
Proof.
  split.
  - intros c [<-|[<-|[]]]; split; discriminate.
  - intros H. discriminate (H 0%nat 1%nat _ _ eq_refl eq_refl eq_refl ltac:(discriminate)).
Qed.
Definition ball_and_tube : list (call spec_float) :=
  [AddSpheres [sv 10 0 0] [f32 2 0]; AddMesh [] []; AddMesh [] []; AddCylinders [sv 0 0 0] [f32 1 0] [f32 1 0] [f32 2 0] [seye]].
Lemma ball_and_tube_case : (forall c, In c ball_and_tube -> first_given c) /\ each_once ball_and_tube.
Proof.
  split.
  - intros c [<-|[<-|[<-|[<-|[]]]]]; repeat split; discriminate.
  - intros i j c c' Hi Hj. unfold ball_and_tube in *.
    do 4 (destruct i as [|i]; [cbn in Hi; injection Hi as <-; do 4 (destruct j as [|j];
      [cbn in Hj; injection Hj as <-; cbn; intros E H; first [reflexivity | discriminate E | destruct (H eq_refl)]|]);
      destruct j; discriminate Hj|]). destruct i; discriminate Hi.
Qed.

(** ** Exact arithmetic *)
Section Exact.
Notation XN := (Xnum 1000 0 0).
Definition xrh (o d : vec R) (m M : R) : rtc_rayhit xr :=
  RTCRayHit (RTCRay (vfin o) (vfin d) (Fin m) (Fin M)) (RTCHit (vfin rv_zero) (Fin 0) (Fin 0) (Some 0%nat) None None).
Definition xeye : mat xr := mfin (V (V 1 0 0) (V 0 1 0) (V 0 0 1)).
Lemma vis v : visR (vfin v) v.
Proof. repeat split. Qed.

(** Sphere hit from outside. *)
Lemma sphere_case : exists rh',
  @esphere_intersect _ XN (ESphere (vfin (V 10 0 0)) (Fin 2) (Some 5%nat)) 0 true None (xrh (V 0 0 0) (V 1 0 0) 1 100) = Ok rh' /\
  e_geom (rh_hit rh') = Some 5%nat /\
  2 * 2 < rv_dot (rv_sub (at_t (V 0 0 0) (V 1 0 0) 1) (V 10 0 0)) (rv_sub (at_t (V 0 0 0) (V 1 0 0) 1) (V 10 0 0)).
Proof.
  destruct (esphere_int_is 1000 0 0 (vfin (V 10 0 0)) (Fin 2) 5%nat None (xrh (V 0 0 0) (V 1 0 0) 1 100) (V 0 0 0) (V 1 0 0) 1 (V 10 0 0) 2)
    as (rh' & E & I); try apply vis; try reflexivity; try (cbn; unfold rv_dot; cbn; lra).
  exists rh'. split; [exact E|]. split.
  - apply I. exists 8. split; [unfold on_sphere, rv_dot; cbn; lra|]. split; [lra|].
    cbn. unfold Rltb. destruct (Rlt_dec 8 100); [reflexivity|lra].
  - unfold rv_dot. cbn. lra.
Qed.

(** The ray along the x axis meets the unit cylinder around the z axis from the side. *)
Lemma ident_world (S : vec R -> Prop) p : S p -> world S (V 0 0 0) ident p.
Proof. intros H. exists p. split; [|exact H]. unfold placed. destruct p. apply vec_eq; cbn; unfold rv_dot; cbn; ring. Qed.
Lemma ident_placed q p : placed (V 0 0 0) ident q p -> q = p.
Proof. unfold placed. intros ->. destruct q. apply vec_eq; cbn; unfold rv_dot; cbn; ring. Qed.
Lemma clear_case : world (beside 1 1 2) (V 0 0 0) ident (V (-3) 0 0) /\ clear_view 1 1 2 (V 0 0 0) ident (V (-3) 0 0) (V 1 0 0) /\
  world (on_surface 1 1 2) (V 0 0 0) ident (at_t (V (-3) 0 0) (V 1 0 0) 2).
Proof.
  split; [|split].
  - apply ident_world. unfold beside, ellipse. cbn. rewrite Rabs_R0. split; lra.
  - split.
    + intros c E. apply (f_equal vx) in E. cbn in E. unfold rv_dot in E. cbn in E. lra.
    + intros t Ht (q & Hp & He). apply ident_placed in Hp. subst q. unfold ellipse in He. cbn in He. split.
      * apply ident_world. split; [unfold ellipse; cbn; lra|]. cbn. replace (0 + t * 0) with 0 by ring. rewrite Rabs_R0. lra.
      * intros (q & Hp & _ & Hd). apply ident_placed in Hp. subst q. unfold rv_dot in Hd. cbn in Hd. unfold rv_dot in Hd. cbn in Hd.
        assert (-3 + t * 1 = 0) by lra. rewrite H in He. lra.
  - apply ident_world. left. split; [unfold ellipse; cbn; lra|]. cbn. replace (0 + 2 * 0) with 0 by ring. rewrite Rabs_R0. lra.
Qed.
Lemma past_case : world (past_caps 2) (V 0 0 0) ident (V 0 0 5).
Proof. apply ident_world. unfold past_caps. cbn. rewrite Rabs_pos_eq; lra. Qed.
Lemma within_case : world (inside 1 1 2) (V 0 0 0) ident (V (1 / 2) 0 0).
Proof. apply ident_world. unfold inside, ellipse. cbn. rewrite Rabs_R0. split; lra. Qed.
End Exact.

(** A square hit by a ray that the occlusion test marks too, and the same for a
    cylinder below the origin of the ray. *)
Definition square : eplane spec_float := EPlane (sv 0 0 0) (f32 2 0) (f32 2 0) seye (Some 3%nat).
Definition down : rtc_rayhit spec_float := srh (sv 0 0 5) (sv 0 0 (-1)).
Lemma square_case : @comparisons _ F32 /\
  @nltb _ F32 (@ndiv _ F32 (@nopp _ F32 (f32 2 0)) (@n2 _ F32)) (@ndiv _ F32 (f32 2 0) (@n2 _ F32)) = true /\
  exists r' rh', @eplane_occluded _ F32 square 0 true (rh_ray down) = Ok r' /\ r_tfar r' = @ninf_neg _ F32 /\
    @eplane_intersect _ F32 square 0 true None down = Ok rh' /\ e_geom (rh_hit rh') = Some 3%nat /\ r_tfar (rh_ray rh') = f32 5 0.
Proof.
  split; [apply f_comparisons|]. split; [vm_compute; reflexivity|]. do 2 eexists.
  split; [vm_compute; reflexivity|]. split; [vm_compute; reflexivity|]. split; [vm_compute; reflexivity|]. split; vm_compute; reflexivity.
Qed.
Lemma tube_case : @nltb _ F32 (@ndiv _ F32 (f32 2 0) (@n2 _ F32)) (f32 5 0) = true /\
  exists r' rh', @ecyl_occluded _ F32 tube 0 true (rh_ray down) = Ok r' /\ r_tfar r' = @ninf_neg _ F32 /\
    @ecyl_intersect _ F32 tube 0 true None down = Ok rh' /\ e_geom (rh_hit rh') = Some 0%nat /\ r_tfar (rh_ray rh') = f32 4 0.
Proof.
  split; [vm_compute; reflexivity|]. do 2 eexists.
  split; [vm_compute; reflexivity|]. split; [vm_compute; reflexivity|]. split; [vm_compute; reflexivity|]. split; vm_compute; reflexivity.
Qed.

(** A double-precision scene: the sphere is hit, and reported with its id. *)
Definition one_ball64 : list (call spec_float) :=
  [AddSpheres [V (f64 10 0) (f64 0 0) (f64 0 0)] [f64 2 0]; Commit;
   Query (@make_ray _ F64 (V (f64 0 0) (f64 0 0) (f64 0 0)) (V (f64 1 0) (f64 0 0) (f64 0 0)) (f64 0 0) (f64 1 10) false) (@new_rayhit _ F64)].
Lemma one_ball64_case : exists s rh,
  @run _ F64 libstdcxx_partition (new_scene (Options 1 26 64)) one_ball64 = Ok (s, [Id (Some 0%nat); Done; Answer true rh]) /\
  h_geom rh = Some 0%nat.
Proof. do 2 eexists. split; vm_compute; reflexivity. Qed.

(** Three floats. *)
Lemma stride_refutes : exists size, (0 < size)%nat /\ buffer_stride size <> size.
Proof. exists 12%nat. split; [repeat constructor|]. intros H. pose proof (stride_short 12 ltac:(lia)). lia. Qed.

(** The native cases, through Embree: a tilted square and a tilted cylinder. *)
Definition xrh_inf (o d : vec R) : rtc_rayhit xr :=
  RTCRayHit (RTCRay (vfin o) (vfin d) (Fin 0) (Xinf false)) (RTCHit (vfin rv_zero) (Fin 0) (Fin 0) (Some 0%nat) None None).
Lemma tilted_square_case : exists rh',
  @eplane_intersect _ (Xnum 1000 0 0) (EPlane (vfin (V 10 0 0)) (Fin 2) (Fin 2) (mfin turn) (Some 5%nat)) 0 true None
    (xrh_inf (V 0 0 0) (V 1 0 0)) = Ok rh' /\ e_geom (rh_hit rh') = Some 5%nat /\ isR (r_tfar (rh_ray rh')) 10.
Proof.
  destruct (plane_case 0 (or_introl eq_refl)) as (i0 & E0 & H0).
  destruct (eplane_agrees_exact 1000 0 0 (vfin (V 10 0 0)) (Fin 2) (Fin 2) (mfin turn) 5%nat None (xrh_inf (V 0 0 0) (V 1 0 0)) 4 (plane_ray 0)
    (V 0 0 0) (V 1 0 0) 0 (V 10 0 0) 2 2 turn (visR_fin _) (visR_fin _) (isR_fin 0) (visR_fin _) (isR_fin 2) (isR_fin 2) (misR_fin _))
    as (rh' & h & i' & E & En & I & _ & B); try lra; try reflexivity; try apply turn_orthogonal.
  { unfold rv_dot; cbn; lra. }
  assert (E1 : (h, i') = (true, i0)) by (rewrite <- En, <- E0; reflexivity). injection E1 as -> ->.
  exists rh'. split; [exact E|]. split; [apply I; reflexivity|]. rewrite (proj1 (B eq_refl)). exact H0.
Qed.
Lemma tilted_cylinder_case : exists rh',
  @ecyl_intersect _ (Xnum 1000 0 0) (ECyl (vfin (V 10 0 0)) (Fin 1) (Fin 1) (Fin 2) (mfin turn) (Some 5%nat)) 0 true None
    (xrh_inf (V 0 0 0) (V 1 0 0)) = Ok rh' /\ e_geom (rh_hit rh') = Some 5%nat /\ isR (r_tfar (rh_ray rh')) (35 / 4).
Proof.
  destruct cap_case as (i0 & E0 & H0 & _).
  destruct (w_agrees 1000 0 0 (vfin (V 10 0 0)) (Fin 1) (Fin 1) (Fin 2) (mfin turn) 5%nat true None (xrh_inf (V 0 0 0) (V 1 0 0))
    (V 0 0 0) (V 1 0 0) (V 10 0 0) 1 1 2 turn (visR_fin _) (visR_fin _) (visR_fin _) (isR_fin 1) (isR_fin 1) (isR_fin 2) (misR_fin _) Rlt_0_1 Rlt_0_1
    7%nat (cyl_start (V 0 0 0) (V 1 0 0)) cyl_ray eq_refl eq_refl eq_refl eq_refl)
    as (rh' & h & i' & E & En & I & _ & B).
  assert (E1 : (h, i') = (true, i0)) by (rewrite <- En, <- E0; reflexivity). injection E1 as -> ->.
  exists rh'. split; [exact E|]. split; [apply I; reflexivity|]. rewrite (proj1 (B eq_refl)). exact H0.
Qed.
