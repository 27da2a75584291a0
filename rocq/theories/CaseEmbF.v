(** A ball and a card in binary32, for the Embree callbacks. *)

From Coq Require Import Reals ZArith List Bool Arith Lra Lia Psatz Floats.SpecFloat.
From Flocq Require Import Core IEEE754.BinarySingleNaN.
From Verif Require Import Num NumR NumF Vec Ray Bvh Sphere Plane Scene Embree EmbreeScene SpecReal SpecIEEE SpecTriF SpecSphF SpecPlane SpecPlaneF SpecScene SpecEmbScene SpecEmbF.
From Verif Require Import PfPart PfIEEE PfX CaseIEEE CaseTriF CaseSphF CasePlaneF CaseEmbNear.
Import ListNotations.
Local Open Scope R_scope.

(** The unit ball about the origin, and a square with sides 4 in the plane z = -4; a ray from (0, 0, 3) downwards. *)
Definition card_m : mat spec_float := V (p32 1 0 0) (p32 0 1 0) (p32 0 0 1).
Definition drop_calls : list (call spec_float) := [AddSpheres [p32 0 0 0] [f32 1 0]; AddPlanes [p32 0 0 (-4)] [f32 4 0] [f32 4 0] [card_m]].
Definition drop_ray : ray spec_float := @make_ray _ F32 (p32 0 0 3) (p32 0 0 (-2)) (f32 0 0) (S754_infinity false) false.
Definition drop_rh : rtc_rayhit spec_float := @rtc_start _ F32 drop_ray.
Definition drop_shape (g : nat) : shape := match g with O => Ball (pR 0 0 0) 1 | _ => Patch (pR 0 0 (-4)) 4 4 flat_Q end.
Definition down_U : vec R := V 0 0 (-1).
Definition nothing (g : nat) (t : R) : Prop := False.

Lemma drop_format : usual_format 24 128 /\ scale_ok 24 128 8.
Proof. split; [exact usual32|apply scale32; lra]. Qed.
Lemma card_near : rot_near 24 128 card_m flat_Q.
Proof.
  split; [exact flat_orth|]. exists (V (pR 1 0 0) (pR 0 1 0) (pR 0 0 1)). cbn [card_m flat_Q vx vy vz]. rewrite ulp32_is. split.
  { split; [|split]; apply p32_is; reflexivity. }
  split; [|split]; apply coords_near; apply Rabs_le; lra.
Qed.
Lemma ball_is : sphere_isF 24 128 8 (pR 0 0 3) (p32 0 0 0) (f32 1 0) (pR 0 0 0) 1 /\ coords 8 (pR 0 0 0).
Proof.
  split; [|apply (coords_R 8); cbn; lia]. split; [apply p32_is; reflexivity|]. split; [apply int32; reflexivity|]. split; [lra|].
  unfold rv_sub, pR; cbn [vx vy vz]; apply norm_below; lra.
Qed.
Lemma card_is : plane_isF 24 128 8 (pR 0 0 3) (p32 0 0 (-4)) (f32 4 0) (f32 4 0) card_m (pR 0 0 (-4)) 4 4 flat_Q /\ coords 8 (pR 0 0 (-4)).
Proof.
  split; [|apply (coords_R 8); cbn; lia]. split; [apply p32_is; reflexivity|]. split; [apply int32; reflexivity|]. split; [apply int32; reflexivity|].
  split; [exact card_near|]. split; [lra|]. split; [lra|]. unfold rv_sub, pR; cbn [vx vy vz]; apply norm_below; lra.
Qed.
Lemma drop_o : visF 24 128 (origin drop_ray) (pR 0 0 3). Proof. apply p32_is; reflexivity. Qed.
Lemma drop_d : unit_near 24 128 (direction drop_ray) down_U.
Proof.
  split.
  - unfold rv_norm, rv_dot, down_U. cbn [vx vy vz]. replace (0 * 0 + 0 * 0 + -1 * -1) with 1 by ring. apply sqrt_1.
  - split; [unfold coords, down_U; cbn [vx vy vz]; rewrite Rabs_R0, Rabs_left by lra; lra|]. exists down_U.
    set (v := direction drop_ray). vm_compute in v. unfold v, down_U. split.
    + split; [|split]; cbn [vx vy vz]; lit.
    + rewrite ulp32_is. apply coords_near; apply near_eq; lra.
Qed.
Lemma drop_lo : isF 24 128 (min_hit_distance drop_ray) 0. Proof. apply int32; reflexivity. Qed.
Lemma drop_far : limit 24 128 (max_hit_distance drop_ray). Proof. left. reflexivity. Qed.
Lemma drop_crossed : crosses (power_err 24 8) (pR 0 0 0) 1 (pR 0 0 3) down_U 1 3 /\ large 24 8 1 /\
  power (pR 0 0 0) 1 (at_t (pR 0 0 3) down_U 3) <= - power_err 24 8.
Proof.
  unfold power_err, crosses, large, power, at_t, rv_add, rv_scale, rv_dot, rv_sub, down_U, pR. rewrite ulp32_is. cbn [vx vy vz]. split; [split; [lra|left; split; lra]|]. split; [split; lra|lra].
Qed.
Lemma drop_pierced : pierces (patch_err 24 8) (pR 0 0 (-4)) 4 4 flat_Q (pR 0 0 3) down_U 0 7 /\ steepness flat_Q down_U = 1.
Proof.
  assert (S : steepness flat_Q down_U = 1).
  { unfold steepness, normal_of, rv_mul, rv_dot, flat_Q, down_U. cbn [vx vy vz]. rewrite Rabs_left by lra; lra. }
  split; [|exact S]. unfold patch_err, pierces. rewrite S, ulp32_is.
  assert (L : local (pR 0 0 (-4)) flat_Q (at_t (pR 0 0 3) down_U 7) = V 0 0 0).
  { unfold local, at_t, rv_add, rv_scale, rv_sub, rv_mul, rv_trans, rv_dot, flat_Q, down_U, pR. cbn [vx vy vz]. f_equal; lra. }
  rewrite L. cbn [vx vy vz]. rewrite Rabs_R0. repeat split; lra.
Qed.

Lemma ball_case : exists rh', usual_format 24 128 /\ scale_ok 24 128 8 /\ visF 24 128 (r_org (rh_ray drop_rh)) (pR 0 0 3) /\
  unit_near 24 128 (r_dir (rh_ray drop_rh)) down_U /\ isF 24 128 (r_tnear (rh_ray drop_rh)) 0 /\ limit 24 128 (r_tfar (rh_ray drop_rh)) /\
  sphere_isF 24 128 8 (pR 0 0 3) (p32 0 0 0) (f32 1 0) (pR 0 0 0) 1 /\
  crosses (power_err 24 8) (pR 0 0 0) 1 (pR 0 0 3) down_U 1 3 /\ large 24 8 1 /\
  power (pR 0 0 0) 1 (at_t (pR 0 0 3) down_U 3) <= - power_err 24 8 /\
  @esphere_intersect _ F32 (ESphere (p32 0 0 0) (f32 1 0) (Some 0%nat)) 0 true None drop_rh = Ok rh' /\
  r_tfar (rh_ray rh') = f32 2 0 /\ e_ng (rh_hit rh') = p32 0 0 1 /\
  @esphere_occluded _ F32 (ESphere (p32 0 0 0) (f32 1 0) (Some 0%nat)) 0 true (rh_ray drop_rh) = Ok (set_tfar (rh_ray drop_rh) (@ninf_neg _ F32)).
Proof.
  destruct drop_format as [F1 F2]. destruct drop_crossed as (C1 & C2 & C3). destruct ball_is as [B _].
  eexists. split; [exact F1|]. split; [exact F2|]. split; [exact drop_o|]. split; [exact drop_d|]. split; [exact drop_lo|]. split; [exact drop_far|].
  split; [exact B|]. split; [exact C1|]. split; [exact C2|]. split; [exact C3|]. split; [vm_compute; reflexivity|]. split; [reflexivity|]. split; [reflexivity|].
  vm_compute. reflexivity.
Qed.
Lemma card_case : exists rh',
  plane_isF 24 128 8 (pR 0 0 3) (p32 0 0 (-4)) (f32 4 0) (f32 4 0) card_m (pR 0 0 (-4)) 4 4 flat_Q /\
  pierces (patch_err 24 8) (pR 0 0 (-4)) 4 4 flat_Q (pR 0 0 3) down_U 0 7 /\ steepness flat_Q down_U = 1 /\
  @eplane_intersect _ F32 (EPlane (p32 0 0 (-4)) (f32 4 0) (f32 4 0) card_m (Some 1%nat)) 0 true None drop_rh = Ok rh' /\
  r_tfar (rh_ray rh') = f32 7 0 /\ e_ng (rh_hit rh') = p32 0 0 1.
Proof.
  destruct drop_pierced as [P1 P2]. destruct card_is as [B _]. eexists. split; [exact B|]. split; [exact P1|]. split; [exact P2|].
  split; [vm_compute; reflexivity|]. split; reflexivity.
Qed.
Definition drop_ids : list nat := [1; 0]%nat.
Lemma drop_case : exists q l rh',
  (forall c, In c drop_calls -> first_given c) /\
  @e_run _ F32 libstdcxx_partition true id_tri (fun _ _ => drop_ids) (@new_escene _ (Options 1 26 64)) (drop_calls ++ [Commit]) = Ok (q, l) /\
  (forall g o, nth_error (q_geoms q) g = Some o -> shape_isF 24 128 8 (pR 0 0 3) o (drop_shape g)) /\
  finds_near 24 128 nothing 0 id_tri (pR 0 0 3) down_U 0 /\
  (forall w, covers_near 24 128 nothing q drop_ids (pR 0 0 3) down_U 0 w) /\
  meets_by 24 8 nothing (pR 0 0 3) down_U 0 0 (drop_shape 0) 3 /\
  meets_by 24 8 nothing (pR 0 0 3) down_U 0 1 (drop_shape 1) (7 + patch_err 24 8) /\
  @e_intersect1 _ F32 true id_tri drop_ids q drop_ray (@new_rayhit _ F32) = Ok (true, rh') /\ isF 24 128 (h_distance rh') 2 /\ h_normal rh' = p32 0 0 1.
Proof.
  do 3 eexists. split; [intros c [<-|[<-|[]]]; repeat split; discriminate|]. split; [vm_compute; reflexivity|]. split.
  { intros [|[|[|g]]] o Ho; cbn in Ho; try discriminate Ho; injection Ho as <-; [exact ball_is|exact card_is]. }
  split; [intros g vs fs rh _ _ _ _; split; [split; auto|]; left; split; [reflexivity|intros y []]|].
  split; [intros w [|[|[|g]]] o Ho Hin; cbn in Ho; try discriminate Ho; destruct Hin; cbn; auto|].
  destruct drop_crossed as (C1 & C2 & C3). destruct drop_pierced as [P1 P2].
  split; [exists 1; split; [lra|exact C1]|]. split; [exists 7; split; [exact P1|rewrite P2; field]|].
  split; [vm_compute; reflexivity|]. split; [cbn [h_distance]; lit|reflexivity].
Qed.
