(** Embree's cylinder callback on the concrete cylinder of [CaseTubeF]. *)

From Coq Require Import Reals ZArith List Bool Arith Lra Lia Psatz Floats.SpecFloat.
From Flocq Require Import Core IEEE754.BinarySingleNaN.
From Verif Require Import Num NumR NumF Vec Ray Cylinder Embree EmbreeScene SpecReal SpecIEEE SpecTriF SpecSphF SpecPlane SpecPlaneF SpecTubeF SpecEmbF.
From Verif Require Import CaseIEEE CaseTriF CaseSphF CasePlaneF CaseTubeF CaseTubeN.
Import ListNotations.
Local Open Scope R_scope.

Definition ecan : ecyl spec_float := ECyl (p64 0 1 0) (f64 2 0) (f64 1 0) (f64 4 0) slope_m (Some 3%nat).
Definition cap_rh : rtc_rayhit spec_float := @rtc_start _ F64 row_r0.
Definition axis_rh : rtc_rayhit spec_float := @rtc_start _ F64 can_r1.
Lemma ecan_outside : exists rh' x N,
  tube_ray 53 1024 8 1 (/ 1024) (r_org (rh_ray cap_rh)) (r_dir (rh_ray cap_rh)) (p64 0 1 0) (f64 2 0) (f64 1 0) (f64 4 0) slope_m (pR 0 0 3) can_U (pR 0 1 0) 2 1 2 slope_Q can_B /\
  8 <= / (4096 * ulpf 53) /\
  clear_outside (tube_err 53 8 1) (cap_err 53 8) 2 1 2 (local (pR 0 1 0) slope_Q (pR 0 0 3)) /\
  deep_in (tube_err 53 8 1) (cap_err 53 8) 2 1 2 (local (pR 0 1 0) slope_Q (at_t (pR 0 0 3) can_U 2)) /\
  (forall t, 0 <= t <= 2 -> ~ near_rim (tube_err 53 8 1) (cap_err 53 8) 2 1 2 (local (pR 0 1 0) slope_Q (at_t (pR 0 0 3) can_U t))) /\
  @ecyl_intersect _ F64 ecan 0 true None cap_rh = Ok rh' /\ records 53 1024 3 rh' x /\ Rabs (x - 5 / 4) <= / 1000000000000 /\
  visF 53 1024 (e_ng (rh_hit rh')) N /\ coords (/ 1000000000000) (rv_sub N (V 0 (- (3 / 5)) (4 / 5))).
Proof.
  destruct can_outside as (T & Cl & D & Rim & _). eexists _, _, (V _ _ _). split; [exact T|]. split; [exact can_moderate|]. split; [exact Cl|]. split; [exact D|]. split; [exact Rim|].
  split; [vm_compute; reflexivity|]. cbn [rh_hit rh_ray r_tfar e_ng].
  split; [split; [reflexivity|split; [reflexivity|]]; cbn [rh_ray r_tfar]; split; [reflexivity|split; [reflexivity|reflexivity]]|].
  split; [apply Rabs_le; cbn; unfold F2R; cbn; lra|].
  split; [split; [|split]; cbn [vx vy vz]; (split; [reflexivity|split; reflexivity])|].
  unfold coords, rv_sub. cbn [vx vy vz]. split; [|split]; apply Rabs_le; cbn; unfold F2R; cbn; lra.
Qed.
(** From the center the native routine stores (0, -1, 0) (C103); the callback turns it. *)
Lemma ecan_inside : exists rh' x N,
  tube_ray 53 1024 8 1 (/ 1024) (r_org (rh_ray axis_rh)) (r_dir (rh_ray axis_rh)) (p64 0 1 0) (f64 2 0) (f64 1 0) (f64 4 0) slope_m (pR 0 1 0) can_U (pR 0 1 0) 2 1 2 slope_Q can_B /\
  8 <= / (4096 * ulpf 53) /\
  deep_in (tube_err 53 8 1) (cap_err 53 8) 2 1 2 (local (pR 0 1 0) slope_Q (pR 0 1 0)) /\
  @ecyl_intersect _ F64 ecan 0 true None axis_rh = Ok rh' /\ records 53 1024 3 rh' x /\ Rabs (x - 5 / 3) <= / 1000000000000 /\
  visF 53 1024 (e_ng (rh_hit rh')) N /\ coords (/ 1000000000000) (rv_sub N (V 0 (- (4 / 5)) (- (3 / 5)))).
Proof.
  destruct can_inside as (T & D & _). eexists _, _, (V _ _ _). split; [exact T|]. split; [exact can_moderate|]. split; [exact D|].
  split; [vm_compute; reflexivity|]. cbn [rh_hit rh_ray r_tfar e_ng].
  split; [split; [reflexivity|split; [reflexivity|]]; cbn [rh_ray r_tfar]; split; [reflexivity|split; [reflexivity|reflexivity]]|].
  split; [apply Rabs_le; cbn; unfold F2R; cbn; lra|].
  split; [split; [|split]; cbn [vx vy vz]; (split; [reflexivity|split; reflexivity])|].
  unfold coords, rv_sub. cbn [vx vy vz]. split; [|split]; apply Rabs_le; cbn; unfold F2R; cbn; lra.
Qed.
