(** Embree's cylinder occlusion callback on the concrete cylinder of [CaseTubeF]. *)

From Coq Require Import Reals ZArith List Bool Arith Lra Lia Psatz Floats.SpecFloat.
From Flocq Require Import Core IEEE754.BinarySingleNaN.
From Verif Require Import Num NumR NumF Vec Ray Cylinder Embree EmbreeScene SpecReal SpecIEEE SpecTriF SpecSphF SpecPlane SpecPlaneF SpecTubeF SpecEmbF.
From Verif Require Import CaseIEEE CaseTriF CaseSphF CasePlaneF CaseTubeF CaseTubeN CaseECylF.
Local Open Scope R_scope.

Lemma ecan_shadow :
  tube_ray 53 1024 8 1 (/ 1024) (r_org (rh_ray cap_rh)) (r_dir (rh_ray cap_rh)) (p64 0 1 0) (f64 2 0) (f64 1 0) (f64 4 0) slope_m (pR 0 0 3) can_U (pR 0 1 0) 2 1 2 slope_Q can_B /\
  2 + cap_err 53 8 < Rabs (vz (local (pR 0 1 0) slope_Q (pR 0 0 3))) /\
  clear_outside (tube_err 53 8 1) (cap_err 53 8) 2 1 2 (local (pR 0 1 0) slope_Q (pR 0 0 3)) /\
  deep_in (tube_err 53 8 1) (cap_err 53 8) 2 1 2 (local (pR 0 1 0) slope_Q (at_t (pR 0 0 3) can_U 2)) /\
  (forall t, 0 <= t <= 2 -> ~ near_rim (tube_err 53 8 1) (cap_err 53 8) 2 1 2 (local (pR 0 1 0) slope_Q (at_t (pR 0 0 3) can_U t))) /\
  @ecyl_occluded _ F64 ecan 0 true (rh_ray cap_rh) = Ok (set_tfar (rh_ray cap_rh) (@ninf_neg _ F64)).
Proof.
  destruct can_outside as (T & Cl & D & Rim & _). split; [exact T|]. split.
  - destruct can_errs as [_ E2]. rewrite E2. change (pR 0 0 3) with (V 0 0 3). rewrite (at_zero (V 0 0 3) can_U), can_local. cbn [vz]. rewrite Rabs_pos_eq; lra.
  - split; [exact Cl|]. split; [exact D|]. split; [exact Rim|]. vm_compute. reflexivity.
Qed.
Lemma ecan_shadow_inside :
  tube_ray 53 1024 8 1 (/ 1024) (r_org (rh_ray axis_rh)) (r_dir (rh_ray axis_rh)) (p64 0 1 0) (f64 2 0) (f64 1 0) (f64 4 0) slope_m (pR 0 1 0) can_U (pR 0 1 0) 2 1 2 slope_Q can_B /\
  deep_in (tube_err 53 8 1) (cap_err 53 8) 2 1 2 (local (pR 0 1 0) slope_Q (pR 0 1 0)) /\
  @ecyl_occluded _ F64 ecan 0 true (rh_ray axis_rh) = Ok (set_tfar (rh_ray axis_rh) (@ninf_neg _ F64)).
Proof. destruct can_inside as (T & D & _). split; [exact T|]. split; [exact D|]. vm_compute. reflexivity. Qed.
