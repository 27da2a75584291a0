(** A cylinder in an Embree-backed scene, in binary32. *)

From Coq Require Import Reals ZArith List Bool Arith Lra Lia Psatz Floats.SpecFloat.
From Flocq Require Import Core IEEE754.BinarySingleNaN.
From Verif Require Import Num NumR NumF Vec Ray Bvh Cylinder Scene Embree EmbreeScene SpecReal SpecIEEE SpecTriF SpecSphF SpecPlane SpecPlaneF SpecTubeF SpecTubeN SpecScene SpecEmbScene SpecEmbF SpecAxis.
From Verif Require Import PfPart PfIEEE PfX PfDirF CaseIEEE CaseTriF CaseSphF CasePlaneF CaseEmbNear CaseEmbF.
Import ListNotations.
Local Open Scope R_scope.

(** An upright cylinder about the origin, semi-axes 2 and 1, height 4; rays downwards from (0, 0, 3) and from
    the origin. *)
Definition tin_calls : list (call spec_float) := [AddCylinders [p32 0 0 0] [f32 2 0] [f32 1 0] [f32 4 0] [card_m]; Commit].
Definition tin_run := @e_run _ F32 libstdcxx_partition true id_tri (fun _ _ => [0%nat]) (@new_escene _ (Options 1 26 64)) tin_calls.
Definition well_ray : ray spec_float := @make_ray _ F32 (p32 0 0 0) (p32 0 0 (-2)) (f32 0 0) (S754_infinity false) false.
(** Ends at 1/2, in front of the cylinder. *)
Definition short_ray : ray spec_float := @make_ray _ F32 (p32 0 0 3) (p32 0 0 (-2)) (f32 0 0) (f32 1 (-1)) false.
Definition tin_tube (r : ray spec_float) (O : vec R) : Prop :=
  tube_ray 24 128 8 1 (/ 1024) (origin r) (direction r) (p32 0 0 0) (f32 2 0) (f32 1 0) (f32 4 0) card_m O down_U (pR 0 0 0) 2 1 2 flat_Q down_U.
Lemma tin_B : visF 24 128 (@mulmv _ F32 (trans card_m) (direction drop_ray)) down_U.
Proof. set (w := @mulmv _ F32 (trans card_m) (direction drop_ray)). vm_compute in w. unfold w, down_U. split; [|split]; cbn [vx vy vz]; lit. Qed.
Lemma tin_tame r O : direction r = direction drop_ray -> visF 24 128 (origin r) O -> rv_norm (rv_sub O (pR 0 0 0)) <= 8 -> tin_tube r O.
Proof.
  intros Hd Ho Hn. destruct drop_format as [F1 F2]. unfold tin_tube. rewrite Hd. constructor; try assumption.
  - exact drop_d.
  - apply p32_is; reflexivity.
  - apply int32; reflexivity.
  - apply int32; reflexivity.
  - apply int32; [reflexivity|lra].
  - exact card_near.
  - lra.
  - rewrite ulp32_is. lra.
  - split; [lra|]. split; [lra|]. replace ((/ 1024) ^ 4) with (bpow radix2 (-40)) by (cbn; field). apply bpow_le. lia.
  - apply Rle_trans with (bpow radix2 70); [cbn; lra|apply bpow_le; lia].
  - exact tin_B.
  - left. split; reflexivity.
  - right. cbn [down_U vz]. rewrite Rabs_left; lra.
Qed.
Lemma tin_errs : tube_err 24 8 1 = / 128 /\ cap_err 24 8 = / 8192 /\ 8 <= / (4096 * ulpf 24).
Proof. unfold tube_err, cap_err. rewrite ulp32_is. split; [lra|]. split; lra. Qed.
Lemma tin_local t z : local (pR 0 0 0) flat_Q (at_t (V 0 0 z) down_U t) = V 0 0 (z - t).
Proof. unfold local, at_t, rv_add, rv_scale, rv_sub, rv_mul, rv_trans, rv_dot, flat_Q, down_U, pR. cbn [vx vy vz]. f_equal; lra. Qed.
Lemma tin_org z : local (pR 0 0 0) flat_Q (V 0 0 z) = V 0 0 z.
Proof. unfold local, rv_sub, rv_mul, rv_trans, rv_dot, flat_Q, pR. cbn [vx vy vz]. f_equal; lra. Qed.
Lemma tin_outside : exists q l out, tin_tube drop_ray (pR 0 0 3) /\ 8 <= / (4096 * ulpf 24) /\ tin_run = Ok (q, l) /\
  clear_outside (tube_err 24 8 1) (cap_err 24 8) 2 1 2 (local (pR 0 0 0) flat_Q (pR 0 0 3)) /\
  deep_in (tube_err 24 8 1) (cap_err 24 8) 2 1 2 (local (pR 0 0 0) flat_Q (at_t (pR 0 0 3) down_U 2)) /\
  (forall t, 0 <= t <= 2 -> ~ near_rim (tube_err 24 8 1) (cap_err 24 8) 2 1 2 (local (pR 0 0 0) flat_Q (at_t (pR 0 0 3) down_U t))) /\
  @e_intersect1 _ F32 true id_tri [0%nat] q drop_ray (@new_rayhit _ F32) = Ok (true, out) /\ isF 24 128 (h_distance out) 1 /\ h_normal out = p32 0 0 1.
Proof.
  do 3 eexists. split; [apply tin_tame; [reflexivity|exact drop_o|unfold rv_sub, pR; cbn [vx vy vz]; apply norm_below; lra]|].
  destruct tin_errs as (E1 & E2 & E3). split; [exact E3|]. split; [vm_compute; reflexivity|]. rewrite E1, E2. change (pR 0 0 3) with (V 0 0 3).
  split; [left; rewrite tin_org; cbn [vz]; rewrite Rabs_pos_eq; lra|].
  split; [rewrite tin_local; split; unfold radial; cbn [vx vy vz]; [lra|]; rewrite Rabs_pos_eq; lra|].
  split; [intros t Hx; rewrite tin_local; intros [N1 _]; unfold radial in N1; cbn [vx vy vz] in N1; apply Rabs_le_inv in N1; lra|].
  split; [vm_compute; reflexivity|]. split; [|reflexivity]. cbn [h_distance]. lit.
Qed.
Lemma tin_inside : exists q l out, tin_tube well_ray (pR 0 0 0) /\ 8 <= / (4096 * ulpf 24) /\ tin_run = Ok (q, l) /\
  deep_in (tube_err 24 8 1) (cap_err 24 8) 2 1 2 (local (pR 0 0 0) flat_Q (pR 0 0 0)) /\
  @e_intersect1 _ F32 true id_tri [0%nat] q well_ray (@new_rayhit _ F32) = Ok (true, out) /\ isF 24 128 (h_distance out) 2 /\ h_normal out = p32 0 0 (-1).
Proof.
  do 3 eexists. split; [apply tin_tame; [reflexivity|apply p32_is; reflexivity|unfold rv_sub, pR; cbn [vx vy vz]; apply norm_below; lra]|].
  destruct tin_errs as (E1 & E2 & E3). split; [exact E3|]. split; [vm_compute; reflexivity|]. rewrite E1, E2. change (pR 0 0 0) with (V 0 0 0) at 2.
  split; [rewrite tin_org; split; unfold radial; cbn [vx vy vz]; [lra|]; rewrite Rabs_pos_eq; lra|].
  split; [vm_compute; reflexivity|]. split; [|reflexivity]. cbn [h_distance]. lit.
Qed.
Lemma tin_short : exists q l out, tin_tube short_ray (pR 0 0 3) /\ tin_run = Ok (q, l) /\
  @e_intersect1 _ F32 true id_tri [0%nat] q short_ray (@new_rayhit _ F32) = Ok (true, out) /\
  isF 24 128 (max_hit_distance short_ray) (/ 2) /\ isF 24 128 (h_distance out) 1.
Proof.
  do 3 eexists. split; [apply tin_tame; [reflexivity|apply p32_is; reflexivity|unfold rv_sub, pR; cbn [vx vy vz]; apply norm_below; lra]|].
  split; [vm_compute; reflexivity|]. split; [vm_compute; reflexivity|]. split; [|cbn [h_distance]; lit]. unfold short_ray, make_ray. cbn [max_hit_distance]. lit.
Qed.
Lemma tin_found : exists q l, tin_run = Ok (q, l) /\ coords 8 (pR 0 0 0) /\
  (visF 24 128 (vx card_m) (vx flat_Q) /\ visF 24 128 (vy card_m) (vy flat_Q) /\ visF 24 128 (vz card_m) (vz flat_Q)) /\
  (axis_entries (vx flat_Q) /\ axis_entries (vy flat_Q) /\ axis_entries (vz flat_Q)) /\
  (forall w, covers_near 24 128 nothing q [0%nat] (pR 0 0 3) down_U 0 w) /\ (forall s, isF 24 128 (max_hit_distance drop_ray) s -> 2 < s).
Proof.
  do 2 eexists. split; [vm_compute; reflexivity|]. split; [apply (coords_R 8); cbn; lia|].
  split; [split; [|split]; apply p32_is; reflexivity|]. split; [split; [|split]; (split; [|split]); cbn [flat_Q vx vy vz]; first [left; lra|right; left; lra]|].
  split; [intros w [|g] o Ho Hin; [destruct (Hin (or_introl eq_refl))|destruct g; discriminate Ho]|].
  intros s (_ & Hs & _). discriminate Hs.
Qed.
