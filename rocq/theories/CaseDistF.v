(** Distances from the point (0, 0, 3) to the ball and the card of [CaseEmbF], in binary32. *)

From Coq Require Import Reals ZArith List Bool Arith Lra Lia Psatz Floats.SpecFloat.
From Flocq Require Import Core IEEE754.BinarySingleNaN.
From Verif Require Import Num NumR NumF Vec Sphere Plane Embree SpecReal SpecIEEE SpecTriF SpecSphere SpecSphF SpecPlane SpecPlaneF SpecDistF.
From Verif Require Import PfIEEE PfX PfPlane CaseIEEE CaseTriF CaseSphF CasePlaneF CaseEmbF PfDistF.
Local Open Scope R_scope.

Lemma ball_dist : visF 24 128 (p32 0 0 3) (pR 0 0 3) /\ sphere_isF 24 128 8 (pR 0 0 3) (p32 0 0 0) (f32 1 0) (pR 0 0 0) 1 /\
  @sphere_distance _ F32 (Sphere (p32 0 0 0) (f32 1 0) 0) (p32 0 0 3) = f32 2 0.
Proof. split; [apply p32_is; reflexivity|]. split; [apply ball_is|]. vm_compute. reflexivity. Qed.
Lemma card_local : local (pR 0 0 (-4)) flat_Q (pR 0 0 3) = V 0 0 7.
Proof. unfold local, flat_Q, pR, rv_trans, rv_mul, rv_dot, rv_sub. cbn [vx vy vz]. f_equal; lra. Qed.
Lemma card_dist : visF 24 128 (p32 0 0 3) (pR 0 0 3) /\ plane_isF 24 128 8 (pR 0 0 3) (p32 0 0 (-4)) (f32 4 0) (f32 4 0) card_m (pR 0 0 (-4)) 4 4 flat_Q /\
  Rabs (vx (local (pR 0 0 (-4)) flat_Q (pR 0 0 3))) + 13 * (ulpf 24 * 8) <= 4 / 2 /\
  Rabs (vy (local (pR 0 0 (-4)) flat_Q (pR 0 0 3))) + 13 * (ulpf 24 * 8) <= 4 / 2 /\
  @plane_distance _ F32 (Plane (p32 0 0 (-4)) (f32 4 0) (f32 4 0) card_m 0) (p32 0 0 3) = f32 7 0.
Proof.
  split; [apply p32_is; reflexivity|]. split; [apply card_is|]. rewrite card_local. cbn [vx vy]. rewrite Rabs_R0, ulp32_is.
  split; [lra|]. split; [lra|]. vm_compute. reflexivity.
Qed.
Lemma embree_zero : exists e p C dx dy Q P d, visF 24 128 p P /\
  plane_isF 24 128 8 P (ep_center e) (ep_d1 e) (ep_d2 e) (ep_rot e) C dx dy Q /\ distance_is (on_patch C dx dy Q) P d /\ d = 7 /\
  isF 24 128 (@eplane_distance _ F32 e p) 0.
Proof.
  exists (EPlane (p32 0 0 (-4)) (f32 4 0) (f32 4 0) card_m (Some 0%nat)), (p32 0 0 3), (pR 0 0 (-4)), 4, 4, flat_Q, (pR 0 0 3), 7.
  split; [apply p32_is; reflexivity|]. split; [apply card_is|]. split; [|split; [reflexivity|apply (int32 0); reflexivity]].
  assert (Ho : orthogonal flat_Q) by exact flat_orth.
  replace 7 with (Rabs (vz (local (pR 0 0 (-4)) flat_Q (pR 0 0 3)))) by (rewrite card_local; cbn [vz]; apply Rabs_pos_eq; lra).
  apply (patch_distance_is _ _ _ _ _ Ho). apply (on_patch_local _ _ _ _ _ Ho). rewrite (foot_local _ _ _ Ho).
  change (to_local (pR 0 0 (-4)) flat_Q (pR 0 0 3)) with (local (pR 0 0 (-4)) flat_Q (pR 0 0 3)). rewrite card_local. cbn [vx vy vz]. repeat split; lra.
Qed.
