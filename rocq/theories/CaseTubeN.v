(** Normals of concrete cylinders in binary64. *)

From Coq Require Import Reals ZArith List Bool Arith Lra Lia Psatz Floats.SpecFloat.
From Flocq Require Import Core IEEE754.BinarySingleNaN.
From Verif Require Import Num NumR NumF Vec Ray Traverse Cylinder SpecReal SpecIEEE SpecTriF SpecSphF SpecPlane SpecPlaneF SpecTubeF SpecTubeN.
From Verif Require Import PfIEEE PfX PfDirF PfTubeG CaseIEEE CaseTriF CaseSphF CasePlaneF CaseTubeF.
Import ListNotations.
Local Open Scope R_scope.

Definition blank : rayhit spec_float := @RayHit _ (p64 0 0 0) (f64 0 0, f64 0 0) (f64 0 0) None None.
(** A ray down from (0, 1, 3), past the cap's rim onto the tube. *)
Definition can_r2 : ray spec_float := @make_ray _ F64 (p64 0 1 3) down_d (f64 0 0) (S754_infinity false) false.
Lemma can_moderate : 8 <= / (4096 * ulpf 53).
Proof. rewrite ulp64_is. lra. Qed.
Lemma can_side : exists st' out N,
  tube_ray 53 1024 8 1 (/ 1024) (origin can_r2) (direction can_r2) (p64 0 1 0) (f64 2 0) (f64 1 0) (f64 4 0) slope_m (pR 0 1 3) can_U (pR 0 1 0) 2 1 2 slope_Q can_B /\
  8 <= / (4096 * ulpf 53) /\
  outside (tube_err 53 8 1) (cap_err 53 8) 2 1 2 (local (pR 0 1 0) slope_Q (pR 0 1 3)) /\
  @cylinder_intersect _ F64 (@cylinder_prepare _ F64 can_r2) can can_r2 = (true, st') /\ @cylinder_post _ F64 st' blank = Ok out /\
  visF 53 1024 (h_normal out) N /\ coords (/ 1000000000000) (rv_sub N (V 0 (4 / 5) (3 / 5))).
Proof.
  destruct can_errs as [E1 E2]. rewrite E1, E2. change (pR 0 1 3) with (V 0 1 3). eexists _, _, (V 0 (7205759403792794 * / 9007199254740992) (5404319552844595 * / 9007199254740992)). split; [|split; [exact can_moderate|split; [|split; [|split; [|split]]]]].
  - apply can_tame; [apply (p64_is 0 1 3); reflexivity|]. unfold rv_sub, pR. cbn [vx vy vz]. apply norm_below; lra.
  - left. rewrite (at_zero (V 0 1 3) can_U), can_local. cbn [vz]. rewrite Rabs_pos_eq; lra.
  - vm_compute. reflexivity.
  - vm_compute. reflexivity.
  - cbn [h_normal]. split; [|split]; cbn [vx vy vz]; lit.
  - unfold coords, rv_sub. cbn [vx vy vz]. split; [|split]; apply Rabs_le; lra.
Qed.
Lemma can_cap : exists st' out N,
  tube_ray 53 1024 8 1 (/ 1024) (origin row_r0) (direction row_r0) (p64 0 1 0) (f64 2 0) (f64 1 0) (f64 4 0) slope_m (pR 0 0 3) can_U (pR 0 1 0) 2 1 2 slope_Q can_B /\
  8 <= / (4096 * ulpf 53) /\
  outside (tube_err 53 8 1) (cap_err 53 8) 2 1 2 (local (pR 0 1 0) slope_Q (pR 0 0 3)) /\
  @cylinder_intersect _ F64 (@cylinder_prepare _ F64 row_r0) can row_r0 = (true, st') /\ @cylinder_post _ F64 st' blank = Ok out /\
  visF 53 1024 (h_normal out) N /\ coords (/ 1000000000000) (rv_sub N (V 0 (- (3 / 5)) (4 / 5))).
Proof.
  destruct can_outside as (T & Cl & _). eexists _, _, (V 0 (- (5404319552844595 * / 9007199254740992)) (7205759403792794 * / 9007199254740992)). split; [exact T|]. split; [exact can_moderate|]. split; [destruct Cl as [Cl|[_ Cl]]; [left|right]; exact Cl|]. split; [|split; [|split]].
  - vm_compute. reflexivity.
  - vm_compute. reflexivity.
  - cbn [h_normal]. split; [|split]; cbn [vx vy vz]; lit.
  - unfold coords, rv_sub. cbn [vx vy vz]. split; [|split]; apply Rabs_le; lra.
Qed.

(** From the center the stored normal is not turned. *)
Definition can_x : R := 7505999378950827 * / 4503599627370496.
Lemma unit_y y : y < 0 -> unit_of (V 0 y 0) = V 0 (-1) 0.
Proof.
  intros Hy. assert (N : rv_norm (V 0 y 0) = - y). { unfold rv_norm, rv_dot. cbn [vx vy vz]. replace (0 * 0 + y * y + 0 * 0) with ((- y) * (- y)) by ring. apply sqrt_square. lra. }
  unfold unit_of, rv_scale. rewrite N. cbn [vx vy vz]. f_equal; field; lra.
Qed.
Lemma can_unturned : exists st' out N x,
  tube_ray 53 1024 8 1 (/ 1024) (origin can_r1) (direction can_r1) (p64 0 1 0) (f64 2 0) (f64 1 0) (f64 4 0) slope_m (pR 0 1 0) can_U (pR 0 1 0) 2 1 2 slope_Q can_B /\
  8 <= / (4096 * ulpf 53) /\
  deep_in (tube_err 53 8 1) (cap_err 53 8) 2 1 2 (local (pR 0 1 0) slope_Q (pR 0 1 0)) /\
  @cylinder_intersect _ F64 (@cylinder_prepare _ F64 can_r1) can can_r1 = (true, st') /\ @cylinder_post _ F64 st' blank = Ok out /\
  isF 53 1024 (h_distance out) x /\ visF 53 1024 (h_normal out) N /\
  Rabs (vz (local (pR 0 1 0) slope_Q (at_t (pR 0 1 0) can_U x))) < 3 / 2 /\
  vz N - vz (rv_mul slope_Q (unit_of (uphill 2 1 (local (pR 0 1 0) slope_Q (at_t (pR 0 1 0) can_U x))))) = 3 / 5.
Proof.
  destruct can_inside as (T & D & _). eexists _, _, (V 0 (-1) 0), can_x. split; [exact T|]. split; [exact can_moderate|]. split; [exact D|]. split; [|split; [|split; [|split; [|split]]]].
  - vm_compute. reflexivity.
  - vm_compute. reflexivity.
  - cbn [h_distance]. unfold can_x. lit.
  - cbn [h_normal]. split; [|split]; cbn [vx vy vz]; lit.
  - change (pR 0 1 0) with (V 0 1 0) at 2. rewrite can_local. cbn [vz]. unfold can_x. apply Rabs_def1; lra.
  - change (pR 0 1 0) with (V 0 1 0) at 2. rewrite can_local. unfold uphill. cbn [vx vy vz].
    replace (2 * 0 / (2 * 2)) with 0 by field. rewrite unit_y by (unfold can_x; lra). unfold rv_mul, rv_dot, slope_Q. cbn [vx vy vz]. lra.
Qed.
