(** Plane patches in IEEE arithmetic: where a ray pierces them, with a margin. *)

From Coq Require Import Reals ZArith List Floats.SpecFloat.
From Flocq Require Import Core IEEE754.BinarySingleNaN.
From Verif Require Import Num NumF Vec Bvh Plane SpecReal SpecIEEE SpecTriF SpecSphF SpecPlane.
Local Open Scope R_scope.

(** [X] in the patch's own coordinates: x and y along its sides, z along its normal. *)
Definition local (C : vec R) (Q : mat R) (X : vec R) : vec R := rv_mul (rv_trans Q) (rv_sub X C).
(** [X] is at most [e] away from the plane, and at most [e] outside the patch's sides. *)
Definition near_patch (e : R) (C : vec R) (dx dy : R) (Q : mat R) (X : vec R) : Prop :=
  Rabs (vx (local C Q X)) <= dx / 2 + e /\ Rabs (vy (local C Q X)) <= dy / 2 + e /\ Rabs (vz (local C Q X)) <= e.
(** How steeply the ray meets the plane: 1 head-on, 0 parallel. *)
Definition steepness (Q : mat R) (D : vec R) : R := Rabs (rv_dot D (normal_of Q)).
(** At parameter [t] the ray pierces the plane inside the patch and after [lo]; the distances from the
    sides and from [lo] are at least [e] divided by the steepness. *)
Definition pierces (e : R) (C : vec R) (dx dy : R) (Q : mat R) (O D : vec R) (lo t : R) : Prop :=
  let X := local C Q (at_t O D t) in
  vz X = 0 /\ e <= steepness Q D * (dx / 2 - Rabs (vx X)) /\ e <= steepness Q D * (dy / 2 - Rabs (vy X)) /\
  e <= steepness Q D * (t - lo).
(** The error term, when distances from the origin to the centers and halves of the sides are up to [M]. *)
Definition patch_err (prec : Z) (M : R) : R := 256 * ulpf prec * M.

(** The stored matrix is a rotation [Q] (or a reflection) up to four units of roundoff per entry. *)
Definition rot_near (prec emax : Z) (m : mat spec_float) (Q : mat R) : Prop :=
  orthogonal Q /\ exists A : mat R,
    (visF prec emax (vx m) (vx A) /\ visF prec emax (vy m) (vy A) /\ visF prec emax (vz m) (vz A)) /\
    coords (4 * ulpf prec) (rv_sub (vx A) (vx Q)) /\ coords (4 * ulpf prec) (rv_sub (vy A) (vy Q)) /\
    coords (4 * ulpf prec) (rv_sub (vz A) (vz Q)).
(** The patch's numbers; [M] bounds half its sides and its center's distance from [O]. *)
Definition plane_isF (prec emax : Z) (M : R) (O : vec R) (c : vec spec_float) (fdx fdy : spec_float) (m : mat spec_float)
    (C : vec R) (dx dy : R) (Q : mat R) : Prop :=
  visF prec emax c C /\ isF prec emax fdx dx /\ isF prec emax fdy dy /\ rot_near prec emax m Q /\
  0 <= dx / 2 <= M /\ 0 <= dy / 2 <= M /\ rv_norm (rv_sub O C) <= M.

(** [n] is a normal on the side [s] of the patch, up to 64 units of roundoff per component.  Close to the
    sides of the patch it may be tilted. *)
Definition patch_normal (prec emax : Z) (M : R) (C : vec R) (dx dy : R) (Q : mat R) (O X : vec R) (n : vec spec_float) : Prop :=
  exists N a b s, visF prec emax n N /\ coords (64 * ulpf prec) (rv_sub N (unit_of (rv_mul Q (V a b s)))) /\
    (a = -1 \/ a = 0 \/ a = 1) /\ (b = -1 \/ b = 0 \/ b = 1) /\ (s = -1 \/ s = 1) /\
    (Rabs (vx (local C Q X)) + patch_err prec M <= dx / 2 -> a = 0) /\
    (Rabs (vy (local C Q X)) + patch_err prec M <= dy / 2 -> b = 0) /\
    (patch_err prec M <= Rabs (vz (local C Q O)) -> 0 < s * vz (local C Q O)).

(** The box that the code computes for a patch, as real vectors. *)
Definition box_low (b : vec spec_float * vec spec_float) : vec R := vmap (SF2R radix2) (fst b).
Definition box_high (b : vec spec_float * vec spec_float) : vec R := vmap (SF2R radix2) (snd b).
Definition box_of (prec emax : Z) (centers : list (vec spec_float)) (dxs dys : list spec_float) (rots : list (mat spec_float)) (i : nat)
    : vec spec_float * vec spec_float :=
  let z := S754_zero false in
  @plane_box _ (Fnum prec emax) (nth i centers (V z z z)) (nth i dxs z) (nth i dys z) (nth i rots (V (V z z z) (V z z z) (V z z z))).

(** Patches and a ray of moderate size. *)
Record patch_ray (prec emax : Z) (M : R) (centers : list (vec spec_float)) (dxs dys : list spec_float) (rots : list (mat spec_float))
    (C : nat -> vec R) (dx dy : nat -> R) (Q : nat -> mat R)
    (o d : vec spec_float) (tmin tmax : spec_float) (O D : vec R) (lo : R) : Prop := {
  pr_format : usual_format prec emax;
  pr_scale : scale_ok prec emax M;
  pr_patches : forall i, (i < length centers)%nat -> exists c x y m,
    nth_error centers i = Some c /\ nth_error dxs i = Some x /\ nth_error dys i = Some y /\ nth_error rots i = Some m /\
    plane_isF prec emax M O c x y m (C i) (dx i) (dy i) (Q i) /\ coords M (C i);
  pr_ray : tame_ray prec emax o d tmin O D lo;
  pr_norm : 1 - 4 * ulpf prec <= rv_norm D <= / ulpf prec;
  pr_lo : 0 <= lo;
  pr_far : at_least prec emax tmax (4 * M);
  pr_flat : vz D = 0 -> forall i, (i < length centers)%nat ->
    vz O <> vz (box_low (box_of prec emax centers dxs dys rots i)) /\ vz O <> vz (box_high (box_of prec emax centers dxs dys rots i)) }.
