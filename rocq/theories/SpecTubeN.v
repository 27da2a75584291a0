(** Normals of cylinders in IEEE arithmetic. *)

From Coq Require Import Reals ZArith Floats.SpecFloat.
From Verif Require Import Num NumF Vec SpecReal SpecIEEE SpecTriF SpecSphF SpecPlane SpecPlaneF SpecTubeF.
Local Open Scope R_scope.

(** The gradient of [radial]. *)
Definition uphill (a b : R) (X : vec R) : vec R := V (2 * vx X / (a * a)) (2 * vy X / (b * b)) 0.
(** A stored vector is [N] up to [e] per component. *)
Definition vec_near (prec emax : Z) (e : R) (n : vec spec_float) (N : vec R) : Prop :=
  exists K, visF prec emax n K /\ coords e (rv_sub K N).
(** [n] is, up to [e], the normal at a point that has coordinates [X] in the cylinder's frame: on a cap its
    axis, on the tube the direction of [uphill], both turned by the cylinder's rotation [Q]. *)
Definition cap_normal (prec emax : Z) (e ez h : R) (Q : mat R) (n : vec spec_float) (X : vec R) : Prop :=
  exists s, (s = 1 \/ s = -1) /\ Rabs (vz X - s * h) <= ez /\ vec_near prec emax e n (rv_mul Q (V 0 0 s)).
Definition side_normal (prec emax : Z) (e a b : R) (Q : mat R) (n : vec spec_float) (X : vec R) : Prop :=
  Rabs (radial a b X - 1) <= e /\ vec_near prec emax e n (rv_mul Q (unit_of (uphill a b X))).
(** As before, but not turned. *)
Definition local_normal (prec emax : Z) (e a b : R) (n : vec spec_float) (X : vec R) : Prop :=
  Rabs (radial a b X - 1) <= e /\ vec_near prec emax e n (unit_of (uphill a b X)).

(** The normal at parameter [x] of a ray from [O] along [U], whose direction in the cylinder's own coordinates
    is [B] as computed.  From inside, the normal of the tube is turned only if the ray runs across the axis. *)
Definition tube_normal (prec emax : Z) (M r a b h : R) (C : vec R) (Q : mat R) (B O U : vec R) (x : R) (n : vec spec_float) : Prop :=
  let e := tube_err prec M r in let ez := cap_err prec M in let X := local C Q (at_t O U x) in
  M <= / (4096 * ulpf prec) ->
  (outside e ez a b h (local C Q O) -> cap_normal prec emax e ez h Q n X \/ side_normal prec emax e a b Q n X) /\
  (deep_in e ez a b h (local C Q O) ->
   cap_normal prec emax e ez h Q n X \/ (vz B = 0 /\ side_normal prec emax e a b Q n X) \/ (vz B <> 0 /\ local_normal prec emax e a b n X)).
