(** Spheres over the reals. *)

From Coq Require Import Reals List.
From Verif Require Import NumX Vec Sphere SpecReal.
Local Open Scope R_scope.

(** [p] lies on the sphere with the given center and radius. *)
Definition on_sphere (C : vec R) (rad : R) (p : vec R) : Prop :=
  rv_dot (rv_sub p C) (rv_sub p C) = rad * rad.

(** The collection's data are the finite numbers [C i], [rad i]. *)
Definition spheres_are (s : spheres xr) (C : nat -> vec R) (rad : nat -> R) : Prop :=
  forall i, (i < length (ss_centers s))%nat ->
    (exists c, nth_error (ss_centers s) i = Some c /\ visR c (C i)) /\
    (exists x, nth_error (ss_radii s) i = Some x /\ isR x (rad i)).

(** The corners of a sphere's box. *)
Definition lower (C : vec R) (rad : R) : vec R := V (vx C - rad) (vy C - rad) (vz C - rad).
Definition upper (C : vec R) (rad : R) : vec R := V (vx C + rad) (vy C + rad) (vz C + rad).

(** Sphere [i] of the collection is hit at distance [t] by the ray from [O] with
    unit direction [U] and interval from [m] to [tmax]. *)
Definition sphere_hit (s : spheres xr) C rad (O U : vec R) (m : R) (tmax : xr) (i : nat) (t : R) : Prop :=
  (i < length (ss_centers s))%nat /\
  (on_sphere (C i) (rad i) (at_t O U t) /\ m < t) /\ xltb (Fin t) tmax = true.

(** The record's normal is the outward unit normal at the hit point. *)
Definition sphere_about C rad (O U : vec R) (i : nat) (t : R) (rh : Ray.rayhit xr) : Prop :=
  rad i <> 0 ->
  visR (Ray.h_normal rh) (rv_scale (/ Rabs (rad i)) (rv_sub (at_t O U t) (C i))).
