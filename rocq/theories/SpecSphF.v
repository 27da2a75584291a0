(** Spheres in IEEE arithmetic: where a ray crosses their surfaces, with a margin. *)

From Coq Require Import Reals ZArith List Floats.SpecFloat.
From Verif Require Import Num Vec SpecReal SpecIEEE SpecTriF.
Local Open Scope R_scope.

(** The power of the point [X] with respect to the sphere: negative inside, zero on the surface,
    positive outside. *)
Definition power (C : vec R) (r : R) (X : vec R) : R := rv_dot (rv_sub X C) (rv_sub X C) - r * r.
(** Between the parameters [y0] and [y] the ray crosses the surface, with margin [m] on both sides. *)
Definition crosses (m : R) (C : vec R) (r : R) (O D : vec R) (y0 y : R) : Prop :=
  y0 < y /\
  ((m <= power C r (at_t O D y0) /\ power C r (at_t O D y) <= - m) \/
   (power C r (at_t O D y0) <= - m /\ m <= power C r (at_t O D y))).
(** The error term for powers, when distances from the origin to the centers and radii are up to [M]. *)
Definition power_err (prec : Z) (M : R) : R := 256 * ulpf prec * M ^ 2.

(** A unit vector, and a ray's direction close to it. *)
Definition unit_near (prec emax : Z) (d : vec spec_float) (U : vec R) : Prop := rv_norm U = 1 /\ near_dir prec emax d U.
(** The sphere's numbers; [M] bounds its radius and its distance from [O]. *)
Definition sphere_isF (prec emax : Z) (M : R) (O : vec R) (c : vec spec_float) (fr : spec_float) (C : vec R) (r : R) : Prop :=
  visF prec emax c C /\ isF prec emax fr r /\ 0 <= r <= M /\ rv_norm (rv_sub O C) <= M.

(** The bounding box that the code computes. *)
Definition rlow (prec emax : Z) (C : vec R) (r : R) : vec R :=
  V (rnd prec emax (vx C - r)) (rnd prec emax (vy C - r)) (rnd prec emax (vz C - r)).
Definition rhigh (prec emax : Z) (C : vec R) (r : R) : vec R :=
  V (rnd prec emax (vx C + r)) (rnd prec emax (vy C + r)) (rnd prec emax (vz C + r)).

(** Spheres and a ray of moderate size. *)
Record sphere_ray (prec emax : Z) (M : R) (centers : list (vec spec_float)) (radii : list spec_float) (C : nat -> vec R) (r : nat -> R)
    (o d : vec spec_float) (tmin tmax : spec_float) (O D : vec R) (lo : R) : Prop := {
  sr_format : usual_format prec emax;
  sr_scale : scale_ok prec emax M;
  sr_count : length radii = length centers;
  sr_spheres : forall i, (i < length centers)%nat -> exists c fr,
    nth_error centers i = Some c /\ nth_error radii i = Some fr /\ sphere_isF prec emax M O c fr (C i) (r i) /\ coords M (C i);
  sr_ray : tame_ray prec emax o d tmin O D lo;
  sr_norm : 1 - 4 * ulpf prec <= rv_norm D <= / ulpf prec;
  sr_lo : 0 <= lo;
  sr_far : at_least prec emax tmax (4 * M);
  sr_flat : vz D = 0 -> forall i, (i < length centers)%nat ->
    vz O <> vz (rlow prec emax (C i) (r i)) /\ vz O <> vz (rhigh prec emax (C i) (r i)) }.

(** A sphere that is large enough for the errors of powers and coordinates not to matter much. *)
Definition large (prec : Z) (M r : R) : Prop := 1024 * ulpf prec * M ^ 2 <= r * r /\ 4 * ulpf prec * M <= 1.
(** [n] is the outward normal at [X], up to an error. *)
Definition normal_near (prec emax : Z) (M : R) (C : vec R) (r : R) (X : vec R) (n : vec spec_float) : Prop :=
  exists N, visF prec emax n N /\ coords (80 * (ulpf prec * M / r)) (rv_sub N (unit_of (rv_sub X C))).
