(** Triangles and meshes over the reals. *)

From Coq Require Import Reals List Arith.
From Verif Require Import NumX Vec Ray Trimesh SpecReal.
Import ListNotations.
Local Open Scope R_scope.

(** The point with barycentric coordinates [1-u-v], [u], [v]. *)
Definition bary (A B C : vec R) (u v : R) : vec R :=
  rv_add (rv_add (rv_scale (1 - u - v) A) (rv_scale u B)) (rv_scale v C).

(** The closed triangle. *)
Definition on_tri (A B C p : vec R) : Prop :=
  exists u v, 0 <= u /\ 0 <= v /\ u + v <= 1 /\ p = bary A B C u v.

(** Twice the triangle's normal vector. *)
Definition tri_cross (A B C : vec R) : vec R := rv_cross (rv_sub B A) (rv_sub C A).
(** Zero if the triangle is degenerate or parallel to [U]. *)
Definition tri_det (A B C U : vec R) : R := rv_dot U (tri_cross A B C).

(** [p] is the point [u], [v] of the triangle's plane, and each of its three scaled
    coordinates is at least [-tol]. *)
Definition near_tri (tol : R) (A B C U p : vec R) (u v : R) : Prop :=
  p = bary A B C u v /\
  - tol <= Rabs (tri_det A B C U) * u /\ - tol <= Rabs (tri_det A B C U) * v /\
  - tol <= Rabs (tri_det A B C U) * (1 - u - v).

(** The vertices of a mesh are the points [P j], and its faces use existing ones. *)
Definition mesh_are (vertices : list (vec xr)) (faces : list (vec nat)) (P : nat -> vec R) : Prop :=
  (forall j, (j < length vertices)%nat -> exists x, nth_error vertices j = Some x /\ visR x (P j)) /\
  (forall f, In f faces ->
     (vx f < length vertices /\ vy f < length vertices /\ vz f < length vertices)%nat).

(** Face [i], and its vertices. *)
Definition face (faces : list (vec nat)) (i : nat) : vec nat := nth i faces (V 0 0 0)%nat.
Definition fa (faces : list (vec nat)) (P : nat -> vec R) (i : nat) : vec R := P (vx (face faces i)).
Definition fb (faces : list (vec nat)) (P : nat -> vec R) (i : nat) : vec R := P (vy (face faces i)).
Definition fc (faces : list (vec nat)) (P : nat -> vec R) (i : nat) : vec R := P (vz (face faces i)).

(** The unit normal of a face. *)
Definition face_normal (P : nat -> vec R) (f : vec nat) : vec R :=
  unit_of (tri_cross (P (vx f)) (P (vy f)) (P (vz f))).
(** How often vertex [j] occurs in face [f]. *)
Definition uses (f : vec nat) (j : nat) : R :=
  (if Nat.eq_dec (vx f) j then 1 else 0) + (if Nat.eq_dec (vy f) j then 1 else 0) +
  (if Nat.eq_dec (vz f) j then 1 else 0).
(** A third of the sum of the normals of the faces around vertex [j]. *)
Fixpoint vertex_normal (P : nat -> vec R) (faces : list (vec nat)) (j : nat) : vec R :=
  match faces with
  | [] => rv_zero
  | f :: fs => rv_add (rv_scale (uses f j / 3) (face_normal P f)) (vertex_normal P fs j)
  end.
(** No face is degenerate. *)
Definition proper (P : nat -> vec R) (faces : list (vec nat)) : Prop :=
  forall f, In f faces -> tri_cross (P (vx f)) (P (vy f)) (P (vz f)) <> rv_zero.

(** The vertex normals interpolated at [u], [v] of face [i]. *)
Definition mixed_normal (P : nat -> vec R) (faces : list (vec nat)) (i : nat) (u v : R) : vec R :=
  bary (vertex_normal P faces (vx (face faces i))) (vertex_normal P faces (vy (face faces i)))
       (vertex_normal P faces (vz (face faces i))) u v.

(** Face [i] is hit at distance [t] within the tolerance. *)
Definition mesh_hit (tol : R) (faces : list (vec nat)) P (O U : vec R) (m : R) (tmax : xr) (i : nat) (t : R) : Prop :=
  (i < length faces)%nat /\
  (tri_det (fa faces P i) (fb faces P i) (fc faces P i) U <> 0 /\
   (exists u v, near_tri tol (fa faces P i) (fb faces P i) (fc faces P i) U (at_t O U t) u v) /\ m <= t) /\
  xltb (Fin t) tmax = true.

(** Face [i] is crossed at distance [t]. *)
Definition mesh_cross (faces : list (vec nat)) P (O U : vec R) (m : R) (tmax : xr) (i : nat) (t : R) : Prop :=
  (i < length faces)%nat /\
  (tri_det (fa faces P i) (fb faces P i) (fc faces P i) U <> 0 /\
   on_tri (fa faces P i) (fb faces P i) (fc faces P i) (at_t O U t) /\ m <= t) /\
  xltb (Fin t) tmax = true.

(** The record's uv coordinates locate the hit point in face [i], and its normal is the
    interpolated one. *)
Definition mesh_about (faces : list (vec nat)) P (O U : vec R) (i : nat) (t : R) (rh : rayhit xr) : Prop :=
  exists u v, isR (fst (h_uv rh)) u /\ isR (snd (h_uv rh)) v /\
    at_t O U t = bary (fa faces P i) (fb faces P i) (fc faces P i) u v /\
    (proper P faces -> mixed_normal P faces i u v <> rv_zero ->
     visR (h_normal rh) (unit_of (mixed_normal P faces i u v))).

(** The least box around the triangle. *)
Definition tri_lower (A B C : vec R) : vec R :=
  V (Rmin (vx A) (Rmin (vx B) (vx C))) (Rmin (vy A) (Rmin (vy B) (vy C))) (Rmin (vz A) (Rmin (vz B) (vz C))).
Definition tri_upper (A B C : vec R) : vec R :=
  V (Rmax (vx A) (Rmax (vx B) (vx C))) (Rmax (vy A) (Rmax (vy B) (vy C))) (Rmax (vz A) (Rmax (vz B) (vz C))).
