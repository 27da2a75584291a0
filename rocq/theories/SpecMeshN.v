(** Normals of meshes in IEEE arithmetic. *)

From Coq Require Import Reals ZArith List Floats.SpecFloat.
From Verif Require Import Num NumF Vec SpecReal SpecIEEE SpecTri SpecTriF SpecTubeN.
Import ListNotations.
Local Open Scope R_scope.

(** The triangle is no needle at its first corner: the sine of the angle is at least [1 / k]; and its edges and
    its area are neither tiny nor huge. *)
Definition stout (prec : Z) (k : R) (A B C : vec R) : Prop :=
  rv_norm (rv_sub B A) * rv_norm (rv_sub C A) <= k * rv_norm (tri_cross A B C) /\
  8192 * ulpf prec <= rv_norm (tri_cross A B C) <= / (2 * ulpf prec) /\
  rv_norm (rv_sub B A) <= / ulpf prec /\ rv_norm (rv_sub C A) <= / ulpf prec.
Definition stout_faces (prec : Z) (k : R) (P : nat -> vec R) (faces : list (vec nat)) : Prop :=
  forall f, In f faces -> stout prec k (P (vx f)) (P (vy f)) (P (vz f)).
(** How many corners of faces are at vertex [j]. *)
Fixpoint valence (faces : list (vec nat)) (j : nat) : R :=
  match faces with
  | [] => 0
  | f :: fs => uses f j + valence fs j
  end.

(** The errors of a face's normal, of the sum of the normals around a vertex with [m] corners, and of the
    normalized mixture of length [g]. *)
Definition face_err (prec : Z) (k : R) : R := 32 * k * ulpf prec.
Definition vertex_err (prec : Z) (k m : R) : R := m * (face_err prec k + m * ulpf prec) / 2.
Definition mixed_err (prec : Z) (k m g : R) : R := 80 * m * (32 * k + m) * ulpf prec / g.

(** The normal of a hit on face [i] with weights [u], [v], if no face is a needle, no vertex belongs to more
    than [m] corners, and the vertex normals do not cancel out. *)
Definition mesh_normal (prec emax : Z) (faces : list (vec nat)) (P : nat -> vec R) (i : nat) (u v : R) (n : vec spec_float) : Prop :=
  forall k m, 1 <= k -> 1024 * k * ulpf prec <= 1 -> stout_faces prec k P faces ->
    1 <= m -> 1024 * m * ulpf prec <= 1 -> (forall j, valence faces j <= m) ->
  let w := mixed_normal P faces i u v in 512 * m * (32 * k + m) * ulpf prec <= rv_norm w ->
  vec_near prec emax (mixed_err prec k m (rv_norm w)) n (unit_of w).
