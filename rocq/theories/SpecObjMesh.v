(** The triangles of an OBJ file as figures. *)

From Coq Require Import Reals ZArith List.
From Verif Require Import NumX Vec Ray SpecReal SpecTri TinyObj SpecObj.
Import ListNotations.
Local Open Scope R_scope.

(** Triangle [i] of the file, whose vertices are the points [Q], is crossed at distance [t]. *)
Definition obj_cross (tris : list tri) (Q : Z -> vec R) (O U : vec R) (m : R) (tmax : xr) (i : nat) (t : R) : Prop :=
  exists a b c x y z mat, nth_error tris i = Some ((a, x), (b, y), (c, z), mat) /\
    tri_det (Q a) (Q b) (Q c) U <> 0 /\ on_tri (Q a) (Q b) (Q c) (at_t O U t) /\ m <= t /\ xltb (Fin t) tmax = true.
(** The same within a tolerance. *)
Definition obj_hit (tol : R) (tris : list tri) (Q : Z -> vec R) (O U : vec R) (m : R) (tmax : xr) (i : nat) (t : R) : Prop :=
  exists a b c x y z mat, nth_error tris i = Some ((a, x), (b, y), (c, z), mat) /\
    tri_det (Q a) (Q b) (Q c) U <> 0 /\ (exists u v, near_tri tol (Q a) (Q b) (Q c) U (at_t O U t) u v) /\
    m <= t /\ xltb (Fin t) tmax = true.
(** The record's uv coordinates locate the hit point in triangle [i]. *)
Definition obj_about (tris : list tri) (Q : Z -> vec R) (O U : vec R) (i : nat) (t : R) (rh : rayhit xr) : Prop :=
  exists a b c x y z mat u v, nth_error tris i = Some ((a, x), (b, y), (c, z), mat) /\
    isR (fst (h_uv rh)) u /\ isR (snd (h_uv rh)) v /\ at_t O U t = bary (Q a) (Q b) (Q c) u v.

(** The vertices of the file, after [g], are the points [Q]. *)
Definition points (g : vec xr -> vec xr) (file : list (vec xr)) (Q : Z -> vec R) : Prop :=
  forall j p, nth_error file j = Some p -> visR (g p) (Q (Z.of_nat j)).
(** What the examples pass to the library. *)
Definition face_nat (f : vec Z) : vec nat := V (Z.to_nat (vx f)) (Z.to_nat (vy f)) (Z.to_nat (vz f)).
