(** The picture of a mesh. *)

From Coq Require Import Reals ZArith List.
From Verif Require Import NumX Vec SpecReal SpecTri SpecImage SpecCamera TinyObj SpecObj SpecObjMesh.
Local Open Scope R_scope.

Definition rv_abs (v : vec R) : vec R := V (Rabs (vx v)) (Rabs (vy v)) (Rabs (vz v)).

(** Colour of the mesh at the end of the line of sight [U] from [O]: black if no face is
    crossed, else the interpolated normal's size at the nearest crossing. *)
Definition shaded (tol : R) (faces : list (vec nat)) (P : nat -> vec R) (O U : vec R) (far : xr) (c : vec xr) : Prop :=
  (visR c rv_zero /\ forall i t, ~ mesh_cross faces P O U 0 far i t) \/
  (exists i t u v, mesh_hit tol faces P O U 0 far i t /\ (forall j s, mesh_cross faces P O U 0 far j s -> t <= s) /\
     at_t O U t = bary (fa faces P i) (fb faces P i) (fc faces P i) u v /\
     (proper P faces -> mixed_normal P faces i u v <> rv_zero -> visR c (rv_abs (unit_of (mixed_normal P faces i u v))))).

(** The same for the triangles of a file, loaded as the mesh of [faces] and [P]. *)
Definition file_shaded (tol : R) (tris : list tri) (Q : Z -> vec R) (faces : list (vec nat)) (P : nat -> vec R)
    (O U : vec R) (far : xr) (c : vec xr) : Prop :=
  (visR c rv_zero /\ forall i t, ~ obj_cross tris Q O U 0 far i t) \/
  (exists i t u v, obj_hit tol tris Q O U 0 far i t /\ (forall j s, obj_cross tris Q O U 0 far j s -> t <= s) /\
     at_t O U t = bary (fa faces P i) (fb faces P i) (fc faces P i) u v /\
     (proper P faces -> mixed_normal P faces i u v <> rv_zero -> visR c (rv_abs (unit_of (mixed_normal P faces i u v))))).

(** Face [i] of the mesh has the corners of triangle [i] of the file. *)
Definition faces_of (tris : list tri) (Q : Z -> vec R) (faces : list (vec nat)) (P : nat -> vec R) : Prop :=
  length faces = length tris /\
  forall i a b c x y z mat, nth_error tris i = Some ((a, x), (b, y), (c, z), mat) ->
    fa faces P i = Q a /\ fb faces P i = Q b /\ fc faces P i = Q c.

(** The eye at [O] looking along [D] sees a picture whose pixels are coloured by [rule]. *)
Definition photograph (D Up : vec R) (w : R) (width height : Z) (img : list xr) (rule : vec R -> vec xr -> Prop) : Prop :=
  exists colour d r a, picture width height img colour /\ looking D Up d r a /\
    forall i j, (0 <= i < width)%Z -> (0 <= j < height)%Z ->
      exists U, rv_norm U = 1 /\ through_pixel d r a w width height i j U /\ rule U (colour i j).
(** Lines of sight that are level in z pass above or below all points in [level]. *)
Definition level_free (D Up O : vec R) (w : R) (width height : Z) (level : R -> Prop) : Prop :=
  forall d r a i j U, looking D Up d r a -> through_pixel d r a w width height i j U -> vz U = 0 -> ~ level (vz O).
(** The z levels at which the boxes of the faces begin and end. *)
Definition face_levels (faces : list (vec nat)) (P : nat -> vec R) (z : R) : Prop :=
  exists i, (i < length faces)%nat /\
    (z = vz (tri_lower (fa faces P i) (fb faces P i) (fc faces P i)) \/ z = vz (tri_upper (fa faces P i) (fb faces P i) (fc faces P i))).
