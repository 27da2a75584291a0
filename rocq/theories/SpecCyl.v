(** Elliptic cylinders over the reals. *)

From Coq Require Import Reals List.
From Verif Require Import NumX Vec Ray Cylinder SpecReal SpecPlane.
Local Open Scope R_scope.

(** The cylinder around the z axis with semi-axes [a], [b] and height [h]. *)
Definition ellipse (a b : R) (q : vec R) : R := (vx q / a) * (vx q / a) + (vy q / b) * (vy q / b).
(** Its lateral surface, its two caps, its closed surface, the solid and the interior. *)
Definition on_side (a b h : R) (q : vec R) : Prop := ellipse a b q = 1 /\ Rabs (vz q) <= h / 2.
Definition on_top (a b h : R) (q : vec R) : Prop := ellipse a b q <= 1 /\ vz q = h / 2.
Definition on_bottom (a b h : R) (q : vec R) : Prop := ellipse a b q <= 1 /\ vz q = - (h / 2).
Definition on_surface (a b h : R) (q : vec R) : Prop :=
  on_side a b h q \/ on_top a b h q \/ on_bottom a b h q.
Definition in_solid (a b h : R) (q : vec R) : Prop := ellipse a b q <= 1 /\ Rabs (vz q) <= h / 2.
Definition inside (a b h : R) (q : vec R) : Prop := ellipse a b q < 1 /\ Rabs (vz q) < h / 2.

(** [g] is orthogonal to the surface at [q] and points outwards. *)
Definition outward (a b h : R) (q g : vec R) : Prop :=
  (on_side a b h q /\ g = V (vx q / (a * a)) (vy q / (b * b)) 0) \/
  (on_top a b h q /\ g = V 0 0 1) \/
  (on_bottom a b h q /\ g = V 0 0 (-1)).

(** World point [p] and cylinder-local point [q] are the same: rotate, then move to [C]. *)
Definition placed (C : vec R) (Rm : mat R) (q p : vec R) : Prop := p = rv_add C (rv_mul Rm q).
(** [p] lies in the set [S] of local points. *)
Definition world (S : vec R -> Prop) (C : vec R) (Rm : mat R) (p : vec R) : Prop :=
  exists q, placed C Rm q p /\ S q.

(** The line with direction [U] only touches the lateral surface at [p]: it is tangent
    to it there. *)
Definition touches (a b h : R) (C : vec R) (Rm : mat R) (U p : vec R) : Prop :=
  exists q, placed C Rm q p /\ on_side a b h q /\
    rv_dot U (rv_mul Rm (V (vx q / (a * a)) (vy q / (b * b)) 0)) = 0.

(** [n] is the outward unit normal at [p] in world coordinates. *)
Definition unit_normal (a b h : R) (C : vec R) (Rm : mat R) (p n : vec R) : Prop :=
  exists q g, placed C Rm q p /\ outward a b h q g /\ n = unit_of (rv_mul Rm g).
(** [n] is the outward unit normal at [p] in the cylinder's own coordinates. *)
Definition local_normal (a b h : R) (C : vec R) (Rm : mat R) (p n : vec R) : Prop :=
  exists q g, placed C Rm q p /\ outward a b h q g /\ n = unit_of g.

(** The ray starts inside the cylinder, is not parallel to its caps, and [p] is on the
    lateral surface. *)
Definition slanted (a b h : R) (C : vec R) (Rm : mat R) (O U p : vec R) : Prop :=
  world (inside a b h) C Rm O /\ rv_dot U (normal_of Rm) <> 0 /\ world (on_side a b h) C Rm p.

(** [p] lies in the plane of a cap but outside the cap. *)
Definition beside_cap (a b h : R) (q : vec R) : Prop := Rabs (vz q) = h / 2 /\ 1 < ellipse a b q.

(** [O] does not lie beside a cap.  From there the routine never finds the cylinder (C30). *)
Definition seen_from (C : vec R) (a b h : R) (Rm : mat R) (O : vec R) : Prop := ~ world (beside_cap a b h) C Rm O.

(** Half the width along one axis of the box that the code stores: the largest of the
    three axis tips' coordinates. *)
Definition tip_extent (a b h : R) (row : vec R) : R :=
  Rmax (Rmax (Rabs (vx row * a)) (Rabs (vy row * b))) (Rabs (vz row * (h / 2))).
Definition cyl_lower (C : vec R) (a b h : R) (Rm : mat R) : vec R :=
  V (vx C - tip_extent a b h (vx Rm)) (vy C - tip_extent a b h (vy Rm)) (vz C - tip_extent a b h (vz Rm)).
Definition cyl_upper (C : vec R) (a b h : R) (Rm : mat R) : vec R :=
  V (vx C + tip_extent a b h (vx Rm)) (vy C + tip_extent a b h (vy Rm)) (vz C + tip_extent a b h (vz Rm)).
(** At most one entry of the row differs from zero. *)
Definition axis_row (r : vec R) : Prop :=
  (vx r = 0 /\ vy r = 0) \/ (vx r = 0 /\ vz r = 0) \/ (vy r = 0 /\ vz r = 0).
(** The matrix maps every coordinate axis to a coordinate axis (or to 0). *)
Definition axis_aligned (Rm : mat R) : Prop := axis_row (vx Rm) /\ axis_row (vy Rm) /\ axis_row (vz Rm).

(** The collection's data are the finite numbers [C i], ..., [Rm i]. *)
Definition cylinders_are (s : cylinders xr) (C : nat -> vec R) (a b h : nat -> R) (Rm : nat -> mat R) : Prop :=
  forall i, (i < length (cs_centers s))%nat ->
    (exists c, nth_error (cs_centers s) i = Some c /\ visR c (C i)) /\
    (exists x, nth_error (cs_as s) i = Some x /\ isR x (a i)) /\
    (exists x, nth_error (cs_bs s) i = Some x /\ isR x (b i)) /\
    (exists x, nth_error (cs_hs s) i = Some x /\ isR x (h i)) /\
    (exists r, nth_error (cs_rots s) i = Some r /\ misR r (Rm i)).

(** The ray from [O] along [U] meets the cylinder's surface at distance [t]. *)
Definition meets C a b h Rm (O U : vec R) (t : R) : Prop :=
  0 < t /\ world (on_surface a b h) C Rm (at_t O U t).
(** It meets it there for the first time. *)
Definition first_met C a b h Rm (O U : vec R) (t : R) : Prop :=
  meets C a b h Rm O U t /\ forall u, 0 < u < t -> ~ world (on_surface a b h) C Rm (at_t O U u).
(** It does not only touch the lateral surface there. *)
Definition pierces C a b h Rm (O U : vec R) (t : R) : Prop :=
  meets C a b h Rm O U t /\ ~ touches a b h C Rm U (at_t O U t).

(** The record's normal: of unit length, normal to the surface in world coordinates
    unless the lateral surface is hit from inside along a slanted ray, in local
    coordinates then. *)
Definition cylinder_about C a b h Rm (O U : vec R) (i : nat) (t : R) (rh : rayhit xr) : Prop :=
  exists n, visR (h_normal rh) n /\ rv_norm n = 1 /\
    let S := slanted (a i) (b i) (h i) (C i) (Rm i) O U (at_t O U t) in
    (~ S /\ unit_normal (a i) (b i) (h i) (C i) (Rm i) (at_t O U t) n) \/
    (S /\ local_normal (a i) (b i) (h i) (C i) (Rm i) (at_t O U t) n).

(** [d] is the least distance from [Q] to the set [S]. *)
Definition least_to (S : vec R -> Prop) (Q : vec R) (d : R) : Prop :=
  (exists p, S p /\ d = rv_norm (rv_sub Q p)) /\ forall p, S p -> d <= rv_norm (rv_sub Q p).
(** The ellipse in the plane z = 0. *)
Definition on_ellipse (a b : R) (q : vec R) : Prop := ellipse a b q = 1 /\ vz q = 0.
