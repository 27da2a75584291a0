(** What a mesh of a sphere is. *)

From Coq Require Import Reals List.
From Verif Require Import NumX Vec SpecReal SpecTri OriginSphere.
Import ListNotations.

(** Every index refers to a vertex. *)
Definition indexed {T} (m : omesh T) : Prop := forall f, In f (om_triangles m) ->
  vx f < length (om_vertices m) /\ vy f < length (om_vertices m) /\ vz f < length (om_vertices m).

(** Some face has an edge from the point [a] to the point [b], and the surface has no border: every
    edge is also run through in the opposite direction. *)
Definition edge {T} (m : omesh T) (a b : vec T) : Prop := exists f i j, In f (om_triangles m) /\
  ((i = vx f /\ j = vy f) \/ (i = vy f /\ j = vz f) \/ (i = vz f /\ j = vx f)) /\
  nth_error (om_vertices m) i = Some a /\ nth_error (om_vertices m) j = Some b.
Definition closed {T} (m : omesh T) : Prop := forall a b, edge m a b -> edge m b a.

Local Open Scope R_scope.

(** [p] is in the closed cone over the triangle, or within it. *)
Definition in_cone (A B C p : vec R) : Prop := exists a b c, 0 <= a /\ 0 <= b /\ 0 <= c /\
  p = rv_add (rv_add (rv_scale a A) (rv_scale b B)) (rv_scale c C).
Definition within_cone (A B C p : vec R) : Prop := exists a b c, 0 < a /\ 0 < b /\ 0 < c /\
  p = rv_add (rv_add (rv_scale a A) (rv_scale b B)) (rv_scale c C).

(** The square of the distance of two points. *)
Definition dist2 (A B : vec R) : R := rv_dot (rv_sub B A) (rv_sub B A).
