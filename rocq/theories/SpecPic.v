(** Pictures of scenes, and the scene of the example scene_primitives. *)

From Coq Require Import Reals ZArith List.
From Verif Require Import NumX Vec SpecReal SpecScene.
Local Open Scope R_scope.

(** The line of sight of pixel (x, y). *)
Definition line_of_sight (width height x y : Z) : vec R :=
  V (IZR x / IZR width - / 2) (IZR y / IZR height - / 2) (-1).
Definition eye : vec R := V 0 5 20.

(** The bytes of a pixel. *)
Definition black : vec Z := V 0%Z 0%Z 0%Z.
Definition red : vec Z := V 255%Z 0%Z 0%Z.
Definition green : vec Z := V 0%Z 255%Z 0%Z.

(** The colour of the scene that a history made, along [U]: black if nothing is crossed, else
    red if the nearest primitive is the first of its geometry, and green otherwise. *)
Definition scene_shows (tol : R) (cs : list (call xr)) (l : list (reply xr)) (O U : vec R) (far : xr) (c : vec Z) : Prop :=
  (c = black /\ forall g k j u, geometry_of cs l g k -> ~ call_cross O U 0 far k j u) \/
  (exists g k i t, geometry_of cs l g k /\ call_hit tol O U 0 far k i t /\
     (forall g k j u, geometry_of cs l g k -> call_cross O U 0 far k j u -> t <= u) /\
     ((i = 0%nat /\ c = red) \/ (i <> 0%nat /\ c = green))).

(** The four solids of the example, without and with their surfaces. *)
Record solid := Solid { inner : vec R -> Prop; closed : vec R -> Prop }.
Definition tube (x0 x1 y r : R) : solid := {|
  inner p := x0 < vx p < x1 /\ (vy p - y) * (vy p - y) + vz p * vz p < r * r;
  closed p := x0 <= vx p <= x1 /\ (vy p - y) * (vy p - y) + vz p * vz p <= r * r |}.
Definition ball (x y r : R) : solid := {|
  inner p := (vx p - x) * (vx p - x) + (vy p - y) * (vy p - y) + vz p * vz p < r * r;
  closed p := (vx p - x) * (vx p - x) + (vy p - y) * (vy p - y) + vz p * vz p <= r * r |}.
Definition tube1 : solid := tube (-7/2) (-5/2) 3 1.
Definition tube2 : solid := tube 0 2 4 (1/2).
Definition ball1 : solid := ball 1 1 (1/2).
Definition ball2 : solid := ball (-2) 10 (3/2).

(** A picture of coloured solids: black if the line of sight runs into none of them, else the
    colour of one that is reached before the interior of any. *)
Definition solids_show (things : list (solid * vec Z)) (O U : vec R) (c : vec Z) : Prop :=
  (c = black /\ forall s k t, In (s, k) things -> 0 < t -> ~ inner s (at_t O U t)) \/
  (exists s t, In (s, c) things /\ 0 < t /\ closed s (at_t O U t) /\
     forall s' k u, In (s', k) things -> 0 < u < t -> ~ inner s' (at_t O U u)).
