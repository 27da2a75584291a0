(** Matrices that map axes to axes. *)

From Coq Require Import Reals.
From Verif Require Import Vec.
Local Open Scope R_scope.

Definition axis_entries (w : vec R) : Prop := (vx w = 0 \/ vx w = 1 \/ vx w = -1) /\ (vy w = 0 \/ vy w = 1 \/ vy w = -1) /\ (vz w = 0 \/ vz w = 1 \/ vz w = -1).
