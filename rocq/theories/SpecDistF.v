(** Distances from points to surfaces. *)

From Coq Require Import Reals.
From Verif Require Import Num Vec SpecReal.
Local Open Scope R_scope.

(** [d] is the distance from [P] to the set [S], and is attained. *)
Definition distance_is (S : vec R -> Prop) (P : vec R) (d : R) : Prop :=
  (forall q, S q -> d <= rv_norm (rv_sub q P)) /\ exists q, S q /\ rv_norm (rv_sub q P) = d.
