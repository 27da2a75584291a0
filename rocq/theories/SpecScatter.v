(** Vocabulary for the choice of an interaction in examples/path_tracer/main.cc. *)

From Coq Require Import Reals Bool.
From Verif Require Import Num NumX Vec PathTracer SpecReal SpecOptics.
Local Open Scope R_scope.

(** [e] is the interaction that belongs to the random number [r] in [0, 1]: none if all
    are unlikely, else the one whose interval holds [r]. *)
Definition chosen_by (s : surface) (f r : R) (e : event) : Prop :=
  (e = Stop <-> likely_sum s f < 1 / 10000) /\
  (1 / 10000 <= likely_sum s f -> r < 1 -> forall e', e' <> Stop -> (e = e' <-> from s f e' <= r < from s f e' + share s f e')) /\
  (1 / 10000 <= likely_sum s f -> r = 1 -> e = Emit).

(** The shares are the probabilities of the four interactions. *)
Definition shares_ok (s : surface) (f : R) : Prop :=
  (forall e, 0 <= share s f e) /\ share s f Glossy + share s f Diffuse + share s f Refract + share s f Emit = 1.

(** The normal on the side of an arriving ray. *)
Definition facing (N U : vec R) : vec R := if Rle_dec (rv_dot N U) 0 then N else rv_scale (-1) N.
