(** datatypes.h: the functions not used by the rest of the library. *)

From Coq Require Import ZArith Bool.
From Verif Require Import Num Vec.
Local Open Scope Z_scope.

Section Model.
Context {T : Type} {N : num T}.

(** datatypes.h:95-99 intersection; blaze::min and blaze::max work on each coordinate by
    [bmin] and [bmax]. *)
Definition intersection (bmin bmax : T -> T -> T) (min_ max_ min max : vec T) : vec T * vec T :=
  (vmap2 bmin min min_, vmap2 bmax max max_).

(** datatypes.h:101-103 sgn. *)
Definition sgn (val : T) : Z := Z.b2z (nltb (nofZ 0) val) - Z.b2z (nltb val (nofZ 0)).
End Model.
