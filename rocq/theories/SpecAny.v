(** What a query delivers in any arithmetic, in terms of the primitive routine alone. *)

From Coq Require Import List Bool.
From Verif Require Import Num Ray Bvh Traverse.
Import ListNotations.

Section Spec.
Context {T P I : Type} {N : num T}.

(** A rejected primitive leaves the intersector as it was. *)
Definition rejecting (isx : isector T P I) (r : ray T) : Prop :=
  forall i p i', is_prim isx i p r = (false, i') -> i' = i.

(** The answer that goes with the final state of the intersector. *)
Definition verdict (isx : isector T P I) (r : ray T) (rh : rayhit T) (i : I) : res (bool * rayhit T) :=
  if nltb (is_hd isx i) (max_hit_distance r) then do rh' <- is_post isx i rh; Ok (true, rh') else Ok (false, rh).

(** [res] is an answer over [ps]: either the routine, started afresh, rejects every sure
    primitive; or the answer is that of a primitive the routine accepted, for an any-hit
    query one that it accepts when started afresh. *)
Definition scanned (isx : isector T P I) (sure : P -> Prop) (ps : list P) (r : ray T) (rh : rayhit T)
    (res : res (bool * rayhit T)) : Prop :=
  (res = verdict isx r rh (is_prepare isx r) /\
   forall q, In q ps -> sure q -> fst (is_prim isx (is_prepare isx r) q r) = false) \/
  (exists p j i, In p ps /\ is_prim isx j p r = (true, i) /\ (any_hit r = true -> j = is_prepare isx r) /\
     res = verdict isx r rh i).
End Spec.
