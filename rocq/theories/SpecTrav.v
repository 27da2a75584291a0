(** Outcomes and visited nodes of a traversal. *)

From Coq Require Import ZArith List Bool Arith.
From Verif Require Import Num Vec Datatypes Ray Bvh Traverse.
Import ListNotations.

Section Spec.
Context {T : Type} {N : num T} {P I : Type}.

(** A query ran to its end: it missed and left the record alone, or it hit and
    the record is what the primitive kind's post_traversal makes of it. *)
Definition finished (isx : isector T P I) (rh : rayhit T) (res : res (bool * rayhit T)) : Prop :=
  res = Ok (false, rh) \/
  exists i, res = (do rh' <- is_post isx i rh; Ok (true, rh')).

(** The main loop of Traverse.traverse_loop, also recording the nodes it pops
    (latest first). *)
Fixpoint trace_loop (fuel : nat) (isx : isector T P I) (nodes : list (node T P)) (r : ray T)
    (stk : stack (option nat)) (hit_distance : T) (i : I) (seen : list nat) : res (I * list nat) :=
  match fuel with
  | O => NoFuel
  | S fuel' =>
      if (0 <? ss stk)%nat then
        do top <- back stk;
        do (k, nd) <- match top with
                      | Some k => do nd <- at_ UBnode nodes k; Ok (k, nd)
                      | None => UB UBnode end;
        do stk <- pop_back (Some 0%nat) stk;
        let seen := k :: seen in
        if intersect_node (min_hit_distance r) hit_distance nd r then
          if negb (nd_leaf nd) then
            do order_near <- match nd_axis nd with
                             | Some a => match vget (direction_sign r) a with
                                         | Some s => Ok s
                                         | None => UB UBnode
                                         end
                             | None => UB UBnode
                             end;
            let near := if order_near then nd_child1 nd else nd_child0 nd in
            let far := if order_near then nd_child0 nd else nd_child1 nd in
            do stk <- push_back stk far;
            do stk <- push_back stk near;
            trace_loop fuel' isx nodes r stk hit_distance i seen
          else
            let (hit, i') := intersect_leaf isx nd r i in
            if hit then
              if any_hit r then Ok (i', seen)
              else trace_loop fuel' isx nodes r stk (is_hd isx i') i' seen
            else trace_loop fuel' isx nodes r stk hit_distance i' seen
        else trace_loop fuel' isx nodes r stk hit_distance i seen
      else Ok (i, seen)
  end.

(** The loop as [traverse] starts it, with its trace. *)
Definition trace (isx : isector T P I) (nodes : list (node T P)) (r : ray T) : res (I * list nat) :=
  do stk <- push_back (stack_new BLAZERT_MAX_TREE_DEPTH) (Some 0%nat);
  trace_loop (S (length nodes)) isx nodes r stk (max_hit_distance r) (is_prepare isx r) [].

(** What [traverse] does with the loop's final state. *)
Definition conclude (isx : isector T P I) (r : ray T) (rh : rayhit T) (x : res (I * list nat))
    : res (bool * rayhit T) :=
  do (i, _) <- x;
  if nltb (is_hd isx i) (max_hit_distance r)
  then do rh' <- is_post isx i rh; Ok (true, rh') else Ok (false, rh).
End Spec.
