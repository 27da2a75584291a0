(** Traversal: blazert/bvh/intersect.h and blazert/bvh/accel.h. *)

From Coq Require Import ZArith List Bool Arith.
From Verif Require Import Num Vec Datatypes Ray Bvh.
Import ListNotations.

(** What traversal uses of a primitive kind: [prepare_traversal], the
    intersector's [hit_distance] member, [intersect_primitive] and
    [post_traversal].  [I] is the intersector object's state. *)
Record isector (T P I : Type) := Isector {
  is_prepare : ray T -> I;
  is_hd : I -> T;
  is_prim : I -> P -> ray T -> bool * I;
  is_post : I -> rayhit T -> res (rayhit T)
}.
Arguments Isector {T P I}.
Arguments is_prepare {T P I} i.
Arguments is_hd {T P I} i.
Arguments is_prim {T P I} i.
Arguments is_post {T P I} i.

Section Model.
Context {T : Type} {N : num T} {P I : Type}.
Local Open Scope num_scope.

(** intersect.h:41-48, one axis. *)
Definition slab_axis (mn mx o inv : T) (sgn : bool) (tmin tmax : T) : T * T :=
  let l1 := n1 + n4 * neps in
  let min_ := if sgn then mx else mn in
  let max_ := if sgn then mn else mx in
  let min_ := (min_ - o) * inv in
  let max_ := (max_ - o) * inv * l1 in
  (smax min_ tmin, smin max_ tmax).

(** intersect.h:32-51 intersect_node.  The updated in/out distances are not used
    by the caller (accel.h:91-97 recomputes them), so only the answer is kept. *)
Definition intersect_node (tmin tmax : T) (nd : node T P) (r : ray T) : bool :=
  let (tmin, tmax) := slab_axis (vx (nd_min nd)) (vx (nd_max nd)) (vx (origin r))
                        (vx (direction_inv r)) (vx (direction_sign r)) tmin tmax in
  let (tmin, tmax) := slab_axis (vy (nd_min nd)) (vy (nd_max nd)) (vy (origin r))
                        (vy (direction_inv r)) (vy (direction_sign r)) tmin tmax in
  let (tmin, tmax) := slab_axis (vz (nd_min nd)) (vz (nd_max nd)) (vz (origin r))
                        (vz (direction_inv r)) (vz (direction_sign r)) tmin tmax in
  tmin <=? tmax.

(** intersect.h:66-78 intersect_leaf. *)
Fixpoint leaf_loop (isx : isector T P I) (ps : list P) (r : ray T) (hit : bool) (i : I)
    : bool * I :=
  match ps with
  | [] => (hit, i)
  | p :: ps' =>
      let (h, i') := is_prim isx i p r in
      let hit := hit || h in
      if hit && any_hit r then (hit, i') else leaf_loop isx ps' r hit i'
  end.
Definition intersect_leaf (isx : isector T P I) (nd : node T P) (r : ray T) (i : I) : bool * I :=
  leaf_loop isx (nd_prims nd) r false i.

(** accel.h:89-113, the main loop.  A stacked index is None if it is
    static_cast<unsigned>(-1).  The loop is bounded by fuel. *)
Fixpoint traverse_loop (fuel : nat) (isx : isector T P I) (nodes : list (node T P)) (r : ray T)
    (stk : stack (option nat)) (hit_distance : T) (i : I) : res I :=
  match fuel with
  | O => NoFuel
  | S fuel' =>
      if (0 <? ss stk)%nat then
        do top <- back stk;
        do nd <- match top with Some k => at_ UBnode nodes k | None => UB UBnode end;
        do stk <- pop_back (Some 0%nat) stk;
        if intersect_node (min_hit_distance r) hit_distance nd r then
          if negb (nd_leaf nd) then
            do order_near <- match nd_axis nd with
                             | Some a => match vget (direction_sign r) a with
                                         | Some s => Ok s
                                         | None => UB UBnode
                                         end
                             | None => UB UBnode
                             end;
            let near := if order_near then nd_child1 nd else nd_child0 nd in
            let far := if order_near then nd_child0 nd else nd_child1 nd in
            do stk <- push_back stk far;
            do stk <- push_back stk near;
            traverse_loop fuel' isx nodes r stk hit_distance i
          else
            let (hit, i') := intersect_leaf isx nd r i in
            if hit then
              if any_hit r then Ok i'
              else traverse_loop fuel' isx nodes r stk (is_hd isx i') i'
            else traverse_loop fuel' isx nodes r stk hit_distance i'
        else traverse_loop fuel' isx nodes r stk hit_distance i
      else Ok i
  end.

(** accel.h:79-120 traverse.  Returns the hit flag and the hit record.  Each
    iteration pops one node, so one more than the number of nodes bounds the loop
    on a tree. *)
Definition traverse (isx : isector T P I) (nodes : list (node T P)) (r : ray T) (rh : rayhit T)
    : res (bool * rayhit T) :=
  do stk <- push_back (stack_new BLAZERT_MAX_TREE_DEPTH) (Some 0%nat);
  let i := is_prepare isx r in
  do i <- traverse_loop (S (length nodes)) isx nodes r stk (max_hit_distance r) i;
  let hit := is_hd isx i <? max_hit_distance r in
  if hit then do rh' <- is_post isx i rh; Ok (true, rh')
  else Ok (false, rh).
End Model.
