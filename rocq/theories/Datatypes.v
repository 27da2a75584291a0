(** blazert/datatypes.h: the fixed-size stack and the box helpers. *)

From Coq Require Import ZArith List Bool.
From Verif Require Import Num Vec.
Import ListNotations.

(** [Stack<T, capacity>], datatypes.h:61-69.  [slots] is the array (None: slot
    not yet written), [ss] the size.  Capacity is [length slots]. *)
Record stack (A : Type) := Stack { slots : list (option A); ss : nat }.
Arguments Stack {A} slots ss.
Arguments slots {A} s.
Arguments ss {A} s.

(** datatypes.h:63-64: fresh stack. *)
Definition stack_new {A} (capacity : nat) : stack A := Stack (repeat None capacity) 0.

(** datatypes.h:65: [stack[ss++] = node]. *)
Definition push_back {A} (s : stack A) (a : A) : res (stack A) :=
  if ss s <? length (slots s) then Ok (Stack (list_set (slots s) (ss s) (Some a)) (S (ss s)))
  else UB UBstack.

(** datatypes.h:66: [stack[ss--] = 0] writes the slot at index [ss], that is one
    past the top element, and then decrements.  Popping an empty stack wraps the
    size around and is counted as undefined. *)
Definition pop_back {A} (zero : A) (s : stack A) : res (stack A) :=
  if ss s <? length (slots s) then
    match ss s with
    | O => UB UBstack
    | S n => Ok (Stack (list_set (slots s) (ss s) (Some zero)) n)
    end
  else UB UBstack.

(** datatypes.h:67: [stack[ss - 1]]. *)
Definition back {A} (s : stack A) : res A :=
  match ss s with
  | O => UB UBstack
  | S n => match nth_error (slots s) n with
           | Some (Some a) => Ok a
           | _ => UB UBstack
           end
  end.

Section Box.
Context {T : Type} {N : num T}.
Local Open Scope num_scope.

(** datatypes.h:87-93 [unity]: [min_[k] = std::min(min[k], min_[k])] and
    [max_[k] = std::max(max[k], max_[k])]. *)
Definition unity (min_ max_ min max : vec T) : vec T * vec T :=
  (vmap2 smin min min_, vmap2 smax max max_).

(** bvh/binbuffer.h:15-19 calculate_box_surface. *)
Definition calculate_box_surface (min max : vec T) : T :=
  let box := vmap nabs (vsub max min) in
  n2 * (vx box * vy box + vy box * vz box + vz box * vx box).
End Box.
