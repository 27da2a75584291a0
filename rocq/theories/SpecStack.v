(** Stacks as lists, top first. *)

From Coq Require Import List Arith Bool.
From Verif Require Import Num Datatypes.
Import ListNotations.

Inductive op (A : Type) := Push (a : A) | Pop.
Arguments Push {A} a.
Arguments Pop {A}.

(** A sequence of calls on the code's stack. *)
Fixpoint run_stack {A} (zero : A) (ops : list (op A)) (s : stack A) : res (stack A) :=
  match ops with
  | [] => Ok s
  | Push a :: ops' => do s' <- push_back s a; run_stack zero ops' s'
  | Pop :: ops' => do s' <- pop_back zero s; run_stack zero ops' s'
  end.

(** The same on a list of at most [cap] elements.  A full stack cannot be popped
    (the code then writes past its array), nor an empty one. *)
Fixpoint run_list {A} (cap : nat) (ops : list (op A)) (l : list A) : option (list A) :=
  match ops with
  | [] => Some l
  | Push a :: ops' => if length l <? cap then run_list cap ops' (a :: l) else None
  | Pop :: ops' =>
      match l with
      | [] => None
      | _ :: l' => if length l <? cap then run_list cap ops' l' else None
      end
  end.

(** The stack has the list's size and top. *)
Definition looks_like {A} (s : stack A) (l : list A) : Prop :=
  ss s = length l /\
  back s = match l with a :: _ => Ok a | [] => UB UBstack end.

(** The number of elements after each prefix of a call sequence stays below [cap]
    and no empty stack is popped: the condition of a careful caller. *)
Fixpoint careful {A} (cap : nat) (ops : list (op A)) (n : nat) : Prop :=
  n < cap /\
  match ops with
  | [] => True
  | Push _ :: ops' => careful cap ops' (S n)
  | Pop :: ops' => match n with O => False | S m => careful cap ops' m end
  end.
