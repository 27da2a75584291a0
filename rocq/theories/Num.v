(** Scalar operations.

    The code is templated over a floating point type [T] (float or double).
    Every model function is written once over the operations below.  The record
    holds operations only, no laws: a theorem proved for every [num] holds for
    IEEE arithmetic with any rounding, NaN and infinities. *)

From Coq Require Import ZArith List Bool.
Import ListNotations.

Class num (T : Type) := Num {
  nadd : T -> T -> T;                 (* a + b *)
  nsub : T -> T -> T;                 (* a - b *)
  nmul : T -> T -> T;                 (* a * b *)
  ndiv : T -> T -> T;                 (* a / b *)
  nopp : T -> T;                      (* -a *)
  nabs : T -> T;                      (* std::abs, std::fabs, blaze::abs *)
  nsqrt : T -> T;                     (* std::sqrt *)
  nltb : T -> T -> bool;              (* a < b   (a > b is nltb b a) *)
  nleb : T -> T -> bool;              (* a <= b  (a >= b is nleb b a) *)
  neqb : T -> T -> bool;              (* a == b *)
  nofZ : Z -> T;                      (* static_cast<T>(integer) *)
  nmaxv : T;                          (* std::numeric_limits<T>::max() *)
  ntiny : T;                          (* std::numeric_limits<T>::min() *)
  neps : T;                           (* std::numeric_limits<T>::epsilon() *)
  npsign : T -> T -> T;               (* product_sign, blazert/datatypes.h:79-85 *)
  nround_u : T -> option Z            (* unsigned(std::round(a)); None where the
                                         conversion is undefined *)
}.

Declare Scope num_scope.
Delimit Scope num_scope with num.
Infix "+" := nadd : num_scope.
Infix "-" := nsub : num_scope.
Infix "*" := nmul : num_scope.
Infix "/" := ndiv : num_scope.
Notation "- x" := (nopp x) : num_scope.
Infix "<?" := nltb : num_scope.
Infix "<=?" := nleb : num_scope.
Infix "=?" := neqb : num_scope.

(** Outcome of a computation that may hit undefined behaviour. *)
Inductive ub :=
| UBstack            (* access outside the fixed-size stack array *)
| UBnode             (* bvh.nodes[i] out of range *)
| UBprim             (* access to a primitive's data out of range *)
| UBbin              (* bins.bin[i] out of range *)
| UBconv             (* float to unsigned conversion out of range *)
| UBtext.            (* name buffer overflown, or read though never written *)

Inductive res (A : Type) :=
| Ok (a : A)
| UB (w : ub)
| NoFuel.
Arguments Ok {A} a.
Arguments UB {A} w.
Arguments NoFuel {A}.

Definition bind {A B} (x : res A) (f : A -> res B) : res B :=
  match x with Ok a => f a | UB w => UB w | NoFuel => NoFuel end.
Notation "'do' x <- e ; f" := (bind e (fun x => f))
  (at level 200, x pattern, e at level 100, f at level 200).

(** Element access as in [v[i]] on a std::vector; [w] says what goes wrong. *)
Definition at_ {A} (w : ub) (l : list A) (i : nat) : res A :=
  match nth_error l i with Some a => Ok a | None => UB w end.

(** [v[i] = a]. *)
Fixpoint list_set {A} (l : list A) (i : nat) (a : A) : list A :=
  match l, i with
  | [], _ => []
  | _ :: l', O => a :: l'
  | x :: l', S i' => x :: list_set l' i' a
  end.

Section Std.
Context {T : Type} {N : num T}.
Local Open Scope num_scope.

(** std::min(a,b) and std::max(a,b): return the first argument unless the second
    is strictly smaller (larger). *)
Definition smin (a b : T) : T := if b <? a then b else a.
Definition smax (a b : T) : T := if a <? b then b else a.

(** std::min({x, ...}) and std::max({x, ...}): std::min_element/max_element keep
    the first extremal element. *)
Definition smin_list (x : T) (xs : list T) : T :=
  fold_left (fun r y => if y <? r then y else r) xs x.
Definition smax_list (x : T) (xs : list T) : T :=
  fold_left (fun r y => if r <? y then y else r) xs x.

Definition n0 : T := nofZ 0.
Definition n1 : T := nofZ 1.
Definition n2 : T := nofZ 2.
Definition n4 : T := nofZ 4.
Definition nhalf : T := n1 / n2.      (* 0.5 is exact in every binary format *)
End Std.
