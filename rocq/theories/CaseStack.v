(** A call sequence on a stack of capacity 4. *)

From Coq Require Import List Arith Lia.
From Verif Require Import Num Datatypes SpecStack.
Import ListNotations.

Lemma stack_case : careful 4 [Push 7; Push 8; Pop; Push 9; Push 1; Pop; Pop] 0 /\
  run_list 4 [Push 7; Push 8; Pop; Push 9; Push 1; Pop; Pop] [] = Some [7].
Proof. split; [cbn; lia|reflexivity]. Qed.
