(** What it means for a node array to be a BVH over a collection, stated on the
    raw array only. *)

From Coq Require Import ZArith List Bool Arith Permutation.
From Verif Require Import Num Vec Bvh.
Import ListNotations.

Section Spec.
Context {T P : Type}.
Implicit Types (nodes : list (node T P)) (nd : node T P).

(** Node [k] is a child of the branch node [p]. *)
Definition is_child nodes (p k : nat) : Prop :=
  exists nd, nth_error nodes p = Some nd /\ nd_leaf nd = false /\
             (nd_child0 nd = Some k \/ nd_child1 nd = Some k).

(** Node [k] lies at depth [d] below node 0. *)
Inductive node_depth nodes : nat -> nat -> Prop :=
| depth_root : nodes <> [] -> node_depth nodes 0 0
| depth_child p k d : node_depth nodes p d -> is_child nodes p k -> node_depth nodes k (S d).

(** Node [j] lies in the subtree of node [k]. *)
Inductive below nodes : nat -> nat -> Prop :=
| below_refl k : k < length nodes -> below nodes k k
| below_step k p j : below nodes k p -> is_child nodes p j -> below nodes k j.

Definition leaves nodes : list (node T P) := filter nd_leaf nodes.
Definition branches nodes : list (node T P) := filter (fun nd => negb (nd_leaf nd)) nodes.

(** The primitives stored in the whole array, in array order. *)
Definition stored nodes : list P := concat (map nd_prims nodes).

(** Node layout: a binary tree in preorder, rooted at node 0. *)
Definition is_tree nodes : Prop :=
  nodes <> [] /\
  (forall p nd, nth_error nodes p = Some nd -> nd_leaf nd = false ->
     exists a c1, nd_axis nd = Some a /\ a < 3 /\
       nd_child0 nd = Some (S p) /\ nd_child1 nd = Some c1 /\
       S p < c1 /\ c1 < length nodes /\ nd_prims nd = []) /\
  (forall p nd, nth_error nodes p = Some nd -> nd_leaf nd = true ->
     nd_axis nd = None /\ nd_child0 nd = None /\ nd_child1 nd = None) /\
  (forall k, 0 < k -> k < length nodes -> exists! p, is_child nodes p k) /\
  (forall p, ~ is_child nodes p 0) /\
  (forall k, k < length nodes -> exists d, node_depth nodes k d).

(** The statistics describe the array. *)
Definition stats_describe nodes (st : stats) : Prop :=
  st_leaves st = length (leaves nodes) /\
  st_branches st = length (branches nodes) /\
  st_leaves st = S (st_branches st) /\
  (exists k, node_depth nodes k (st_depth st)) /\
  (forall k d, node_depth nodes k d -> d <= st_depth st) /\
  (exists nd, In nd (leaves nodes) /\ length (nd_prims nd) = st_max_prims st) /\
  (forall nd, In nd (leaves nodes) -> length (nd_prims nd) <= st_max_prims st) /\
  (exists m, st_min_prims st = Some m /\
     (exists nd, In nd (leaves nodes) /\ length (nd_prims nd) = m) /\
     (forall nd, In nd (leaves nodes) -> m <= length (nd_prims nd))).
End Spec.

Section SpecColl.
Context {T P : Type} {N : num T}.
Implicit Types (nodes : list (node T P)) (c : coll T P).

(** [pid] reads the primitive id that [c] puts into each primitive object
    (Sphere::prim_id and so on). *)
Definition numbered c (pid : P -> nat) : Prop :=
  forall i p, c_prim c i = Ok p -> pid p = i.

(** The primitives stored in the array are the primitives 0..n-1, each once, each
    with the data of that primitive. *)
Definition stores_each_once c (pid : P -> nat) nodes : Prop :=
  Permutation (map pid (stored nodes)) (seq 0 (c_size c)) /\
  forall p, In p (stored nodes) -> c_prim c (pid p) = Ok p.

(** Primitive [p] is stored in a leaf below node [k]. *)
Definition stored_below nodes (k : nat) (p : P) : Prop :=
  exists j nd, below nodes k j /\ nth_error nodes j = Some nd /\ In p (nd_prims nd).

(** Comparison of the scalars satisfying [ok] is a strict weak order. *)
Record weak_order (ok : T -> Prop) : Prop := {
  wo_irrefl : forall a, ok a -> nltb a a = false;
  wo_asym : forall a b, ok a -> ok b -> nltb a b = true -> nltb b a = false;
  wo_negtrans : forall a b d, ok a -> ok b -> ok d ->
    nltb a b = false -> nltb b d = false -> nltb a d = false }.

Definition vall (ok : T -> Prop) (v : vec T) : Prop := ok (vx v) /\ ok (vy v) /\ ok (vz v).

(** No component of [u] is below that of [v]. *)
Definition vnlt (u v : vec T) : Prop :=
  nltb (vx u) (vx v) = false /\ nltb (vy u) (vy v) = false /\ nltb (vz u) (vz v) = false.

(** Box [b] lies inside box [b']. *)
Definition box_in (b b' : vec T * vec T) : Prop :=
  vnlt (fst b) (fst b') /\ vnlt (snd b') (snd b).

Definition nbox (nd : node T P) : vec T * vec T := (nd_min nd, nd_max nd).

(** Each node's box encloses the boxes of the primitives below it and of its
    children, and lies in every other box that encloses those primitives. *)
Definition boxes_enclose (ok : T -> Prop) c (pid : P -> nat) nodes : Prop :=
  (forall k nd p b, nth_error nodes k = Some nd -> stored_below nodes k p ->
     c_box c (pid p) = Ok b -> box_in b (nbox nd)) /\
  (forall k j nd nd', is_child nodes k j -> nth_error nodes k = Some nd ->
     nth_error nodes j = Some nd' -> box_in (nbox nd') (nbox nd)) /\
  (forall k nd b', nth_error nodes k = Some nd ->
     vall ok (fst b') -> vall ok (snd b') ->
     vnlt (vconst nmaxv) (fst b') -> vnlt (snd b') (vconst (nopp nmaxv)) ->
     (forall p b, stored_below nodes k p -> c_box c (pid p) = Ok b -> box_in b b') ->
     box_in (nbox nd) b').

(** The options bound depth and leaf sizes. *)
Definition respects (opt : options) (n : nat) nodes : Prop :=
  (forall k d, node_depth nodes k d -> d <= max_tree_depth opt) /\
  (forall k d nd, node_depth nodes k d -> nth_error nodes k = Some nd -> nd_leaf nd = true ->
     d < max_tree_depth opt -> length (nd_prims nd) <= min_leaf_primitives opt) /\
  (* a branch lies above the depth limit and has more than min_leaf_primitives below it *)
  (forall k d nd, node_depth nodes k d -> nth_error nodes k = Some nd -> nd_leaf nd = false ->
     d < max_tree_depth opt /\
     exists ps, min_leaf_primitives opt < length ps /\ NoDup ps /\
       forall j i, In (j, i) ps -> exists ndj p, below nodes k j /\
         nth_error nodes j = Some ndj /\ nth_error (nd_prims ndj) i = Some p) /\
  (1 <= min_leaf_primitives opt -> 1 <= n ->
     (forall nd, In nd nodes -> nd_leaf nd = true -> nd_prims nd <> []) /\
     length nodes <= 2 * n - 1).
End SpecColl.

(** The options keep the tree of [n] primitives at depth 26 or less: that is the depth limit,
    or there are too few primitives. *)
Definition shallow (opt : options) (n : nat) : Prop :=
  max_tree_depth opt <= 26 \/ (1 <= min_leaf_primitives opt /\ n <= 26 + min_leaf_primitives opt).
