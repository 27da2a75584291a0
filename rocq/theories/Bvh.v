(** BVH nodes, binning, and the SAH builder:
    blazert/bvh/{node,options,statistics,bbox,binbuffer,builder}.h. *)

From Coq Require Import ZArith List Bool Arith.
From Verif Require Import Num Vec Datatypes.
Import ListNotations.

(** BVHNode, bvh/node.h:15-41.  [leaf] is 1/0 in the code.  [axis] and the
    children are static_cast<unsigned>(-1) until set: None. *)
Record node (T P : Type) := Node {
  nd_min : vec T;
  nd_max : vec T;
  nd_leaf : bool;
  nd_axis : option nat;
  nd_child0 : option nat;
  nd_child1 : option nat;
  nd_prims : list P
}.
Arguments Node {T P}.
Arguments nd_min {T P} n.
Arguments nd_max {T P} n.
Arguments nd_leaf {T P} n.
Arguments nd_axis {T P} n.
Arguments nd_child0 {T P} n.
Arguments nd_child1 {T P} n.
Arguments nd_prims {T P} n.

(** BVHBuildOptions, bvh/options.h:14-28.  Defaults 4, BLAZERT_MAX_TREE_DEPTH
    (28, defines.h:6), 64. *)
Record options := Options { min_leaf_primitives : nat; max_tree_depth : nat; bin_size : nat }.
Definition BLAZERT_MAX_TREE_DEPTH : nat := 28.
Definition default_options : options := Options 4 BLAZERT_MAX_TREE_DEPTH 64.

(** BVHBuildStatistics, bvh/statistics.h:10-36, without the build time.
    [st_min_prims] starts at static_cast<unsigned>(-1): None, above every count. *)
Record stats := Stats {
  st_depth : nat;
  st_leaves : nat;
  st_max_prims : nat;
  st_min_prims : option nat;
  st_branches : nat;
  st_bad : nat
}.
Definition stats0 : stats := Stats 0 0 0 None 0 0.

(** A primitive collection, as far as builder and traversal use it:
    size(), get_primitive_bounding_box, get_primitive_center,
    primitive_from_collection.  Accesses may be out of range. *)
Record coll (T P : Type) := Coll {
  c_size : nat;
  c_box : nat -> res (vec T * vec T);
  c_center : nat -> res (vec T);
  c_prim : nat -> res P
}.
Arguments Coll {T P}.
Arguments c_size {T P} c.
Arguments c_box {T P} c.
Arguments c_center {T P} c.
Arguments c_prim {T P} c.

(** Element-wise lookup of a range of indices. *)
Fixpoint mapM {A B} (f : A -> res B) (l : list A) : res (list B) :=
  match l with
  | [] => Ok []
  | a :: l' => do b <- f a; do bs <- mapM f l'; Ok (b :: bs)
  end.

Section Model.
Context {T : Type} {N : num T} {P : Type}.
Local Open Scope num_scope.

(** bvh/bbox.h:27-39 compute_bounding_box over an index range. *)
Fixpoint bbox_loop (c : coll T P) (mn mx : vec T) (idxs : list nat) : res (vec T * vec T) :=
  match idxs with
  | [] => Ok (mn, mx)
  | i :: r =>
      do (bmn, bmx) <- c_box c i;
      let (mn', mx') := unity mn mx bmn bmx in
      bbox_loop c mn' mx' r
  end.
Definition compute_bounding_box (c : coll T P) (idxs : list nat) : res (vec T * vec T) :=
  bbox_loop c (vconst nmaxv) (vconst (- nmaxv)) idxs.

(** Bin, bvh/binbuffer.h:21-32. *)
Record bin := Bin { b_min : vec T; b_max : vec T; b_count : nat; b_cost : T }.
Definition new_bin : bin := Bin (vconst nmaxv) (vconst (- nmaxv)) 0 n0.

(** [bins.size - 1] on unsigned int (wraps for size 0). *)
Definition usub1 (size : nat) : Z := ((Z.of_nat size - 1) mod 4294967296)%Z.

(** binbuffer.h:86-90 for one axis [j]: pick the bin of the normalised center
    coordinate [x], count the primitive, enlarge the bin. *)
Definition bin_add (size j : nat) (x : T) (bmn bmx : vec T) (bins : list bin) : res (list bin) :=
  match nround_u x with
  | None => UB UBconv
  | Some z =>
      let idx := Z.min (usub1 size) (Z.max 0 z) in
      let k := (Z.of_nat (j * size) + idx)%Z in
      if (k <? Z.of_nat (length bins))%Z then
        do b <- at_ UBbin bins (Z.to_nat k);
        let (mn, mx) := unity (b_min b) (b_max b) bmn bmx in
        Ok (list_set bins (Z.to_nat k) (Bin mn mx (S (b_count b)) (b_cost b)))
      else UB UBbin
  end.

(** binbuffer.h:77-92: the loop over the primitives. *)
Fixpoint bins_loop (c : coll T P) (size : nat) (mn inv_size : vec T) (idxs : list nat)
    (bins : list bin) : res (list bin) :=
  match idxs with
  | [] => Ok bins
  | i :: r =>
      do (bmn, bmx) <- c_box c i;
      do ctr <- c_center c i;
      let nc := vscaler (vmulc (vsub ctr mn) inv_size) (nofZ (usub1 size)) in
      do bins <- bin_add size 0 (vx nc) bmn bmx bins;
      do bins <- bin_add size 1 (vy nc) bmn bmx bins;
      do bins <- bin_add size 2 (vz nc) bmn bmx bins;
      bins_loop c size mn inv_size r bins
  end.

(** binbuffer.h:66-95 sort_collection_into_bins. *)
Definition sort_collection_into_bins (c : coll T P) (idxs : list nat) (mn mx : vec T)
    (opt : options) : res (list bin) :=
  let size := vsub mx mn in
  let inv_size := vmap (fun s => if n0 <? s then n1 / s else n0) size in
  bins_loop c (bin_size opt) mn inv_size idxs (repeat new_bin (3 * bin_size opt)).

(** binbuffer.h:130-135: sweep from the last bin down to bin 1 of axis [j],
    storing the cost of everything from bin [i] on.  [i] counts down to 0. *)
Fixpoint sweep_left (size j i count : nat) (mn mx : vec T) (bins : list bin) : res (list bin) :=
  match i with
  | O => Ok bins
  | S i' =>
      do b <- at_ UBbin bins (j * size + i);
      let (mn', mx') := unity mn mx (b_min b) (b_max b) in
      let count' := (count + b_count b)%nat in
      let cost := nofZ (Z.of_nat count') * calculate_box_surface mn' mx' in
      sweep_left size j i' count' mn' mx'
        (list_set bins (j * size + i) (Bin (b_min b) (b_max b) (b_count b) cost))
  end.

(** binbuffer.h:142-156: sweep from bin [i] up; [k] iterations remain.  Returns
    the least cost and the bin index where the right part begins. *)
Fixpoint sweep_right (size j k i count : nat) (mn mx : vec T) (min_cost : T) (min_bin : nat)
    (bins : list bin) : res (T * nat) :=
  match k with
  | O => Ok (min_cost, min_bin)
  | S k' =>
      do b <- at_ UBbin bins (j * size + i);
      do next <- at_ UBbin bins (j * size + i + 1);
      let (mn', mx') := unity mn mx (b_min b) (b_max b) in
      let count' := (count + b_count b)%nat in
      let cost := nofZ (Z.of_nat count') * calculate_box_surface mn' mx' + b_cost next in
      if cost <? min_cost
      then sweep_right size j k' (i + 1) count' mn' mx' cost (i + 1) bins
      else sweep_right size j k' (i + 1) count' mn' mx' min_cost min_bin bins
  end.

(** binbuffer.h:124-158, one axis: both sweeps and the cut position.  [bins.size - 1]
    iterations each. *)
Definition axis_split (size j : nat) (mnj mxj : T) (bins : list bin) : res (T * T * list bin) :=
  let k := Z.to_nat (usub1 size) in
  do bins <- sweep_left size j k 0 (vconst nmaxv) (vconst (- nmaxv)) bins;
  do (min_cost, min_bin) <-
    sweep_right size j k 0 0 (vconst nmaxv) (vconst (- nmaxv)) nmaxv 1 bins;
  let cut := nofZ (Z.of_nat min_bin) * ((mxj - mnj) / nofZ (Z.of_nat size)) + mnj in
  Ok (min_cost, cut, bins).

(** binbuffer.h:114-167 find_best_split_binned: (axis, cut positions). *)
Definition find_best_split_binned (c : coll T P) (idxs : list nat) (mn mx : vec T)
    (opt : options) : res (nat * vec T) :=
  let size := bin_size opt in
  do bins <- sort_collection_into_bins c idxs mn mx opt;
  do (cost0, cut0, bins) <- axis_split size 0 (vx mn) (vx mx) bins;
  do (cost1, cut1, bins) <- axis_split size 1 (vy mn) (vy mx) bins;
  do (cost2, cut2, bins) <- axis_split size 2 (vz mn) (vz mx) bins;
  let (ax, cst) := if cost1 <? cost0 then (1, cost1) else (0, cost0) in
  let ax := if cost2 <? cst then 2 else ax in
  Ok (ax, V cut0 cut1 cut2).

(** std::partition on a range: returns the elements satisfying the predicate and
    the others, in the order in which the library leaves them. *)
Variable part : (nat -> bool) -> list nat -> list nat * list nat.

(** builder.h:213-215: the predicate, on centers that were looked up. *)
Definition left_of (c : coll T P) (axis : nat) (cut : vec T) (i : nat) : bool :=
  match c_center c i with
  | Ok ctr => match vget ctr axis, vget cut axis with
              | Some x, Some y => x <? y
              | _, _ => false
              end
  | _ => false
  end.

(** builder.h:211-224: up to [tries] attempts.  Partition; if one side is empty
    count a bad split, fall back to the middle, and try the next axis. *)
Fixpoint split_loop (c : coll T P) (tries axis : nat) (cut : vec T) (l r : list nat) (bad : nat)
    : nat * list nat * list nat * nat :=
  match tries with
  | O => (axis, l, r, bad)
  | S t =>
      let idxs := l ++ r in
      let (l', r') := part (left_of c axis cut) idxs in
      if (length l' =? 0)%nat || (length r' =? 0)%nat then
        let idxs' := l' ++ r' in
        let mid := Nat.div2 (length idxs') in
        split_loop c t ((axis + 1) mod 3) cut (firstn mid idxs') (skipn mid idxs') (S bad)
      else (axis, l', r', bad)
  end.

(** builder.h:201-226 split.  [std::partition] evaluates the predicate on each
    element, so every center is looked up: an out-of-range lookup is undefined. *)
Definition split (c : coll T P) (idxs : list nat) (mn mx : vec T) (st : stats) (opt : options)
    : res (nat * list nat * list nat * stats) :=
  do (ax, cut) <- find_best_split_binned c idxs mn mx opt;
  do _ <- mapM (c_center c) idxs;
  let '(ax, l, r, bad) := split_loop c 3 ax cut idxs [] (st_bad st) in
  Ok (ax, l, r, Stats (st_depth st) (st_leaves st) (st_max_prims st) (st_min_prims st)
                      (st_branches st) bad).

(** builder.h:133-148 create_leaf. *)
Definition create_leaf (c : coll T P) (idxs : list nat) (mn mx : vec T) : res (node T P) :=
  do ps <- mapM (c_prim c) idxs;
  Ok (Node mn mx true None None None ps).

(** builder.h:167-183 create_branch. *)
Definition create_branch (c : coll T P) (idxs : list nat) (mn mx : vec T) (st : stats)
    (opt : options) : res (node T P * list nat * list nat * stats) :=
  do (ax, l, r, st) <- split c idxs mn mx st opt;
  Ok (Node mn mx false (Some ax) None None [], l, r, st).

(** statistics.h:33-36 primitives_per_leaf and builder.h:101-102. *)
Definition stat_leaf (n : nat) (st : stats) : stats :=
  Stats (st_depth st) (S (st_leaves st)) (Nat.max n (st_max_prims st))
        (match st_min_prims st with None => Some n | Some m => Some (Nat.min n m) end)
        (st_branches st) (st_bad st).
(** builder.h:109. *)
Definition stat_branch (st : stats) : stats :=
  Stats (st_depth st) (st_leaves st) (st_max_prims st) (st_min_prims st) (S (st_branches st))
        (st_bad st).
(** builder.h:91-92. *)
Definition stat_depth (d : nat) (st : stats) : stats :=
  Stats (if (st_depth st <? d)%nat then d else st_depth st) (st_leaves st) (st_max_prims st)
        (st_min_prims st) (st_branches st) (st_bad st).

Definition set_child0 (nd : node T P) (k : nat) : node T P :=
  Node (nd_min nd) (nd_max nd) (nd_leaf nd) (nd_axis nd) (Some k) (nd_child1 nd) (nd_prims nd).
Definition set_child1 (nd : node T P) (k : nat) : node T P :=
  Node (nd_min nd) (nd_max nd) (nd_leaf nd) (nd_axis nd) (nd_child0 nd) (Some k) (nd_prims nd).

(** builder.h:84-115 build_recursive.  Returns the node array, the statistics and
    the offset of the node.  The index range is passed as a list; the partition
    acts in place on disjoint ranges, so lists suffice.  The recursion is bounded
    by fuel; running out is a distinct outcome. *)
Fixpoint build_recursive (fuel : nat) (nodes : list (node T P)) (c : coll T P) (idxs : list nat)
    (depth : nat) (st : stats) (opt : options) : res (list (node T P) * stats * nat) :=
  match fuel with
  | O => NoFuel
  | S fuel' =>
      let offset := length nodes in
      let st := stat_depth depth st in
      let n := length idxs in
      do (mn, mx) <- compute_bounding_box c idxs;
      if (n <=? min_leaf_primitives opt)%nat || (max_tree_depth opt <=? depth)%nat then
        do lf <- create_leaf c idxs mn mx;
        Ok (nodes ++ [lf], stat_leaf n st, offset)
      else
        do (branch, l, r, st) <- create_branch c idxs mn mx st opt;
        let nodes := nodes ++ [branch] in
        let st := stat_branch st in
        do (nodes, st, k0) <- build_recursive fuel' nodes c l (depth + 1) st opt;
        do nd <- at_ UBnode nodes offset;
        let nodes := list_set nodes offset (set_child0 nd k0) in
        do (nodes, st, k1) <- build_recursive fuel' nodes c r (depth + 1) st opt;
        do nd <- at_ UBnode nodes offset;
        let nodes := list_set nodes offset (set_child1 nd k1) in
        Ok (nodes, st, offset)
  end.

(** builder.h:46-65 build.  [nodes] is the BVH's node array before the call (empty
    for a fresh BVH).  std::iota fills the index array with 0..n-1.  The
    recursion depth is at most max_tree_depth, hence the fuel. *)
Definition build (nodes : list (node T P)) (c : coll T P) (opt : options)
    : res (list (node T P) * stats) :=
  do (nodes, st, _) <-
    build_recursive (S (max_tree_depth opt)) nodes c (seq 0 (c_size c)) 0 stats0 opt;
  Ok (nodes, st).
End Model.

Arguments bin T : clear implicits.
Arguments Bin {T}.
Arguments b_min {T} b.
Arguments b_max {T} b.
Arguments b_count {T} b.
Arguments b_cost {T} b.

(** The standard's contract for std::partition ([alg.partitions]): the result is
    a permutation of the range in which the elements satisfying the predicate come
    first. *)
Definition partition_ok (part : (nat -> bool) -> list nat -> list nat * list nat) : Prop :=
  forall p l, let (l1, l2) := part p l in
    (forall x, count_occ Nat.eq_dec (l1 ++ l2) x = count_occ Nat.eq_dec l x) /\
    (forall x, In x l1 -> p x = true) /\
    (forall x, In x l2 -> p x = false).

(** libstdc++'s std::__partition for bidirectional iterators: scan from both ends
    and swap misplaced pairs.  [front] skips elements already on the correct left
    side, [back] skips from the right. Used for executions and non-vacuity. *)
Fixpoint part_swap (fuel : nat) (p : nat -> bool) (l : list nat) : list nat * list nat :=
  match fuel with
  | O => ([], l)
  | S f =>
      match l with
      | [] => ([], [])
      | x :: l' =>
          if p x then let (a, b) := part_swap f p l' in (x :: a, b)
          else
            (* x is misplaced: find the last element satisfying p and swap *)
            let fix last_true (rev : list nat) : option (nat * list nat * list nat) :=
              match rev with
              | [] => None
              | y :: rev' =>
                  if p y then Some (y, rev', [])
                  else match last_true rev' with
                       | Some (z, pre, post) => Some (z, pre, y :: post)
                       | None => None
                       end
              end in
            match last_true (rev l') with
            | None => ([], l)
            | Some (y, pre, post) =>
                let (a, b) := part_swap f p (rev pre) in
                (y :: a, b ++ x :: rev post)
            end
      end
  end.
Definition libstdcxx_partition (p : nat -> bool) (l : list nat) : list nat * list nat :=
  part_swap (S (length l)) p l.
