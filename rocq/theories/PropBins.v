(** C07: binning and the choice of the cut. *)

From Coq Require Import Reals ZArith List Bool.
From Verif Require Import Num NumX Vec Datatypes Bvh SpecBvh SpecReal SpecNearest SpecBins.
From Verif Require Import PfBins PfBins2 CaseBins.
Import ListNotations.
Local Open Scope R_scope.

(** Counts, in any arithmetic: along each axis they add up to the number of primitives. *)
Theorem C07_counts : forall (T P : Type) (N : num T) (c : coll T P) opt ids mn mx bins,
  (1 <= bin_size opt)%nat -> (3 * Z.of_nat (bin_size opt) < 4294967296)%Z ->
  sort_collection_into_bins c ids mn mx opt = Ok bins ->
  length bins = (3 * bin_size opt)%nat /\
  forall j, (j < 3)%nat ->
    fold_right Nat.add 0%nat (map b_count (firstn (bin_size opt) (skipn (j * bin_size opt) bins))) = length ids.
Proof. exact @sort_counts. Qed.
Print Assumptions C07_counts.

(** Boxes, in any arithmetic that orders the boxes' coordinates: each primitive has one
    bin per axis, whose box encloses it. *)
Theorem C07_boxes : forall (T P : Type) (N : num T) (ok : T -> Prop) (c : coll T P) opt ids mn mx bins,
  weak_order ok -> ok nmaxv -> ok (nopp nmaxv) ->
  (forall i, In i ids -> exists b, c_box c i = Ok b /\ vall ok (fst b) /\ vall ok (snd b)) ->
  (1 <= bin_size opt)%nat -> (3 * Z.of_nat (bin_size opt) < 4294967296)%Z ->
  sort_collection_into_bins c ids mn mx opt = Ok bins ->
  exists w : nat -> nat -> nat,
    (forall j i, (w j i < bin_size opt)%nat) /\
    forall j k, (j < 3)%nat -> (k < bin_size opt)%nat ->
      exists b, nth_error bins (j * bin_size opt + k) = Some b /\
        b_count b = length (filter (fun i => Nat.eqb (w j i) k) ids) /\
        forall i bx, In i ids -> w j i = k -> c_box c i = Ok bx -> box_in bx (b_min b, b_max b).
Proof. exact @sort_boxes. Qed.
Print Assumptions C07_boxes.

(** Exact arithmetic: the bin is the one nearest to the center, and its box the least
    one that encloses its primitives. *)
Theorem C07_bins_exact : forall (P : Type) big tiny eps (c : coll xr P) lo hi ctr opt ids mn mx m M,
  boxes_are c lo hi ->
  (forall i, (i < c_size c)%nat -> in_bounds big (lo i) /\ in_bounds big (hi i)) ->
  (forall i, (i < c_size c)%nat -> exists v, c_center c i = Ok v /\ visR v (ctr i) /\ in_box (lo i) (hi i) (ctr i)) ->
  (1 <= bin_size opt)%nat -> (3 * Z.of_nat (bin_size opt) < 4294967296)%Z ->
  (forall i, In i ids -> (i < c_size c)%nat) ->
  @compute_bounding_box _ (Xnum big tiny eps) _ c ids = Ok (mn, mx) -> hull lo hi ids m M ->
  exists bins, @sort_collection_into_bins _ (Xnum big tiny eps) _ c ids mn mx opt = Ok bins /\
  exists w : nat -> nat -> nat,
    (forall j i, In i ids -> (j < 3)%nat -> nearest_bin (bin_size opt) (comp m j) (comp M j) (comp (ctr i) j) (w j i)) /\
    forall j k, (j < 3)%nat -> (k < bin_size opt)%nat -> exists b, nth_error bins (j * bin_size opt + k) = Some b /\
      b_count b = length (filter (fun i => Nat.eqb (w j i) k) ids) /\
      (b_count b <> 0%nat -> exists a A, visR (b_min b) a /\ visR (b_max b) A /\
         hull lo hi (filter (fun i => Nat.eqb (w j i) k) ids) a A).
Proof.
  exact (fun P big tiny eps c lo hi ctr opt ids mn mx m M H1 H2 H3 H4 H5 H6 H7 H8 =>
    node_bins big tiny eps c lo hi ctr H1 H2 H3 opt H4 H5 ids H6 mn mx H7 m M H8).
Qed.
Print Assumptions C07_bins_exact.

(** Exact arithmetic: the cut on each axis is a boundary of least cost, and the axis is
    one of least cost.  All costs are assumed to be below the largest number: the
    search starts from it.  With a single bin there is no boundary to choose from. *)
Theorem C07_split_least : forall (P : Type) big tiny eps (c : coll xr P) lo hi ctr opt ids mn mx m M,
  boxes_are c lo hi ->
  (forall i, (i < c_size c)%nat -> in_bounds big (lo i) /\ in_bounds big (hi i)) ->
  (forall i, (i < c_size c)%nat -> exists v, c_center c i = Ok v /\ visR v (ctr i) /\ in_box (lo i) (hi i) (ctr i)) ->
  (1 <= bin_size opt)%nat -> (3 * Z.of_nat (bin_size opt) < 4294967296)%Z ->
  (forall i, In i ids -> (i < c_size c)%nat) ->
  @compute_bounding_box _ (Xnum big tiny eps) _ c ids = Ok (mn, mx) -> hull lo hi ids m M ->
  INR (length ids) * area m M < big ->
  exists ax cut, @find_best_split_binned _ (Xnum big tiny eps) _ c ids mn mx opt = Ok (ax, cut) /\
  exists (w : nat -> nat -> nat) (K : nat -> nat),
    (forall j i, In i ids -> (j < 3)%nat -> nearest_bin (bin_size opt) (comp m j) (comp M j) (comp (ctr i) j) (w j i)) /\
    (ax < 3)%nat /\
    (forall j, (j < 3)%nat ->
       isR (comp cut j) (comp m j + INR (K j) * ((comp M j - comp m j) / INR (bin_size opt)))) /\
    ((2 <= bin_size opt)%nat ->
     (forall j, (j < 3)%nat -> (1 <= K j < bin_size opt)%nat /\
        forall k r r', (1 <= k < bin_size opt)%nat ->
          cut_cost lo hi (w j) ids (K j) r -> cut_cost lo hi (w j) ids k r' -> r <= r') /\
     (forall j r r', (j < 3)%nat ->
        cut_cost lo hi (w ax) ids (K ax) r -> cut_cost lo hi (w j) ids (K j) r' -> r <= r')).
Proof.
  exact (fun P big tiny eps c lo hi ctr opt ids mn mx m M H1 H2 H3 H4 H5 H6 H7 H8 =>
    node_split big tiny eps c lo hi ctr H1 H2 H3 opt H4 H5 ids H6 mn mx H7 m M H8).
Qed.
Print Assumptions C07_split_least.
(** Three boxes, three bins: cut at 1 on the first axis. *)
Example C07_case : exists mn mx cut, @compute_bounding_box _ (Xnum 1000 0 0) _ three ids3 = Ok (mn, mx) /\
  @find_best_split_binned _ (Xnum 1000 0 0) _ three ids3 mn mx opt3 = Ok (0%nat, cut) /\ isR (vx cut) 1.
Proof. exact split3. Qed.
Example C07_case_hull : hull lo3 hi3 ids3 (V 0 (-2) (-1)) (V 3 2 1).
Proof. exact hull3. Qed.
Example C07_case_cost : side_cost lo3 hi3 [0; 1]%nat 80.
Proof. exact cost01. Qed.

(** The builder then splits at the cut's coordinate, which is not where neighbouring bins
    meet: among the boundaries' coordinates another one can cost less. *)
Theorem C07_cut_position_refuted : exists (c : coll xr nat) lo hi ctr opt ids mn mx cut m M x r y r',
  boxes_are c lo hi /\ (forall i, (i < c_size c)%nat -> in_bounds 1000 (lo i) /\ in_bounds 1000 (hi i)) /\
  (forall i, (i < c_size c)%nat -> exists v, c_center c i = Ok v /\ visR v (ctr i) /\ in_box (lo i) (hi i) (ctr i)) /\
  (forall i, In i ids -> (i < c_size c)%nat) /\ hull lo hi ids m M /\ INR (length ids) * area m M < 1000 /\
  @compute_bounding_box _ (Xnum 1000 0 0) _ c ids = Ok (mn, mx) /\
  @find_best_split_binned _ (Xnum 1000 0 0) _ c ids mn mx opt = Ok (0%nat, cut) /\
  isR (vx cut) x /\ cost_at lo hi ctr 0 ids x r /\
  (exists k, (1 <= k < bin_size opt)%nat /\ y = vx m + INR k * ((vx M - vx m) / INR (bin_size opt))) /\
  cost_at lo hi ctr 0 ids y r' /\ r' < r.
Proof. exact place_refutes. Qed.
Print Assumptions C07_cut_position_refuted.
