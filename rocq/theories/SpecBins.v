(** Bins along the coordinate axes and the surface-area cost of a cut, over the reals. *)

From Coq Require Import Reals List Arith Permutation.
From Verif Require Import Vec.
Import ListNotations.
Local Open Scope R_scope.

(** Coordinate [j] of a vector. *)
Definition comp {A} (v : vec A) (j : nat) : A :=
  match j with 0%nat => vx v | 1%nat => vy v | _ => vz v end.

(** Of [size] bins with equally spaced middles from [a] to [A], bin [k] has the
    middle nearest to [x]; halfway cases go up.  Everything goes to bin 0 if [a = A]. *)
Definition nearest_bin (size : nat) (a A x : R) (k : nat) : Prop :=
  (k < size)%nat /\
  (a < A -> INR k - 1 / 2 <= (x - a) / (A - a) * (INR size - 1) < INR k + 1 / 2) /\
  (~ a < A -> k = 0%nat).

(** [m], [M] is the least box that encloses the boxes [lo i], [hi i] for [i] in [S]. *)
Definition hull (lo hi : nat -> vec R) (S : list nat) (m M : vec R) : Prop :=
  forall j, (j < 3)%nat ->
    (forall i, In i S -> comp m j <= comp (lo i) j /\ comp (hi i) j <= comp M j) /\
    (exists i, In i S /\ comp (lo i) j = comp m j) /\
    (exists i, In i S /\ comp (hi i) j = comp M j).

(** Surface area of a box. *)
Definition area (m M : vec R) : R :=
  2 * ((vx M - vx m) * (vy M - vy m) + (vy M - vy m) * (vz M - vz m) + (vz M - vz m) * (vx M - vx m)).

(** The cost of a set of primitives: their number times the area of their common box. *)
Definition side_cost (lo hi : nat -> vec R) (S : list nat) (r : R) : Prop :=
  (S = [] /\ r = 0) \/ exists m M, hull lo hi S m M /\ r = INR (length S) * area m M.

(** The cost of cutting [ids] below bin [k], if primitive [i] is in bin [w i]. *)
Definition cut_cost (lo hi : nat -> vec R) (w : nat -> nat) (ids : list nat) (k : nat) (r : R) : Prop :=
  exists l q, side_cost lo hi (filter (fun i => w i <? k) ids) l /\
    side_cost lo hi (filter (fun i => k <=? w i) ids) q /\ r = l + q.

(** The cost of cutting [ids] at coordinate [x] of axis [j]: centers below [x] to the left. *)
Definition cost_at (lo hi ctr : nat -> vec R) (j : nat) (ids : list nat) (x r : R) : Prop :=
  exists L Q l q, Permutation ids (L ++ Q) /\
    (forall i, In i L -> comp (ctr i) j < x) /\ (forall i, In i Q -> x <= comp (ctr i) j) /\
    side_cost lo hi L l /\ side_cost lo hi Q q /\ r = l + q.
