(** C05: the builder is defined on well-formed collections. *)

From Coq Require Import Reals ZArith List Bool Floats.SpecFloat.
From Verif Require Import Num NumX NumF Vec Bvh Sphere SpecBvh SpecReal SpecNearest.
From Verif Require Import PfDefined2 CaseOutside CaseSphere PfPart.
Import ListNotations.

(** C05: boxes and centers are real numbers within the scalar range, every center
    lies in its box, and there is at least one bin. *)
Theorem C05_build_defined : forall (P : Type) big tiny eps part (c : coll xr P) opt bmin bmax ctr nodes,
  partition_ok part ->
  boxes_are c bmin bmax ->
  (forall i, i < c_size c -> in_bounds big (bmin i) /\ in_bounds big (bmax i)) ->
  (forall i, i < c_size c -> exists v, c_center c i = Ok v /\ visR v (ctr i) /\
     in_box (bmin i) (bmax i) (ctr i)) ->
  (forall i, i < c_size c -> exists p, c_prim c i = Ok p) ->
  1 <= bin_size opt -> (3 * Z.of_nat (bin_size opt) < 4294967296)%Z ->
  exists nodes' st, @build _ (Xnum big tiny eps) _ part nodes c opt = Ok (nodes', st).
Proof.
  exact (fun P big tiny eps part c opt bmin bmax ctr nodes Hp Hb Hbd Hc Hpr H1 H2 =>
    @build_ok big tiny eps P c bmin bmax ctr Hb Hbd Hc opt H1 H2 part Hp Hpr nodes).
Qed.
Print Assumptions C05_build_defined.

(** No bins: undefined, in any arithmetic, as soon as a split is attempted. *)
Theorem C05_zero_bins : forall (T P : Type) (N : num T) part (c : coll T P) opt nodes,
  bin_size opt = 0 -> min_leaf_primitives opt < c_size c -> 0 < max_tree_depth opt ->
  (forall i, i < c_size c -> exists b, c_box c i = Ok b) ->
  (forall i, i < c_size c -> exists v, c_center c i = Ok v) ->
  exists w, build part nodes c opt = UB w.
Proof. exact zero_bins. Qed.
Print Assumptions C05_zero_bins.

(** A center outside its box (a sphere of negative radius), in binary64. *)
Theorem C05_center_outside : exists x0 x1 r0 r1, two_spheres x0 x1 r0 r1 = UB UBconv.
Proof. exact (ex_intro _ _ (ex_intro _ _ (ex_intro _ _ (ex_intro _ _ negative_radius)))). Qed.
Print Assumptions C05_center_outside.

(** C49: in binary64 well-formed collections of denormal or of huge extent are
    undefined as well.  Both examples have their centers inside their boxes. *)
Theorem C49_denormal_refuted : exists x0 x1, two_spheres x0 x1 (f64 0 0) (f64 0 0) = UB UBconv.
Proof. exact (ex_intro _ _ (ex_intro _ _ denormal_extent)). Qed.
Print Assumptions C49_denormal_refuted.
Theorem C49_huge_refuted : exists x0 x1, two_spheres x0 x1 (f64 1 0) (f64 1 0) = UB UBconv.
Proof. exact (ex_intro _ _ (ex_intro _ _ huge_extent)). Qed.
Print Assumptions C49_huge_refuted.

(** Cases: five spheres in exact arithmetic, two in binary64. *)
Example C05_case : exists s, five = Ok s /\ exists nodes st,
  @build _ (Xnum 1000 0 0) _ libstdcxx_partition [] (sphere_coll s) five_opt = Ok (nodes, st).
Proof. exact five_built. Qed.
Example C49_case : exists r, two_spheres (f64 0 0) (f64 1 0) (f64 1 (-2)) (f64 1 (-2)) = Ok r.
Proof. exact usual_extent. Qed.
