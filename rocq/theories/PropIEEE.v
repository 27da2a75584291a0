(** The node test, the builder and queries in IEEE arithmetic ([Fnum prec emax]; binary32 is
    [Fnum 24 128], binary64 is [Fnum 53 1024]). *)

From Coq Require Import Reals ZArith List Bool Arith Floats.SpecFloat.
From Flocq Require Import Core IEEE754.BinarySingleNaN.
From Verif Require Import Num NumR NumF Vec Datatypes Ray Bvh Traverse Sphere Plane Trimesh Cylinder.
From Verif Require Import SpecBvh SpecReal SpecIEEE SpecAny.
From Verif Require Import PfIEEE2 PfIEEE3 PfIEEE4 PfReject CaseIEEE.
Import ListNotations.
Local Open Scope R_scope.

(** C10: with rounding, if nothing overflows or underflows, the test passes on every box the
    exact ray meets at parameter [t], provided the current best distance exceeds [t] by four
    units of roundoff. *)
Theorem C10_ieee_partial : forall prec emax, Prec_gt_0 prec -> Prec_lt_emax prec emax -> (6 <= prec)%Z ->
  forall (P : Type) (nd : node spec_float P) o d tmin tmax hd any m M O D lo t,
  visF prec emax (nd_min nd) m -> visF prec emax (nd_max nd) M -> visF prec emax o O -> visF prec emax d D ->
  tame emax m M O D d -> tame_distance emax t ->
  (vz D = 0 -> vz m <> vz O /\ vz M <> vz O) ->
  isF prec emax tmin lo -> lo <= t -> at_least prec emax hd (t * (1 + 4 * ulpf prec)) ->
  in_box m M (at_t O D t) ->
  @intersect_node _ (Fnum prec emax) _ tmin hd nd (@make_ray _ (Fnum prec emax) o d tmin tmax any) = true.
Proof. exact node_test_ieee. Qed.
Print Assumptions C10_ieee_partial.

(** C10: without the margin it fails in binary64. *)
Theorem C10_rounding_refuted :
  exists (nd : node spec_float nat) o d tmin hd m M O D lo h t,
    visF 53 1024 (nd_min nd) m /\ visF 53 1024 (nd_max nd) M /\ visF 53 1024 o O /\ visF 53 1024 d D /\
    isF 53 1024 tmin lo /\ isF 53 1024 hd h /\ lo <= t <= h /\ in_box m M (at_t O D t) /\
    tame 1024 m M O D d /\ tame_distance 1024 t /\ (vz D = 0 -> vz m <> vz O /\ vz M <> vz O) /\
    @intersect_node _ F64 _ tmin hd nd (@make_ray _ F64 o d tmin hd false) = false.
Proof. exact rounding_refuted. Qed.
Print Assumptions C10_rounding_refuted.

Example C10_ieee_case :
  exists (nd : node spec_float nat) o d tmin tmax hd any m M O D lo t,
    visF 53 1024 (nd_min nd) m /\ visF 53 1024 (nd_max nd) M /\ visF 53 1024 o O /\ visF 53 1024 d D /\
    tame 1024 m M O D d /\ tame_distance 1024 t /\ (vz D = 0 -> vz m <> vz O /\ vz M <> vz O) /\
    isF 53 1024 tmin lo /\ lo <= t /\ at_least 53 1024 hd (t * (1 + 4 * ulpf 53)) /\
    in_box m M (at_t O D t) /\
    @intersect_node _ F64 _ tmin hd nd (@make_ray _ F64 o d tmin tmax any) = true.
Proof. exact margin_case. Qed.

(** C49: building is defined if the coordinates stay below an eighth of the overflow
    threshold, every extent is zero or a normal number, and every center lies in its box. *)
Theorem C49_moderate_partial : forall prec emax, Prec_gt_0 prec -> Prec_lt_emax prec emax -> (6 <= prec)%Z ->
  forall (P : Type) (c : coll spec_float P) bmin bmax,
  boxes_areF prec emax c bmin bmax -> moderate_boxes emax (c_size c) bmin bmax -> (34 <= emax)%Z ->
  forall opt, (1 <= bin_size opt)%nat -> (3 * Z.of_nat (bin_size opt) < 4294967296)%Z ->
  spread_boxes emax (c_size c) bmin bmax ->
  forall ctr, (forall i, (i < c_size c)%nat -> exists v, c_center c i = Ok v /\ visF prec emax v (ctr i) /\
    in_box (bmin i) (bmax i) (ctr i)) ->
  forall part, partition_ok part -> (forall i, (i < c_size c)%nat -> exists b, c_prim c i = Ok b) ->
  forall nodes, exists nodes' st, @build _ (Fnum prec emax) _ part nodes c opt = Ok (nodes', st).
Proof. exact build_ieee. Qed.
Print Assumptions C49_moderate_partial.

Example C49_moderate_case : exists nodes st,
  boxes_areF 53 1024 (sphere_coll pair_spheres) pair_min pair_max /\
  moderate_boxes 1024 (c_size (sphere_coll pair_spheres)) pair_min pair_max /\
  spread_boxes 1024 (c_size (sphere_coll pair_spheres)) pair_min pair_max /\
  (forall i, (i < c_size (sphere_coll pair_spheres))%nat -> exists v, c_center (sphere_coll pair_spheres) i = Ok v /\
     visF 53 1024 v (pair_ctr i) /\ in_box (pair_min i) (pair_max i) (pair_ctr i)) /\
  (forall i, (i < c_size (sphere_coll pair_spheres))%nat -> exists q, c_prim (sphere_coll pair_spheres) i = Ok q) /\
  @build _ F64 _ libstdcxx_partition [] (sphere_coll pair_spheres) pair_opt = Ok (nodes, st) /\ length nodes = 3%nat.
Proof. exact pair_built. Qed.

(** C71: in IEEE arithmetic a query on a built tree passes over no primitive whose box the
    exact ray meets within the interval (less the margin). *)
Theorem C71_query : forall prec emax, Prec_gt_0 prec -> Prec_lt_emax prec emax -> (6 <= prec)%Z ->
  forall (P I : Type) (c : coll spec_float P) bmin bmax,
  boxes_areF prec emax c bmin bmax -> moderate_boxes emax (c_size c) bmin bmax ->
  forall o d tmin tmax any O D lo, tame_ray prec emax o d tmin O D lo ->
  (vz D = 0 -> forall i, (i < c_size c)%nat -> vz O <> vz (bmin i) /\ vz O <> vz (bmax i)) ->
  forall part, partition_ok part -> forall opt nodes st,
  @build _ (Fnum prec emax) _ part [] c opt = Ok (nodes, st) ->
  (forall k d, node_depth nodes k d -> (d <= 26)%nat) ->
  forall pid, numbered c pid ->
  forall isx : isector spec_float P I, rejecting isx (@make_ray _ (Fnum prec emax) o d tmin tmax any) ->
  forall rh, @scanned _ _ _ (Fnum prec emax) isx
    (fun q => exists i t, (i < c_size c)%nat /\ c_prim c i = Ok q /\
       meets_at prec emax (bmin i) (bmax i) O D lo tmax t)
    (stored nodes) (@make_ray _ (Fnum prec emax) o d tmin tmax any) rh
    (@traverse _ (Fnum prec emax) _ _ isx nodes (@make_ray _ (Fnum prec emax) o d tmin tmax any) rh).
Proof. exact query_ieee_numbered. Qed.
Print Assumptions C71_query.

(** C71: all four routines qualify, in any arithmetic. *)
Theorem C71_routines : forall (T : Type) (N : num T) (s : spheres T) (m : mesh T) (r : ray T),
  rejecting (sphere_isector s) r /\ rejecting plane_isector r /\ rejecting (tri_isector m) r /\
  rejecting cylinder_isector r.
Proof. exact all_reject. Qed.
Print Assumptions C71_routines.

Example C71_case : exists nodes st rh q i t,
  @build _ F64 _ libstdcxx_partition [] (sphere_coll pair_spheres) pair_opt = Ok (nodes, st) /\
  tame_ray 53 1024 pair_o pair_d (f64 0 0) pair_O pair_D 0 /\
  (i < c_size (sphere_coll pair_spheres))%nat /\ c_prim (sphere_coll pair_spheres) i = Ok q /\
  meets_at 53 1024 (pair_min i) (pair_max i) pair_O pair_D 0 (f64 100 0) t /\
  (vz pair_D = 0 -> forall i, (i < c_size (sphere_coll pair_spheres))%nat ->
     vz pair_O <> vz (pair_min i) /\ vz pair_O <> vz (pair_max i)) /\
  @traverse _ F64 _ _ (@sphere_isector _ F64 pair_spheres) nodes
    (@make_ray _ F64 pair_o pair_d (f64 0 0) (f64 100 0) true)
    (RayHit (vconst (f64 0 0)) (f64 0 0, f64 0 0) (f64 100 0) None None) = Ok (true, rh).
Proof. exact pair_query. Qed.
