(** Spheres in IEEE arithmetic ([Fnum prec emax]; binary32 is [Fnum 24 128], binary64 is
    [Fnum 53 1024]): the routine, queries, and from centers and radii to the answer. *)

From Coq Require Import Reals ZArith List Bool Arith Floats.SpecFloat.
From Flocq Require Import Core IEEE754.BinarySingleNaN.
From Verif Require Import Num NumR NumF Vec Datatypes Ray Bvh Traverse Sphere.
From Verif Require Import SpecBvh SpecReal SpecIEEE SpecTriF SpecSphF.
From Verif Require Import PfPart PfSphF5 CaseIEEE CaseTriF CaseSphF.
Import ListNotations.
Local Open Scope R_scope.

(** C87: an accepted sphere has a surface point, up to the error in its power, at the reported
    distance, and it is not behind what was known. *)
Theorem C87_accepted : forall prec emax, Prec_gt_0 prec -> Prec_lt_emax prec emax -> usual_format prec emax ->
  forall M, scale_ok prec emax M -> forall o d c fr O U C r, visF prec emax o O -> unit_near prec emax d U -> sphere_isF prec emax M O c fr C r ->
  forall st ray id lo st', si_org st = o -> si_dir st = d -> isF prec emax (si_min st) lo -> 0 <= lo ->
  @sphere_intersect _ (Fnum prec emax) st (Sphere c fr id) ray = (true, st') ->
  si_prim st' = Some id /\
  exists t x, isF prec emax (si_hd st') x /\ 0 <= x <= 2.2 * M /\ Rabs (x - t) <= 28 * (ulpf prec * M) /\ lo < t <= 2.1 * M /\
    Rabs (power C r (at_t O U x)) <= power_err prec M /\ (forall h, isF prec emax (si_hd st) h -> t < h).
Proof. exact accepted_ready. Qed.
Print Assumptions C87_accepted.

(** C87: a sphere whose surface the ray crosses with a margin is accepted, no later than that. *)
Theorem C87_crossed : forall prec emax, Prec_gt_0 prec -> Prec_lt_emax prec emax -> usual_format prec emax ->
  forall M, scale_ok prec emax M -> forall o d c fr O U C r, visF prec emax o O -> unit_near prec emax d U -> sphere_isF prec emax M O c fr C r ->
  forall st ray id lo y0 y, si_org st = o -> si_dir st = d -> isF prec emax (si_min st) lo -> 0 <= lo -> lo <= y0 ->
  crosses (power_err prec M) C r O U y0 y -> at_least prec emax (si_hd st) y ->
  exists st' x, @sphere_intersect _ (Fnum prec emax) st (Sphere c fr id) ray = (true, st') /\
    isF prec emax (si_hd st') x /\ x <= y + 28 * (ulpf prec * M).
Proof. exact crossed_ready. Qed.
Print Assumptions C87_crossed.
Example C87_case : exists st',
  usual_format 53 1024 /\ scale_ok 53 1024 8 /\ visF 53 1024 (origin row_r0) (pR 0 0 3) /\
  unit_near 53 1024 (direction row_r0) (unit_of (pR 0 0 (-2))) /\
  sphere_isF 53 1024 8 (pR 0 0 3) (p64 0 0 0) (f64 1 0) (row_C 0) (row_r 0) /\
  crosses (power_err 53 8) (row_C 0) (row_r 0) (pR 0 0 3) (unit_of (pR 0 0 (-2))) 1 3 /\
  @sphere_intersect _ F64 (@sphere_prepare _ F64 row_r0) (Sphere (p64 0 0 0) (f64 1 0) 7) row_r0 = (true, st') /\
  isF 53 1024 (si_hd st') 2.
Proof. exact row_one. Qed.

(** C87: the margin has to be as large as that: in binary32 a ray starting 4000 units away that
    passes the center of a unit sphere at less than half a unit misses it. *)
Theorem C87_margin_refuted : exists M centers radii C r o d tmin tmax O D ss nodes st y0 y,
  sphere_ray 24 128 M centers radii C r o d tmin tmax O D 0 /\
  @make_spheres _ F32 centers radii = Ok ss /\
  @build _ F32 _ libstdcxx_partition [] (@sphere_coll _ ss) pair_opt = Ok (nodes, st) /\ length centers = 1%nat /\ r 0%nat = 1 /\
  0 < y0 /\ crosses (3 / 4) (C 0%nat) (r 0%nat) O (unit_of D) y0 y /\
  (forall any rh, @traverse _ F32 _ _ (@sphere_isector _ F32 ss) nodes (@make_ray _ F32 o d tmin tmax any) rh = Ok (false, rh)).
Proof. exact far_refuted. Qed.
Print Assumptions C87_margin_refuted.

(** C88: a query on spheres.  A miss means that no surface is crossed with a margin; a hit names a
    sphere whose surface is at the reported distance up to the error in its power, and its
    normal; and no surface is crossed before the distance of a closest-hit query. *)
Theorem C88_query : forall prec emax, Prec_gt_0 prec -> Prec_lt_emax prec emax ->
  forall M centers radii C r o d tmin tmax O D lo,
  sphere_ray prec emax M centers radii C r o d tmin tmax O D lo ->
  forall ss, @make_spheres _ (Fnum prec emax) centers radii = Ok ss ->
  forall part, partition_ok part -> forall opt nodes st, @build _ (Fnum prec emax) _ part [] (@sphere_coll _ ss) opt = Ok (nodes, st) ->
  (forall k d, node_depth nodes k d -> (d <= 26)%nat) -> forall any rh,
  (@traverse _ (Fnum prec emax) _ _ (@sphere_isector _ (Fnum prec emax) ss) nodes (@make_ray _ (Fnum prec emax) o d tmin tmax any) rh = Ok (false, rh) /\
   forall i y0 y, (i < length centers)%nat -> lo_unit lo D <= y0 -> ~ crosses (power_err prec M) (C i) (r i) O (unit_of D) y0 y) \/
  (exists rh' k x, @traverse _ (Fnum prec emax) _ _ (@sphere_isector _ (Fnum prec emax) ss) nodes (@make_ray _ (Fnum prec emax) o d tmin tmax any) rh = Ok (true, rh') /\
     (k < length centers)%nat /\ h_prim rh' = Some k /\ isF prec emax (h_distance rh') x /\
     lo - 28 * (ulpf prec * M) <= x /\ Rabs (power (C k) (r k) (at_t O (unit_of D) x)) <= power_err prec M /\
     (large prec M (r k) -> normal_near prec emax M (C k) (r k) (at_t O (unit_of D) x) (h_normal rh')) /\
     (any = false -> forall i y0 y, (i < length centers)%nat -> lo_unit lo D <= y0 ->
        crosses (power_err prec M) (C i) (r i) O (unit_of D) y0 y ->
        x <= y + 40 * (INR (length centers) + 1) * (ulpf prec * M))).
Proof. exact query_ready. Qed.
Print Assumptions C88_query.
Example C88_query_case : exists nodes st rh,
  sphere_ray 53 1024 8 row_centers row_radii row_C row_r row_o down_d (f64 0 0) (S754_infinity false) (pR 0 0 3) (pR 0 0 (-2)) 0 /\
  @make_spheres _ F64 row_centers row_radii = Ok row_spheres /\
  @build _ F64 _ libstdcxx_partition [] (@sphere_coll _ row_spheres) pair_opt = Ok (nodes, st) /\
  (forall k d, node_depth nodes k d -> (d <= 26)%nat) /\ length nodes = 3%nat /\
  crosses (power_err 53 8) (row_C 0) (row_r 0) (pR 0 0 3) (unit_of (pR 0 0 (-2))) 1 3 /\
  crosses (power_err 53 8) (row_C 1) (row_r 1) (pR 0 0 3) (unit_of (pR 0 0 (-2))) 5 7 /\
  lo_unit 0 (pR 0 0 (-2)) <= 1 /\ large 53 8 (row_r 0) /\
  @traverse _ F64 _ _ (@sphere_isector _ F64 row_spheres) nodes (@make_ray _ F64 row_o down_d (f64 0 0) (S754_infinity false) false) two_rh = Ok (true, rh) /\
  h_prim rh = Some 0%nat /\ isF 53 1024 (h_distance rh) 2 /\ visF 53 1024 (h_normal rh) (V 0 0 1).
Proof. exact row_query. Qed.

(** C88: from centers and radii to the answer. *)
Theorem C88_answer : forall prec emax, Prec_gt_0 prec -> Prec_lt_emax prec emax ->
  forall M centers radii C rad o d tmin tmax O D lo, sphere_ray prec emax M centers radii C rad o d tmin tmax O D lo ->
  forall opt, (1 <= bin_size opt)%nat -> (3 * Z.of_nat (bin_size opt) < 4294967296)%Z -> shallow opt (length centers) ->
  spread_boxes emax (length centers) (fun i => rlow prec emax (C i) (rad i)) (fun i => rhigh prec emax (C i) (rad i)) ->
  forall part, partition_ok part ->
  exists ss nodes st, @make_spheres _ (Fnum prec emax) centers radii = Ok ss /\ @build _ (Fnum prec emax) _ part [] (@sphere_coll _ ss) opt = Ok (nodes, st) /\
  forall any rh,
  (@traverse _ (Fnum prec emax) _ _ (@sphere_isector _ (Fnum prec emax) ss) nodes (@make_ray _ (Fnum prec emax) o d tmin tmax any) rh = Ok (false, rh) /\
   forall i y0 y, (i < length centers)%nat -> lo_unit lo D <= y0 -> ~ crosses (power_err prec M) (C i) (rad i) O (unit_of D) y0 y) \/
  (exists rh' k x, @traverse _ (Fnum prec emax) _ _ (@sphere_isector _ (Fnum prec emax) ss) nodes (@make_ray _ (Fnum prec emax) o d tmin tmax any) rh = Ok (true, rh') /\
     (k < length centers)%nat /\ h_prim rh' = Some k /\ isF prec emax (h_distance rh') x /\
     lo - 28 * (ulpf prec * M) <= x /\ Rabs (power (C k) (rad k) (at_t O (unit_of D) x)) <= power_err prec M /\
     (large prec M (rad k) -> normal_near prec emax M (C k) (rad k) (at_t O (unit_of D) x) (h_normal rh')) /\
     (any = false -> forall i y0 y, (i < length centers)%nat -> lo_unit lo D <= y0 ->
        crosses (power_err prec M) (C i) (rad i) O (unit_of D) y0 y ->
        x <= y + 40 * (INR (length centers) + 1) * (ulpf prec * M))).
Proof. exact @spheres_answer. Qed.
Print Assumptions C88_answer.
Example C88_answer_case : sphere_ray 53 1024 8 row_centers row_radii row_C row_r row_o down_d (f64 0 0) (S754_infinity false) (pR 0 0 3) (pR 0 0 (-2)) 0 /\
  spread_boxes 1024 (length row_centers) (fun i => rlow 53 1024 (row_C i) (row_r i)) (fun i => rhigh 53 1024 (row_C i) (row_r i)) /\
  shallow pair_opt (length row_centers).
Proof. exact row_ready. Qed.
