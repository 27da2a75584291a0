(** Plane patches in IEEE arithmetic ([Fnum prec emax]; binary32 is [Fnum 24 128], binary64 is
    [Fnum 53 1024]): the routine, queries, and from the patches' numbers to the answer. *)

From Coq Require Import Reals ZArith List Bool Arith Floats.SpecFloat.
From Flocq Require Import Core IEEE754.BinarySingleNaN.
From Verif Require Import Num NumR NumF Vec Datatypes Ray Bvh Traverse Plane.
From Verif Require Import SpecBvh SpecReal SpecIEEE SpecTriF SpecSphF SpecPlane SpecPlaneF.
From Verif Require Import PfPart PfPlaneF9 CaseIEEE CaseTriF CaseSphF CasePlaneF.
Import ListNotations.
Local Open Scope R_scope.

(** C89: an accepted patch is at the reported distance up to the error, the normal is right up to
    rounding, and the hit is not behind what was known. *)
Theorem C89_accepted : forall prec emax, Prec_gt_0 prec -> Prec_lt_emax prec emax -> usual_format prec emax ->
  forall M, scale_ok prec emax M -> forall o d c fdx fdy m O U C dx dy Q,
  visF prec emax o O -> unit_near prec emax d U -> plane_isF prec emax M O c fdx fdy m C dx dy Q ->
  forall st ray id lo st', pi_org st = o -> pi_dir st = d -> isF prec emax (pi_min st) lo -> 0 <= lo ->
  @plane_intersect _ (Fnum prec emax) st (Plane c fdx fdy m id) ray = (true, st') ->
  pi_prim st' = Some id /\
  exists t x, isF prec emax (pi_hd st') x /\ 0 <= x <= 3.2 * M /\ Rabs (x - t) <= 125 * (ulpf prec * M) /\ lo < t <= 3.1 * M /\
    near_patch (patch_err prec M) C dx dy Q (at_t O U x) /\ (forall h, isF prec emax (pi_hd st) h -> t < h) /\
    patch_normal prec emax M C dx dy Q O (at_t O U x) (@normalize _ (Fnum prec emax) (pi_normal st')).
Proof. exact patch_accepted_ready. Qed.
Print Assumptions C89_accepted.
(** C89: a patch that the ray pierces with a margin is accepted, no later than the margin allows. *)
Theorem C89_pierced : forall prec emax, Prec_gt_0 prec -> Prec_lt_emax prec emax -> usual_format prec emax ->
  forall M, scale_ok prec emax M -> forall o d c fdx fdy m O U C dx dy Q,
  visF prec emax o O -> unit_near prec emax d U -> plane_isF prec emax M O c fdx fdy m C dx dy Q ->
  forall st ray id lo l t, pi_org st = o -> pi_dir st = d -> isF prec emax (pi_min st) lo -> 0 <= lo -> lo <= l ->
  pierces (patch_err prec M) C dx dy Q O U l t -> at_least prec emax (pi_hd st) (t + patch_err prec M / steepness Q U) ->
  exists st' x, @plane_intersect _ (Fnum prec emax) st (Plane c fdx fdy m id) ray = (true, st') /\
    isF prec emax (pi_hd st') x /\ x <= t + patch_err prec M / steepness Q U.
Proof. exact patch_pierced_ready. Qed.
Print Assumptions C89_pierced.
Example C89_case : exists st',
  usual_format 53 1024 /\ scale_ok 53 1024 8 /\ visF 53 1024 (origin row_r0) (pR 0 0 3) /\
  unit_near 53 1024 (direction row_r0) (unit_of (pR 0 0 (-2))) /\
  plane_isF 53 1024 8 (pR 0 0 3) (p64 0 1 0) (f64 4 0) (f64 4 0) slope_m (pan_C 0) (pan_d 0) (pan_d 0) (pan_Q 0) /\
  pierces (patch_err 53 8) (pan_C 0) (pan_d 0) (pan_d 0) (pan_Q 0) (pR 0 0 3) (unit_of (pR 0 0 (-2))) (lo_unit 0 (pR 0 0 (-2))) (15 / 4) /\
  @plane_intersect _ F64 (@plane_prepare _ F64 row_r0) (Plane (p64 0 1 0) (f64 4 0) (f64 4 0) slope_m 7) row_r0 = (true, st') /\
  isF 53 1024 (pi_hd st') (8444249301319681 / 2251799813685248).
Proof. exact pan_one. Qed.

(** C89: without a margin this is false: in binary32 a grazing ray through the exact center of a small
    patch misses it. *)
Theorem C89_margin_refuted : exists M centers dxs dys rots C dx dy Q o d tmin tmax O D ps nodes st t,
  patch_ray 24 128 M centers dxs dys rots C dx dy Q o d tmin tmax O D 0 /\
  @make_planes _ F32 centers dxs dys rots = Ok ps /\
  @build _ F32 _ libstdcxx_partition [] (@plane_coll _ ps) pair_opt = Ok (nodes, st) /\ length centers = 1%nat /\
  local (C 0%nat) (Q 0%nat) (at_t O (unit_of D) t) = V 0 0 0 /\ dx 0%nat = 3 / 32 /\ dy 0%nat = 3 / 32 /\ steepness (Q 0%nat) (unit_of D) = 1 / 297 /\
  pierces (patch_err 24 M / 1280) (C 0%nat) (dx 0%nat) (dy 0%nat) (Q 0%nat) O (unit_of D) 0 t /\
  (forall any rh, @traverse _ F32 _ _ (@plane_isector _ F32) nodes (@make_ray _ F32 o d tmin tmax any) rh = Ok (false, rh)).
Proof. exact graze_refuted. Qed.
Print Assumptions C89_margin_refuted.

(** C90: a query on patches.  A miss means that no patch is pierced with a margin; a hit names a patch
    at the reported distance up to the error, and a normal of it; and no patch is pierced much before
    the distance of a closest-hit query. *)
Theorem C90_query : forall prec emax, Prec_gt_0 prec -> Prec_lt_emax prec emax ->
  forall M centers dxs dys rots C dx dy Q o d tmin tmax O D lo,
  patch_ray prec emax M centers dxs dys rots C dx dy Q o d tmin tmax O D lo ->
  forall ps, @make_planes _ (Fnum prec emax) centers dxs dys rots = Ok ps ->
  forall part, partition_ok part -> forall opt nodes st, @build _ (Fnum prec emax) _ part [] (@plane_coll _ ps) opt = Ok (nodes, st) ->
  (forall j d, node_depth nodes j d -> (d <= 26)%nat) -> forall any rh,
  (@traverse _ (Fnum prec emax) _ _ (@plane_isector _ (Fnum prec emax)) nodes (@make_ray _ (Fnum prec emax) o d tmin tmax any) rh = Ok (false, rh) /\
   forall i t, (i < length centers)%nat -> ~ pierces (patch_err prec M) (C i) (dx i) (dy i) (Q i) O (unit_of D) (lo_unit lo D) t) \/
  (exists rh' j x, @traverse _ (Fnum prec emax) _ _ (@plane_isector _ (Fnum prec emax)) nodes (@make_ray _ (Fnum prec emax) o d tmin tmax any) rh = Ok (true, rh') /\
     (j < length centers)%nat /\ h_prim rh' = Some j /\ isF prec emax (h_distance rh') x /\ lo - 125 * (ulpf prec * M) <= x /\
     near_patch (patch_err prec M) (C j) (dx j) (dy j) (Q j) (at_t O (unit_of D) x) /\
     patch_normal prec emax M (C j) (dx j) (dy j) (Q j) O (at_t O (unit_of D) x) (h_normal rh') /\
     (any = false -> forall i t, (i < length centers)%nat -> pierces (patch_err prec M) (C i) (dx i) (dy i) (Q i) O (unit_of D) (lo_unit lo D) t ->
        x <= t + patch_err prec M / steepness (Q i) (unit_of D) + 128 * INR (length centers) * (ulpf prec * M))).
Proof. exact patch_query_ready. Qed.
Print Assumptions C90_query.
Example C90_query_case : exists nodes st rh,
  patch_ray 53 1024 8 pan_centers pan_sides pan_sides pan_rots pan_C pan_d pan_d pan_Q
    row_o down_d (f64 0 0) (S754_infinity false) (pR 0 0 3) (pR 0 0 (-2)) 0 /\
  @make_planes _ F64 pan_centers pan_sides pan_sides pan_rots = Ok pan_planes /\
  @build _ F64 _ libstdcxx_partition [] (@plane_coll _ pan_planes) pair_opt = Ok (nodes, st) /\
  (forall k d, node_depth nodes k d -> (d <= 26)%nat) /\ length nodes = 3%nat /\
  pierces (patch_err 53 8) (pan_C 0) (pan_d 0) (pan_d 0) (pan_Q 0) (pR 0 0 3) (unit_of (pR 0 0 (-2))) (lo_unit 0 (pR 0 0 (-2))) (15 / 4) /\
  pierces (patch_err 53 8) (pan_C 1) (pan_d 1) (pan_d 1) (pan_Q 1) (pR 0 0 3) (unit_of (pR 0 0 (-2))) (lo_unit 0 (pR 0 0 (-2))) 7 /\
  steepness (pan_Q 0) (unit_of (pR 0 0 (-2))) = 4 / 5 /\
  @traverse _ F64 _ _ (@plane_isector _ F64) nodes (@make_ray _ F64 row_o down_d (f64 0 0) (S754_infinity false) false) two_rh = Ok (true, rh) /\
  h_prim rh = Some 0%nat /\ isF 53 1024 (h_distance rh) (8444249301319681 / 2251799813685248) /\ h_normal rh = V (f64 0 0) (@nopp _ F64 f06) f08.
Proof. exact pan_query. Qed.

(** C90: from the patches' numbers to the answer: the construction succeeds, and queries are right. *)
Theorem C90_answer : forall prec emax, Prec_gt_0 prec -> Prec_lt_emax prec emax ->
  forall M centers dxs dys rots C dx dy Q o d tmin tmax O D lo,
  patch_ray prec emax M centers dxs dys rots C dx dy Q o d tmin tmax O D lo ->
  forall opt, (1 <= bin_size opt)%nat -> (3 * Z.of_nat (bin_size opt) < 4294967296)%Z -> shallow opt (length centers) ->
  spread_boxes emax (length centers) (fun i => box_low (box_of prec emax centers dxs dys rots i)) (fun i => box_high (box_of prec emax centers dxs dys rots i)) ->
  forall part, partition_ok part ->
  exists ps nodes st, @make_planes _ (Fnum prec emax) centers dxs dys rots = Ok ps /\ @build _ (Fnum prec emax) _ part [] (@plane_coll _ ps) opt = Ok (nodes, st) /\
  forall any rh,
  (@traverse _ (Fnum prec emax) _ _ (@plane_isector _ (Fnum prec emax)) nodes (@make_ray _ (Fnum prec emax) o d tmin tmax any) rh = Ok (false, rh) /\
   forall i t, (i < length centers)%nat -> ~ pierces (patch_err prec M) (C i) (dx i) (dy i) (Q i) O (unit_of D) (lo_unit lo D) t) \/
  (exists rh' j x, @traverse _ (Fnum prec emax) _ _ (@plane_isector _ (Fnum prec emax)) nodes (@make_ray _ (Fnum prec emax) o d tmin tmax any) rh = Ok (true, rh') /\
     (j < length centers)%nat /\ h_prim rh' = Some j /\ isF prec emax (h_distance rh') x /\ lo - 125 * (ulpf prec * M) <= x /\
     near_patch (patch_err prec M) (C j) (dx j) (dy j) (Q j) (at_t O (unit_of D) x) /\
     patch_normal prec emax M (C j) (dx j) (dy j) (Q j) O (at_t O (unit_of D) x) (h_normal rh') /\
     (any = false -> forall i t, (i < length centers)%nat -> pierces (patch_err prec M) (C i) (dx i) (dy i) (Q i) O (unit_of D) (lo_unit lo D) t ->
        x <= t + patch_err prec M / steepness (Q i) (unit_of D) + 128 * INR (length centers) * (ulpf prec * M))).
Proof. exact planes_answer. Qed.
Print Assumptions C90_answer.
Example C90_answer_case : patch_ray 53 1024 8 pan_centers pan_sides pan_sides pan_rots pan_C pan_d pan_d pan_Q
    row_o down_d (f64 0 0) (S754_infinity false) (pR 0 0 3) (pR 0 0 (-2)) 0 /\
  spread_boxes 1024 (length pan_centers)
    (fun i => box_low (box_of 53 1024 pan_centers pan_sides pan_sides pan_rots i)) (fun i => box_high (box_of 53 1024 pan_centers pan_sides pan_sides pan_rots i)) /\
  shallow pair_opt (length pan_centers).
Proof. exact pan_ready. Qed.

