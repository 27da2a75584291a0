(** Queries on cylinders in IEEE arithmetic ([Fnum prec emax]; binary32 is [Fnum 24 128], binary64 is
    [Fnum 53 1024]). *)

From Coq Require Import Reals ZArith List Bool Arith Floats.SpecFloat.
From Flocq Require Import Core IEEE754.BinarySingleNaN.
From Verif Require Import Num NumR NumF Vec Datatypes Ray Bvh Traverse Cylinder SpecBvh SpecReal SpecIEEE SpecTriF SpecSphF SpecPlane SpecPlaneF SpecTubeF SpecTubeN SpecCyl SpecTubeQ.
From Verif Require Import PfTubeQ3 PfBuild2 CaseIEEE CaseTriF CaseSphF CasePlaneF CaseTubeF CaseTubeQ.
Import ListNotations.
Local Open Scope R_scope.

(** C102: a query on cylinders.  A miss means that none is in plain view; a hit names a cylinder and the
    distance of the first meeting with it and the normal there, up to the error. *)
Theorem C102_query : forall prec emax, Prec_gt_0 prec -> Prec_lt_emax prec emax ->
  forall M r v centers sa sb hs rots C a b h Q B o d tmin tmax O D lo,
  tubes_ray prec emax M r v centers sa sb hs rots C a b h Q B o d tmin tmax O D lo ->
  forall cs, @make_cylinders _ (Fnum prec emax) centers sa sb hs rots = Ok cs ->
  forall part, partition_ok part -> forall opt nodes st, @build _ (Fnum prec emax) _ part [] (@cylinder_coll _ cs) opt = Ok (nodes, st) ->
  (forall j d, node_depth nodes j d -> (d <= 26)%nat) -> forall any rh,
  (@traverse _ (Fnum prec emax) _ _ (@cylinder_isector _ (Fnum prec emax)) nodes (@make_ray _ (Fnum prec emax) o d tmin tmax any) rh = Ok (false, rh) /\
   (off_sides prec emax centers sa sb hs rots O D -> forall i t, (i < length centers)%nat ->
      ~ plain_view prec M r (a i) (b i) (h i) (C i) (Q i) O (unit_of D) (lo_unit lo D) t)) \/
  (exists rh' j x, @traverse _ (Fnum prec emax) _ _ (@cylinder_isector _ (Fnum prec emax)) nodes (@make_ray _ (Fnum prec emax) o d tmin tmax any) rh = Ok (true, rh') /\
     (j < length centers)%nat /\ h_prim rh' = Some j /\ isF prec emax (h_distance rh') x /\
     first_meeting prec M r (a j) (b j) (h j) (C j) (Q j) O (unit_of D) x /\
     tube_normal prec emax M r (a j) (b j) (h j) (C j) (Q j) (B j) O (unit_of D) x (h_normal rh')).
Proof. exact tube_query_ready. Qed.
Print Assumptions C102_query.
Example C102_query_case : exists nodes st rh x,
  tubes_ray 53 1024 8 1 (/ 1024) duo_centers duo_a duo_b duo_h duo_rots duo_C duo_ra duo_rb duo_rh duo_Q duo_B
    row_o down_d (f64 0 0) (S754_infinity false) (pR 0 0 3) (pR 0 0 (-2)) 0 /\
  off_sides 53 1024 duo_centers duo_a duo_b duo_h duo_rots (pR 0 0 3) (pR 0 0 (-2)) /\
  @make_cylinders _ F64 duo_centers duo_a duo_b duo_h duo_rots = Ok duo_tubes /\
  @build _ F64 _ libstdcxx_partition [] (@cylinder_coll _ duo_tubes) pair_opt = Ok (nodes, st) /\
  (forall k d, node_depth nodes k d -> (d <= 26)%nat) /\ length nodes = 3%nat /\
  plain_view 53 8 1 (duo_ra 0) (duo_rb 0) (duo_rh 0) (duo_C 0) (duo_Q 0) (pR 0 0 3) (unit_of (pR 0 0 (-2))) (lo_unit 0 (pR 0 0 (-2))) 2 /\
  plain_view 53 8 1 (duo_ra 1) (duo_rb 1) (duo_rh 1) (duo_C 1) (duo_Q 1) (pR 0 0 3) (unit_of (pR 0 0 (-2))) (lo_unit 0 (pR 0 0 (-2))) 7 /\
  @traverse _ F64 _ _ (@cylinder_isector _ F64) nodes (@make_ray _ F64 row_o down_d (f64 0 0) (S754_infinity false) false) two_rh = Ok (true, rh) /\
  h_prim rh = Some 0%nat /\ isF 53 1024 (h_distance rh) x /\ Rabs (x - 5 / 4) <= / 1000000000000.
Proof. exact duo_query. Qed.

(** C102: from the cylinders' numbers to the answer: the construction succeeds, and queries are right. *)
Theorem C102_answer : forall prec emax, Prec_gt_0 prec -> Prec_lt_emax prec emax ->
  forall M r v centers sa sb hs rots C a b h Q B o d tmin tmax O D lo,
  tubes_ray prec emax M r v centers sa sb hs rots C a b h Q B o d tmin tmax O D lo ->
  forall opt, (1 <= bin_size opt)%nat -> (3 * Z.of_nat (bin_size opt) < 4294967296)%Z -> shallow opt (length centers) ->
  spread_boxes emax (length centers) (fun i => box_low (tube_box_of prec emax centers sa sb hs rots i)) (fun i => box_high (tube_box_of prec emax centers sa sb hs rots i)) ->
  forall part, partition_ok part ->
  exists cs nodes st, @make_cylinders _ (Fnum prec emax) centers sa sb hs rots = Ok cs /\ @build _ (Fnum prec emax) _ part [] (@cylinder_coll _ cs) opt = Ok (nodes, st) /\
  forall any rh,
  (@traverse _ (Fnum prec emax) _ _ (@cylinder_isector _ (Fnum prec emax)) nodes (@make_ray _ (Fnum prec emax) o d tmin tmax any) rh = Ok (false, rh) /\
   (off_sides prec emax centers sa sb hs rots O D -> forall i t, (i < length centers)%nat ->
      ~ plain_view prec M r (a i) (b i) (h i) (C i) (Q i) O (unit_of D) (lo_unit lo D) t)) \/
  (exists rh' j x, @traverse _ (Fnum prec emax) _ _ (@cylinder_isector _ (Fnum prec emax)) nodes (@make_ray _ (Fnum prec emax) o d tmin tmax any) rh = Ok (true, rh') /\
     (j < length centers)%nat /\ h_prim rh' = Some j /\ isF prec emax (h_distance rh') x /\
     first_meeting prec M r (a j) (b j) (h j) (C j) (Q j) O (unit_of D) x /\
     tube_normal prec emax M r (a j) (b j) (h j) (C j) (Q j) (B j) O (unit_of D) x (h_normal rh')).
Proof. exact tubes_answer. Qed.
Print Assumptions C102_answer.
Example C102_answer_case : tubes_ray 53 1024 8 1 (/ 1024) duo_centers duo_a duo_b duo_h duo_rots duo_C duo_ra duo_rb duo_rh duo_Q duo_B
    row_o down_d (f64 0 0) (S754_infinity false) (pR 0 0 3) (pR 0 0 (-2)) 0 /\
  spread_boxes 1024 (length duo_centers) (fun i => box_low (tube_box_of 53 1024 duo_centers duo_a duo_b duo_h duo_rots i)) (fun i => box_high (tube_box_of 53 1024 duo_centers duo_a duo_b duo_h duo_rots i)) /\
  shallow pair_opt (length duo_centers).
Proof. exact duo_ready. Qed.

(** C102: the cylinder that a closest-hit query names need not be the nearest: a ray meets one before
    distance 2, and the query reports another one behind distance 5. *)
Theorem C102_nearest_refuted : exists nodes st rh x,
  tubes_ray 53 1024 8 1 (/ 1024) duo_centers duo_a duo_b duo_h duo_rots duo_C duo_ra duo_rb duo_rh duo_Q duo_B
    row_o down_d (f64 0 0) (S754_infinity false) (pR 0 0 3) (pR 0 0 (-2)) 0 /\
  @make_cylinders _ F64 duo_centers duo_a duo_b duo_h duo_rots = Ok duo_tubes /\
  @build _ F64 _ libstdcxx_partition [] (@cylinder_coll _ duo_tubes) default_options = Ok (nodes, st) /\
  plain_view 53 8 1 (duo_ra 0) (duo_rb 0) (duo_rh 0) (duo_C 0) (duo_Q 0) (pR 0 0 3) (unit_of (pR 0 0 (-2))) (lo_unit 0 (pR 0 0 (-2))) 2 /\
  @traverse _ F64 _ _ (@cylinder_isector _ F64) nodes (@make_ray _ F64 row_o down_d (f64 0 0) (S754_infinity false) false) two_rh = Ok (true, rh) /\
  isF 53 1024 (h_distance rh) x /\ 5 < x.
Proof. exact duo_leaf. Qed.
Print Assumptions C102_nearest_refuted.
