(** Scene queries in IEEE arithmetic ([Fnum prec emax]; binary32 is [Fnum 24 128], binary64 is
    [Fnum 53 1024]). *)

From Coq Require Import Reals ZArith List Bool Arith Floats.SpecFloat.
From Flocq Require Import Core IEEE754.BinarySingleNaN.
From Verif Require Import Num NumF Vec Ray Bvh Scene.
From Verif Require Import SpecBvh SpecReal SpecIEEE SpecTriF SpecPlane SpecPlaneF SpecTubeF SpecTubeQ SpecScene SpecSceneF.
From Verif Require Import PfPart PfSceneF CaseIEEE CaseTriF CaseSphF CasePlaneF CaseTubeF CaseTubeQ CaseSceneF.
Import ListNotations.
Local Open Scope R_scope.

(** C91: whatever calls built the scene: a miss means that nothing in it is surely hit; a hit names a
    geometry and a primitive that are hit at the distance up to the error terms, and (for a
    closest-hit query) nothing in the scene is surely hit before it (of the cylinders: some one of them is not). *)
Theorem C91_query : forall prec emax, Prec_gt_0 prec -> Prec_lt_emax prec emax ->
  forall M o d tmin tmax any O D lo part, partition_ok part ->
  forall opt0 cs s l sh, @run _ (Fnum prec emax) part (new_scene opt0) cs = Ok (s, l) -> In Commit cs -> all_shallow opt0 cs l ->
  (forall g c, geometry_of cs l g c -> shape_ray prec emax M o d tmin tmax O D lo c (sh c)) ->
  forall rh, (forall t, @nltb _ (Fnum prec emax) t tmax = true -> @nltb _ (Fnum prec emax) t (h_distance rh) = true) ->
  answerF prec emax M (geometry_of cs l) sh O D lo any rh
    (@intersect1 _ (Fnum prec emax) s (@make_ray _ (Fnum prec emax) o d tmin tmax any) rh).
Proof. exact scene_query_F. Qed.
Print Assumptions C91_query.

(** C91: from the calls to the answer: all calls succeed, and queries are right. *)
Theorem C91_answer : forall prec emax, Prec_gt_0 prec -> Prec_lt_emax prec emax ->
  forall M o d tmin tmax O D lo part opt0 cs sh, partition_ok part -> In Commit cs ->
  (forall c, In c cs -> is_query c = false /\ (adds c <> None -> shape_ray prec emax M o d tmin tmax O D lo c (sh c))) ->
  (forall opt, used_options opt0 cs opt -> bins_ok opt /\
     forall c, In c cs -> adds c <> None -> shallow opt (primitives c) /\ shape_wide prec emax M opt c (sh c)) ->
  exists s l, @run _ (Fnum prec emax) part (new_scene opt0) cs = Ok (s, l) /\
    forall any rh, (forall t, @nltb _ (Fnum prec emax) t tmax = true -> @nltb _ (Fnum prec emax) t (h_distance rh) = true) ->
    answerF prec emax M (geometry_of cs l) sh O D lo any rh
      (@intersect1 _ (Fnum prec emax) s (@make_ray _ (Fnum prec emax) o d tmin tmax any) rh).
Proof. exact scene_answer_F. Qed.
Print Assumptions C91_answer.

(** A scene in which the ray surely hits a patch, a sphere, a triangle and a cylinder; the cylinder comes first. *)
Example C91_case : exists s rh,
  (forall c, In c all_calls -> is_query c = false /\
     (adds c <> None -> shape_ray 53 1024 8 row_o down_d (f64 0 0) (S754_infinity false) (pR 0 0 3) (pR 0 0 (-2)) 0 c (all_shapes c))) /\
  (forall opt, used_options pair_opt all_calls opt -> bins_ok opt /\
     forall c, In c all_calls -> adds c <> None -> shallow opt (primitives c) /\ shape_wide 53 1024 8 opt c (all_shapes c)) /\
  @run _ F64 libstdcxx_partition (new_scene pair_opt) all_calls = Ok (s, all_replies) /\
  sure 53 1024 8 (pR 0 0 3) (pR 0 0 (-2)) (lo_unit 0 (pR 0 0 (-2))) (AddPlanes pan_centers pan_sides pan_sides pan_rots) (Patches pan_C pan_d pan_d pan_Q) 0 /\
  sure 53 1024 8 (pR 0 0 3) (pR 0 0 (-2)) (lo_unit 0 (pR 0 0 (-2))) (AddSpheres row_centers row_radii) (Balls row_C row_r) 0 /\
  sure 53 1024 8 (pR 0 0 3) (pR 0 0 (-2)) (lo_unit 0 (pR 0 0 (-2))) (AddMesh two_vertices two_faces) (Corners two_points) 0 /\
  sure 53 1024 8 (pR 0 0 3) (pR 0 0 (-2)) (lo_unit 0 (pR 0 0 (-2))) (AddCylinders duo_centers duo_a duo_b duo_h duo_rots) (Tubes 1 (/ 1024) duo_C duo_ra duo_rb duo_rh duo_Q duo_B) 0 /\
  (forall t, @nltb _ F64 t (S754_infinity false) = true -> @nltb _ F64 t (h_distance two_rh) = true) /\
  @intersect1 _ F64 s (@make_ray _ F64 row_o down_d (f64 0 0) (S754_infinity false) false) two_rh = Ok (true, rh) /\
  h_geom rh = Some 3%nat /\ h_prim rh = Some 0%nat /\ isF 53 1024 (h_distance rh) (5629499534213122 * / 4503599627370496).
Proof. exact all_case. Qed.

(** C91: with a single cylinder in its collection: a closest-hit query reports nothing behind the place
    where the ray enters the cylinder, or leaves it if it starts inside. *)
Theorem C91_cylinder : forall prec emax, Prec_gt_0 prec -> Prec_lt_emax prec emax ->
  forall M o d tmin tmax O D lo part, partition_ok part ->
  forall opt0 cs s l sh, @run _ (Fnum prec emax) part (new_scene opt0) cs = Ok (s, l) -> In Commit cs -> all_shallow opt0 cs l ->
  (forall g c, geometry_of cs l g c -> shape_ray prec emax M o d tmin tmax O D lo c (sh c)) ->
  forall rh, (forall t, @nltb _ (Fnum prec emax) t tmax = true -> @nltb _ (Fnum prec emax) t (h_distance rh) = true) ->
  forall g c sa sb hs m ratio v C a b h Q B t,
  geometry_of cs l g (AddCylinders [c] sa sb hs m) -> sh (AddCylinders [c] sa sb hs m) = Tubes ratio v C a b h Q B ->
  off_sides prec emax [c] sa sb hs m O D ->
  plain_view prec M ratio (a 0%nat) (b 0%nat) (h 0%nat) (C 0%nat) (Q 0%nat) O (unit_of D) (lo_unit lo D) t ->
  let e := tube_err prec M ratio in let ez := cap_err prec M in let X s := local (C 0%nat) (Q 0%nat) (at_t O (unit_of D) s) in
  exists rh' x, @intersect1 _ (Fnum prec emax) s (@make_ray _ (Fnum prec emax) o d tmin tmax false) rh = Ok (true, rh') /\
    isF prec emax (h_distance rh') x /\
    (outside e ez (a 0%nat) (b 0%nat) (h 0%nat) (local (C 0%nat) (Q 0%nat) O) -> x <= t) /\
    (deep_in e ez (a 0%nat) (b 0%nat) (h 0%nat) (local (C 0%nat) (Q 0%nat) O) ->
      forall s, 0 <= s -> ~ in_tube e ez (a 0%nat) (b 0%nat) (h 0%nat) (X s) -> x <= s).
Proof. exact scene_one_cylinder. Qed.
Print Assumptions C91_cylinder.
Example C91_cylinder_case : exists s rh,
  @run _ F64 libstdcxx_partition (new_scene pair_opt) lone_calls = Ok (s, lone_replies) /\ In Commit lone_calls /\ all_shallow pair_opt lone_calls lone_replies /\
  (forall g c, geometry_of lone_calls lone_replies g c ->
     shape_ray 53 1024 8 row_o down_d (f64 0 0) (S754_infinity false) (pR 0 0 3) (pR 0 0 (-2)) 0 c (all_shapes c)) /\
  geometry_of lone_calls lone_replies 1 lone_call /\
  off_sides 53 1024 [p64 0 1 0] [f64 2 0] [f64 1 0] [f64 4 0] [slope_m] (pR 0 0 3) (pR 0 0 (-2)) /\
  plain_view 53 8 1 (duo_ra 0) (duo_rb 0) (duo_rh 0) (duo_C 0) (duo_Q 0) (pR 0 0 3) (unit_of (pR 0 0 (-2))) (lo_unit 0 (pR 0 0 (-2))) 2 /\
  outside (tube_err 53 8 1) (cap_err 53 8) (duo_ra 0) (duo_rb 0) (duo_rh 0) (local (duo_C 0) (duo_Q 0) (pR 0 0 3)) /\
  @intersect1 _ F64 s (@make_ray _ F64 row_o down_d (f64 0 0) (S754_infinity false) false) two_rh = Ok (true, rh) /\
  h_geom rh = Some 1%nat /\ isF 53 1024 (h_distance rh) (5629499534213122 * / 4503599627370496).
Proof. exact lone_case. Qed.
