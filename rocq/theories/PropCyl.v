(** C30-C34: cylinders. *)

From Coq Require Import Reals ZArith List Bool Floats.SpecFloat.
From Verif Require Import Num NumX NumF Vec Ray Bvh Traverse Cylinder CylDist SpecBvh SpecReal SpecNearest SpecPlane SpecCyl.
From Verif Require Import PfPart PfCyl3 PfCyl4 PfCyl6 PfCyl7 PfCylDist PfCylDist2 CaseSphere CasePlane CaseCyl CaseCyl2 CaseCyl3.
Import ListNotations.
Local Open Scope R_scope.

(** C30.  The direction need not be of unit length.  Missing: rays that start in the
    plane of a cap, outside the cap (see the next two theorems). *)
Theorem C30_cylinder_first_partial : forall big tiny eps i cy r O U C a b h Rm hit i',
  visR (ci_org i) O -> visR (ci_dir i) U -> visR (cy_center cy) C ->
  isR (cy_a cy) a -> isR (cy_b cy) b -> isR (cy_h cy) h -> misR (cy_rot cy) Rm ->
  0 < a -> 0 < b -> 0 < h -> orthogonal Rm -> rv_norm U <> 0 ->
  ~ world (on_surface a b h) C Rm O ->
  @cylinder_intersect _ (Xnum big tiny eps) i cy r = (hit, i') ->
  (hit = true -> exists t, isR (ci_hd i') t /\ 0 < t /\ ci_prim i' = Some (cy_id cy) /\
     world (on_surface a b h) C Rm (at_t O (unit_of U) t) /\
     forall u, 0 < u < t -> ~ world (on_surface a b h) C Rm (at_t O (unit_of U) u)) /\
  (hit = false -> i' = i /\ (~ world (beside_cap a b h) C Rm O ->
     forall t, 0 < t -> world (on_surface a b h) C Rm (at_t O (unit_of U) t) ->
       touches a b h C Rm U (at_t O (unit_of U) t))).
Proof. exact cylinder_first. Qed.
Print Assumptions C30_cylinder_first_partial.
(** From there every ray is said to miss. *)
Theorem C30_beside_cap_misses : forall big tiny eps i cy r O C a b h Rm,
  visR (ci_org i) O -> visR (cy_center cy) C ->
  isR (cy_a cy) a -> isR (cy_b cy) b -> isR (cy_h cy) h -> misR (cy_rot cy) Rm ->
  0 < a -> 0 < b -> 0 < h -> orthogonal Rm -> world (beside_cap a b h) C Rm O ->
  @cylinder_intersect _ (Xnum big tiny eps) i cy r = (false, i).
Proof. exact cylinder_beside. Qed.
Print Assumptions C30_beside_cap_misses.
(** C30 as stated is false. *)
Theorem C30_cylinder_first_refuted : exists i cy r O U C a b h Rm t,
  visR (ci_org i) O /\ visR (ci_dir i) U /\ visR (cy_center cy) C /\
  isR (cy_a cy) a /\ isR (cy_b cy) b /\ isR (cy_h cy) h /\ misR (cy_rot cy) Rm /\
  0 < a /\ 0 < b /\ 0 < h /\ orthogonal Rm /\ rv_dot U U = 1 /\ ~ world (on_surface a b h) C Rm O /\
  0 < t /\ world (on_surface a b h) C Rm (at_t O U t) /\ ~ touches a b h C Rm U (at_t O U t) /\
  @cylinder_intersect _ (Xnum 1000 0 0) i cy r = (false, i).
Proof. exact beside_refutes. Qed.
Print Assumptions C30_cylinder_first_refuted.
(** A tilted cylinder, hit on a cap. *)
Example C30_case : exists i',
  @cylinder_intersect _ (Xnum 1000 0 0) (cyl_start (V 0 0 0) (V 1 0 0)) (cyl_at (V 10 0 0) 2 turn) cyl_ray = (true, i') /\
  isR (ci_hd i') (35 / 4) /\
  ~ world (on_surface 1 1 2) (V 10 0 0) turn (V 0 0 0) /\ ~ world (beside_cap 1 1 2) (V 10 0 0) turn (V 0 0 0).
Proof. exact cap_case. Qed.

(** C31.  In any arithmetic the routine's answer does not depend on the ray's interval
    or on the best hit so far. *)
Theorem C31_interval_ignored : forall T (N : num T) (i j : cyl_isect T) c r,
  ci_org i = ci_org j -> ci_dir i = ci_dir j -> ci_uv i = ci_uv j ->
  fst (cylinder_intersect i c r) = fst (cylinder_intersect j c r) /\
  (fst (cylinder_intersect i c r) = true ->
   ci_hd (snd (cylinder_intersect i c r)) = ci_hd (snd (cylinder_intersect j c r))).
Proof. exact (fun T N => @intersect_ignores T N). Qed.
Print Assumptions C31_interval_ignored.
(** Hits at or below min_hit_distance and beyond the best hit are reported, and of two
    cylinders in one leaf the farther one (binary64). *)
Theorem C31_min_refuted : exists i c r i', i = @cylinder_prepare _ F64 r /\
  @cylinder_intersect _ F64 i c r = (true, i') /\ @nltb _ F64 (ci_hd i') (ci_min i) = true.
Proof. exact below_min_refutes. Qed.
Print Assumptions C31_min_refuted.
Theorem C31_best_refuted : exists i c r i', i = @cylinder_prepare _ F64 r /\
  @cylinder_intersect _ F64 i c r = (true, i') /\ @nltb _ F64 (ci_hd i) (ci_hd i') = true.
Proof. exact above_best_refutes. Qed.
Print Assumptions C31_best_refuted.
Theorem C31_nearest_refuted : exists s nodes st rh s' nodes' st' rh',
  two [10%Z] = Ok s /\ @build _ F64 _ libstdcxx_partition [] (cylinder_coll s) default_options = Ok (nodes, st) /\
  two [10%Z; 20%Z] = Ok s' /\ @build _ F64 _ libstdcxx_partition [] (cylinder_coll s') default_options = Ok (nodes', st') /\
  @traverse _ F64 _ _ (@cylinder_isector _ F64) nodes (ray64 (f64 0 0) (f64 100 0)) (@new_rayhit _ F64) = Ok (true, rh) /\
  @traverse _ F64 _ _ (@cylinder_isector _ F64) nodes' (ray64 (f64 0 0) (f64 100 0)) (@new_rayhit _ F64) = Ok (true, rh') /\
  h_distance rh = f64 9 0 /\ h_distance rh' = f64 19 0.
Proof. exact farther_refutes. Qed.
Print Assumptions C31_nearest_refuted.
(** Queries are right if the ray meets at most one of the cylinders, min_hit_distance
    is 0, and all rotations map axes to axes (C32): then a hit is reported exactly within the
    interval and is the first point met.  Cylinders that the ray starts beside a cap of are
    never seen (C30). *)
Theorem C31_one_cylinder_partial : forall big tiny eps centers sa sb hs rots s C a b h Rm part opt nodes st o d tmin tmax any O D rh,
  0 <= eps ->
  @make_cylinders _ (Xnum big tiny eps) centers sa sb hs rots = Ok s -> cylinders_are s C a b h Rm ->
  (forall i, (i < length (cs_centers s))%nat -> 0 < a i /\ 0 < b i /\ 0 < h i /\ orthogonal (Rm i) /\ axis_aligned (Rm i)) ->
  (forall i, (i < length (cs_centers s))%nat ->
     in_bounds big (cyl_lower (C i) (a i) (b i) (h i) (Rm i)) /\ in_bounds big (cyl_upper (C i) (a i) (b i) (h i) (Rm i))) ->
  partition_ok part -> @build _ (Xnum big tiny eps) _ part [] (cylinder_coll s) opt = Ok (nodes, st) ->
  (forall k d, node_depth nodes k d -> (d <= 26)%nat) -> admissible o d tmin O D 0 ->
  (vz D = 0 -> forall i, (i < length (cs_centers s))%nat ->
     vz O <> vz (cyl_lower (C i) (a i) (b i) (h i) (Rm i)) /\ vz O <> vz (cyl_upper (C i) (a i) (b i) (h i) (Rm i))) ->
  (forall i, (i < length (cs_centers s))%nat ->
     ~ world (on_surface (a i) (b i) (h i)) (C i) (Rm i) O) ->
  (forall i j t u, (i < length (cs_centers s))%nat -> (j < length (cs_centers s))%nat ->
     seen_from (C i) (a i) (b i) (h i) (Rm i) O -> seen_from (C j) (a j) (b j) (h j) (Rm j) O ->
     meets (C i) (a i) (b i) (h i) (Rm i) O (unit_of D) t ->
     meets (C j) (a j) (b j) (h j) (Rm j) O (unit_of D) u -> i = j) ->
  loose_answer
    (fun i t => (i < length (cs_centers s))%nat /\ (seen_from (C i) (a i) (b i) (h i) (Rm i) O /\ pierces (C i) (a i) (b i) (h i) (Rm i) O (unit_of D) t) /\ xltb (Fin t) tmax = true)
    (fun i t => (i < length (cs_centers s))%nat /\ (seen_from (C i) (a i) (b i) (h i) (Rm i) O /\ first_met (C i) (a i) (b i) (h i) (Rm i) O (unit_of D) t) /\ xltb (Fin t) tmax = true)
    (cylinder_about C a b h Rm O (unit_of D)) any rh
    (@traverse _ (Xnum big tiny eps) _ _ (@cylinder_isector _ (Xnum big tiny eps)) nodes
       (@make_ray _ (Xnum big tiny eps) o d tmin tmax any) rh).
Proof.
  exact (fun big tiny eps centers sa sb hs rots s C a b h Rm part opt nodes st o d tmin tmax any O D rh
    H1 H2 H3 H4 H5 H6 H7 H8 H9 H10 H11 H12 =>
    cylinder_query big tiny eps H1 centers sa sb hs rots s H2 C a b h Rm H3
      (fun i Hi => match H4 i Hi with conj Ha (conj Hb (conj Hh (conj Ho _))) => conj Ha (conj Hb (conj Hh Ho)) end)
      H5 part H6 opt nodes st H7
      (fun i Hi => match H4 i Hi with conj _ (conj _ (conj _ (conj _ Hx))) => Hx end)
      H8 o d tmin tmax any O D H9 H10 H11 H12 rh).
Qed.
Print Assumptions C31_one_cylinder_partial.
Example C31_case : exists s nodes st rh,
  pair = Ok s /\
  @build _ (Xnum 1000 0 0) _ libstdcxx_partition [] (cylinder_coll s) five_opt = Ok (nodes, st) /\
  @traverse _ (Xnum 1000 0 0) _ _ (@cylinder_isector _ (Xnum 1000 0 0)) nodes
    (@make_ray _ (Xnum 1000 0 0) (vfin (V 0 0 0)) (vfin (V 1 0 0)) (Fin 0) (Fin 1000) false)
    (@new_rayhit _ (Xnum 1000 0 0)) = Ok (true, rh) /\
  h_prim rh = Some 1%nat /\ isR (h_distance rh) 9 /\ visR (h_normal rh) (V (-1) 0 0).
Proof. exact pair_query. Qed.

(** Any number of cylinders, with the same conditions otherwise, all first met before
    max_hit_distance: the query tells whether some cylinder is hit, and a reported hit is a
    first point with a record that fits.  Missing: that it is the nearest, which is false
    (C31_nearest_refuted). *)
Theorem C31_many_cylinders_partial : forall big tiny eps centers sa sb hs rots s C a b h Rm part opt nodes st o d tmin tmax any O D rh,
  0 <= eps ->
  @make_cylinders _ (Xnum big tiny eps) centers sa sb hs rots = Ok s -> cylinders_are s C a b h Rm ->
  (forall i, (i < length (cs_centers s))%nat -> 0 < a i /\ 0 < b i /\ 0 < h i /\ orthogonal (Rm i) /\ axis_aligned (Rm i)) ->
  (forall i, (i < length (cs_centers s))%nat ->
     in_bounds big (cyl_lower (C i) (a i) (b i) (h i) (Rm i)) /\ in_bounds big (cyl_upper (C i) (a i) (b i) (h i) (Rm i))) ->
  partition_ok part -> @build _ (Xnum big tiny eps) _ part [] (cylinder_coll s) opt = Ok (nodes, st) ->
  (forall k d, node_depth nodes k d -> (d <= 26)%nat) -> admissible o d tmin O D 0 ->
  (vz D = 0 -> forall i, (i < length (cs_centers s))%nat ->
     vz O <> vz (cyl_lower (C i) (a i) (b i) (h i) (Rm i)) /\ vz O <> vz (cyl_upper (C i) (a i) (b i) (h i) (Rm i))) ->
  (forall i, (i < length (cs_centers s))%nat ->
     ~ world (on_surface (a i) (b i) (h i)) (C i) (Rm i) O) ->
  (forall i t, (i < length (cs_centers s))%nat ->
     seen_from (C i) (a i) (b i) (h i) (Rm i) O -> first_met (C i) (a i) (b i) (h i) (Rm i) O (unit_of D) t -> xltb (Fin t) tmax = true) ->
  loose_answer
    (fun i t => (i < length (cs_centers s))%nat /\ (seen_from (C i) (a i) (b i) (h i) (Rm i) O /\ pierces (C i) (a i) (b i) (h i) (Rm i) O (unit_of D) t) /\ xltb (Fin t) tmax = true)
    (fun i t => (i < length (cs_centers s))%nat /\ (seen_from (C i) (a i) (b i) (h i) (Rm i) O /\ first_met (C i) (a i) (b i) (h i) (Rm i) O (unit_of D) t) /\ xltb (Fin t) tmax = true)
    (cylinder_about C a b h Rm O (unit_of D)) true rh
    (@traverse _ (Xnum big tiny eps) _ _ (@cylinder_isector _ (Xnum big tiny eps)) nodes
       (@make_ray _ (Xnum big tiny eps) o d tmin tmax any) rh).
Proof.
  exact (fun big tiny eps centers sa sb hs rots s C a b h Rm part opt nodes st o d tmin tmax any O D rh
    H1 H2 H3 H4 H5 H6 H7 H8 H9 H10 H11 H12 =>
    cylinders_hit big tiny eps H1 centers sa sb hs rots s H2 C a b h Rm H3
      (fun i Hi => match H4 i Hi with conj Ha (conj Hb (conj Hh (conj Ho _))) => conj Ha (conj Hb (conj Hh Ho)) end)
      H5 part H6 opt nodes st H7 H8 o d tmin tmax any O D H9 H10 H11
      (fun i Hi => match H4 i Hi with conj _ (conj _ (conj _ (conj _ Hx))) => Hx end) H12 rh).
Qed.
Print Assumptions C31_many_cylinders_partial.
(** Whatever the rotations and distances: a reported hit is never made up. *)
Theorem C31_reported_genuine_partial : forall big tiny eps s C a b h Rm,
  cylinders_are s C a b h Rm ->
  (forall i, (i < length (cs_centers s))%nat -> 0 < a i /\ 0 < b i /\ 0 < h i /\ orthogonal (Rm i)) ->
  forall part, partition_ok part -> forall opt nodes st,
  @build _ (Xnum big tiny eps) _ part [] (cylinder_coll s) opt = Ok (nodes, st) ->
  (forall k d, node_depth nodes k d -> (d <= 26)%nat) ->
  forall o d tmin tmax any O D, admissible o d tmin O D 0 ->
  (forall i, (i < length (cs_centers s))%nat ->
     ~ world (on_surface (a i) (b i) (h i)) (C i) (Rm i) O) ->
  forall rh, exists hit rh1,
    @traverse _ (Xnum big tiny eps) _ _ (@cylinder_isector _ (Xnum big tiny eps)) nodes
      (@make_ray _ (Xnum big tiny eps) o d tmin tmax any) rh = Ok (hit, rh1) /\
    (hit = false -> rh1 = rh) /\
    (hit = true -> exists i t, (i < length (cs_centers s))%nat /\
       (seen_from (C i) (a i) (b i) (h i) (Rm i) O /\ first_met (C i) (a i) (b i) (h i) (Rm i) O (unit_of D) t) /\ xltb (Fin t) tmax = true /\
       h_prim rh1 = Some i /\ isR (h_distance rh1) t /\ h_geom rh1 = h_geom rh /\
       cylinder_about C a b h Rm O (unit_of D) i t rh1).
Proof. exact cylinders_genuine. Qed.
Print Assumptions C31_reported_genuine_partial.

(** C32.  The stored box exactly, and when it encloses the cylinder. *)
Theorem C32_cylinder_box_exact : forall big tiny eps c xa xb xh rot C a b h Rm,
  visR c C -> isR xa a -> isR xb b -> isR xh h -> misR rot Rm ->
  visR (fst (@cylinder_box _ (Xnum big tiny eps) c xa xb xh rot)) (cyl_lower C a b h Rm) /\
  visR (snd (@cylinder_box _ (Xnum big tiny eps) c xa xb xh rot)) (cyl_upper C a b h Rm).
Proof. exact cylinder_box_is. Qed.
Print Assumptions C32_cylinder_box_exact.
(** Missing: all other rotations, for which it is false. *)
Theorem C32_cylinder_box_partial : forall C a b h Rm, 0 < a -> 0 < b -> 0 < h ->
  ((forall p, world (in_solid a b h) C Rm p -> in_box (cyl_lower C a b h Rm) (cyl_upper C a b h Rm) p) <->
   axis_aligned Rm).
Proof. exact box_encloses. Qed.
Print Assumptions C32_cylinder_box_partial.
Theorem C32_cylinder_box_refuted : exists c xa xb xh rot C a b h Rm m M p,
  visR c C /\ isR xa a /\ isR xb b /\ isR xh h /\ misR rot Rm /\ 0 < a /\ 0 < b /\ 0 < h /\ orthogonal Rm /\
  visR (fst (@cylinder_box _ (Xnum 1000 0 0) c xa xb xh rot)) m /\
  visR (snd (@cylinder_box _ (Xnum 1000 0 0) c xa xb xh rot)) M /\
  world (in_solid a b h) C Rm p /\ ~ in_box m M p.
Proof. exact tilted_box_refutes. Qed.
Print Assumptions C32_cylinder_box_refuted.
(** A quarter turn is axis-aligned. *)
Example C32_case : axis_aligned quarter /\ orthogonal quarter.
Proof. exact quarter_aligned. Qed.

(** C33.  The normal is right, except that a lateral hit seen from inside along a ray not
    parallel to the caps has the normal in the cylinder's own coordinates.  Missing:
    those hits, for which it is false. *)
Theorem C33_cylinder_normal_partial : forall big tiny eps i cy r O U C a b h Rm i' rh,
  visR (ci_org i) O -> visR (ci_dir i) U -> visR (cy_center cy) C ->
  isR (cy_a cy) a -> isR (cy_b cy) b -> isR (cy_h cy) h -> misR (cy_rot cy) Rm ->
  0 < a -> 0 < b -> 0 < h -> orthogonal Rm -> rv_norm U <> 0 ->
  ~ world (on_surface a b h) C Rm O ->
  @cylinder_intersect _ (Xnum big tiny eps) i cy r = (true, i') ->
  exists t n rh', isR (ci_hd i') t /\ @cylinder_post _ (Xnum big tiny eps) i' rh = Ok rh' /\
    isR (h_distance rh') t /\ visR (h_normal rh') n /\ rv_norm n = 1 /\
    ((~ slanted a b h C Rm O U (at_t O (unit_of U) t) /\ unit_normal a b h C Rm (at_t O (unit_of U) t) n) \/
     (slanted a b h C Rm O U (at_t O (unit_of U) t) /\ local_normal a b h C Rm (at_t O (unit_of U) t) n)).
Proof. exact cylinder_normal. Qed.
Print Assumptions C33_cylinder_normal_partial.
Theorem C33_cylinder_normal_refuted : exists i cy r O U C a b h Rm i' rh rh' n t,
  visR (ci_org i) O /\ visR (ci_dir i) U /\ visR (cy_center cy) C /\
  isR (cy_a cy) a /\ isR (cy_b cy) b /\ isR (cy_h cy) h /\ misR (cy_rot cy) Rm /\
  0 < a /\ 0 < b /\ 0 < h /\ orthogonal Rm /\ rv_dot U U = 1 /\ ~ world (on_surface a b h) C Rm O /\
  @cylinder_intersect _ (Xnum 1000 0 0) i cy r = (true, i') /\ isR (ci_hd i') t /\
  @cylinder_post _ (Xnum 1000 0 0) i' rh = Ok rh' /\ visR (h_normal rh') n /\
  ~ unit_normal a b h C Rm (at_t O U t) n.
Proof. exact slanted_refutes. Qed.
Print Assumptions C33_cylinder_normal_refuted.

(** C34.  Whatever the Newton iteration does, the result is NaN or the distance to some
    point of the surface, so never less than the least distance.  Points in the band
    0 < |x^2/a^2 + y^2/b^2 - 1| < epsilon are left out.  Missing: that the iteration
    converges to the nearest point, which is false. *)
Theorem C34_distance_attained_partial : forall big tiny eps newton_eps percentage iszero cy p C a b h Rm Q L,
  (forall x r, isR x r -> (iszero x = true <-> r = 0)) ->
  visR (cy_center cy) C -> isR (cy_a cy) a -> isR (cy_b cy) b -> isR (cy_h cy) h -> misR (cy_rot cy) Rm -> visR p Q ->
  0 < a -> 0 < b -> 0 < h -> 0 < eps -> orthogonal Rm -> placed C Rm L Q ->
  ellipse a b L = 1 \/ eps <= Rabs (ellipse a b L - 1) ->
  @cylinder_distance _ (Xnum big tiny eps) newton_eps percentage iszero cy p = Xnan \/
  exists P, world (on_surface a b h) C Rm P /\
    isR (@cylinder_distance _ (Xnum big tiny eps) newton_eps percentage iszero cy p) (rv_norm (rv_sub Q P)).
Proof. exact distance_attained_at. Qed.
Print Assumptions C34_distance_attained_partial.
(** The result is the least distance if the iteration finds the nearest point of the
    ellipse.  On the axis, on the ellipse, and in or beyond a cap's plane over the cap, the
    iteration does not matter and nothing is assumed about it.  [L] is the point in the
    cylinder's own coordinates. *)
Theorem C34_distance_exact_partial : forall big tiny eps newton_eps percentage iszero cy p C a b h Rm Q L,
  (forall x r, isR x r -> (iszero x = true <-> r = 0)) ->
  visR (cy_center cy) C -> isR (cy_a cy) a -> isR (cy_b cy) b -> isR (cy_h cy) h -> misR (cy_rot cy) Rm -> visR p Q ->
  0 < a -> 0 < b -> 0 < h -> 0 < eps -> orthogonal Rm -> placed C Rm L Q ->
  ellipse a b L = 1 \/ eps <= Rabs (ellipse a b L - 1) ->
  (1 < ellipse a b L \/ (ellipse a b L < 1 /\ (vx L <> 0 \/ vy L <> 0) /\ Rabs (vz L) < h / 2) ->
   forall xq yq, isR xq (vx L) -> isR yq (vy L) -> exists d,
     isR (@find_minimum_distance_to_ellipse _ (Xnum big tiny eps) newton_eps percentage (cy_a cy) (cy_b cy) xq yq) d /\
     least_to (on_ellipse a b) (V (vx L) (vy L) 0) d) ->
  exists d, isR (@cylinder_distance _ (Xnum big tiny eps) newton_eps percentage iszero cy p) d /\
    least_to (world (on_surface a b h) C Rm) Q d.
Proof. exact distance_exact_at. Qed.
Print Assumptions C34_distance_exact_partial.
Example C34_case : isR (@cylinder_distance _ (Xnum 1000 0 (1 / 100)) (Fin (1 / 10000000)) (Fin (95 / 100)) zerox
    (cyl_at (V 10 0 0) 1 turn) (vfin (V 10 0 0))) (1 / 2) /\
  least_to (world (on_surface 1 1 1) (V 10 0 0) turn) (V 10 0 0) (1 / 2).
Proof. exact center_case. Qed.
(** C34 as stated is false: binary64, semi-axes 4 and 1, height 16.  From (1/2, 0, 0) the
    iteration finds the farthest vertex: more than three times the least distance. *)
Theorem C34_distance_refuted : exists cy p C a b h Rm Q d P,
  visF (cy_center cy) C /\ isF (cy_a cy) a /\ isF (cy_b cy) b /\ isF (cy_h cy) h /\ misF (cy_rot cy) Rm /\
  orthogonal Rm /\ 0 < a /\ 0 < b /\ 0 < h /\ visF p Q /\
  isF (dist64 cy p) d /\ world (on_surface a b h) C Rm P /\ rv_norm (rv_sub Q P) < d / 3.
Proof. exact near_refutes. Qed.
Print Assumptions C34_distance_refuted.
(** From (6, 3/2, 0) it diverges, and the result is NaN. *)
Theorem C34_distance_nan_refuted : exists cy p C a b h Rm Q,
  visF (cy_center cy) C /\ isF (cy_a cy) a /\ isF (cy_b cy) b /\ isF (cy_h cy) h /\ misF (cy_rot cy) Rm /\
  orthogonal Rm /\ 0 < a /\ 0 < b /\ 0 < h /\ visF p Q /\ dist64 cy p = S754_nan.
Proof. exact nan_refutes. Qed.
Print Assumptions C34_distance_nan_refuted.
