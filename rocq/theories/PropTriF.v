(** Triangles and meshes in IEEE arithmetic ([Fnum prec emax]; binary32 is [Fnum 24 128],
    binary64 is [Fnum 53 1024]). *)

From Coq Require Import Reals ZArith List Bool Arith Floats.SpecFloat.
From Flocq Require Import Core IEEE754.BinarySingleNaN.
From Verif Require Import Num NumR NumF Vec Datatypes Ray Bvh Traverse Trimesh.
From Verif Require Import SpecBvh SpecReal SpecIEEE SpecTri SpecTriF.
From Verif Require Import PfTriF3 PfTriF5 PfDirF CaseIEEE CaseTriF.
Import ListNotations.
Local Open Scope R_scope.

(** C82: if the routine accepts a triangle, the exact ray passes all its edges on one side and
    its plane lies in the interval, up to stated errors. *)
Theorem C82_triangle_sound : forall prec emax, Prec_gt_0 prec -> Prec_lt_emax prec emax -> usual_format prec emax ->
  forall M, scale_ok prec emax M -> forall a b c A B C O D,
  visF prec emax a A -> visF prec emax b B -> visF prec emax c C -> coords M A -> coords M B -> coords M C ->
  forall r : ray spec_float, visF prec emax (origin r) O -> near_dir prec emax (direction r) D -> coords M O ->
  forall id i i',
  @tri_intersect _ (Fnum prec emax) i (@make_triangle _ (Fnum prec emax) a b c id) r = (true, i') ->
  exists s, passes s (- (980 * ulpf prec * M ^ 2)) O D A B C /\
    (forall lo, isF prec emax (ti_min i) lo -> 0 <= lo -> s * plane A B C (at_t O D lo) <= 400 * ulpf prec * M ^ 2 * (M + lo)) /\
    (forall h, isF prec emax (ti_hd i) h -> 0 <= h -> - (400 * ulpf prec * M ^ 2 * (M + h)) <= s * plane A B C (at_t O D h)).
Proof. exact tri_sound. Qed.
Print Assumptions C82_triangle_sound.

(** C82: the distance and the weights it then records, unless the triangle is seen edge-on. *)
Theorem C82_triangle_distance : forall prec emax, Prec_gt_0 prec -> Prec_lt_emax prec emax -> usual_format prec emax ->
  forall M, scale_ok prec emax M -> forall a b c A B C O D,
  visF prec emax a A -> visF prec emax b B -> visF prec emax c C -> coords M A -> coords M B -> coords M C ->
  forall r : ray spec_float, visF prec emax (origin r) O -> near_dir prec emax (direction r) D -> coords M O ->
  forall id i i',
  @tri_intersect _ (Fnum prec emax) i (@make_triangle _ (Fnum prec emax) a b c id) r = (true, i') ->
  1000 * ulpf prec * M ^ 2 <= Rabs (speed D A B C) ->
  exists t u v, isF prec emax (ti_hd i') t /\ isF prec emax (fst (ti_uv i')) u /\ isF prec emax (snd (ti_uv i')) v /\
    hit_near prec M O D A B C t u v.
Proof. exact tri_distance. Qed.
Print Assumptions C82_triangle_distance.

(** C82: a triangle whose edges the exact ray passes with a margin, between the two ends of the
    interval with a margin, is accepted. *)
Theorem C82_triangle_complete : forall prec emax, Prec_gt_0 prec -> Prec_lt_emax prec emax -> usual_format prec emax ->
  forall M, scale_ok prec emax M -> forall a b c A B C O D,
  visF prec emax a A -> visF prec emax b B -> visF prec emax c C -> coords M A -> coords M B -> coords M C ->
  forall r : ray spec_float, visF prec emax (origin r) O -> near_dir prec emax (direction r) D -> coords M O ->
  forall id i s lo h, passes s (967 * ulpf prec * M ^ 2) O D A B C ->
  isF prec emax (ti_min i) lo -> 0 <= lo -> s * plane A B C (at_t O D lo) <= - (400 * ulpf prec * M ^ 2 * (M + lo)) ->
  at_least prec emax (ti_hd i) h -> 0 <= h -> 400 * ulpf prec * M ^ 2 * (M + h) <= s * plane A B C (at_t O D h) ->
  fst (@tri_intersect _ (Fnum prec emax) i (@make_triangle _ (Fnum prec emax) a b c id) r) = true.
Proof. exact tri_complete. Qed.
Print Assumptions C82_triangle_complete.

Example C82_case :
  usual_format 53 1024 /\ scale_ok 53 1024 4 /\ coords 4 (pR (-1) (-1) 0) /\ coords 4 (pR 3 (-1) 0) /\ coords 4 (pR (-1) 3 0) /\
  visF 53 1024 (p64 (-1) (-1) 0) (pR (-1) (-1) 0) /\ visF 53 1024 (p64 3 (-1) 0) (pR 3 (-1) 0) /\ visF 53 1024 (p64 (-1) 3 0) (pR (-1) 3 0) /\
  visF 53 1024 (origin one_ray) (pR 0 0 1) /\ coords 4 (pR 0 0 1) /\
  near_dir 53 1024 (direction one_ray) (unit_of (pR 0 0 (-2))) /\
  passes (-1) (967 * ulpf 53 * 4 ^ 2) (pR 0 0 1) (unit_of (pR 0 0 (-2))) (pR (-1) (-1) 0) (pR 3 (-1) 0) (pR (-1) 3 0) /\
  1000 * ulpf 53 * 4 ^ 2 <= Rabs (speed (unit_of (pR 0 0 (-2))) (pR (-1) (-1) 0) (pR 3 (-1) 0) (pR (-1) 3 0)) /\
  fst (@tri_intersect _ F64 (@tri_prepare _ F64 one_ray) one_tri one_ray) = true.
Proof. exact one_case. Qed.

(** C83: a ray's direction, normalised in floating point, is the unit vector along the given
    one up to five units of roundoff per component. *)
Theorem C83_direction : forall prec emax, Prec_gt_0 prec -> Prec_lt_emax prec emax -> usual_format prec emax ->
  forall d D, visF prec emax d D -> 4096 * ulpf prec <= rv_norm D <= / ulpf prec ->
  near_dir prec emax (@normalize _ (Fnum prec emax) d) (unit_of D).
Proof. exact normalize_near. Qed.
Print Assumptions C83_direction.

Example C83_case : visF 53 1024 down_d (pR 0 0 (-2)) /\ 4096 * ulpf 53 <= rv_norm (pR 0 0 (-2)) <= / ulpf 53.
Proof. exact down_case. Qed.

(** C84: a query on a mesh in IEEE arithmetic.  A miss means that no face is surely hit; a hit
    names a face that is nearly hit and its distance and weights up to the errors; and no
    surely hit face lies before the distance of a closest-hit query. *)
Theorem C84_mesh_query : forall prec emax, Prec_gt_0 prec -> Prec_lt_emax prec emax ->
  forall M vertices faces P o d tmin tmax O D lo,
  mesh_ray prec emax M vertices faces P o d tmin tmax O D lo ->
  forall ms, @make_mesh _ (Fnum prec emax) vertices faces = Ok ms ->
  forall part, partition_ok part -> forall opt nodes st,
  @build _ (Fnum prec emax) _ part [] (@mesh_coll _ (Fnum prec emax) ms) opt = Ok (nodes, st) ->
  (forall k d, node_depth nodes k d -> (d <= 26)%nat) ->
  forall any rh,
  (@traverse _ (Fnum prec emax) _ _ (@tri_isector _ (Fnum prec emax) ms) nodes
     (@make_ray _ (Fnum prec emax) o d tmin tmax any) rh = Ok (false, rh) /\
   forall i s, (i < length faces)%nat -> ~ surely_hit prec M faces P O (unit_of D) (lo_unit lo D) i s) \/
  (exists rh' k t u v,
     @traverse _ (Fnum prec emax) _ _ (@tri_isector _ (Fnum prec emax) ms) nodes
       (@make_ray _ (Fnum prec emax) o d tmin tmax any) rh = Ok (true, rh') /\
     (k < length faces)%nat /\ h_prim rh' = Some k /\
     isF prec emax (h_distance rh') t /\ isF prec emax (fst (h_uv rh')) u /\ isF prec emax (snd (h_uv rh')) v /\
     nearly_hit prec M faces P O (unit_of D) lo k t u v /\
     (any = false -> forall i s, (i < length faces)%nat ->
        surely_hit prec M faces P O (unit_of D) (lo_unit lo D) i s ->
        not_behind prec M faces P O (unit_of D) i s (length faces) t)).
Proof. exact mesh_query_ready. Qed.
Print Assumptions C84_mesh_query.

Example C84_case : exists nodes st rh,
  mesh_ray 53 1024 4 two_vertices two_faces two_points down_o down_d (f64 0 0) (S754_infinity false) (pR 0 0 1) (pR 0 0 (-2)) 0 /\
  @make_mesh _ F64 two_vertices two_faces = Ok two_mesh /\
  @build _ F64 _ libstdcxx_partition [] (@mesh_coll _ F64 two_mesh) pair_opt = Ok (nodes, st) /\
  (forall k d, node_depth nodes k d -> (d <= 26)%nat) /\ length nodes = 3%nat /\
  surely_hit 53 4 two_faces two_points (pR 0 0 1) (unit_of (pR 0 0 (-2))) (lo_unit 0 (pR 0 0 (-2))) 0 (-1) /\
  surely_hit 53 4 two_faces two_points (pR 0 0 1) (unit_of (pR 0 0 (-2))) (lo_unit 0 (pR 0 0 (-2))) 1 (-1) /\
  @traverse _ F64 _ _ (@tri_isector _ F64 two_mesh) nodes
    (@make_ray _ F64 down_o down_d (f64 0 0) (S754_infinity false) false) two_rh = Ok (true, rh) /\
  h_prim rh = Some 0%nat /\ isF 53 1024 (h_distance rh) 1.
Proof. exact two_query. Qed.

(** C84: without the margin it fails: a mesh of two faces with a common edge, and a ray that
    meets the second in its interior, yet in binary32 the query finds nothing. *)
Theorem C84_crack_refuted : exists M vertices faces P o d tmin tmax O D ms nodes st i t,
  mesh_ray 24 128 M vertices faces P o d tmin tmax O D 0 /\
  @make_mesh _ F32 vertices faces = Ok ms /\
  @build _ F32 _ libstdcxx_partition [] (@mesh_coll _ F32 ms) pair_opt = Ok (nodes, st) /\
  (forall k d, node_depth nodes k d -> (d <= 26)%nat) /\
  (i < length faces)%nat /\ 0 < t /\ passes 1 3 O D (fa faces P i) (fb faces P i) (fc faces P i) /\
  plane (fa faces P i) (fb faces P i) (fc faces P i) (at_t O D t) = 0 /\
  (forall any rh, @traverse _ F32 _ _ (@tri_isector _ F32 ms) nodes (@make_ray _ F32 o d tmin tmax any) rh = Ok (false, rh)).
Proof. exact crack_refuted. Qed.
Print Assumptions C84_crack_refuted.
