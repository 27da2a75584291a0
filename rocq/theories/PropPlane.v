(** C20-C23: planes, in exact arithmetic; C11, C12, C14, C15 for planes. *)

From Coq Require Import Reals ZArith List Bool.
From Verif Require Import Num NumX Vec Ray Bvh Traverse Plane SpecBvh SpecReal SpecNearest SpecPlane.
From Verif Require Import PfPart PfPlane PfPlane2 CaseSphere CasePlane.
Import ListNotations.
Local Open Scope R_scope.

(** C20.  The current best distance [pi_hd i] is any scalar, also infinite. *)
Theorem C20_plane_exact : forall big tiny eps i p r O U m C dx dy Rm h i',
  visR (pi_org i) O -> visR (pi_dir i) U -> isR (pi_min i) m ->
  visR (pl_center p) C -> isR (pl_dx p) dx -> isR (pl_dy p) dy -> misR (pl_rot p) Rm ->
  0 < dx -> 0 < dy -> orthogonal Rm -> rv_dot U U = 1 -> 0 <= m ->
  @plane_intersect _ (Xnum big tiny eps) i p r = (h, i') ->
  (h = true <-> exists t, rv_dot U (normal_of Rm) <> 0 /\ on_patch C dx dy Rm (at_t O U t) /\
     m < t /\ xltb (Fin t) (pi_hd i) = true) /\
  (h = true -> exists t, isR (pi_hd i') t /\ pi_prim i' = Some (pl_id p) /\
     on_patch C dx dy Rm (at_t O U t) /\ m < t /\ xltb (Fin t) (pi_hd i) = true) /\
  (h = false -> i' = i).
Proof. exact plane_exact. Qed.
Print Assumptions C20_plane_exact.
(** A tilted patch, hit in the middle and on its edge. *)
Example C20_case : forall y, y = 0 \/ y = 1 ->
  exists i', @plane_intersect _ (Xnum 1000 0 0) (plane_start y) case_plane (plane_ray y) = (true, i') /\
    isR (pi_hd i') 10.
Proof. exact plane_case. Qed.

(** C21. *)
Theorem C21_plane_normal : forall big tiny eps i p r rh O U m C dx dy Rm i',
  visR (pi_org i) O -> visR (pi_dir i) U -> isR (pi_min i) m ->
  visR (pl_center p) C -> isR (pl_dx p) dx -> isR (pl_dy p) dy -> misR (pl_rot p) Rm ->
  0 < dx -> 0 < dy -> orthogonal Rm -> rv_dot U U = 1 -> 0 <= m ->
  @plane_intersect _ (Xnum big tiny eps) i p r = (true, i') ->
  exists rh' n t, @plane_post _ (Xnum big tiny eps) i' rh = Ok rh' /\ isR (h_distance rh') t /\
    h_prim rh' = Some (pl_id p) /\ h_geom rh' = h_geom rh /\
    visR (h_normal rh') n /\ rv_norm n = 1 /\ faces C Rm O n /\
    (in_patch C dx dy Rm (at_t O U t) -> n = normal_of Rm \/ n = rv_scale (-1) (normal_of Rm)).
Proof. exact plane_normal. Qed.
Print Assumptions C21_plane_normal.
(** The hit of C20's case with y = 0 lies inside the patch. *)
Example C21_case : forall y, -1 <= y <= 1 ->
  rv_dot (V 1 0 0) (normal_of turn) <> 0 /\
  on_patch (V 10 0 0) 2 2 turn (at_t (V 0 y 0) (V 1 0 0) 10) /\
  (-1 < y < 1 -> in_patch (V 10 0 0) 2 2 turn (at_t (V 0 y 0) (V 1 0 0) 10)).
Proof. exact plane_crossing. Qed.

(** C22, for any matrix. *)
Theorem C22_plane_box : forall big tiny eps c x y r C dx dy Rm,
  visR c C -> isR x dx -> isR y dy -> misR r Rm -> 0 <= dx -> 0 <= dy -> 0 <= tiny ->
  exists m M, visR (fst (@plane_box _ (Xnum big tiny eps) c x y r)) m /\
    visR (snd (@plane_box _ (Xnum big tiny eps) c x y r)) M /\
    (forall p, on_patch C dx dy Rm p -> in_box m M p) /\ in_box m M C.
Proof. exact plane_box_ok. Qed.
Print Assumptions C22_plane_box.
(** The box exactly: the least one around the patch, thickened by [tiny]. *)
Theorem C22_plane_box_exact : forall big tiny eps c x y r C dx dy Rm,
  visR c C -> isR x dx -> isR y dy -> misR r Rm -> 0 <= dx -> 0 <= dy -> 0 <= tiny ->
  visR (fst (@plane_box _ (Xnum big tiny eps) c x y r)) (plane_lower C dx dy Rm tiny) /\
  visR (snd (@plane_box _ (Xnum big tiny eps) c x y r)) (plane_upper C dx dy Rm tiny).
Proof. exact plane_box_is. Qed.
Print Assumptions C22_plane_box_exact.
Example C22_case : extent 2 2 0 (vx turn) = 3 / 5 /\ extent 2 2 0 (vy turn) = 1 /\ extent 2 2 0 (vz turn) = 4 / 5.
Proof. exact turn_extent. Qed.

(** C23, for patches centered on the z axis.  Missing: all others, for which it is
    false: the routine adds the center's x and y to bounds in local coordinates. *)
Theorem C23_plane_distance_partial : forall big tiny eps pl p C dx dy Rm Q,
  visR (pl_center pl) C -> isR (pl_dx pl) dx -> isR (pl_dy pl) dy -> misR (pl_rot pl) Rm ->
  orthogonal Rm -> visR p Q -> vx C = 0 -> vy C = 0 ->
  (on_patch C dx dy Rm (foot C Rm Q) ->
     isR (@plane_distance _ (Xnum big tiny eps) pl p) (rv_norm (rv_sub Q (foot C Rm Q)))) /\
  (~ on_patch C dx dy Rm (foot C Rm Q) ->
     @plane_distance _ (Xnum big tiny eps) pl p = @nmaxv _ (Xnum big tiny eps)).
Proof. exact plane_distance_centered. Qed.
Print Assumptions C23_plane_distance_partial.
(** A point 1 above the center of a patch at (10, 0, 0): the result is max(). *)
Theorem C23_plane_distance_refuted : exists pl p C dx dy Rm Q,
  visR (pl_center pl) C /\ isR (pl_dx pl) dx /\ isR (pl_dy pl) dy /\ misR (pl_rot pl) Rm /\
  orthogonal Rm /\ visR p Q /\ 0 < dx /\ 0 < dy /\ on_patch C dx dy Rm (foot C Rm Q) /\
  rv_norm (rv_sub Q (foot C Rm Q)) = 1 /\
  @plane_distance _ (Xnum 1000 0 0) pl p = @nmaxv _ (Xnum 1000 0 0).
Proof. exact off_center_refutes. Qed.
Print Assumptions C23_plane_distance_refuted.

(** C11 ([any = false]) and C12 ([any = true]) for planes. *)
Theorem C11_planes : forall big tiny eps centers dxs dys rots s C dx dy Rm part opt nodes st o d tmin tmax any O D m rh,
  0 <= eps -> 0 <= tiny ->
  @make_planes _ (Xnum big tiny eps) centers dxs dys rots = Ok s -> planes_are s C dx dy Rm ->
  (forall i, (i < length (ps_centers s))%nat -> 0 < dx i /\ 0 < dy i /\ orthogonal (Rm i)) ->
  (forall i, (i < length (ps_centers s))%nat ->
     in_bounds big (plane_lower (C i) (dx i) (dy i) (Rm i) tiny) /\
     in_bounds big (plane_upper (C i) (dx i) (dy i) (Rm i) tiny)) ->
  partition_ok part -> @build _ (Xnum big tiny eps) _ part [] (plane_coll s) opt = Ok (nodes, st) ->
  (forall k d, node_depth nodes k d -> (d <= 26)%nat) -> admissible o d tmin O D m ->
  (vz D = 0 -> forall i, (i < length (ps_centers s))%nat ->
     vz O <> vz (plane_lower (C i) (dx i) (dy i) (Rm i) tiny) /\
     vz O <> vz (plane_upper (C i) (dx i) (dy i) (Rm i) tiny)) ->
  hit_answer (plane_hit s C dx dy Rm O (unit_of D) m tmax) (plane_about C dx dy Rm O (unit_of D)) any rh
    (@traverse _ (Xnum big tiny eps) _ _ (@plane_isector _ (Xnum big tiny eps)) nodes
       (@make_ray _ (Xnum big tiny eps) o d tmin tmax any) rh).
Proof.
  exact (fun big tiny eps centers dxs dys rots s C dx dy Rm part opt nodes st o d tmin tmax any O D m rh
    H1 H2 H3 H4 H5 H6 H7 H8 H9 H10 H11 =>
    plane_query big tiny eps H1 H2 centers dxs dys rots s H3 C dx dy Rm H4 H5 H6 part H7 opt nodes st H8 H9
      o d tmin tmax any O D m H10 H11 rh).
Qed.
Print Assumptions C11_planes.
Example C11_planes_case : exists s nodes st rh,
  three = Ok s /\
  @build _ (Xnum 1000 0 0) _ libstdcxx_partition [] (plane_coll s) five_opt = Ok (nodes, st) /\
  @traverse _ (Xnum 1000 0 0) _ _ (@plane_isector _ (Xnum 1000 0 0)) nodes
    (@make_ray _ (Xnum 1000 0 0) (vfin (V 0 0 0)) (vfin (V 1 0 0)) (Fin 0) (Fin 1000) false)
    (@new_rayhit _ (Xnum 1000 0 0)) = Ok (true, rh) /\
  h_prim rh = Some 1%nat /\ isR (h_distance rh) 10 /\ visR (h_normal rh) (V (-4 / 5) 0 (-3 / 5)).
Proof. exact three_query. Qed.

(** C14 and C15 for planes: two builds, and two admissible rays whose directions
    differ by the factor [k]. *)
Theorem C14_planes : forall big tiny eps centers dxs dys rots s C dx dy Rm part1 part2 opt1 opt2 nodes1 nodes2 st1 st2
    o d d' k tmin tmax O D m rh1 rh2,
  0 <= eps -> 0 <= tiny ->
  @make_planes _ (Xnum big tiny eps) centers dxs dys rots = Ok s -> planes_are s C dx dy Rm ->
  (forall i, (i < length (ps_centers s))%nat -> 0 < dx i /\ 0 < dy i /\ orthogonal (Rm i)) ->
  (forall i, (i < length (ps_centers s))%nat ->
     in_bounds big (plane_lower (C i) (dx i) (dy i) (Rm i) tiny) /\
     in_bounds big (plane_upper (C i) (dx i) (dy i) (Rm i) tiny)) ->
  partition_ok part1 -> @build _ (Xnum big tiny eps) _ part1 [] (plane_coll s) opt1 = Ok (nodes1, st1) ->
  partition_ok part2 -> @build _ (Xnum big tiny eps) _ part2 [] (plane_coll s) opt2 = Ok (nodes2, st2) ->
  (forall k d, node_depth nodes1 k d -> (d <= 26)%nat) -> (forall k d, node_depth nodes2 k d -> (d <= 26)%nat) ->
  admissible o d tmin O D m -> 0 < k -> admissible o d' tmin O (rv_scale k D) m ->
  (vz D = 0 -> forall i, (i < length (ps_centers s))%nat ->
     vz O <> vz (plane_lower (C i) (dx i) (dy i) (Rm i) tiny) /\
     vz O <> vz (plane_upper (C i) (dx i) (dy i) (Rm i) tiny)) ->
  same_answer
    (@traverse _ (Xnum big tiny eps) _ _ (@plane_isector _ (Xnum big tiny eps)) nodes1
       (@make_ray _ (Xnum big tiny eps) o d tmin tmax false) rh1)
    (@traverse _ (Xnum big tiny eps) _ _ (@plane_isector _ (Xnum big tiny eps)) nodes2
       (@make_ray _ (Xnum big tiny eps) o d' tmin tmax false) rh2).
Proof. exact plane_agree. Qed.
Print Assumptions C14_planes.
