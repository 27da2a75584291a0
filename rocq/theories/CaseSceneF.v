(** A scene of a mesh, spheres, patches and cylinders in binary64. *)

From Coq Require Import Reals ZArith List Bool Arith Lra Lia Psatz Floats.SpecFloat.
From Flocq Require Import Core IEEE754.BinarySingleNaN.
From Verif Require Import Num NumR NumF Vec Datatypes Ray Bvh Traverse Trimesh Sphere Plane Cylinder Scene.
From Verif Require Import SpecBvh SpecReal SpecIEEE SpecTri SpecTriF SpecSphF SpecPlane SpecPlaneF SpecTubeF SpecTubeQ SpecCyl SpecScene SpecSceneF.
From Verif Require Import PfPart PfIEEE PfMeshF CaseIEEE CaseTriF CaseMeshF CaseSphF CasePlaneF CaseTubeF CaseTubeQ.
Import ListNotations.
Local Open Scope R_scope.

(** The patches of C90, the spheres of C88, the mesh of C84, a second mesh, which is refused, and the
    cylinders of C102. *)
Definition all_calls : list (call spec_float) :=
  [AddPlanes pan_centers pan_sides pan_sides pan_rots; AddSpheres row_centers row_radii; AddMesh two_vertices two_faces;
   AddMesh two_vertices two_faces; AddCylinders duo_centers duo_a duo_b duo_h duo_rots; Commit].
Definition all_shapes (c : call spec_float) : shape :=
  match c with
  | AddMesh _ _ => Corners two_points
  | AddSpheres _ _ => Balls row_C row_r
  | AddCylinders _ _ _ _ _ => Tubes 1 (/ 1024) duo_C duo_ra duo_rb duo_rh duo_Q duo_B
  | _ => Patches pan_C pan_d pan_d pan_Q
  end.
Definition all_replies : list (reply spec_float) := [Id (Some 0%nat); Id (Some 1%nat); Id (Some 2%nat); Id None; Id (Some 3%nat); Done].

Lemma two_high : mesh_ray 53 1024 8 two_vertices two_faces two_points row_o down_d (f64 0 0) (S754_infinity false) (pR 0 0 3) (pR 0 0 (-2)) 0.
Proof.
  destruct row_ray as [A1 A2 _ _ A5 A6 A7 _ _]. destruct (unit_down 2 ltac:(lra)) as [EU EN].
  split; try assumption.
  - destruct two_are as [Q1 Q2]. split; [|exact Q2]. intros j Hj. destruct (Q1 j Hj) as (x & E & Hx & H1 & H2 & H3).
    exists x. split; [exact E|]. split; [exact Hx|]. repeat split; lra.
  - apply (coords_R 8); cbn; lia.
  - left. reflexivity.
  - unfold pR. cbn [vz]. lra.
  - intros i s Hi _. rewrite down_eq, EU. rewrite ulp64_is.
    assert (E : speed (V 0 0 (-1)) (fa two_faces two_points i) (fb two_faces two_points i) (fc two_faces two_points i) = -16).
    { change (length two_faces) with 2%nat in Hi. two i; unfold speed, tri_cross, rv_cross, rv_dot, rv_sub, fa, fb, fc, face, two_points, pR; cbn [nth two_faces vx vy vz]; lra. }
    rewrite E, Rabs_left by lra. lra.
Qed.
Lemma two_wide8 : extents_wide (bin_extent 53 8 (bin_size pair_opt)) two_faces two_points.
Proof.
  apply (grid_wide 1 two_vertices); [|lra|exact (proj2 two_are)|].
  - unfold bin_extent. rewrite ulp64_is. replace (INR (bin_size pair_opt)) with 64 by (rewrite INR_IZR_INZ; reflexivity). lra.
  - intros j Hj. change (length two_vertices) with 6%nat in Hj.
    do 6 (destruct j as [|j]; [do 3 eexists; rewrite !Rmult_1_l; reflexivity|]). lia.
Qed.

Lemma all_fit c : In c all_calls -> is_query c = false /\
  (adds c <> None -> shape_ray 53 1024 8 row_o down_d (f64 0 0) (S754_infinity false) (pR 0 0 3) (pR 0 0 (-2)) 0 c (all_shapes c)).
Proof.
  intros [<-|[<-|[<-|[<-|[<-|[<-|[]]]]]]]; (split; [reflexivity|]); intros H; cbn [shape_ray all_shapes];
    [exact pan_ray|exact row_ray|exact two_high|exact two_high|exact duo_ray|contradict H; reflexivity].
Qed.
Lemma all_build opt : used_options pair_opt all_calls opt -> bins_ok opt /\
  forall c, In c all_calls -> adds c <> None -> shallow opt (primitives c) /\ shape_wide 53 1024 8 opt c (all_shapes c).
Proof.
  intros [->|H]; [|cbn in H; repeat (destruct H as [H|H]; [discriminate H|]); destruct H].
  split; [split; [cbn; lia|reflexivity]|].
  intros c [<-|[<-|[<-|[<-|[<-|[<-|[]]]]]]] Ha; cbn [shape_wide all_shapes primitives];
    [split; [left; cbn; lia|exact pan_spread]|split; [left; cbn; lia|exact row_spread]|split; [left; cbn; lia|exact two_wide8]|
     split; [left; cbn; lia|exact two_wide8]|
     split; [left; cbn; lia|exact (proj1 (proj2 duo_ready))]|contradict Ha; reflexivity].
Qed.
Lemma all_query : exists s rh,
  @run _ F64 libstdcxx_partition (new_scene pair_opt) all_calls = Ok (s, all_replies) /\
  @intersect1 _ F64 s (@make_ray _ F64 row_o down_d (f64 0 0) (S754_infinity false) false) two_rh = Ok (true, rh) /\
  h_geom rh = Some 3%nat /\ h_prim rh = Some 0%nat /\ isF 53 1024 (h_distance rh) (5629499534213122 * / 4503599627370496).
Proof.
  do 2 eexists. split; [vm_compute; reflexivity|]. split; [vm_compute; reflexivity|]. split; [reflexivity|]. split; [reflexivity|].
  cbn [h_distance]. lit.
Qed.
Lemma all_case : exists s rh,
  (forall c, In c all_calls -> is_query c = false /\
     (adds c <> None -> shape_ray 53 1024 8 row_o down_d (f64 0 0) (S754_infinity false) (pR 0 0 3) (pR 0 0 (-2)) 0 c (all_shapes c))) /\
  (forall opt, used_options pair_opt all_calls opt -> bins_ok opt /\
     forall c, In c all_calls -> adds c <> None -> shallow opt (primitives c) /\ shape_wide 53 1024 8 opt c (all_shapes c)) /\
  @run _ F64 libstdcxx_partition (new_scene pair_opt) all_calls = Ok (s, all_replies) /\
  sure 53 1024 8 (pR 0 0 3) (pR 0 0 (-2)) (lo_unit 0 (pR 0 0 (-2))) (AddPlanes pan_centers pan_sides pan_sides pan_rots) (Patches pan_C pan_d pan_d pan_Q) 0 /\
  sure 53 1024 8 (pR 0 0 3) (pR 0 0 (-2)) (lo_unit 0 (pR 0 0 (-2))) (AddSpheres row_centers row_radii) (Balls row_C row_r) 0 /\
  sure 53 1024 8 (pR 0 0 3) (pR 0 0 (-2)) (lo_unit 0 (pR 0 0 (-2))) (AddMesh two_vertices two_faces) (Corners two_points) 0 /\
  sure 53 1024 8 (pR 0 0 3) (pR 0 0 (-2)) (lo_unit 0 (pR 0 0 (-2))) (AddCylinders duo_centers duo_a duo_b duo_h duo_rots) (Tubes 1 (/ 1024) duo_C duo_ra duo_rb duo_rh duo_Q duo_B) 0 /\
  (forall t, @nltb _ F64 t (S754_infinity false) = true -> @nltb _ F64 t (h_distance two_rh) = true) /\
  @intersect1 _ F64 s (@make_ray _ F64 row_o down_d (f64 0 0) (S754_infinity false) false) two_rh = Ok (true, rh) /\
  h_geom rh = Some 3%nat /\ h_prim rh = Some 0%nat /\ isF 53 1024 (h_distance rh) (5629499534213122 * / 4503599627370496).
Proof.
  destruct all_query as (s & rh & E & H). exists s, rh. split; [exact all_fit|]. split; [exact all_build|]. split; [exact E|].
  split; [split; [cbn; lia|]; exists (15 / 4); apply pan_pierced|].
  split; [split; [cbn; lia|]; destruct row_crossed as (C1 & _ & C3); exists 1, 3; auto|].
  split; [|split; [split; [cbn; lia|]; split; [intros Z; exfalso; revert Z; unfold pR; cbn [vz]; lra|exists 2; exact (proj1 duo_seen)]|split; [intros t Ht; exact Ht|exact H]]].
  split; [cbn; lia|]. exists (-1). destruct (unit_down 2 ltac:(lra)) as [EU EN]. unfold surely_hit, lo_unit. rewrite Rmult_0_l, down_eq, EU, ulp64_is.
  (split; [split; [right; reflexivity|split; [|split]]|]);
    unfold side, plane, tri_cross, at_t, rv_add, rv_scale, rv_cross, rv_dot, rv_sub, fa, fb, fc, face, two_points, pR; cbn [nth two_faces vx vy vz]; lra.
Qed.
(** The spheres of C88 and the first of the cylinders. *)
Definition lone_call : call spec_float := AddCylinders [p64 0 1 0] [f64 2 0] [f64 1 0] [f64 4 0] [slope_m].
Definition lone_calls : list (call spec_float) := [AddSpheres row_centers row_radii; lone_call; Commit].
Definition lone_replies : list (reply spec_float) := [Id (Some 0%nat); Id (Some 1%nat); Done].
Lemma lone_ray : tubes_ray 53 1024 8 1 (/ 1024) [p64 0 1 0] [f64 2 0] [f64 1 0] [f64 4 0] [slope_m] duo_C duo_ra duo_rb duo_rh duo_Q duo_B
  row_o down_d (f64 0 0) (S754_infinity false) (pR 0 0 3) (pR 0 0 (-2)) 0.
Proof.
  destruct duo_ray as [A1 A2 A3 A4 A5 A6 A7 A8]. split; try assumption.
  - intros i Hi. destruct i as [|i]; [|cbn in Hi; lia]. destruct (A3 0%nat ltac:(cbn; lia)) as (c & x & y & z & m & E). exists c, x, y, z, m. exact E.
  - intros i Hi. destruct i as [|i]; [|cbn in Hi; lia]. apply A4. cbn. lia.
Qed.
Lemma lone_geo g c : geometry_of lone_calls lone_replies g c -> c = AddSpheres row_centers row_radii \/ c = lone_call.
Proof.
  intros (j & H1 & H2). destruct j as [|[|[|j]]]; cbn in H1, H2; [injection H1 as <-; auto|injection H1 as <-; auto|discriminate H2|].
  destruct j; discriminate H1.
Qed.
Lemma lone_case : exists s rh,
  @run _ F64 libstdcxx_partition (new_scene pair_opt) lone_calls = Ok (s, lone_replies) /\ In Commit lone_calls /\ all_shallow pair_opt lone_calls lone_replies /\
  (forall g c, geometry_of lone_calls lone_replies g c ->
     shape_ray 53 1024 8 row_o down_d (f64 0 0) (S754_infinity false) (pR 0 0 3) (pR 0 0 (-2)) 0 c (all_shapes c)) /\
  geometry_of lone_calls lone_replies 1 lone_call /\
  off_sides 53 1024 [p64 0 1 0] [f64 2 0] [f64 1 0] [f64 4 0] [slope_m] (pR 0 0 3) (pR 0 0 (-2)) /\
  plain_view 53 8 1 (duo_ra 0) (duo_rb 0) (duo_rh 0) (duo_C 0) (duo_Q 0) (pR 0 0 3) (unit_of (pR 0 0 (-2))) (lo_unit 0 (pR 0 0 (-2))) 2 /\
  outside (tube_err 53 8 1) (cap_err 53 8) (duo_ra 0) (duo_rb 0) (duo_rh 0) (local (duo_C 0) (duo_Q 0) (pR 0 0 3)) /\
  @intersect1 _ F64 s (@make_ray _ F64 row_o down_d (f64 0 0) (S754_infinity false) false) two_rh = Ok (true, rh) /\
  h_geom rh = Some 1%nat /\ isF 53 1024 (h_distance rh) (5629499534213122 * / 4503599627370496).
Proof.
  assert (H : exists s rh, @run _ F64 libstdcxx_partition (new_scene pair_opt) lone_calls = Ok (s, lone_replies) /\
    @intersect1 _ F64 s (@make_ray _ F64 row_o down_d (f64 0 0) (S754_infinity false) false) two_rh = Ok (true, rh) /\
    h_geom rh = Some 1%nat /\ isF 53 1024 (h_distance rh) (5629499534213122 * / 4503599627370496)).
  { do 2 eexists. split; [vm_compute; reflexivity|]. split; [vm_compute; reflexivity|]. split; [reflexivity|]. cbn [h_distance]. lit. }
  destruct H as (s & rh & E & Ei & Eg & Ed). exists s, rh. split; [exact E|]. split; [right; right; left; reflexivity|].
  split; [intros opt g c [->|Ho] Hg; [destruct (lone_geo g c Hg) as [->| ->]; left; cbn; lia|cbn in Ho; repeat (destruct Ho as [Ho|Ho]; [discriminate Ho|]); destruct Ho]|].
  split; [intros g c Hg; destruct (lone_geo g c Hg) as [->| ->]; [exact row_ray|exact lone_ray]|].
  split; [exists 1%nat; split; reflexivity|]. split; [intros Z; exfalso; revert Z; unfold pR; cbn [vz]; lra|]. split; [exact (proj1 duo_seen)|].
  split; [|auto]. destruct can_errs as [E1 E2]. rewrite E1, E2. change (pR 0 0 3) with (V 0 0 3). rewrite (at_zero (V 0 0 3) can_U). left.
  cbn [duo_C duo_Q duo_rh nth]. rewrite can_local. cbn [vz]. rewrite Rabs_pos_eq; lra.
Qed.
