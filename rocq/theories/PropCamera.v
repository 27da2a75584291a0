(** C75, C76: the camera and the picture of the renderer. *)

From Coq Require Import Reals ZArith List Bool.
From Verif Require Import Num NumX Vec Ray Bvh Traverse Trimesh TinyObj Image Camera.
From Verif Require Import SpecBvh SpecReal SpecTri SpecNearest SpecImage SpecCamera SpecObj SpecObjMesh SpecRender.
From Verif Require Import PfPart PfCamera PfRender CaseObj CaseCamera.
Import ListNotations.
Local Open Scope R_scope.

(** C75.  Each ray passes through the centre of its pixel on the screen. *)
Theorem C75_camera_rays : forall big tiny eps ftan half_degree (c : camera xr) O D Up w width height,
  visR (ca_eye c) O -> visR (ca_dir c) D -> visR (ca_up c) Up ->
  no_neg_zero (vx (ca_dir c)) -> no_neg_zero (vy (ca_dir c)) -> no_neg_zero (vz (ca_dir c)) ->
  isR (ftan (@nmul _ (Xnum big tiny eps) (ca_fov c) half_degree)) w ->
  (0 < width)%Z -> (0 < height)%Z -> rv_cross D Up <> rv_zero ->
  exists d r a, looking D Up d r a /\
    forall i j, exists U, rv_norm U = 1 /\ through_pixel d r a w width height i j U /\
      wide (ca_eye c) (@pixel_direction _ (Xnum big tiny eps) ftan half_degree c width height i j) (Fin 0) O U 0.
Proof. exact camera_rays. Qed.
Print Assumptions C75_camera_rays.
(** [looking] determines the frame. *)
Theorem C75_frame_unique : forall D Up d r a d' r' a',
  looking D Up d r a -> looking D Up d' r' a' -> d = d' /\ r = r' /\ a = a'.
Proof. exact looking_unique. Qed.
Print Assumptions C75_frame_unique.
Theorem C75_in_view : forall d r a w width height i j U,
  (0 < width)%Z -> 0 < w -> (0 <= i < width)%Z -> (0 <= j < height)%Z -> through_pixel d r a w width height i j U ->
  Rabs (rv_dot U r) < w * rv_dot U d /\ Rabs (rv_dot U a) < w * (IZR height / IZR width) * rv_dot U d.
Proof. exact in_view. Qed.
Print Assumptions C75_in_view.
Theorem C75_pixels_distinct : forall d r a w width height i j i' j' U, (0 < width)%Z -> w <> 0 ->
  through_pixel d r a w width height i j U -> through_pixel d r a w width height i' j' U -> i = i' /\ j = j'.
Proof. exact distinct. Qed.
Print Assumptions C75_pixels_distinct.
(** If the camera looks straight up or down there are no rays. *)
Theorem C75_vertical_nan : forall big tiny eps ftan half_degree (c : camera xr) D Up,
  visR (ca_dir c) D -> visR (ca_up c) Up -> forall width height i j, D <> rv_zero -> rv_cross D Up = rv_zero ->
  @pixel_direction _ (Xnum big tiny eps) ftan half_degree c width height i j = V Xnan Xnan Xnan.
Proof. exact flat_nan. Qed.
Print Assumptions C75_vertical_nan.
(** The rays of the other examples, through the square [-1/2, 1/2] at distance 1. *)
Theorem C75_pinhole : forall big tiny eps width height x y, (0 < width)%Z -> (0 < height)%Z ->
  wide (@pinhole_origin _ (Xnum big tiny eps)) (@pinhole_direction _ (Xnum big tiny eps) width height x y) (Fin 0)
    (V 0 5 20) (V (IZR x / IZR width - / 2) (IZR y / IZR height - / 2) (-1)) 0.
Proof. exact pinhole_ok. Qed.
Print Assumptions C75_pinhole.
Theorem C75_pinhole_distinct : forall width height x y x' y' s, (0 < width)%Z -> (0 < height)%Z ->
  V (IZR x / IZR width - / 2) (IZR y / IZR height - / 2) (-1) =
    rv_scale s (V (IZR x' / IZR width - / 2) (IZR y' / IZR height - / 2) (-1)) -> x = x' /\ y = y'.
Proof. exact pinhole_distinct. Qed.
Print Assumptions C75_pinhole_distinct.
Example C75_case : visR (ca_eye front) (V 0 5 10) /\ visR (ca_dir front) (V 0 0 (-1)) /\ visR (ca_up front) (V 0 1 0) /\
  no_neg_zero (vx (ca_dir front)) /\ no_neg_zero (vy (ca_dir front)) /\ no_neg_zero (vz (ca_dir front)) /\
  rv_cross (V 0 0 (-1)) (V 0 1 0) <> rv_zero.
Proof. exact front_ok. Qed.
Example C75_frame_case : forall d r a, looking (V 0 0 (-1)) (V 0 1 0) d r a -> d = V 0 0 (-1) /\ r = V 1 0 0 /\ a = V 0 1 0.
Proof. exact front_frame. Qed.
Example C75_middle_case : through_pixel (V 0 0 (-1)) (V 1 0 0) (V 0 1 0) 1 3 3 1 1 (V 0 0 (-1)).
Proof. exact middle_pixel. Qed.

(** C76.  The picture of a mesh. *)
Theorem C76_render_mesh : forall big tiny eps ftan half_degree c O D Up w width height,
  visR (ca_eye c) O -> visR (ca_dir c) D -> visR (ca_up c) Up ->
  no_neg_zero (vx (ca_dir c)) -> no_neg_zero (vy (ca_dir c)) -> no_neg_zero (vz (ca_dir c)) ->
  isR (ftan (@nmul _ (Xnum big tiny eps) (ca_fov c) half_degree)) w ->
  (0 < width)%Z -> (0 < height)%Z -> (3 * width * height < 18446744073709551616)%Z -> rv_cross D Up <> rv_zero -> 0 <= eps ->
  forall vertices faces P ms, mesh_are vertices faces P -> @make_mesh _ (Xnum big tiny eps) vertices faces = Ok ms ->
  (forall i, (i < length faces)%nat ->
     in_bounds big (tri_lower (fa faces P i) (fb faces P i) (fc faces P i)) /\
     in_bounds big (tri_upper (fa faces P i) (fb faces P i) (fc faces P i))) ->
  level_free D Up O w width height (face_levels faces P) ->
  forall part, partition_ok part -> forall opt nodes st,
  @build _ (Xnum big tiny eps) _ part [] (@mesh_coll _ (Xnum big tiny eps) ms) opt = Ok (nodes, st) ->
  (forall k d, node_depth nodes k d -> (d <= 26)%nat) ->
  exists img, @render _ (Xnum big tiny eps) ftan half_degree c ms nodes width height = Ok img /\
    photograph D Up w width height img (fun U => shaded (4 * eps) faces P O U (Fin big)).
Proof. exact render_mesh. Qed.
Print Assumptions C76_render_mesh.
(** From the file to the picture. *)
Theorem C76_render_file : forall big tiny eps ftan half_degree c O D Up w width height,
  visR (ca_eye c) O -> visR (ca_dir c) D -> visR (ca_up c) Up ->
  no_neg_zero (vx (ca_dir c)) -> no_neg_zero (vy (ca_dir c)) -> no_neg_zero (vz (ca_dir c)) ->
  isR (ftan (@nmul _ (Xnum big tiny eps) (ca_fov c) half_degree)) w ->
  (0 < width)%Z -> (0 < height)%Z -> (3 * width * height < 18446744073709551616)%Z -> rv_cross D Up <> rv_zero -> 0 <= eps ->
  forall mtl_file cs Q scale a,
  well_formed (T := xr) mtl_file 0 0 0 cs -> uniform_shapes None cs -> small_file mtl_file cs ->
  points (fun p => p) (vertices_of cs) Q -> isR scale a ->
  (forall j, (j < length (vertices_of cs))%nat -> in_bounds big (rv_scale a (Q (Z.of_nat j)))) ->
  level_free D Up O w width height (fun z => exists j, (j < length (vertices_of cs))%nat /\ z = a * vz (Q (Z.of_nat j))) ->
  forall part, partition_ok part -> forall opt, (1 <= bin_size opt)%nat -> (3 * Z.of_nat (bin_size opt) < 4294967296)%Z ->
  exists mesh P ms nodes st,
    @load_mesh _ (Xnum big tiny eps) mtl_file scale cs = Ok (Some (mesh, @file_materials _ mtl_file (Xnum big tiny eps) cs)) /\
    mesh_are (om_vertices mesh) (map face_nat (om_faces mesh)) P /\
    faces_of (file_triangles mtl_file cs) (fun j => rv_scale a (Q j)) (map face_nat (om_faces mesh)) P /\
    @make_mesh _ (Xnum big tiny eps) (om_vertices mesh) (map face_nat (om_faces mesh)) = Ok ms /\
    @build _ (Xnum big tiny eps) _ part [] (@mesh_coll _ (Xnum big tiny eps) ms) opt = Ok (nodes, st) /\
    ((forall k d, node_depth nodes k d -> (d <= 26)%nat) ->
     exists img, @render _ (Xnum big tiny eps) ftan half_degree c ms nodes width height = Ok img /\
       photograph D Up w width height img
         (fun U => file_shaded (4 * eps) (file_triangles mtl_file cs) (fun j => rv_scale a (Q j))
                     (map face_nat (om_faces mesh)) P O U (Fin big))).
Proof. exact render_file. Qed.
Print Assumptions C76_render_file.
(** The renderer's camera is level-free for every file. *)
Example C76_level_case : forall O w width height level, level_free (V 0 0 (-1)) (V 0 1 0) O w width height level.
Proof. exact front_level. Qed.
Example C76_case : forall tiny eps,
  well_formed (T := xr) (@two_mtl _ (Xnum 1000 tiny eps)) 0 0 0 (@square_file _ (Xnum 1000 tiny eps)) /\
  uniform_shapes None (@square_file _ (Xnum 1000 tiny eps)) /\
  small_file (@two_mtl _ (Xnum 1000 tiny eps)) (@square_file _ (Xnum 1000 tiny eps)) /\
  points (fun p => p) (vertices_of (@square_file _ (Xnum 1000 tiny eps))) square_points /\
  (forall j, (j < length (vertices_of (@square_file _ (Xnum 1000 tiny eps))))%nat -> in_bounds 1000 (rv_scale 8 (square_points (Z.of_nat j)))) /\
  obj_cross (file_triangles (@two_mtl _ (Xnum 1000 tiny eps)) (@square_file _ (Xnum 1000 tiny eps))) (fun j => rv_scale 8 (square_points j))
    (V 0 5 10) (V 0 0 (-1)) 0 (Fin 1000) 1 10.
Proof. exact square_seen. Qed.
