(** The tests of /repo/test/test_primitives/test_trimesh.cpp, evaluated by the model.
    Written by tools/suite.py; each entry is the line of the test and its answer. *)

From Coq Require Import ZArith List Bool.
From Coq.Floats Require Import SpecFloat.
From Verif Require Import Num NumF Vec Ray Bvh Traverse Sphere Plane Cylinder CylDist Trimesh Suite.
Import ListNotations.

Section S64_checks64.
Local Existing Instance F64.
Local Notation l := (l64) (only parsing).
Definition trimesh_checks64 : list (nat * bool) := concat [
  on_all (make_mesh [(V (l 1 0) (l (-1) 0) (l (-1) 0)); (V (l (-1) 0) (l 1 0) (l 1 0)); (V (l 1 0) (l 1 0) (l (-1) 0))] [(V 0 1 2)]) (fun s => [
    (55%nat, box_ok (mesh_coll s) 0 (V (l (-1) 0) (l (-1) 0) (l (-1) 0)) (V (l 1 0) (l 1 0) (l 1 0)));
    (90%nat, center_ok (mesh_coll s) 0 (V (l 3002369727582815 (-53)) (l 3002369727582815 (-53)) (l (-3002369727582815) (-53))))]);
  on_all (make_mesh [(V z z z); (V (l 1 0) z z); (V z (l 1 0) z)] [(V 0 2 1)]) (fun s => let b := tree (mesh_coll s) in [
    (66%nat, box_ok (mesh_coll s) 0 (V z z z) (V (l 1 0) (l 1 0) z));
    (171%nat, prim_ok (mesh_coll s) (tri_isector s) (ray_of (V (l 1 (-2)) (l 1 (-2)) (l 5 0)) (V z z (l (-1) 0))) true (Some 0%nat) (l 5 0) (V z z (l (-1) 0)));
    (174%nat, bvh_ok b (tri_isector s) (ray_of (V (l 1 (-2)) (l 1 (-2)) (l 5 0)) (V z z (l (-1) 0))) true (Some 0%nat) (l 5 0) (V z z (l (-1) 0)));
    (186%nat, prim_ok (mesh_coll s) (tri_isector s) (ray_of (V (l 1 0) (l 1 0) (l 1 0)) (V (l (-3) (-2)) (l (-3) (-2)) (l (-1) 0))) true (Some 0%nat) (l 3282534097605073 (-51)) (V z z (l (-1) 0)));
    (189%nat, bvh_ok b (tri_isector s) (ray_of (V (l 1 0) (l 1 0) (l 1 0)) (V (l (-3) (-2)) (l (-3) (-2)) (l (-1) 0))) true (Some 0%nat) (l 3282534097605073 (-51)) (V z z (l (-1) 0)));
    (200%nat, prim_ok (mesh_coll s) (tri_isector s) (ray_of (V (l 1 (-1)) z (l 5 0)) (V z z (l (-1) 0))) true (Some 0%nat) (l 5 0) (V z z (l (-1) 0)));
    (203%nat, bvh_ok b (tri_isector s) (ray_of (V (l 1 (-1)) z (l 5 0)) (V z z (l (-1) 0))) true (Some 0%nat) (l 5 0) (V z z (l (-1) 0)));
    (214%nat, prim_ok (mesh_coll s) (tri_isector s) (ray_of (V z (l 1 (-1)) (l 5 0)) (V z z (l (-1) 0))) true (Some 0%nat) (l 5 0) (V z z (l (-1) 0)));
    (217%nat, bvh_ok b (tri_isector s) (ray_of (V z (l 1 (-1)) (l 5 0)) (V z z (l (-1) 0))) true (Some 0%nat) (l 5 0) (V z z (l (-1) 0)));
    (228%nat, prim_ok (mesh_coll s) (tri_isector s) (ray_of (V (l 1 (-1)) (l 1 (-1)) (l 5 0)) (V z z (l (-1) 0))) true (Some 0%nat) (l 5 0) (V z z (l (-1) 0)));
    (231%nat, bvh_ok b (tri_isector s) (ray_of (V (l 1 (-1)) (l 1 (-1)) (l 5 0)) (V z z (l (-1) 0))) true (Some 0%nat) (l 5 0) (V z z (l (-1) 0)));
    (242%nat, prim_ok (mesh_coll s) (tri_isector s) (ray_of (V z z (l 5 0)) (V z z (l (-1) 0))) true (Some 0%nat) (l 5 0) (V z z (l (-1) 0)));
    (245%nat, bvh_ok b (tri_isector s) (ray_of (V z z (l 5 0)) (V z z (l (-1) 0))) true (Some 0%nat) (l 5 0) (V z z (l (-1) 0)));
    (256%nat, prim_ok (mesh_coll s) (tri_isector s) (ray_of (V z (l 1 0) (l 5 0)) (V z z (l (-1) 0))) true (Some 0%nat) (l 5 0) (V z z (l (-1) 0)));
    (259%nat, bvh_ok b (tri_isector s) (ray_of (V z (l 1 0) (l 5 0)) (V z z (l (-1) 0))) true (Some 0%nat) (l 5 0) (V z z (l (-1) 0)));
    (270%nat, prim_ok (mesh_coll s) (tri_isector s) (ray_of (V (l 1 0) z (l 5 0)) (V z z (l (-1) 0))) true (Some 0%nat) (l 5 0) (V z z (l (-1) 0)));
    (273%nat, bvh_ok b (tri_isector s) (ray_of (V (l 1 0) z (l 5 0)) (V z z (l (-1) 0))) true (Some 0%nat) (l 5 0) (V z z (l (-1) 0)));
    (290%nat, prim_ok (mesh_coll s) (tri_isector s) (ray_of (V (l 1 (-2)) (l 1 (-2)) (l (-5) 0)) (V z z (l 1 0))) true (Some 0%nat) (l 5 0) (V z z (l (-1) 0)));
    (293%nat, bvh_ok b (tri_isector s) (ray_of (V (l 1 (-2)) (l 1 (-2)) (l (-5) 0)) (V z z (l 1 0))) true (Some 0%nat) (l 5 0) (V z z (l (-1) 0)));
    (305%nat, prim_ok (mesh_coll s) (tri_isector s) (ray_of (V (l 1 0) (l 1 0) (l (-1) 0)) (V (l (-3) (-2)) (l (-3) (-2)) (l 1 0))) true (Some 0%nat) (l 3282534097605073 (-51)) (V z z (l (-1) 0)));
    (308%nat, bvh_ok b (tri_isector s) (ray_of (V (l 1 0) (l 1 0) (l (-1) 0)) (V (l (-3) (-2)) (l (-3) (-2)) (l 1 0))) true (Some 0%nat) (l 3282534097605073 (-51)) (V z z (l (-1) 0)));
    (320%nat, prim_ok (mesh_coll s) (tri_isector s) (ray_of (V (l 1 (-1)) z (l (-5) 0)) (V z z (l 1 0))) true (Some 0%nat) (l 5 0) (V z z (l (-1) 0)));
    (323%nat, bvh_ok b (tri_isector s) (ray_of (V (l 1 (-1)) z (l (-5) 0)) (V z z (l 1 0))) true (Some 0%nat) (l 5 0) (V z z (l (-1) 0)));
    (335%nat, prim_ok (mesh_coll s) (tri_isector s) (ray_of (V z (l 1 (-1)) (l (-5) 0)) (V z z (l 1 0))) true (Some 0%nat) (l 5 0) (V z z (l (-1) 0)));
    (338%nat, bvh_ok b (tri_isector s) (ray_of (V z (l 1 (-1)) (l (-5) 0)) (V z z (l 1 0))) true (Some 0%nat) (l 5 0) (V z z (l (-1) 0)));
    (350%nat, prim_ok (mesh_coll s) (tri_isector s) (ray_of (V (l 1 (-1)) (l 1 (-1)) (l (-5) 0)) (V z z (l 1 0))) true (Some 0%nat) (l 5 0) (V z z (l (-1) 0)));
    (353%nat, bvh_ok b (tri_isector s) (ray_of (V (l 1 (-1)) (l 1 (-1)) (l (-5) 0)) (V z z (l 1 0))) true (Some 0%nat) (l 5 0) (V z z (l (-1) 0)));
    (365%nat, prim_ok (mesh_coll s) (tri_isector s) (ray_of (V z z (l (-5) 0)) (V z z (l 1 0))) true (Some 0%nat) (l 5 0) (V z z (l (-1) 0)));
    (368%nat, bvh_ok b (tri_isector s) (ray_of (V z z (l (-5) 0)) (V z z (l 1 0))) true (Some 0%nat) (l 5 0) (V z z (l (-1) 0)));
    (380%nat, prim_ok (mesh_coll s) (tri_isector s) (ray_of (V z (l 1 0) (l (-5) 0)) (V z z (l 1 0))) true (Some 0%nat) (l 5 0) (V z z (l (-1) 0)));
    (383%nat, bvh_ok b (tri_isector s) (ray_of (V z (l 1 0) (l (-5) 0)) (V z z (l 1 0))) true (Some 0%nat) (l 5 0) (V z z (l (-1) 0)));
    (395%nat, prim_ok (mesh_coll s) (tri_isector s) (ray_of (V (l 1 0) z (l (-5) 0)) (V z z (l 1 0))) true (Some 0%nat) (l 5 0) (V z z (l (-1) 0)));
    (398%nat, bvh_ok b (tri_isector s) (ray_of (V (l 1 0) z (l (-5) 0)) (V z z (l 1 0))) true (Some 0%nat) (l 5 0) (V z z (l (-1) 0)));
    (420%nat, prim_ok (mesh_coll s) (tri_isector s) (ray_of (V (l 1 (-2)) (l 1 (-2)) (l 5 0)) (V z z (l 1 0))) false None (l 9007199254740991 971) (V z z z));
    (423%nat, bvh_ok b (tri_isector s) (ray_of (V (l 1 (-2)) (l 1 (-2)) (l 5 0)) (V z z (l 1 0))) false None (l 9007199254740991 971) (V z z z));
    (438%nat, prim_ok (mesh_coll s) (tri_isector s) (ray_of (V (l 1 0) (l 1 0) (l 1 0)) (V (l (-3) (-2)) (l (-3) (-2)) (l 1 0))) false None (l 9007199254740991 971) (V z z z));
    (441%nat, bvh_ok b (tri_isector s) (ray_of (V (l 1 0) (l 1 0) (l 1 0)) (V (l (-3) (-2)) (l (-3) (-2)) (l 1 0))) false None (l 9007199254740991 971) (V z z z))]);
  on_all (make_mesh [(V (l 1 0) z (l (-1) 0)); (V (l (-1) 0) (l 1 1) (l 1 0)); (V (l 1 0) (l 1 1) (l (-1) 0))] [(V 0 1 2)]) (fun s => [
    (77%nat, box_ok (mesh_coll s) 0 (V (l (-1) 0) z (l (-1) 0)) (V (l 1 0) (l 1 1) (l 1 0)))]);
  on_all (make_mesh [(V (l 1 1) (l (-1) 0) (l (-1) 0)); (V z (l 1 0) (l 1 0)); (V (l 1 1) (l 1 0) (l (-1) 0))] [(V 0 1 2)]) (fun s => [
    (101%nat, center_ok (mesh_coll s) 0 (V (l 6004784491161903 (-52)) (l 3002369727582815 (-53)) (l (-3002369727582815) (-53))))]);
  on_all (make_mesh [(V z z z); (V (l 1 0) z z); (V z z (l 1 0))] [(V 0 1 2)]) (fun s => let b := tree (mesh_coll s) in [
    (125%nat, prim_ok (mesh_coll s) (tri_isector s) (ray_of (V (l 1 (-2)) (l 5 0) (l 1 (-2))) (V z (l (-1) 0) z)) true (Some 0%nat) (l 5 0) (V z (l (-1) 0) z));
    (128%nat, bvh_ok b (tri_isector s) (ray_of (V (l 1 (-2)) (l 5 0) (l 1 (-2))) (V z (l (-1) 0) z)) true (Some 0%nat) (l 5 0) (V z (l (-1) 0) z))]);
  on_all (make_mesh [(V z z z); (V z (l 1 0) z); (V z z (l 1 0))] [(V 0 2 1)]) (fun s => let b := tree (mesh_coll s) in [
    (147%nat, prim_ok (mesh_coll s) (tri_isector s) (ray_of (V (l 5 0) (l 1 (-2)) (l 1 (-2))) (V (l (-1) 0) z z)) true (Some 0%nat) (l 5 0) (V (l (-1) 0) z z));
    (150%nat, bvh_ok b (tri_isector s) (ray_of (V (l 5 0) (l 1 (-2)) (l 1 (-2))) (V (l (-1) 0) z z)) true (Some 0%nat) (l 5 0) (V (l (-1) 0) z z))]);
  on_all (make_mesh [(V z z z); (V (l 1 0) z z); (V z (l 1 0) z)] [(V 0 1 2)]) (fun s => let b := tree (mesh_coll s) in [
    (464%nat, prim_ok (mesh_coll s) (tri_isector s) (ray_of (V (l 1 (-2)) (l 1 (-2)) (l 5 0)) (V z z (l (-1) 0))) true (Some 0%nat) (l 5 0) (V z z (l 1 0)));
    (467%nat, bvh_ok b (tri_isector s) (ray_of (V (l 1 (-2)) (l 1 (-2)) (l 5 0)) (V z z (l (-1) 0))) true (Some 0%nat) (l 5 0) (V z z (l 1 0)))]);
  on_all (make_mesh [(V (l (-1) 0) (l (-1) 0) (l (-1) 0)); (V (l 1 0) (l (-1) 0) (l (-1) 0)); (V (l 1 0) (l (-1) 0) (l 1 0)); (V (l (-1) 0) (l (-1) 0) (l 1 0)); (V (l (-1) 0) (l 1 0) (l (-1) 0)); (V (l 1 0) (l 1 0) (l (-1) 0)); (V (l 1 0) (l 1 0) (l 1 0)); (V (l (-1) 0) (l 1 0) (l 1 0))] [(V 1 5 4); (V 0 1 4); (V 2 6 5); (V 1 2 5); (V 3 7 6); (V 2 3 6); (V 4 7 3); (V 0 4 3); (V 5 6 7); (V 4 5 7); (V 3 2 1); (V 0 3 1)]) (fun s => [
    (613%nat, boxes_ok (mesh_coll s) (V (l (-1) 0) (l (-1) 0) (l (-1) 0)) (V (l 1 0) (l 1 0) (l 1 0)))]);
  on_all (make_mesh [(V (l (-1) 0) (l (-1) 0) (l (-1) 0)); (V (l 1 0) (l (-1) 0) (l (-1) 0)); (V (l 1 0) (l (-1) 0) (l 1 0)); (V (l (-1) 0) (l (-1) 0) (l 1 0)); (V (l (-1) 0) (l 1 0) (l (-1) 0)); (V (l 1 0) (l 1 0) (l (-1) 0)); (V (l 1 0) (l 1 0) (l 1 0)); (V (l (-1) 0) (l 1 0) (l 1 0))] [(V 1 4 5); (V 0 4 1); (V 2 5 6); (V 1 5 2); (V 3 6 7); (V 2 6 3); (V 4 3 7); (V 0 3 4); (V 5 7 6); (V 4 7 5); (V 3 1 2); (V 0 1 3)]) (fun s => [
    (622%nat, boxes_ok (mesh_coll s) (V (l (-1) 0) (l (-1) 0) (l (-1) 0)) (V (l 1 0) (l 1 0) (l 1 0)))]);
  on_all (make_mesh [(V (l 5 0) (l 3 0) (l (-1) 0)); (V (l 3 0) (l 3 0) (l (-1) 0)); (V (l 3 0) (l 1 0) (l (-1) 0)); (V (l 5 0) (l 1 0) (l (-1) 0)); (V (l 5 0) (l 3 0) (l 1 0)); (V (l 3 0) (l 3 0) (l 1 0)); (V (l 3 0) (l 1 0) (l 1 0)); (V (l 5 0) (l 1 0) (l 1 0))] [(V 0 1 3); (V 2 3 1); (V 4 5 7); (V 6 7 5); (V 7 6 3); (V 2 3 6); (V 4 5 0); (V 1 0 5); (V 5 6 1); (V 2 1 6); (V 4 7 0); (V 3 0 7)]) (fun s => [
    (634%nat, boxes_ok (mesh_coll s) (V (l 3 0) (l 1 0) (l (-1) 0)) (V (l 5 0) (l 3 0) (l 1 0)))]);
  on_all (make_mesh [(V (l 3 0) (l 1 0) (l (-1) 0)); (V (l 5 0) (l 1 0) (l (-1) 0)); (V (l 5 0) (l 1 0) (l 1 0)); (V (l 3 0) (l 1 0) (l 1 0)); (V (l 3 0) (l 3 0) (l (-1) 0)); (V (l 5 0) (l 3 0) (l (-1) 0)); (V (l 5 0) (l 3 0) (l 1 0)); (V (l 3 0) (l 3 0) (l 1 0))] [(V 1 4 5); (V 0 4 1); (V 2 5 6); (V 1 5 2); (V 3 6 7); (V 2 6 3); (V 4 3 7); (V 0 3 4); (V 5 7 6); (V 4 7 5); (V 3 1 2); (V 0 1 3)]) (fun s => [
    (643%nat, boxes_ok (mesh_coll s) (V (l 3 0) (l 1 0) (l (-1) 0)) (V (l 5 0) (l 3 0) (l 1 0)))]);
  on_all (make_mesh [(V (l 1 0) (l 1 0) (l (-1) 0)); (V (l (-1) 0) (l 1 0) (l (-1) 0)); (V (l (-1) 0) (l (-1) 0) (l (-1) 0)); (V (l 1 0) (l (-1) 0) (l (-1) 0)); (V (l 1 0) (l 1 0) (l 1 0)); (V (l (-1) 0) (l 1 0) (l 1 0)); (V (l (-1) 0) (l (-1) 0) (l 1 0)); (V (l 1 0) (l (-1) 0) (l 1 0))] [(V 0 1 3); (V 2 3 1); (V 4 5 7); (V 6 7 5); (V 7 6 3); (V 2 3 6); (V 4 5 0); (V 1 0 5); (V 5 6 1); (V 2 1 6); (V 4 7 0); (V 3 0 7)]) (fun s => let b := tree (mesh_coll s) in [
    (668%nat, bvh_dist_ok b (tri_isector s) (ray_of (V z z (l 5 0)) (V z z (l (-1) 0))) true (l 1 2));
    (679%nat, bvh_dist_ok b (tri_isector s) (ray_of (V z z (l (-5) 0)) (V z z (l 1 0))) true (l 1 2));
    (690%nat, bvh_dist_ok b (tri_isector s) (ray_of (V z (l 5 0) z) (V z (l (-1) 0) z)) true (l 1 2));
    (701%nat, bvh_dist_ok b (tri_isector s) (ray_of (V z (l (-5) 0) z) (V z (l 1 0) z)) true (l 1 2));
    (712%nat, bvh_dist_ok b (tri_isector s) (ray_of (V (l 5 0) z z) (V (l (-1) 0) z z)) true (l 1 2));
    (723%nat, bvh_dist_ok b (tri_isector s) (ray_of (V (l (-5) 0) z z) (V (l 1 0) z z)) true (l 1 2));
    (738%nat, prim_ok (mesh_coll s) (tri_isector s) (ray_of (V (l 1 1) (l 1 1) (l (-5) 0)) (V z z (l 1 0))) false None (l 9007199254740991 971) (V z z z));
    (741%nat, bvh_ok b (tri_isector s) (ray_of (V (l 1 1) (l 1 1) (l (-5) 0)) (V z z (l 1 0))) false None (l 9007199254740991 971) (V z z z));
    (755%nat, prim_ok (mesh_coll s) (tri_isector s) (ray_of (V (l 1 1) (l (-5) 0) (l 1 1)) (V z (l 1 0) z)) false None (l 9007199254740991 971) (V z z z));
    (758%nat, bvh_ok b (tri_isector s) (ray_of (V (l 1 1) (l (-5) 0) (l 1 1)) (V z (l 1 0) z)) false None (l 9007199254740991 971) (V z z z));
    (772%nat, prim_ok (mesh_coll s) (tri_isector s) (ray_of (V (l (-5) 0) (l 1 1) (l 1 1)) (V (l 1 0) z z)) false None (l 9007199254740991 971) (V z z z));
    (775%nat, bvh_ok b (tri_isector s) (ray_of (V (l (-5) 0) (l 1 1) (l 1 1)) (V (l 1 0) z z)) false None (l 9007199254740991 971) (V z z z));
    (790%nat, bvh_dist_ok b (tri_isector s) (ray_of (V z z z) (V z z (l 1 0))) true (l 1 0));
    (801%nat, bvh_dist_ok b (tri_isector s) (ray_of (V z z z) (V z z (l (-1) 0))) true (l 1 0));
    (812%nat, bvh_dist_ok b (tri_isector s) (ray_of (V z z z) (V z (l 1 0) z)) true (l 1 0));
    (823%nat, bvh_dist_ok b (tri_isector s) (ray_of (V z z z) (V z (l (-1) 0) z)) true (l 1 0));
    (834%nat, bvh_dist_ok b (tri_isector s) (ray_of (V z z z) (V (l 1 0) z z)) true (l 1 0));
    (845%nat, bvh_dist_ok b (tri_isector s) (ray_of (V z z z) (V (l (-1) 0) z z)) true (l 1 0));
    (858%nat, bvh_dist_ok b (tri_isector s) (ray_of (V z z z) (V (l 1 0) (l 1 0) z)) true (l 6369051672525773 (-52)));
    (869%nat, bvh_dist_ok b (tri_isector s) (ray_of (V z z z) (V (l 1 0) (l (-1) 0) z)) true (l 6369051672525773 (-52)));
    (880%nat, bvh_dist_ok b (tri_isector s) (ray_of (V z z z) (V (l (-1) 0) (l 1 0) z)) true (l 6369051672525773 (-52)));
    (891%nat, bvh_dist_ok b (tri_isector s) (ray_of (V z z z) (V (l (-1) 0) (l (-1) 0) z)) true (l 6369051672525773 (-52)));
    (903%nat, bvh_dist_ok b (tri_isector s) (ray_of (V z z z) (V (l 1 0) z (l 1 0))) true (l 6369051672525773 (-52)));
    (914%nat, bvh_dist_ok b (tri_isector s) (ray_of (V z z z) (V (l 1 0) z (l (-1) 0))) true (l 6369051672525773 (-52)));
    (925%nat, bvh_dist_ok b (tri_isector s) (ray_of (V z z z) (V (l (-1) 0) z (l 1 0))) true (l 6369051672525773 (-52)));
    (936%nat, bvh_dist_ok b (tri_isector s) (ray_of (V z z z) (V (l (-1) 0) z (l (-1) 0))) true (l 6369051672525773 (-52)));
    (948%nat, bvh_dist_ok b (tri_isector s) (ray_of (V z z z) (V z (l 1 0) (l 1 0))) true (l 6369051672525773 (-52)));
    (959%nat, bvh_dist_ok b (tri_isector s) (ray_of (V z z z) (V z (l 1 0) (l (-1) 0))) true (l 6369051672525773 (-52)));
    (970%nat, bvh_dist_ok b (tri_isector s) (ray_of (V z z z) (V z (l (-1) 0) (l 1 0))) true (l 6369051672525773 (-52)));
    (981%nat, bvh_dist_ok b (tri_isector s) (ray_of (V z z z) (V z (l (-1) 0) (l (-1) 0))) true (l 6369051672525773 (-52)));
    (994%nat, bvh_dist_ok b (tri_isector s) (ray_of (V z z z) (V (l 1 0) (l 1 0) (l 1 0))) true (l 3900231685776981 (-51)));
    (1005%nat, bvh_dist_ok b (tri_isector s) (ray_of (V z z z) (V (l 1 0) (l (-1) 0) (l 1 0))) true (l 3900231685776981 (-51)));
    (1016%nat, bvh_dist_ok b (tri_isector s) (ray_of (V z z z) (V (l (-1) 0) (l 1 0) (l 1 0))) true (l 3900231685776981 (-51)));
    (1027%nat, bvh_dist_ok b (tri_isector s) (ray_of (V z z z) (V (l (-1) 0) (l (-1) 0) (l 1 0))) true (l 3900231685776981 (-51)));
    (1038%nat, bvh_dist_ok b (tri_isector s) (ray_of (V z z z) (V (l 1 0) (l 1 0) (l (-1) 0))) true (l 3900231685776981 (-51)));
    (1049%nat, bvh_dist_ok b (tri_isector s) (ray_of (V z z z) (V (l 1 0) (l (-1) 0) (l (-1) 0))) true (l 3900231685776981 (-51)));
    (1060%nat, bvh_dist_ok b (tri_isector s) (ray_of (V z z z) (V (l (-1) 0) (l 1 0) (l (-1) 0))) true (l 3900231685776981 (-51)));
    (1071%nat, bvh_dist_ok b (tri_isector s) (ray_of (V z z z) (V (l (-1) 0) (l (-1) 0) (l (-1) 0))) true (l 3900231685776981 (-51)))]);
  on_all (make_mesh [(V z z (l 1 0)); (V (l 1 0) (l 1 0) z); (V (l 1 0) (l (-1) 0) z); (V (l (-1) 0) (l (-1) 0) z); (V (l (-1) 0) (l 1 0) z)] [(V 1 3 2); (V 2 4 3); (V 0 2 1); (V 0 4 3); (V 0 1 4); (V 0 3 2)]) (fun s => let b := tree (mesh_coll s) in [
    (1162%nat, bvh_any_ok b (tri_isector s) (ray_of (V z z (l 5 0)) (V z z (l (-1) 0))) true (l 1 2) (V z z (l 1 0)))])].
End S64_checks64.

Section S64_warnings64.
Local Existing Instance F64.
Local Notation l := (l64) (only parsing).
Definition trimesh_warnings64 : list (nat * bool) := concat [
  on_all (make_mesh [(V z z z); (V (l 1 0) z z); (V z (l 1 0) z)] [(V 0 2 1)]) (fun s => let b := tree (mesh_coll s) in [
    (495%nat, bvh_flag_ok b (tri_isector s) (ray_of (V (l 1 (-1)) (l (-1) (-52)) (l 5 0)) (V z z (l (-1) 0))) false);
    (495%nat, bvh_flag_ok b (tri_isector s) (ray_of (V (l 1 (-1)) (l (-1) (-51)) (l 5 0)) (V z z (l (-1) 0))) false);
    (495%nat, bvh_flag_ok b (tri_isector s) (ray_of (V (l 1 (-1)) (l (-3) (-52)) (l 5 0)) (V z z (l (-1) 0))) false);
    (495%nat, bvh_flag_ok b (tri_isector s) (ray_of (V (l 1 (-1)) (l (-1) (-50)) (l 5 0)) (V z z (l (-1) 0))) false);
    (495%nat, bvh_flag_ok b (tri_isector s) (ray_of (V (l 1 (-1)) (l (-5) (-52)) (l 5 0)) (V z z (l (-1) 0))) false);
    (495%nat, bvh_flag_ok b (tri_isector s) (ray_of (V (l 1 (-1)) (l (-3) (-51)) (l 5 0)) (V z z (l (-1) 0))) false);
    (495%nat, bvh_flag_ok b (tri_isector s) (ray_of (V (l 1 (-1)) (l (-7) (-52)) (l 5 0)) (V z z (l (-1) 0))) false);
    (495%nat, bvh_flag_ok b (tri_isector s) (ray_of (V (l 1 (-1)) (l (-1) (-49)) (l 5 0)) (V z z (l (-1) 0))) false);
    (495%nat, bvh_flag_ok b (tri_isector s) (ray_of (V (l 1 (-1)) (l (-9) (-52)) (l 5 0)) (V z z (l (-1) 0))) false);
    (495%nat, bvh_flag_ok b (tri_isector s) (ray_of (V (l 1 (-1)) (l (-5) (-51)) (l 5 0)) (V z z (l (-1) 0))) false);
    (505%nat, bvh_flag_ok b (tri_isector s) (ray_of (V (l (-1) (-52)) (l 1 (-1)) (l 5 0)) (V z z (l (-1) 0))) false);
    (505%nat, bvh_flag_ok b (tri_isector s) (ray_of (V (l (-1) (-51)) (l 1 (-1)) (l 5 0)) (V z z (l (-1) 0))) false);
    (505%nat, bvh_flag_ok b (tri_isector s) (ray_of (V (l (-3) (-52)) (l 1 (-1)) (l 5 0)) (V z z (l (-1) 0))) false);
    (505%nat, bvh_flag_ok b (tri_isector s) (ray_of (V (l (-1) (-50)) (l 1 (-1)) (l 5 0)) (V z z (l (-1) 0))) false);
    (505%nat, bvh_flag_ok b (tri_isector s) (ray_of (V (l (-5) (-52)) (l 1 (-1)) (l 5 0)) (V z z (l (-1) 0))) false);
    (505%nat, bvh_flag_ok b (tri_isector s) (ray_of (V (l (-3) (-51)) (l 1 (-1)) (l 5 0)) (V z z (l (-1) 0))) false);
    (505%nat, bvh_flag_ok b (tri_isector s) (ray_of (V (l (-7) (-52)) (l 1 (-1)) (l 5 0)) (V z z (l (-1) 0))) false);
    (505%nat, bvh_flag_ok b (tri_isector s) (ray_of (V (l (-1) (-49)) (l 1 (-1)) (l 5 0)) (V z z (l (-1) 0))) false);
    (505%nat, bvh_flag_ok b (tri_isector s) (ray_of (V (l (-9) (-52)) (l 1 (-1)) (l 5 0)) (V z z (l (-1) 0))) false);
    (505%nat, bvh_flag_ok b (tri_isector s) (ray_of (V (l (-5) (-51)) (l 1 (-1)) (l 5 0)) (V z z (l (-1) 0))) false);
    (515%nat, bvh_flag_ok b (tri_isector s) (ray_of (V (l 2251799813685249 (-52)) (l 2251799813685249 (-52)) (l 5 0)) (V z z (l (-1) 0))) false);
    (515%nat, bvh_flag_ok b (tri_isector s) (ray_of (V (l 1125899906842625 (-51)) (l 1125899906842625 (-51)) (l 5 0)) (V z z (l (-1) 0))) false);
    (515%nat, bvh_flag_ok b (tri_isector s) (ray_of (V (l 2251799813685251 (-52)) (l 2251799813685251 (-52)) (l 5 0)) (V z z (l (-1) 0))) false);
    (515%nat, bvh_flag_ok b (tri_isector s) (ray_of (V (l 562949953421313 (-50)) (l 562949953421313 (-50)) (l 5 0)) (V z z (l (-1) 0))) false);
    (515%nat, bvh_flag_ok b (tri_isector s) (ray_of (V (l 2251799813685253 (-52)) (l 2251799813685253 (-52)) (l 5 0)) (V z z (l (-1) 0))) false);
    (515%nat, bvh_flag_ok b (tri_isector s) (ray_of (V (l 1125899906842627 (-51)) (l 1125899906842627 (-51)) (l 5 0)) (V z z (l (-1) 0))) false);
    (515%nat, bvh_flag_ok b (tri_isector s) (ray_of (V (l 2251799813685255 (-52)) (l 2251799813685255 (-52)) (l 5 0)) (V z z (l (-1) 0))) false);
    (515%nat, bvh_flag_ok b (tri_isector s) (ray_of (V (l 281474976710657 (-49)) (l 281474976710657 (-49)) (l 5 0)) (V z z (l (-1) 0))) false);
    (515%nat, bvh_flag_ok b (tri_isector s) (ray_of (V (l 2251799813685257 (-52)) (l 2251799813685257 (-52)) (l 5 0)) (V z z (l (-1) 0))) false);
    (515%nat, bvh_flag_ok b (tri_isector s) (ray_of (V (l 1125899906842629 (-51)) (l 1125899906842629 (-51)) (l 5 0)) (V z z (l (-1) 0))) false);
    (525%nat, bvh_flag_ok b (tri_isector s) (ray_of (V (l 4503599627370497 (-52)) z (l 5 0)) (V z z (l (-1) 0))) false);
    (525%nat, bvh_flag_ok b (tri_isector s) (ray_of (V (l 2251799813685249 (-51)) z (l 5 0)) (V z z (l (-1) 0))) false);
    (525%nat, bvh_flag_ok b (tri_isector s) (ray_of (V (l 4503599627370499 (-52)) z (l 5 0)) (V z z (l (-1) 0))) false);
    (525%nat, bvh_flag_ok b (tri_isector s) (ray_of (V (l 1125899906842625 (-50)) z (l 5 0)) (V z z (l (-1) 0))) false);
    (525%nat, bvh_flag_ok b (tri_isector s) (ray_of (V (l 4503599627370501 (-52)) z (l 5 0)) (V z z (l (-1) 0))) false);
    (525%nat, bvh_flag_ok b (tri_isector s) (ray_of (V (l 2251799813685251 (-51)) z (l 5 0)) (V z z (l (-1) 0))) false);
    (525%nat, bvh_flag_ok b (tri_isector s) (ray_of (V (l 4503599627370503 (-52)) z (l 5 0)) (V z z (l (-1) 0))) false);
    (525%nat, bvh_flag_ok b (tri_isector s) (ray_of (V (l 562949953421313 (-49)) z (l 5 0)) (V z z (l (-1) 0))) false);
    (525%nat, bvh_flag_ok b (tri_isector s) (ray_of (V (l 4503599627370505 (-52)) z (l 5 0)) (V z z (l (-1) 0))) false);
    (525%nat, bvh_flag_ok b (tri_isector s) (ray_of (V (l 2251799813685253 (-51)) z (l 5 0)) (V z z (l (-1) 0))) false);
    (594%nat, bvh_flag_ok b (tri_isector s) (ray_of (V (l (-5) 0) (l 1 (-1)) (l 1 (-52))) (V (l 1 0) z z)) false);
    (594%nat, bvh_flag_ok b (tri_isector s) (ray_of (V (l (-5) 0) (l 1 (-1)) (l 1 (-51))) (V (l 1 0) z z)) false);
    (594%nat, bvh_flag_ok b (tri_isector s) (ray_of (V (l (-5) 0) (l 1 (-1)) (l 3 (-52))) (V (l 1 0) z z)) false);
    (594%nat, bvh_flag_ok b (tri_isector s) (ray_of (V (l (-5) 0) (l 1 (-1)) (l 1 (-50))) (V (l 1 0) z z)) false);
    (594%nat, bvh_flag_ok b (tri_isector s) (ray_of (V (l (-5) 0) (l 1 (-1)) (l 5 (-52))) (V (l 1 0) z z)) false);
    (594%nat, bvh_flag_ok b (tri_isector s) (ray_of (V (l (-5) 0) (l 1 (-1)) (l 3 (-51))) (V (l 1 0) z z)) false);
    (594%nat, bvh_flag_ok b (tri_isector s) (ray_of (V (l (-5) 0) (l 1 (-1)) (l 7 (-52))) (V (l 1 0) z z)) false);
    (594%nat, bvh_flag_ok b (tri_isector s) (ray_of (V (l (-5) 0) (l 1 (-1)) (l 1 (-49))) (V (l 1 0) z z)) false);
    (594%nat, bvh_flag_ok b (tri_isector s) (ray_of (V (l (-5) 0) (l 1 (-1)) (l 9 (-52))) (V (l 1 0) z z)) false);
    (594%nat, bvh_flag_ok b (tri_isector s) (ray_of (V (l (-5) 0) (l 1 (-1)) (l 5 (-51))) (V (l 1 0) z z)) false)]);
  on_all (make_mesh [(V (l 1 0) (l 1 0) (l 1 0)); (V (l 1 1) (l 1 0) (l 1 0)); (V (l 1 0) (l 1 1) (l 1 0))] [(V 0 2 1)]) (fun s => let b := tree (mesh_coll s) in [
    (541%nat, bvh_flag_ok b (tri_isector s) (ray_of (V (l 4503599627370495 (-52)) (l 3 (-1)) (l 5 0)) (V z z (l (-1) 0))) false);
    (541%nat, bvh_flag_ok b (tri_isector s) (ray_of (V (l 2251799813685247 (-51)) (l 3 (-1)) (l 5 0)) (V z z (l (-1) 0))) false);
    (541%nat, bvh_flag_ok b (tri_isector s) (ray_of (V (l 4503599627370493 (-52)) (l 3 (-1)) (l 5 0)) (V z z (l (-1) 0))) false);
    (541%nat, bvh_flag_ok b (tri_isector s) (ray_of (V (l 1125899906842623 (-50)) (l 3 (-1)) (l 5 0)) (V z z (l (-1) 0))) false);
    (541%nat, bvh_flag_ok b (tri_isector s) (ray_of (V (l 4503599627370491 (-52)) (l 3 (-1)) (l 5 0)) (V z z (l (-1) 0))) false);
    (541%nat, bvh_flag_ok b (tri_isector s) (ray_of (V (l 2251799813685245 (-51)) (l 3 (-1)) (l 5 0)) (V z z (l (-1) 0))) false);
    (541%nat, bvh_flag_ok b (tri_isector s) (ray_of (V (l 4503599627370489 (-52)) (l 3 (-1)) (l 5 0)) (V z z (l (-1) 0))) false);
    (541%nat, bvh_flag_ok b (tri_isector s) (ray_of (V (l 562949953421311 (-49)) (l 3 (-1)) (l 5 0)) (V z z (l (-1) 0))) false);
    (541%nat, bvh_flag_ok b (tri_isector s) (ray_of (V (l 4503599627370487 (-52)) (l 3 (-1)) (l 5 0)) (V z z (l (-1) 0))) false);
    (541%nat, bvh_flag_ok b (tri_isector s) (ray_of (V (l 2251799813685243 (-51)) (l 3 (-1)) (l 5 0)) (V z z (l (-1) 0))) false);
    (551%nat, bvh_flag_ok b (tri_isector s) (ray_of (V (l 3 (-1)) (l 4503599627370495 (-52)) (l 5 0)) (V z z (l (-1) 0))) false);
    (551%nat, bvh_flag_ok b (tri_isector s) (ray_of (V (l 3 (-1)) (l 2251799813685247 (-51)) (l 5 0)) (V z z (l (-1) 0))) false);
    (551%nat, bvh_flag_ok b (tri_isector s) (ray_of (V (l 3 (-1)) (l 4503599627370493 (-52)) (l 5 0)) (V z z (l (-1) 0))) false);
    (551%nat, bvh_flag_ok b (tri_isector s) (ray_of (V (l 3 (-1)) (l 1125899906842623 (-50)) (l 5 0)) (V z z (l (-1) 0))) false);
    (551%nat, bvh_flag_ok b (tri_isector s) (ray_of (V (l 3 (-1)) (l 4503599627370491 (-52)) (l 5 0)) (V z z (l (-1) 0))) false);
    (551%nat, bvh_flag_ok b (tri_isector s) (ray_of (V (l 3 (-1)) (l 2251799813685245 (-51)) (l 5 0)) (V z z (l (-1) 0))) false);
    (551%nat, bvh_flag_ok b (tri_isector s) (ray_of (V (l 3 (-1)) (l 4503599627370489 (-52)) (l 5 0)) (V z z (l (-1) 0))) false);
    (551%nat, bvh_flag_ok b (tri_isector s) (ray_of (V (l 3 (-1)) (l 562949953421311 (-49)) (l 5 0)) (V z z (l (-1) 0))) false);
    (551%nat, bvh_flag_ok b (tri_isector s) (ray_of (V (l 3 (-1)) (l 4503599627370487 (-52)) (l 5 0)) (V z z (l (-1) 0))) false);
    (551%nat, bvh_flag_ok b (tri_isector s) (ray_of (V (l 3 (-1)) (l 2251799813685243 (-51)) (l 5 0)) (V z z (l (-1) 0))) false);
    (561%nat, bvh_flag_ok b (tri_isector s) (ray_of (V (l 3 (-1)) (l 3 (-1)) (l 5 0)) (V z z (l (-1) 0))) false);
    (561%nat, bvh_flag_ok b (tri_isector s) (ray_of (V (l 6755399441055745 (-52)) (l 6755399441055745 (-52)) (l 5 0)) (V z z (l (-1) 0))) false);
    (561%nat, bvh_flag_ok b (tri_isector s) (ray_of (V (l 3377699720527873 (-51)) (l 3377699720527873 (-51)) (l 5 0)) (V z z (l (-1) 0))) false);
    (561%nat, bvh_flag_ok b (tri_isector s) (ray_of (V (l 6755399441055747 (-52)) (l 6755399441055747 (-52)) (l 5 0)) (V z z (l (-1) 0))) false);
    (561%nat, bvh_flag_ok b (tri_isector s) (ray_of (V (l 1688849860263937 (-50)) (l 1688849860263937 (-50)) (l 5 0)) (V z z (l (-1) 0))) false);
    (561%nat, bvh_flag_ok b (tri_isector s) (ray_of (V (l 6755399441055749 (-52)) (l 6755399441055749 (-52)) (l 5 0)) (V z z (l (-1) 0))) false);
    (571%nat, bvh_flag_ok b (tri_isector s) (ray_of (V (l 9007199254740991 (-53)) (l 9007199254740991 (-53)) (l 5 0)) (V z z (l (-1) 0))) false);
    (571%nat, bvh_flag_ok b (tri_isector s) (ray_of (V (l 4503599627370495 (-52)) (l 4503599627370495 (-52)) (l 5 0)) (V z z (l (-1) 0))) false);
    (571%nat, bvh_flag_ok b (tri_isector s) (ray_of (V (l 9007199254740989 (-53)) (l 9007199254740989 (-53)) (l 5 0)) (V z z (l (-1) 0))) false);
    (571%nat, bvh_flag_ok b (tri_isector s) (ray_of (V (l 2251799813685247 (-51)) (l 2251799813685247 (-51)) (l 5 0)) (V z z (l (-1) 0))) false);
    (571%nat, bvh_flag_ok b (tri_isector s) (ray_of (V (l 9007199254740987 (-53)) (l 9007199254740987 (-53)) (l 5 0)) (V z z (l (-1) 0))) false);
    (571%nat, bvh_flag_ok b (tri_isector s) (ray_of (V (l 4503599627370493 (-52)) (l 4503599627370493 (-52)) (l 5 0)) (V z z (l (-1) 0))) false);
    (571%nat, bvh_flag_ok b (tri_isector s) (ray_of (V (l 9007199254740985 (-53)) (l 9007199254740985 (-53)) (l 5 0)) (V z z (l (-1) 0))) false);
    (571%nat, bvh_flag_ok b (tri_isector s) (ray_of (V (l 1125899906842623 (-50)) (l 1125899906842623 (-50)) (l 5 0)) (V z z (l (-1) 0))) false);
    (571%nat, bvh_flag_ok b (tri_isector s) (ray_of (V (l 9007199254740983 (-53)) (l 9007199254740983 (-53)) (l 5 0)) (V z z (l (-1) 0))) false);
    (571%nat, bvh_flag_ok b (tri_isector s) (ray_of (V (l 4503599627370491 (-52)) (l 4503599627370491 (-52)) (l 5 0)) (V z z (l (-1) 0))) false)]);
  on_all (make_mesh [(V (l 1 0) (l 1 0) (l (-1) 0)); (V (l (-1) 0) (l 1 0) (l (-1) 0)); (V (l (-1) 0) (l (-1) 0) (l (-1) 0)); (V (l 1 0) (l (-1) 0) (l (-1) 0)); (V (l 1 0) (l 1 0) (l 1 0)); (V (l (-1) 0) (l 1 0) (l 1 0)); (V (l (-1) 0) (l (-1) 0) (l 1 0)); (V (l 1 0) (l (-1) 0) (l 1 0))] [(V 0 1 3); (V 2 3 1); (V 4 5 7); (V 6 7 5); (V 7 6 3); (V 2 3 6); (V 4 5 0); (V 1 0 5); (V 5 6 1); (V 2 1 6); (V 4 7 0); (V 3 0 7)]) (fun s => let b := tree (mesh_coll s) in [
    (1099%nat, bvh_flag_ok b (tri_isector s) (ray_of (V z z (l 1 1)) (V (l (-1) 0) z (l (-1) 0))) false);
    (1099%nat, bvh_flag_ok b (tri_isector s) (ray_of (V z z (l 4503599627370497 (-51))) (V (l (-1) 0) z (l (-1) 0))) false);
    (1099%nat, bvh_flag_ok b (tri_isector s) (ray_of (V z z (l 2251799813685249 (-50))) (V (l (-1) 0) z (l (-1) 0))) false);
    (1099%nat, bvh_flag_ok b (tri_isector s) (ray_of (V z z (l 4503599627370499 (-51))) (V (l (-1) 0) z (l (-1) 0))) false);
    (1099%nat, bvh_flag_ok b (tri_isector s) (ray_of (V z z (l 1125899906842625 (-49))) (V (l (-1) 0) z (l (-1) 0))) false);
    (1099%nat, bvh_flag_ok b (tri_isector s) (ray_of (V z z (l 4503599627370501 (-51))) (V (l (-1) 0) z (l (-1) 0))) false);
    (1109%nat, bvh_flag_ok b (tri_isector s) (ray_of (V z z (l 1 1)) (V (l (-1) 0) (l (-1) 0) (l (-1) 0))) false);
    (1109%nat, bvh_flag_ok b (tri_isector s) (ray_of (V z z (l 4503599627370497 (-51))) (V (l (-1) 0) (l (-1) 0) (l (-1) 0))) false);
    (1109%nat, bvh_flag_ok b (tri_isector s) (ray_of (V z z (l 2251799813685249 (-50))) (V (l (-1) 0) (l (-1) 0) (l (-1) 0))) false);
    (1109%nat, bvh_flag_ok b (tri_isector s) (ray_of (V z z (l 4503599627370499 (-51))) (V (l (-1) 0) (l (-1) 0) (l (-1) 0))) false);
    (1109%nat, bvh_flag_ok b (tri_isector s) (ray_of (V z z (l 1125899906842625 (-49))) (V (l (-1) 0) (l (-1) 0) (l (-1) 0))) false);
    (1109%nat, bvh_flag_ok b (tri_isector s) (ray_of (V z z (l 4503599627370501 (-51))) (V (l (-1) 0) (l (-1) 0) (l (-1) 0))) false)]);
  on_all (make_mesh [(V (l 1 1) (l 1 1) z); (V z (l 1 1) z); (V z z z); (V (l 1 1) z z); (V (l 1 1) (l 1 1) (l 1 1)); (V z (l 1 1) (l 1 1)); (V z z (l 1 1)); (V (l 1 1) z (l 1 1))] [(V 0 1 3); (V 2 3 1); (V 4 5 7); (V 6 7 5); (V 7 6 3); (V 2 3 6); (V 4 5 0); (V 1 0 5); (V 5 6 1); (V 2 1 6); (V 4 7 0); (V 3 0 7)]) (fun s => let b := tree (mesh_coll s) in [
    (1126%nat, bvh_flag_ok b (tri_isector s) (ray_of (V (l 1 0) (l 1 0) (l 3 0)) (V (l (-1) 0) z (l (-1) 0))) false);
    (1126%nat, bvh_flag_ok b (tri_isector s) (ray_of (V (l 1 0) (l 1 0) (l 6755399441055745 (-51))) (V (l (-1) 0) z (l (-1) 0))) false);
    (1126%nat, bvh_flag_ok b (tri_isector s) (ray_of (V (l 1 0) (l 1 0) (l 3377699720527873 (-50))) (V (l (-1) 0) z (l (-1) 0))) false);
    (1126%nat, bvh_flag_ok b (tri_isector s) (ray_of (V (l 1 0) (l 1 0) (l 6755399441055747 (-51))) (V (l (-1) 0) z (l (-1) 0))) false);
    (1126%nat, bvh_flag_ok b (tri_isector s) (ray_of (V (l 1 0) (l 1 0) (l 1688849860263937 (-49))) (V (l (-1) 0) z (l (-1) 0))) false);
    (1126%nat, bvh_flag_ok b (tri_isector s) (ray_of (V (l 1 0) (l 1 0) (l 6755399441055749 (-51))) (V (l (-1) 0) z (l (-1) 0))) false);
    (1136%nat, bvh_flag_ok b (tri_isector s) (ray_of (V (l 1 0) (l 1 0) (l 3 0)) (V (l (-1) 0) (l (-1) 0) (l (-1) 0))) false);
    (1136%nat, bvh_flag_ok b (tri_isector s) (ray_of (V (l 1 0) (l 1 0) (l 6755399441055745 (-51))) (V (l (-1) 0) (l (-1) 0) (l (-1) 0))) false);
    (1136%nat, bvh_flag_ok b (tri_isector s) (ray_of (V (l 1 0) (l 1 0) (l 3377699720527873 (-50))) (V (l (-1) 0) (l (-1) 0) (l (-1) 0))) false);
    (1136%nat, bvh_flag_ok b (tri_isector s) (ray_of (V (l 1 0) (l 1 0) (l 6755399441055747 (-51))) (V (l (-1) 0) (l (-1) 0) (l (-1) 0))) false);
    (1136%nat, bvh_flag_ok b (tri_isector s) (ray_of (V (l 1 0) (l 1 0) (l 1688849860263937 (-49))) (V (l (-1) 0) (l (-1) 0) (l (-1) 0))) false);
    (1136%nat, bvh_flag_ok b (tri_isector s) (ray_of (V (l 1 0) (l 1 0) (l 6755399441055749 (-51))) (V (l (-1) 0) (l (-1) 0) (l (-1) 0))) false)])].
End S64_warnings64.

Section S32_checks32.
Local Existing Instance F32.
Local Notation l := (l32) (only parsing).
Definition trimesh_checks32 : list (nat * bool) := concat [
  on_all (make_mesh [(V (l 1 0) (l (-1) 0) (l (-1) 0)); (V (l (-1) 0) (l 1 0) (l 1 0)); (V (l 1 0) (l 1 0) (l (-1) 0))] [(V 0 1 2)]) (fun s => [
    (55%nat, box_ok (mesh_coll s) 0 (V (l (-1) 0) (l (-1) 0) (l (-1) 0)) (V (l 1 0) (l 1 0) (l 1 0)));
    (90%nat, center_ok (mesh_coll s) 0 (V (l 11184699 (-25)) (l 11184699 (-25)) (l (-11184699) (-25))))]);
  on_all (make_mesh [(V z z z); (V (l 1 0) z z); (V z (l 1 0) z)] [(V 0 2 1)]) (fun s => let b := tree (mesh_coll s) in [
    (66%nat, box_ok (mesh_coll s) 0 (V z z z) (V (l 1 0) (l 1 0) z));
    (171%nat, prim_ok (mesh_coll s) (tri_isector s) (ray_of (V (l 1 (-2)) (l 1 (-2)) (l 5 0)) (V z z (l (-1) 0))) true (Some 0%nat) (l 5 0) (V z z (l (-1) 0)));
    (174%nat, bvh_ok b (tri_isector s) (ray_of (V (l 1 (-2)) (l 1 (-2)) (l 5 0)) (V z z (l (-1) 0))) true (Some 0%nat) (l 5 0) (V z z (l (-1) 0)));
    (186%nat, prim_ok (mesh_coll s) (tri_isector s) (ray_of (V (l 1 0) (l 1 0) (l 1 0)) (V (l (-3) (-2)) (l (-3) (-2)) (l (-1) 0))) true (Some 0%nat) (l 1528549 (-20)) (V z z (l (-1) 0)));
    (189%nat, bvh_ok b (tri_isector s) (ray_of (V (l 1 0) (l 1 0) (l 1 0)) (V (l (-3) (-2)) (l (-3) (-2)) (l (-1) 0))) true (Some 0%nat) (l 1528549 (-20)) (V z z (l (-1) 0)));
    (200%nat, prim_ok (mesh_coll s) (tri_isector s) (ray_of (V (l 1 (-1)) z (l 5 0)) (V z z (l (-1) 0))) true (Some 0%nat) (l 5 0) (V z z (l (-1) 0)));
    (203%nat, bvh_ok b (tri_isector s) (ray_of (V (l 1 (-1)) z (l 5 0)) (V z z (l (-1) 0))) true (Some 0%nat) (l 5 0) (V z z (l (-1) 0)));
    (214%nat, prim_ok (mesh_coll s) (tri_isector s) (ray_of (V z (l 1 (-1)) (l 5 0)) (V z z (l (-1) 0))) true (Some 0%nat) (l 5 0) (V z z (l (-1) 0)));
    (217%nat, bvh_ok b (tri_isector s) (ray_of (V z (l 1 (-1)) (l 5 0)) (V z z (l (-1) 0))) true (Some 0%nat) (l 5 0) (V z z (l (-1) 0)));
    (228%nat, prim_ok (mesh_coll s) (tri_isector s) (ray_of (V (l 1 (-1)) (l 1 (-1)) (l 5 0)) (V z z (l (-1) 0))) true (Some 0%nat) (l 5 0) (V z z (l (-1) 0)));
    (231%nat, bvh_ok b (tri_isector s) (ray_of (V (l 1 (-1)) (l 1 (-1)) (l 5 0)) (V z z (l (-1) 0))) true (Some 0%nat) (l 5 0) (V z z (l (-1) 0)));
    (242%nat, prim_ok (mesh_coll s) (tri_isector s) (ray_of (V z z (l 5 0)) (V z z (l (-1) 0))) true (Some 0%nat) (l 5 0) (V z z (l (-1) 0)));
    (245%nat, bvh_ok b (tri_isector s) (ray_of (V z z (l 5 0)) (V z z (l (-1) 0))) true (Some 0%nat) (l 5 0) (V z z (l (-1) 0)));
    (256%nat, prim_ok (mesh_coll s) (tri_isector s) (ray_of (V z (l 1 0) (l 5 0)) (V z z (l (-1) 0))) true (Some 0%nat) (l 5 0) (V z z (l (-1) 0)));
    (259%nat, bvh_ok b (tri_isector s) (ray_of (V z (l 1 0) (l 5 0)) (V z z (l (-1) 0))) true (Some 0%nat) (l 5 0) (V z z (l (-1) 0)));
    (270%nat, prim_ok (mesh_coll s) (tri_isector s) (ray_of (V (l 1 0) z (l 5 0)) (V z z (l (-1) 0))) true (Some 0%nat) (l 5 0) (V z z (l (-1) 0)));
    (273%nat, bvh_ok b (tri_isector s) (ray_of (V (l 1 0) z (l 5 0)) (V z z (l (-1) 0))) true (Some 0%nat) (l 5 0) (V z z (l (-1) 0)));
    (290%nat, prim_ok (mesh_coll s) (tri_isector s) (ray_of (V (l 1 (-2)) (l 1 (-2)) (l (-5) 0)) (V z z (l 1 0))) true (Some 0%nat) (l 5 0) (V z z (l (-1) 0)));
    (293%nat, bvh_ok b (tri_isector s) (ray_of (V (l 1 (-2)) (l 1 (-2)) (l (-5) 0)) (V z z (l 1 0))) true (Some 0%nat) (l 5 0) (V z z (l (-1) 0)));
    (305%nat, prim_ok (mesh_coll s) (tri_isector s) (ray_of (V (l 1 0) (l 1 0) (l (-1) 0)) (V (l (-3) (-2)) (l (-3) (-2)) (l 1 0))) true (Some 0%nat) (l 1528549 (-20)) (V z z (l (-1) 0)));
    (308%nat, bvh_ok b (tri_isector s) (ray_of (V (l 1 0) (l 1 0) (l (-1) 0)) (V (l (-3) (-2)) (l (-3) (-2)) (l 1 0))) true (Some 0%nat) (l 1528549 (-20)) (V z z (l (-1) 0)));
    (320%nat, prim_ok (mesh_coll s) (tri_isector s) (ray_of (V (l 1 (-1)) z (l (-5) 0)) (V z z (l 1 0))) true (Some 0%nat) (l 5 0) (V z z (l (-1) 0)));
    (323%nat, bvh_ok b (tri_isector s) (ray_of (V (l 1 (-1)) z (l (-5) 0)) (V z z (l 1 0))) true (Some 0%nat) (l 5 0) (V z z (l (-1) 0)));
    (335%nat, prim_ok (mesh_coll s) (tri_isector s) (ray_of (V z (l 1 (-1)) (l (-5) 0)) (V z z (l 1 0))) true (Some 0%nat) (l 5 0) (V z z (l (-1) 0)));
    (338%nat, bvh_ok b (tri_isector s) (ray_of (V z (l 1 (-1)) (l (-5) 0)) (V z z (l 1 0))) true (Some 0%nat) (l 5 0) (V z z (l (-1) 0)));
    (350%nat, prim_ok (mesh_coll s) (tri_isector s) (ray_of (V (l 1 (-1)) (l 1 (-1)) (l (-5) 0)) (V z z (l 1 0))) true (Some 0%nat) (l 5 0) (V z z (l (-1) 0)));
    (353%nat, bvh_ok b (tri_isector s) (ray_of (V (l 1 (-1)) (l 1 (-1)) (l (-5) 0)) (V z z (l 1 0))) true (Some 0%nat) (l 5 0) (V z z (l (-1) 0)));
    (365%nat, prim_ok (mesh_coll s) (tri_isector s) (ray_of (V z z (l (-5) 0)) (V z z (l 1 0))) true (Some 0%nat) (l 5 0) (V z z (l (-1) 0)));
    (368%nat, bvh_ok b (tri_isector s) (ray_of (V z z (l (-5) 0)) (V z z (l 1 0))) true (Some 0%nat) (l 5 0) (V z z (l (-1) 0)));
    (380%nat, prim_ok (mesh_coll s) (tri_isector s) (ray_of (V z (l 1 0) (l (-5) 0)) (V z z (l 1 0))) true (Some 0%nat) (l 5 0) (V z z (l (-1) 0)));
    (383%nat, bvh_ok b (tri_isector s) (ray_of (V z (l 1 0) (l (-5) 0)) (V z z (l 1 0))) true (Some 0%nat) (l 5 0) (V z z (l (-1) 0)));
    (395%nat, prim_ok (mesh_coll s) (tri_isector s) (ray_of (V (l 1 0) z (l (-5) 0)) (V z z (l 1 0))) true (Some 0%nat) (l 5 0) (V z z (l (-1) 0)));
    (398%nat, bvh_ok b (tri_isector s) (ray_of (V (l 1 0) z (l (-5) 0)) (V z z (l 1 0))) true (Some 0%nat) (l 5 0) (V z z (l (-1) 0)));
    (420%nat, prim_ok (mesh_coll s) (tri_isector s) (ray_of (V (l 1 (-2)) (l 1 (-2)) (l 5 0)) (V z z (l 1 0))) false None (l 16777215 104) (V z z z));
    (423%nat, bvh_ok b (tri_isector s) (ray_of (V (l 1 (-2)) (l 1 (-2)) (l 5 0)) (V z z (l 1 0))) false None (l 16777215 104) (V z z z));
    (438%nat, prim_ok (mesh_coll s) (tri_isector s) (ray_of (V (l 1 0) (l 1 0) (l 1 0)) (V (l (-3) (-2)) (l (-3) (-2)) (l 1 0))) false None (l 16777215 104) (V z z z));
    (441%nat, bvh_ok b (tri_isector s) (ray_of (V (l 1 0) (l 1 0) (l 1 0)) (V (l (-3) (-2)) (l (-3) (-2)) (l 1 0))) false None (l 16777215 104) (V z z z))]);
  on_all (make_mesh [(V (l 1 0) z (l (-1) 0)); (V (l (-1) 0) (l 1 1) (l 1 0)); (V (l 1 0) (l 1 1) (l (-1) 0))] [(V 0 1 2)]) (fun s => [
    (77%nat, box_ok (mesh_coll s) 0 (V (l (-1) 0) z (l (-1) 0)) (V (l 1 0) (l 1 1) (l 1 0)))]);
  on_all (make_mesh [(V (l 1 1) (l (-1) 0) (l (-1) 0)); (V z (l 1 0) (l 1 0)); (V (l 1 1) (l 1 0) (l (-1) 0))] [(V 0 1 2)]) (fun s => [
    (101%nat, center_ok (mesh_coll s) 0 (V (l 11184783 (-23)) (l 11184699 (-25)) (l (-11184699) (-25))))]);
  on_all (make_mesh [(V z z z); (V (l 1 0) z z); (V z z (l 1 0))] [(V 0 1 2)]) (fun s => let b := tree (mesh_coll s) in [
    (125%nat, prim_ok (mesh_coll s) (tri_isector s) (ray_of (V (l 1 (-2)) (l 5 0) (l 1 (-2))) (V z (l (-1) 0) z)) true (Some 0%nat) (l 5 0) (V z (l (-1) 0) z));
    (128%nat, bvh_ok b (tri_isector s) (ray_of (V (l 1 (-2)) (l 5 0) (l 1 (-2))) (V z (l (-1) 0) z)) true (Some 0%nat) (l 5 0) (V z (l (-1) 0) z))]);
  on_all (make_mesh [(V z z z); (V z (l 1 0) z); (V z z (l 1 0))] [(V 0 2 1)]) (fun s => let b := tree (mesh_coll s) in [
    (147%nat, prim_ok (mesh_coll s) (tri_isector s) (ray_of (V (l 5 0) (l 1 (-2)) (l 1 (-2))) (V (l (-1) 0) z z)) true (Some 0%nat) (l 5 0) (V (l (-1) 0) z z));
    (150%nat, bvh_ok b (tri_isector s) (ray_of (V (l 5 0) (l 1 (-2)) (l 1 (-2))) (V (l (-1) 0) z z)) true (Some 0%nat) (l 5 0) (V (l (-1) 0) z z))]);
  on_all (make_mesh [(V z z z); (V (l 1 0) z z); (V z (l 1 0) z)] [(V 0 1 2)]) (fun s => let b := tree (mesh_coll s) in [
    (464%nat, prim_ok (mesh_coll s) (tri_isector s) (ray_of (V (l 1 (-2)) (l 1 (-2)) (l 5 0)) (V z z (l (-1) 0))) true (Some 0%nat) (l 5 0) (V z z (l 1 0)));
    (467%nat, bvh_ok b (tri_isector s) (ray_of (V (l 1 (-2)) (l 1 (-2)) (l 5 0)) (V z z (l (-1) 0))) true (Some 0%nat) (l 5 0) (V z z (l 1 0)))]);
  on_all (make_mesh [(V (l (-1) 0) (l (-1) 0) (l (-1) 0)); (V (l 1 0) (l (-1) 0) (l (-1) 0)); (V (l 1 0) (l (-1) 0) (l 1 0)); (V (l (-1) 0) (l (-1) 0) (l 1 0)); (V (l (-1) 0) (l 1 0) (l (-1) 0)); (V (l 1 0) (l 1 0) (l (-1) 0)); (V (l 1 0) (l 1 0) (l 1 0)); (V (l (-1) 0) (l 1 0) (l 1 0))] [(V 1 5 4); (V 0 1 4); (V 2 6 5); (V 1 2 5); (V 3 7 6); (V 2 3 6); (V 4 7 3); (V 0 4 3); (V 5 6 7); (V 4 5 7); (V 3 2 1); (V 0 3 1)]) (fun s => [
    (613%nat, boxes_ok (mesh_coll s) (V (l (-1) 0) (l (-1) 0) (l (-1) 0)) (V (l 1 0) (l 1 0) (l 1 0)))]);
  on_all (make_mesh [(V (l (-1) 0) (l (-1) 0) (l (-1) 0)); (V (l 1 0) (l (-1) 0) (l (-1) 0)); (V (l 1 0) (l (-1) 0) (l 1 0)); (V (l (-1) 0) (l (-1) 0) (l 1 0)); (V (l (-1) 0) (l 1 0) (l (-1) 0)); (V (l 1 0) (l 1 0) (l (-1) 0)); (V (l 1 0) (l 1 0) (l 1 0)); (V (l (-1) 0) (l 1 0) (l 1 0))] [(V 1 4 5); (V 0 4 1); (V 2 5 6); (V 1 5 2); (V 3 6 7); (V 2 6 3); (V 4 3 7); (V 0 3 4); (V 5 7 6); (V 4 7 5); (V 3 1 2); (V 0 1 3)]) (fun s => [
    (622%nat, boxes_ok (mesh_coll s) (V (l (-1) 0) (l (-1) 0) (l (-1) 0)) (V (l 1 0) (l 1 0) (l 1 0)))]);
  on_all (make_mesh [(V (l 5 0) (l 3 0) (l (-1) 0)); (V (l 3 0) (l 3 0) (l (-1) 0)); (V (l 3 0) (l 1 0) (l (-1) 0)); (V (l 5 0) (l 1 0) (l (-1) 0)); (V (l 5 0) (l 3 0) (l 1 0)); (V (l 3 0) (l 3 0) (l 1 0)); (V (l 3 0) (l 1 0) (l 1 0)); (V (l 5 0) (l 1 0) (l 1 0))] [(V 0 1 3); (V 2 3 1); (V 4 5 7); (V 6 7 5); (V 7 6 3); (V 2 3 6); (V 4 5 0); (V 1 0 5); (V 5 6 1); (V 2 1 6); (V 4 7 0); (V 3 0 7)]) (fun s => [
    (634%nat, boxes_ok (mesh_coll s) (V (l 3 0) (l 1 0) (l (-1) 0)) (V (l 5 0) (l 3 0) (l 1 0)))]);
  on_all (make_mesh [(V (l 3 0) (l 1 0) (l (-1) 0)); (V (l 5 0) (l 1 0) (l (-1) 0)); (V (l 5 0) (l 1 0) (l 1 0)); (V (l 3 0) (l 1 0) (l 1 0)); (V (l 3 0) (l 3 0) (l (-1) 0)); (V (l 5 0) (l 3 0) (l (-1) 0)); (V (l 5 0) (l 3 0) (l 1 0)); (V (l 3 0) (l 3 0) (l 1 0))] [(V 1 4 5); (V 0 4 1); (V 2 5 6); (V 1 5 2); (V 3 6 7); (V 2 6 3); (V 4 3 7); (V 0 3 4); (V 5 7 6); (V 4 7 5); (V 3 1 2); (V 0 1 3)]) (fun s => [
    (643%nat, boxes_ok (mesh_coll s) (V (l 3 0) (l 1 0) (l (-1) 0)) (V (l 5 0) (l 3 0) (l 1 0)))]);
  on_all (make_mesh [(V (l 1 0) (l 1 0) (l (-1) 0)); (V (l (-1) 0) (l 1 0) (l (-1) 0)); (V (l (-1) 0) (l (-1) 0) (l (-1) 0)); (V (l 1 0) (l (-1) 0) (l (-1) 0)); (V (l 1 0) (l 1 0) (l 1 0)); (V (l (-1) 0) (l 1 0) (l 1 0)); (V (l (-1) 0) (l (-1) 0) (l 1 0)); (V (l 1 0) (l (-1) 0) (l 1 0))] [(V 0 1 3); (V 2 3 1); (V 4 5 7); (V 6 7 5); (V 7 6 3); (V 2 3 6); (V 4 5 0); (V 1 0 5); (V 5 6 1); (V 2 1 6); (V 4 7 0); (V 3 0 7)]) (fun s => let b := tree (mesh_coll s) in [
    (668%nat, bvh_dist_ok b (tri_isector s) (ray_of (V z z (l 5 0)) (V z z (l (-1) 0))) true (l 1 2));
    (679%nat, bvh_dist_ok b (tri_isector s) (ray_of (V z z (l (-5) 0)) (V z z (l 1 0))) true (l 1 2));
    (690%nat, bvh_dist_ok b (tri_isector s) (ray_of (V z (l 5 0) z) (V z (l (-1) 0) z)) true (l 1 2));
    (701%nat, bvh_dist_ok b (tri_isector s) (ray_of (V z (l (-5) 0) z) (V z (l 1 0) z)) true (l 1 2));
    (712%nat, bvh_dist_ok b (tri_isector s) (ray_of (V (l 5 0) z z) (V (l (-1) 0) z z)) true (l 1 2));
    (723%nat, bvh_dist_ok b (tri_isector s) (ray_of (V (l (-5) 0) z z) (V (l 1 0) z z)) true (l 1 2));
    (738%nat, prim_ok (mesh_coll s) (tri_isector s) (ray_of (V (l 1 1) (l 1 1) (l (-5) 0)) (V z z (l 1 0))) false None (l 16777215 104) (V z z z));
    (741%nat, bvh_ok b (tri_isector s) (ray_of (V (l 1 1) (l 1 1) (l (-5) 0)) (V z z (l 1 0))) false None (l 16777215 104) (V z z z));
    (755%nat, prim_ok (mesh_coll s) (tri_isector s) (ray_of (V (l 1 1) (l (-5) 0) (l 1 1)) (V z (l 1 0) z)) false None (l 16777215 104) (V z z z));
    (758%nat, bvh_ok b (tri_isector s) (ray_of (V (l 1 1) (l (-5) 0) (l 1 1)) (V z (l 1 0) z)) false None (l 16777215 104) (V z z z));
    (772%nat, prim_ok (mesh_coll s) (tri_isector s) (ray_of (V (l (-5) 0) (l 1 1) (l 1 1)) (V (l 1 0) z z)) false None (l 16777215 104) (V z z z));
    (775%nat, bvh_ok b (tri_isector s) (ray_of (V (l (-5) 0) (l 1 1) (l 1 1)) (V (l 1 0) z z)) false None (l 16777215 104) (V z z z));
    (790%nat, bvh_dist_ok b (tri_isector s) (ray_of (V z z z) (V z z (l 1 0))) true (l 1 0));
    (801%nat, bvh_dist_ok b (tri_isector s) (ray_of (V z z z) (V z z (l (-1) 0))) true (l 1 0));
    (812%nat, bvh_dist_ok b (tri_isector s) (ray_of (V z z z) (V z (l 1 0) z)) true (l 1 0));
    (823%nat, bvh_dist_ok b (tri_isector s) (ray_of (V z z z) (V z (l (-1) 0) z)) true (l 1 0));
    (834%nat, bvh_dist_ok b (tri_isector s) (ray_of (V z z z) (V (l 1 0) z z)) true (l 1 0));
    (845%nat, bvh_dist_ok b (tri_isector s) (ray_of (V z z z) (V (l (-1) 0) z z)) true (l 1 0));
    (858%nat, bvh_dist_ok b (tri_isector s) (ray_of (V z z z) (V (l 1 0) (l 1 0) z)) true (l 11863283 (-23)));
    (869%nat, bvh_dist_ok b (tri_isector s) (ray_of (V z z z) (V (l 1 0) (l (-1) 0) z)) true (l 11863283 (-23)));
    (880%nat, bvh_dist_ok b (tri_isector s) (ray_of (V z z z) (V (l (-1) 0) (l 1 0) z)) true (l 11863283 (-23)));
    (891%nat, bvh_dist_ok b (tri_isector s) (ray_of (V z z z) (V (l (-1) 0) (l (-1) 0) z)) true (l 11863283 (-23)));
    (903%nat, bvh_dist_ok b (tri_isector s) (ray_of (V z z z) (V (l 1 0) z (l 1 0))) true (l 11863283 (-23)));
    (914%nat, bvh_dist_ok b (tri_isector s) (ray_of (V z z z) (V (l 1 0) z (l (-1) 0))) true (l 11863283 (-23)));
    (925%nat, bvh_dist_ok b (tri_isector s) (ray_of (V z z z) (V (l (-1) 0) z (l 1 0))) true (l 11863283 (-23)));
    (936%nat, bvh_dist_ok b (tri_isector s) (ray_of (V z z z) (V (l (-1) 0) z (l (-1) 0))) true (l 11863283 (-23)));
    (948%nat, bvh_dist_ok b (tri_isector s) (ray_of (V z z z) (V z (l 1 0) (l 1 0))) true (l 11863283 (-23)));
    (959%nat, bvh_dist_ok b (tri_isector s) (ray_of (V z z z) (V z (l 1 0) (l (-1) 0))) true (l 11863283 (-23)));
    (970%nat, bvh_dist_ok b (tri_isector s) (ray_of (V z z z) (V z (l (-1) 0) (l 1 0))) true (l 11863283 (-23)));
    (981%nat, bvh_dist_ok b (tri_isector s) (ray_of (V z z z) (V z (l (-1) 0) (l (-1) 0))) true (l 11863283 (-23)));
    (994%nat, bvh_dist_ok b (tri_isector s) (ray_of (V z z z) (V (l 1 0) (l 1 0) (l 1 0))) true (l 14529495 (-23)));
    (1005%nat, bvh_dist_ok b (tri_isector s) (ray_of (V z z z) (V (l 1 0) (l (-1) 0) (l 1 0))) true (l 14529495 (-23)));
    (1016%nat, bvh_dist_ok b (tri_isector s) (ray_of (V z z z) (V (l (-1) 0) (l 1 0) (l 1 0))) true (l 14529495 (-23)));
    (1027%nat, bvh_dist_ok b (tri_isector s) (ray_of (V z z z) (V (l (-1) 0) (l (-1) 0) (l 1 0))) true (l 14529495 (-23)));
    (1038%nat, bvh_dist_ok b (tri_isector s) (ray_of (V z z z) (V (l 1 0) (l 1 0) (l (-1) 0))) true (l 14529495 (-23)));
    (1049%nat, bvh_dist_ok b (tri_isector s) (ray_of (V z z z) (V (l 1 0) (l (-1) 0) (l (-1) 0))) true (l 14529495 (-23)));
    (1060%nat, bvh_dist_ok b (tri_isector s) (ray_of (V z z z) (V (l (-1) 0) (l 1 0) (l (-1) 0))) true (l 14529495 (-23)));
    (1071%nat, bvh_dist_ok b (tri_isector s) (ray_of (V z z z) (V (l (-1) 0) (l (-1) 0) (l (-1) 0))) true (l 14529495 (-23)))]);
  on_all (make_mesh [(V z z (l 1 0)); (V (l 1 0) (l 1 0) z); (V (l 1 0) (l (-1) 0) z); (V (l (-1) 0) (l (-1) 0) z); (V (l (-1) 0) (l 1 0) z)] [(V 1 3 2); (V 2 4 3); (V 0 2 1); (V 0 4 3); (V 0 1 4); (V 0 3 2)]) (fun s => let b := tree (mesh_coll s) in [
    (1162%nat, bvh_any_ok b (tri_isector s) (ray_of (V z z (l 5 0)) (V z z (l (-1) 0))) true (l 1 2) (V z z (l 1 0)))])].
End S32_checks32.

Section S32_warnings32.
Local Existing Instance F32.
Local Notation l := (l32) (only parsing).
Definition trimesh_warnings32 : list (nat * bool) := concat [
  on_all (make_mesh [(V z z z); (V (l 1 0) z z); (V z (l 1 0) z)] [(V 0 2 1)]) (fun s => let b := tree (mesh_coll s) in [
    (495%nat, bvh_flag_ok b (tri_isector s) (ray_of (V (l 1 (-1)) (l (-1) (-23)) (l 5 0)) (V z z (l (-1) 0))) false);
    (495%nat, bvh_flag_ok b (tri_isector s) (ray_of (V (l 1 (-1)) (l (-1) (-22)) (l 5 0)) (V z z (l (-1) 0))) false);
    (495%nat, bvh_flag_ok b (tri_isector s) (ray_of (V (l 1 (-1)) (l (-3) (-23)) (l 5 0)) (V z z (l (-1) 0))) false);
    (495%nat, bvh_flag_ok b (tri_isector s) (ray_of (V (l 1 (-1)) (l (-1) (-21)) (l 5 0)) (V z z (l (-1) 0))) false);
    (495%nat, bvh_flag_ok b (tri_isector s) (ray_of (V (l 1 (-1)) (l (-5) (-23)) (l 5 0)) (V z z (l (-1) 0))) false);
    (495%nat, bvh_flag_ok b (tri_isector s) (ray_of (V (l 1 (-1)) (l (-3) (-22)) (l 5 0)) (V z z (l (-1) 0))) false);
    (495%nat, bvh_flag_ok b (tri_isector s) (ray_of (V (l 1 (-1)) (l (-7) (-23)) (l 5 0)) (V z z (l (-1) 0))) false);
    (495%nat, bvh_flag_ok b (tri_isector s) (ray_of (V (l 1 (-1)) (l (-1) (-20)) (l 5 0)) (V z z (l (-1) 0))) false);
    (495%nat, bvh_flag_ok b (tri_isector s) (ray_of (V (l 1 (-1)) (l (-9) (-23)) (l 5 0)) (V z z (l (-1) 0))) false);
    (495%nat, bvh_flag_ok b (tri_isector s) (ray_of (V (l 1 (-1)) (l (-5) (-22)) (l 5 0)) (V z z (l (-1) 0))) false);
    (505%nat, bvh_flag_ok b (tri_isector s) (ray_of (V (l (-1) (-23)) (l 1 (-1)) (l 5 0)) (V z z (l (-1) 0))) false);
    (505%nat, bvh_flag_ok b (tri_isector s) (ray_of (V (l (-1) (-22)) (l 1 (-1)) (l 5 0)) (V z z (l (-1) 0))) false);
    (505%nat, bvh_flag_ok b (tri_isector s) (ray_of (V (l (-3) (-23)) (l 1 (-1)) (l 5 0)) (V z z (l (-1) 0))) false);
    (505%nat, bvh_flag_ok b (tri_isector s) (ray_of (V (l (-1) (-21)) (l 1 (-1)) (l 5 0)) (V z z (l (-1) 0))) false);
    (505%nat, bvh_flag_ok b (tri_isector s) (ray_of (V (l (-5) (-23)) (l 1 (-1)) (l 5 0)) (V z z (l (-1) 0))) false);
    (505%nat, bvh_flag_ok b (tri_isector s) (ray_of (V (l (-3) (-22)) (l 1 (-1)) (l 5 0)) (V z z (l (-1) 0))) false);
    (505%nat, bvh_flag_ok b (tri_isector s) (ray_of (V (l (-7) (-23)) (l 1 (-1)) (l 5 0)) (V z z (l (-1) 0))) false);
    (505%nat, bvh_flag_ok b (tri_isector s) (ray_of (V (l (-1) (-20)) (l 1 (-1)) (l 5 0)) (V z z (l (-1) 0))) false);
    (505%nat, bvh_flag_ok b (tri_isector s) (ray_of (V (l (-9) (-23)) (l 1 (-1)) (l 5 0)) (V z z (l (-1) 0))) false);
    (505%nat, bvh_flag_ok b (tri_isector s) (ray_of (V (l (-5) (-22)) (l 1 (-1)) (l 5 0)) (V z z (l (-1) 0))) false);
    (515%nat, bvh_flag_ok b (tri_isector s) (ray_of (V (l 4194305 (-23)) (l 4194305 (-23)) (l 5 0)) (V z z (l (-1) 0))) false);
    (515%nat, bvh_flag_ok b (tri_isector s) (ray_of (V (l 2097153 (-22)) (l 2097153 (-22)) (l 5 0)) (V z z (l (-1) 0))) false);
    (515%nat, bvh_flag_ok b (tri_isector s) (ray_of (V (l 4194307 (-23)) (l 4194307 (-23)) (l 5 0)) (V z z (l (-1) 0))) false);
    (515%nat, bvh_flag_ok b (tri_isector s) (ray_of (V (l 1048577 (-21)) (l 1048577 (-21)) (l 5 0)) (V z z (l (-1) 0))) false);
    (515%nat, bvh_flag_ok b (tri_isector s) (ray_of (V (l 4194309 (-23)) (l 4194309 (-23)) (l 5 0)) (V z z (l (-1) 0))) false);
    (515%nat, bvh_flag_ok b (tri_isector s) (ray_of (V (l 2097155 (-22)) (l 2097155 (-22)) (l 5 0)) (V z z (l (-1) 0))) false);
    (515%nat, bvh_flag_ok b (tri_isector s) (ray_of (V (l 4194311 (-23)) (l 4194311 (-23)) (l 5 0)) (V z z (l (-1) 0))) false);
    (515%nat, bvh_flag_ok b (tri_isector s) (ray_of (V (l 524289 (-20)) (l 524289 (-20)) (l 5 0)) (V z z (l (-1) 0))) false);
    (515%nat, bvh_flag_ok b (tri_isector s) (ray_of (V (l 4194313 (-23)) (l 4194313 (-23)) (l 5 0)) (V z z (l (-1) 0))) false);
    (515%nat, bvh_flag_ok b (tri_isector s) (ray_of (V (l 2097157 (-22)) (l 2097157 (-22)) (l 5 0)) (V z z (l (-1) 0))) false);
    (525%nat, bvh_flag_ok b (tri_isector s) (ray_of (V (l 8388609 (-23)) z (l 5 0)) (V z z (l (-1) 0))) false);
    (525%nat, bvh_flag_ok b (tri_isector s) (ray_of (V (l 4194305 (-22)) z (l 5 0)) (V z z (l (-1) 0))) false);
    (525%nat, bvh_flag_ok b (tri_isector s) (ray_of (V (l 8388611 (-23)) z (l 5 0)) (V z z (l (-1) 0))) false);
    (525%nat, bvh_flag_ok b (tri_isector s) (ray_of (V (l 2097153 (-21)) z (l 5 0)) (V z z (l (-1) 0))) false);
    (525%nat, bvh_flag_ok b (tri_isector s) (ray_of (V (l 8388613 (-23)) z (l 5 0)) (V z z (l (-1) 0))) false);
    (525%nat, bvh_flag_ok b (tri_isector s) (ray_of (V (l 4194307 (-22)) z (l 5 0)) (V z z (l (-1) 0))) false);
    (525%nat, bvh_flag_ok b (tri_isector s) (ray_of (V (l 8388615 (-23)) z (l 5 0)) (V z z (l (-1) 0))) false);
    (525%nat, bvh_flag_ok b (tri_isector s) (ray_of (V (l 1048577 (-20)) z (l 5 0)) (V z z (l (-1) 0))) false);
    (525%nat, bvh_flag_ok b (tri_isector s) (ray_of (V (l 8388617 (-23)) z (l 5 0)) (V z z (l (-1) 0))) false);
    (525%nat, bvh_flag_ok b (tri_isector s) (ray_of (V (l 4194309 (-22)) z (l 5 0)) (V z z (l (-1) 0))) false);
    (594%nat, bvh_flag_ok b (tri_isector s) (ray_of (V (l (-5) 0) (l 1 (-1)) (l 1 (-23))) (V (l 1 0) z z)) false);
    (594%nat, bvh_flag_ok b (tri_isector s) (ray_of (V (l (-5) 0) (l 1 (-1)) (l 1 (-22))) (V (l 1 0) z z)) false);
    (594%nat, bvh_flag_ok b (tri_isector s) (ray_of (V (l (-5) 0) (l 1 (-1)) (l 3 (-23))) (V (l 1 0) z z)) false);
    (594%nat, bvh_flag_ok b (tri_isector s) (ray_of (V (l (-5) 0) (l 1 (-1)) (l 1 (-21))) (V (l 1 0) z z)) false);
    (594%nat, bvh_flag_ok b (tri_isector s) (ray_of (V (l (-5) 0) (l 1 (-1)) (l 5 (-23))) (V (l 1 0) z z)) false);
    (594%nat, bvh_flag_ok b (tri_isector s) (ray_of (V (l (-5) 0) (l 1 (-1)) (l 3 (-22))) (V (l 1 0) z z)) false);
    (594%nat, bvh_flag_ok b (tri_isector s) (ray_of (V (l (-5) 0) (l 1 (-1)) (l 7 (-23))) (V (l 1 0) z z)) false);
    (594%nat, bvh_flag_ok b (tri_isector s) (ray_of (V (l (-5) 0) (l 1 (-1)) (l 1 (-20))) (V (l 1 0) z z)) false);
    (594%nat, bvh_flag_ok b (tri_isector s) (ray_of (V (l (-5) 0) (l 1 (-1)) (l 9 (-23))) (V (l 1 0) z z)) false);
    (594%nat, bvh_flag_ok b (tri_isector s) (ray_of (V (l (-5) 0) (l 1 (-1)) (l 5 (-22))) (V (l 1 0) z z)) false)]);
  on_all (make_mesh [(V (l 1 0) (l 1 0) (l 1 0)); (V (l 1 1) (l 1 0) (l 1 0)); (V (l 1 0) (l 1 1) (l 1 0))] [(V 0 2 1)]) (fun s => let b := tree (mesh_coll s) in [
    (541%nat, bvh_flag_ok b (tri_isector s) (ray_of (V (l 8388607 (-23)) (l 3 (-1)) (l 5 0)) (V z z (l (-1) 0))) false);
    (541%nat, bvh_flag_ok b (tri_isector s) (ray_of (V (l 4194303 (-22)) (l 3 (-1)) (l 5 0)) (V z z (l (-1) 0))) false);
    (541%nat, bvh_flag_ok b (tri_isector s) (ray_of (V (l 8388605 (-23)) (l 3 (-1)) (l 5 0)) (V z z (l (-1) 0))) false);
    (541%nat, bvh_flag_ok b (tri_isector s) (ray_of (V (l 2097151 (-21)) (l 3 (-1)) (l 5 0)) (V z z (l (-1) 0))) false);
    (541%nat, bvh_flag_ok b (tri_isector s) (ray_of (V (l 8388603 (-23)) (l 3 (-1)) (l 5 0)) (V z z (l (-1) 0))) false);
    (541%nat, bvh_flag_ok b (tri_isector s) (ray_of (V (l 4194301 (-22)) (l 3 (-1)) (l 5 0)) (V z z (l (-1) 0))) false);
    (541%nat, bvh_flag_ok b (tri_isector s) (ray_of (V (l 8388601 (-23)) (l 3 (-1)) (l 5 0)) (V z z (l (-1) 0))) false);
    (541%nat, bvh_flag_ok b (tri_isector s) (ray_of (V (l 1048575 (-20)) (l 3 (-1)) (l 5 0)) (V z z (l (-1) 0))) false);
    (541%nat, bvh_flag_ok b (tri_isector s) (ray_of (V (l 8388599 (-23)) (l 3 (-1)) (l 5 0)) (V z z (l (-1) 0))) false);
    (541%nat, bvh_flag_ok b (tri_isector s) (ray_of (V (l 4194299 (-22)) (l 3 (-1)) (l 5 0)) (V z z (l (-1) 0))) false);
    (551%nat, bvh_flag_ok b (tri_isector s) (ray_of (V (l 3 (-1)) (l 8388607 (-23)) (l 5 0)) (V z z (l (-1) 0))) false);
    (551%nat, bvh_flag_ok b (tri_isector s) (ray_of (V (l 3 (-1)) (l 4194303 (-22)) (l 5 0)) (V z z (l (-1) 0))) false);
    (551%nat, bvh_flag_ok b (tri_isector s) (ray_of (V (l 3 (-1)) (l 8388605 (-23)) (l 5 0)) (V z z (l (-1) 0))) false);
    (551%nat, bvh_flag_ok b (tri_isector s) (ray_of (V (l 3 (-1)) (l 2097151 (-21)) (l 5 0)) (V z z (l (-1) 0))) false);
    (551%nat, bvh_flag_ok b (tri_isector s) (ray_of (V (l 3 (-1)) (l 8388603 (-23)) (l 5 0)) (V z z (l (-1) 0))) false);
    (551%nat, bvh_flag_ok b (tri_isector s) (ray_of (V (l 3 (-1)) (l 4194301 (-22)) (l 5 0)) (V z z (l (-1) 0))) false);
    (551%nat, bvh_flag_ok b (tri_isector s) (ray_of (V (l 3 (-1)) (l 8388601 (-23)) (l 5 0)) (V z z (l (-1) 0))) false);
    (551%nat, bvh_flag_ok b (tri_isector s) (ray_of (V (l 3 (-1)) (l 1048575 (-20)) (l 5 0)) (V z z (l (-1) 0))) false);
    (551%nat, bvh_flag_ok b (tri_isector s) (ray_of (V (l 3 (-1)) (l 8388599 (-23)) (l 5 0)) (V z z (l (-1) 0))) false);
    (551%nat, bvh_flag_ok b (tri_isector s) (ray_of (V (l 3 (-1)) (l 4194299 (-22)) (l 5 0)) (V z z (l (-1) 0))) false);
    (561%nat, bvh_flag_ok b (tri_isector s) (ray_of (V (l 3 (-1)) (l 3 (-1)) (l 5 0)) (V z z (l (-1) 0))) false);
    (561%nat, bvh_flag_ok b (tri_isector s) (ray_of (V (l 12582913 (-23)) (l 12582913 (-23)) (l 5 0)) (V z z (l (-1) 0))) false);
    (561%nat, bvh_flag_ok b (tri_isector s) (ray_of (V (l 6291457 (-22)) (l 6291457 (-22)) (l 5 0)) (V z z (l (-1) 0))) false);
    (561%nat, bvh_flag_ok b (tri_isector s) (ray_of (V (l 12582915 (-23)) (l 12582915 (-23)) (l 5 0)) (V z z (l (-1) 0))) false);
    (561%nat, bvh_flag_ok b (tri_isector s) (ray_of (V (l 3145729 (-21)) (l 3145729 (-21)) (l 5 0)) (V z z (l (-1) 0))) false);
    (561%nat, bvh_flag_ok b (tri_isector s) (ray_of (V (l 12582917 (-23)) (l 12582917 (-23)) (l 5 0)) (V z z (l (-1) 0))) false);
    (571%nat, bvh_flag_ok b (tri_isector s) (ray_of (V (l 16777215 (-24)) (l 16777215 (-24)) (l 5 0)) (V z z (l (-1) 0))) false);
    (571%nat, bvh_flag_ok b (tri_isector s) (ray_of (V (l 8388607 (-23)) (l 8388607 (-23)) (l 5 0)) (V z z (l (-1) 0))) false);
    (571%nat, bvh_flag_ok b (tri_isector s) (ray_of (V (l 16777213 (-24)) (l 16777213 (-24)) (l 5 0)) (V z z (l (-1) 0))) false);
    (571%nat, bvh_flag_ok b (tri_isector s) (ray_of (V (l 4194303 (-22)) (l 4194303 (-22)) (l 5 0)) (V z z (l (-1) 0))) false);
    (571%nat, bvh_flag_ok b (tri_isector s) (ray_of (V (l 16777211 (-24)) (l 16777211 (-24)) (l 5 0)) (V z z (l (-1) 0))) false);
    (571%nat, bvh_flag_ok b (tri_isector s) (ray_of (V (l 8388605 (-23)) (l 8388605 (-23)) (l 5 0)) (V z z (l (-1) 0))) false);
    (571%nat, bvh_flag_ok b (tri_isector s) (ray_of (V (l 16777209 (-24)) (l 16777209 (-24)) (l 5 0)) (V z z (l (-1) 0))) false);
    (571%nat, bvh_flag_ok b (tri_isector s) (ray_of (V (l 2097151 (-21)) (l 2097151 (-21)) (l 5 0)) (V z z (l (-1) 0))) false);
    (571%nat, bvh_flag_ok b (tri_isector s) (ray_of (V (l 16777207 (-24)) (l 16777207 (-24)) (l 5 0)) (V z z (l (-1) 0))) false);
    (571%nat, bvh_flag_ok b (tri_isector s) (ray_of (V (l 8388603 (-23)) (l 8388603 (-23)) (l 5 0)) (V z z (l (-1) 0))) false)]);
  on_all (make_mesh [(V (l 1 0) (l 1 0) (l (-1) 0)); (V (l (-1) 0) (l 1 0) (l (-1) 0)); (V (l (-1) 0) (l (-1) 0) (l (-1) 0)); (V (l 1 0) (l (-1) 0) (l (-1) 0)); (V (l 1 0) (l 1 0) (l 1 0)); (V (l (-1) 0) (l 1 0) (l 1 0)); (V (l (-1) 0) (l (-1) 0) (l 1 0)); (V (l 1 0) (l (-1) 0) (l 1 0))] [(V 0 1 3); (V 2 3 1); (V 4 5 7); (V 6 7 5); (V 7 6 3); (V 2 3 6); (V 4 5 0); (V 1 0 5); (V 5 6 1); (V 2 1 6); (V 4 7 0); (V 3 0 7)]) (fun s => let b := tree (mesh_coll s) in [
    (1099%nat, bvh_flag_ok b (tri_isector s) (ray_of (V z z (l 1 1)) (V (l (-1) 0) z (l (-1) 0))) false);
    (1099%nat, bvh_flag_ok b (tri_isector s) (ray_of (V z z (l 8388609 (-22))) (V (l (-1) 0) z (l (-1) 0))) false);
    (1099%nat, bvh_flag_ok b (tri_isector s) (ray_of (V z z (l 4194305 (-21))) (V (l (-1) 0) z (l (-1) 0))) false);
    (1099%nat, bvh_flag_ok b (tri_isector s) (ray_of (V z z (l 8388611 (-22))) (V (l (-1) 0) z (l (-1) 0))) false);
    (1099%nat, bvh_flag_ok b (tri_isector s) (ray_of (V z z (l 2097153 (-20))) (V (l (-1) 0) z (l (-1) 0))) false);
    (1099%nat, bvh_flag_ok b (tri_isector s) (ray_of (V z z (l 8388613 (-22))) (V (l (-1) 0) z (l (-1) 0))) false);
    (1109%nat, bvh_flag_ok b (tri_isector s) (ray_of (V z z (l 1 1)) (V (l (-1) 0) (l (-1) 0) (l (-1) 0))) false);
    (1109%nat, bvh_flag_ok b (tri_isector s) (ray_of (V z z (l 8388609 (-22))) (V (l (-1) 0) (l (-1) 0) (l (-1) 0))) false);
    (1109%nat, bvh_flag_ok b (tri_isector s) (ray_of (V z z (l 4194305 (-21))) (V (l (-1) 0) (l (-1) 0) (l (-1) 0))) false);
    (1109%nat, bvh_flag_ok b (tri_isector s) (ray_of (V z z (l 8388611 (-22))) (V (l (-1) 0) (l (-1) 0) (l (-1) 0))) false);
    (1109%nat, bvh_flag_ok b (tri_isector s) (ray_of (V z z (l 2097153 (-20))) (V (l (-1) 0) (l (-1) 0) (l (-1) 0))) false);
    (1109%nat, bvh_flag_ok b (tri_isector s) (ray_of (V z z (l 8388613 (-22))) (V (l (-1) 0) (l (-1) 0) (l (-1) 0))) false)]);
  on_all (make_mesh [(V (l 1 1) (l 1 1) z); (V z (l 1 1) z); (V z z z); (V (l 1 1) z z); (V (l 1 1) (l 1 1) (l 1 1)); (V z (l 1 1) (l 1 1)); (V z z (l 1 1)); (V (l 1 1) z (l 1 1))] [(V 0 1 3); (V 2 3 1); (V 4 5 7); (V 6 7 5); (V 7 6 3); (V 2 3 6); (V 4 5 0); (V 1 0 5); (V 5 6 1); (V 2 1 6); (V 4 7 0); (V 3 0 7)]) (fun s => let b := tree (mesh_coll s) in [
    (1126%nat, bvh_flag_ok b (tri_isector s) (ray_of (V (l 1 0) (l 1 0) (l 3 0)) (V (l (-1) 0) z (l (-1) 0))) false);
    (1126%nat, bvh_flag_ok b (tri_isector s) (ray_of (V (l 1 0) (l 1 0) (l 12582913 (-22))) (V (l (-1) 0) z (l (-1) 0))) false);
    (1126%nat, bvh_flag_ok b (tri_isector s) (ray_of (V (l 1 0) (l 1 0) (l 6291457 (-21))) (V (l (-1) 0) z (l (-1) 0))) false);
    (1126%nat, bvh_flag_ok b (tri_isector s) (ray_of (V (l 1 0) (l 1 0) (l 12582915 (-22))) (V (l (-1) 0) z (l (-1) 0))) false);
    (1126%nat, bvh_flag_ok b (tri_isector s) (ray_of (V (l 1 0) (l 1 0) (l 3145729 (-20))) (V (l (-1) 0) z (l (-1) 0))) false);
    (1126%nat, bvh_flag_ok b (tri_isector s) (ray_of (V (l 1 0) (l 1 0) (l 12582917 (-22))) (V (l (-1) 0) z (l (-1) 0))) false);
    (1136%nat, bvh_flag_ok b (tri_isector s) (ray_of (V (l 1 0) (l 1 0) (l 3 0)) (V (l (-1) 0) (l (-1) 0) (l (-1) 0))) false);
    (1136%nat, bvh_flag_ok b (tri_isector s) (ray_of (V (l 1 0) (l 1 0) (l 12582913 (-22))) (V (l (-1) 0) (l (-1) 0) (l (-1) 0))) false);
    (1136%nat, bvh_flag_ok b (tri_isector s) (ray_of (V (l 1 0) (l 1 0) (l 6291457 (-21))) (V (l (-1) 0) (l (-1) 0) (l (-1) 0))) false);
    (1136%nat, bvh_flag_ok b (tri_isector s) (ray_of (V (l 1 0) (l 1 0) (l 12582915 (-22))) (V (l (-1) 0) (l (-1) 0) (l (-1) 0))) false);
    (1136%nat, bvh_flag_ok b (tri_isector s) (ray_of (V (l 1 0) (l 1 0) (l 3145729 (-20))) (V (l (-1) 0) (l (-1) 0) (l (-1) 0))) false);
    (1136%nat, bvh_flag_ok b (tri_isector s) (ray_of (V (l 1 0) (l 1 0) (l 12582917 (-22))) (V (l (-1) 0) (l (-1) 0) (l (-1) 0))) false)])].
End S32_warnings32.
