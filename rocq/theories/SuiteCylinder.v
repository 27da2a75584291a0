(** The tests of /repo/test/test_primitives/test_cylinder.cpp, evaluated by the model.
    Written by tools/suite.py; each entry is the line of the test and its answer. *)

From Coq Require Import ZArith List Bool.
From Coq.Floats Require Import SpecFloat.
From Verif Require Import Num NumF Vec Ray Bvh Traverse Sphere Plane Cylinder CylDist Trimesh Suite.
Import ListNotations.

Section S64_checks64.
Local Existing Instance F64.
Local Notation l := (l64) (only parsing).
Definition cylinder_checks64 : list (nat * bool) := concat [
  on_all (make_cylinders [(V z z z)] [(l 1 0)] [(l 1 0)] [(l 1 1)] [(M (V (l 1 0) z z) (V z (l 1 0) z) (V z z (l 1 0)))]) (fun s => [
    (96%nat, box_ok (cylinder_coll s) 0 (V (l (-1) 0) (l (-1) 0) (l (-1) 0)) (V (l 1 0) (l 1 0) (l 1 0)));
    (145%nat, center_ok (cylinder_coll s) 0 (V z z z))]);
  on_all (make_cylinders [(V z z z)] [(l 1 0)] [(l 1 0)] [(l 1 1)] [(M (V (l 4967757600021511 (-106)) z (l 1 0)) (V z (l 1 0) z) (V (l (-1) 0) z (l 4967757600021511 (-106))))]) (fun s => [
    (106%nat, box_ok (cylinder_coll s) 0 (V (l (-1) 0) (l (-1) 0) (l (-1) 0)) (V (l 1 0) (l 1 0) (l 1 0)));
    (154%nat, center_ok (cylinder_coll s) 0 (V z z z))]);
  on_all (make_cylinders [(V z (l 1 0) (l 1 2))] [(l 1 0)] [(l 1 0)] [(l 1 1)] [(M (V (l 1 0) z z) (V z (l 1 0) z) (V z z (l 1 0)))]) (fun s => [
    (120%nat, box_ok (cylinder_coll s) 0 (V (l (-1) 0) z (l 3 0)) (V (l 1 0) (l 1 1) (l 5 0)));
    (167%nat, center_ok (cylinder_coll s) 0 (V z (l 1 0) (l 1 2)))]);
  on_all (make_cylinders [(V z (l 1 0) (l 1 2))] [(l 1 0)] [(l 1 0)] [(l 1 1)] [(M (V (l 4967757600021511 (-106)) z (l 1 0)) (V z (l 1 0) z) (V (l (-1) 0) z (l 4967757600021511 (-106))))]) (fun s => [
    (130%nat, box_ok (cylinder_coll s) 0 (V (l (-1) 0) z (l 3 0)) (V (l 1 0) (l 1 1) (l 5 0)));
    (176%nat, center_ok (cylinder_coll s) 0 (V z (l 1 0) (l 1 2)))]);
  on_all (make_cylinders [(V z z z)] [(l 1 0)] [(l 1 1)] [(l 1 1)] [(M (V (l 1 0) z z) (V z (l 1 0) z) (V z z (l 1 0)))]) (fun s => let b := tree (cylinder_coll s) in [
    (609%nat, prim_ok (cylinder_coll s) (cylinder_isector) (ray_of (V z z (l 15 (-1))) (V z z (l (-1) 0))) true (Some 0%nat) (l 13 (-1)) (V z z (l 1 0)));
    (612%nat, bvh_ok b (cylinder_isector) (ray_of (V z z (l 15 (-1))) (V z z (l (-1) 0))) true (Some 0%nat) (l 13 (-1)) (V z z (l 1 0)));
    (628%nat, prim_ok (cylinder_coll s) (cylinder_isector) (ray_of (V (l 1 2) z (l 3 1)) (V (l (-1) 0) z (l (-1) 0))) true (Some 0%nat) (l 124395540479019 (-44)) (V z z (l 1 0)));
    (631%nat, bvh_ok b (cylinder_isector) (ray_of (V (l 1 2) z (l 3 1)) (V (l (-1) 0) z (l (-1) 0))) true (Some 0%nat) (l 124395540479019 (-44)) (V z z (l 1 0)));
    (646%nat, prim_ok (cylinder_coll s) (cylinder_isector) (ray_of (V (l 5 0) z (l 1 2)) (V (l (-1) 0) z (l (-1) 0))) true (Some 0%nat) (l 6369051672525773 (-50)) (V (l 1 0) z z));
    (649%nat, bvh_ok b (cylinder_isector) (ray_of (V (l 5 0) z (l 1 2)) (V (l (-1) 0) z (l (-1) 0))) true (Some 0%nat) (l 6369051672525773 (-50)) (V (l 1 0) z z));
    (664%nat, prim_ok (cylinder_coll s) (cylinder_isector) (ray_of (V (l (-5) 0) z (l 1 2)) (V (l 1 0) z (l (-1) 0))) true (Some 0%nat) (l 6369051672525773 (-50)) (V (l (-1) 0) z z));
    (667%nat, bvh_ok b (cylinder_isector) (ray_of (V (l (-5) 0) z (l 1 2)) (V (l 1 0) z (l (-1) 0))) true (Some 0%nat) (l 6369051672525773 (-50)) (V (l (-1) 0) z z));
    (682%nat, prim_ok (cylinder_coll s) (cylinder_isector) (ray_of (V z (l 5 0) (l 3 0)) (V z (l (-1) 0) (l (-1) 0))) true (Some 0%nat) (l 4776788754394329 (-50)) (V z (l 1 0) z));
    (685%nat, bvh_ok b (cylinder_isector) (ray_of (V z (l 5 0) (l 3 0)) (V z (l (-1) 0) (l (-1) 0))) true (Some 0%nat) (l 4776788754394329 (-50)) (V z (l 1 0) z));
    (700%nat, prim_ok (cylinder_coll s) (cylinder_isector) (ray_of (V z (l (-5) 0) (l 3 0)) (V z (l 1 0) (l (-1) 0))) true (Some 0%nat) (l 4776788754394329 (-50)) (V z (l (-1) 0) z));
    (703%nat, bvh_ok b (cylinder_isector) (ray_of (V z (l (-5) 0) (l 3 0)) (V z (l 1 0) (l (-1) 0))) true (Some 0%nat) (l 4776788754394329 (-50)) (V z (l (-1) 0) z));
    (721%nat, prim_ok (cylinder_coll s) (cylinder_isector) (ray_of (V z z (l (-17) (-1))) (V z z (l 1 0))) true (Some 0%nat) (l 15 (-1)) (V z z (l (-1) 0)));
    (724%nat, bvh_ok b (cylinder_isector) (ray_of (V z z (l (-17) (-1))) (V z z (l 1 0))) true (Some 0%nat) (l 15 (-1)) (V z z (l (-1) 0)));
    (739%nat, prim_ok (cylinder_coll s) (cylinder_isector) (ray_of (V (l 5 0) z (l (-3) 1)) (V (l (-1) 0) z (l 1 0))) true (Some 0%nat) (l 124395540479019 (-44)) (V z z (l (-1) 0)));
    (742%nat, bvh_ok b (cylinder_isector) (ray_of (V (l 5 0) z (l (-3) 1)) (V (l (-1) 0) z (l 1 0))) true (Some 0%nat) (l 124395540479019 (-44)) (V z z (l (-1) 0)));
    (755%nat, prim_ok (cylinder_coll s) (cylinder_isector) (ray_of (V (l 5 0) z (l (-1) 2)) (V (l (-1) 0) z (l 1 0))) true (Some 0%nat) (l 6369051672525773 (-50)) (V (l 1 0) z z));
    (758%nat, bvh_ok b (cylinder_isector) (ray_of (V (l 5 0) z (l (-1) 2)) (V (l (-1) 0) z (l 1 0))) true (Some 0%nat) (l 6369051672525773 (-50)) (V (l 1 0) z z));
    (772%nat, prim_ok (cylinder_coll s) (cylinder_isector) (ray_of (V (l (-5) 0) z (l (-1) 2)) (V (l 1 0) z (l 1 0))) true (Some 0%nat) (l 6369051672525773 (-50)) (V (l (-1) 0) z z));
    (775%nat, bvh_ok b (cylinder_isector) (ray_of (V (l (-5) 0) z (l (-1) 2)) (V (l 1 0) z (l 1 0))) true (Some 0%nat) (l 6369051672525773 (-50)) (V (l (-1) 0) z z));
    (790%nat, prim_ok (cylinder_coll s) (cylinder_isector) (ray_of (V z (l 5 0) (l (-3) 0)) (V z (l (-1) 0) (l 1 0))) true (Some 0%nat) (l 4776788754394329 (-50)) (V z (l 1 0) z));
    (793%nat, bvh_ok b (cylinder_isector) (ray_of (V z (l 5 0) (l (-3) 0)) (V z (l (-1) 0) (l 1 0))) true (Some 0%nat) (l 4776788754394329 (-50)) (V z (l 1 0) z));
    (806%nat, prim_ok (cylinder_coll s) (cylinder_isector) (ray_of (V z (l (-5) 0) (l (-3) 0)) (V z (l 1 0) (l 1 0))) true (Some 0%nat) (l 4776788754394329 (-50)) (V z (l (-1) 0) z));
    (809%nat, bvh_ok b (cylinder_isector) (ray_of (V z (l (-5) 0) (l (-3) 0)) (V z (l 1 0) (l 1 0))) true (Some 0%nat) (l 4776788754394329 (-50)) (V z (l (-1) 0) z));
    (827%nat, prim_ok (cylinder_coll s) (cylinder_isector) (ray_of (V (l 5 0) z z) (V (l (-1) 0) z z)) true (Some 0%nat) (l 1 2) (V (l 1 0) z z));
    (830%nat, bvh_ok b (cylinder_isector) (ray_of (V (l 5 0) z z) (V (l (-1) 0) z z)) true (Some 0%nat) (l 1 2) (V (l 1 0) z z));
    (844%nat, prim_ok (cylinder_coll s) (cylinder_isector) (ray_of (V (l (-5) 0) z z) (V (l 1 0) z z)) true (Some 0%nat) (l 1 2) (V (l (-1) 0) z z));
    (847%nat, bvh_ok b (cylinder_isector) (ray_of (V (l (-5) 0) z z) (V (l 1 0) z z)) true (Some 0%nat) (l 1 2) (V (l (-1) 0) z z));
    (861%nat, prim_ok (cylinder_coll s) (cylinder_isector) (ray_of (V z (l 5 0) z) (V z (l (-1) 0) z)) true (Some 0%nat) (l 3 0) (V z (l 1 0) z));
    (864%nat, bvh_ok b (cylinder_isector) (ray_of (V z (l 5 0) z) (V z (l (-1) 0) z)) true (Some 0%nat) (l 3 0) (V z (l 1 0) z));
    (878%nat, prim_ok (cylinder_coll s) (cylinder_isector) (ray_of (V z (l (-5) 0) z) (V z (l 1 0) z)) true (Some 0%nat) (l 3 0) (V z (l (-1) 0) z));
    (881%nat, bvh_ok b (cylinder_isector) (ray_of (V z (l (-5) 0) z) (V z (l 1 0) z)) true (Some 0%nat) (l 3 0) (V z (l (-1) 0) z));
    (898%nat, prim_ok (cylinder_coll s) (cylinder_isector) (ray_of (V z z z) (V z z (l 1 0))) true (Some 0%nat) (l 1 0) (V z z (l 1 0)));
    (901%nat, bvh_ok b (cylinder_isector) (ray_of (V z z z) (V z z (l 1 0))) true (Some 0%nat) (l 1 0) (V z z (l 1 0)));
    (915%nat, prim_ok (cylinder_coll s) (cylinder_isector) (ray_of (V z z z) (V z z (l (-1) 0))) true (Some 0%nat) (l 1 0) (V z z (l (-1) 0)));
    (918%nat, bvh_ok b (cylinder_isector) (ray_of (V z z z) (V z z (l (-1) 0))) true (Some 0%nat) (l 1 0) (V z z (l (-1) 0)));
    (932%nat, prim_ok (cylinder_coll s) (cylinder_isector) (ray_of (V z z z) (V (l (-1) 0) z z)) true (Some 0%nat) (l 1 0) (V (l (-1) 0) z z));
    (935%nat, bvh_ok b (cylinder_isector) (ray_of (V z z z) (V (l (-1) 0) z z)) true (Some 0%nat) (l 1 0) (V (l (-1) 0) z z));
    (949%nat, prim_ok (cylinder_coll s) (cylinder_isector) (ray_of (V z z z) (V (l 1 0) z z)) true (Some 0%nat) (l 1 0) (V (l 1 0) z z));
    (952%nat, bvh_ok b (cylinder_isector) (ray_of (V z z z) (V (l 1 0) z z)) true (Some 0%nat) (l 1 0) (V (l 1 0) z z));
    (966%nat, prim_ok (cylinder_coll s) (cylinder_isector) (ray_of (V z z z) (V z (l (-1) 0) z)) true (Some 0%nat) (l 1 1) (V z (l (-1) 0) z));
    (969%nat, bvh_ok b (cylinder_isector) (ray_of (V z z z) (V z (l (-1) 0) z)) true (Some 0%nat) (l 1 1) (V z (l (-1) 0) z));
    (983%nat, prim_ok (cylinder_coll s) (cylinder_isector) (ray_of (V z z z) (V z (l 1 0) z)) true (Some 0%nat) (l 1 1) (V z (l 1 0) z));
    (986%nat, bvh_ok b (cylinder_isector) (ray_of (V z z z) (V z (l 1 0) z)) true (Some 0%nat) (l 1 1) (V z (l 1 0) z));
    (1007%nat, prim_ok (cylinder_coll s) (cylinder_isector) (ray_of (V z z (l 13 (-1))) (V z z (l 1 0))) false None (l 9007199254740991 971) (V z z z));
    (1010%nat, bvh_ok b (cylinder_isector) (ray_of (V z z (l 13 (-1))) (V z z (l 1 0))) false None (l 9007199254740991 971) (V z z z));
    (1025%nat, prim_ok (cylinder_coll s) (cylinder_isector) (ray_of (V (l 5 0) z (l 3 1)) (V (l 1 0) z (l 1 0))) false None (l 9007199254740991 971) (V z z z));
    (1028%nat, bvh_ok b (cylinder_isector) (ray_of (V (l 5 0) z (l 3 1)) (V (l 1 0) z (l 1 0))) false None (l 9007199254740991 971) (V z z z));
    (1042%nat, prim_ok (cylinder_coll s) (cylinder_isector) (ray_of (V (l 5 0) z (l 1 2)) (V (l 1 0) z (l 1 0))) false None (l 9007199254740991 971) (V z z z));
    (1045%nat, bvh_ok b (cylinder_isector) (ray_of (V (l 5 0) z (l 1 2)) (V (l 1 0) z (l 1 0))) false None (l 9007199254740991 971) (V z z z));
    (1059%nat, prim_ok (cylinder_coll s) (cylinder_isector) (ray_of (V (l (-5) 0) z (l 1 2)) (V (l (-1) 0) z (l 1 0))) false None (l 9007199254740991 971) (V z z z));
    (1062%nat, bvh_ok b (cylinder_isector) (ray_of (V (l (-5) 0) z (l 1 2)) (V (l (-1) 0) z (l 1 0))) false None (l 9007199254740991 971) (V z z z));
    (1076%nat, prim_ok (cylinder_coll s) (cylinder_isector) (ray_of (V z (l 5 0) (l 3 0)) (V z (l 1 0) (l 1 0))) false None (l 9007199254740991 971) (V z z z));
    (1079%nat, bvh_ok b (cylinder_isector) (ray_of (V z (l 5 0) (l 3 0)) (V z (l 1 0) (l 1 0))) false None (l 9007199254740991 971) (V z z z));
    (1093%nat, prim_ok (cylinder_coll s) (cylinder_isector) (ray_of (V z (l (-5) 0) (l 3 0)) (V z (l (-1) 0) (l 1 0))) false None (l 9007199254740991 971) (V z z z));
    (1096%nat, bvh_ok b (cylinder_isector) (ray_of (V z (l (-5) 0) (l 3 0)) (V z (l (-1) 0) (l 1 0))) false None (l 9007199254740991 971) (V z z z));
    (1113%nat, prim_ok (cylinder_coll s) (cylinder_isector) (ray_of (V z z (l (-17) (-1))) (V z z (l (-1) 0))) false None (l 9007199254740991 971) (V z z z));
    (1116%nat, bvh_ok b (cylinder_isector) (ray_of (V z z (l (-17) (-1))) (V z z (l (-1) 0))) false None (l 9007199254740991 971) (V z z z));
    (1131%nat, prim_ok (cylinder_coll s) (cylinder_isector) (ray_of (V (l 5 0) z (l (-3) 1)) (V (l 1 0) z (l (-1) 0))) false None (l 9007199254740991 971) (V z z z));
    (1134%nat, bvh_ok b (cylinder_isector) (ray_of (V (l 5 0) z (l (-3) 1)) (V (l 1 0) z (l (-1) 0))) false None (l 9007199254740991 971) (V z z z));
    (1148%nat, prim_ok (cylinder_coll s) (cylinder_isector) (ray_of (V (l 5 0) z (l (-1) 2)) (V (l 1 0) z (l (-1) 0))) false None (l 9007199254740991 971) (V z z z));
    (1151%nat, bvh_ok b (cylinder_isector) (ray_of (V (l 5 0) z (l (-1) 2)) (V (l 1 0) z (l (-1) 0))) false None (l 9007199254740991 971) (V z z z));
    (1165%nat, prim_ok (cylinder_coll s) (cylinder_isector) (ray_of (V (l (-5) 0) z (l (-1) 2)) (V (l (-1) 0) z (l (-1) 0))) false None (l 9007199254740991 971) (V z z z));
    (1168%nat, bvh_ok b (cylinder_isector) (ray_of (V (l (-5) 0) z (l (-1) 2)) (V (l (-1) 0) z (l (-1) 0))) false None (l 9007199254740991 971) (V z z z));
    (1182%nat, prim_ok (cylinder_coll s) (cylinder_isector) (ray_of (V z (l 5 0) (l (-3) 0)) (V z (l 1 0) (l (-1) 0))) false None (l 9007199254740991 971) (V z z z));
    (1185%nat, bvh_ok b (cylinder_isector) (ray_of (V z (l 5 0) (l (-3) 0)) (V z (l 1 0) (l (-1) 0))) false None (l 9007199254740991 971) (V z z z));
    (1199%nat, prim_ok (cylinder_coll s) (cylinder_isector) (ray_of (V z (l (-5) 0) (l (-3) 0)) (V z (l (-1) 0) (l (-1) 0))) false None (l 9007199254740991 971) (V z z z));
    (1202%nat, bvh_ok b (cylinder_isector) (ray_of (V z (l (-5) 0) (l (-3) 0)) (V z (l (-1) 0) (l (-1) 0))) false None (l 9007199254740991 971) (V z z z));
    (1219%nat, prim_ok (cylinder_coll s) (cylinder_isector) (ray_of (V (l 5 0) z z) (V (l 1 0) z z)) false None (l 9007199254740991 971) (V z z z));
    (1222%nat, bvh_ok b (cylinder_isector) (ray_of (V (l 5 0) z z) (V (l 1 0) z z)) false None (l 9007199254740991 971) (V z z z));
    (1236%nat, prim_ok (cylinder_coll s) (cylinder_isector) (ray_of (V (l (-5) 0) z z) (V (l (-1) 0) z z)) false None (l 9007199254740991 971) (V z z z));
    (1239%nat, bvh_ok b (cylinder_isector) (ray_of (V (l (-5) 0) z z) (V (l (-1) 0) z z)) false None (l 9007199254740991 971) (V z z z));
    (1253%nat, prim_ok (cylinder_coll s) (cylinder_isector) (ray_of (V z (l 5 0) z) (V z (l 1 0) z)) false None (l 9007199254740991 971) (V z z z));
    (1256%nat, bvh_ok b (cylinder_isector) (ray_of (V z (l 5 0) z) (V z (l 1 0) z)) false None (l 9007199254740991 971) (V z z z));
    (1270%nat, prim_ok (cylinder_coll s) (cylinder_isector) (ray_of (V z (l (-5) 0) z) (V z (l (-1) 0) z)) false None (l 9007199254740991 971) (V z z z));
    (1273%nat, bvh_ok b (cylinder_isector) (ray_of (V z (l (-5) 0) z) (V z (l (-1) 0) z)) false None (l 9007199254740991 971) (V z z z))]);
  on_all (make_cylinders [(V z z z)] [(l 1 0)] [(l 1 1)] [(l 1 1)] [(M (V (l 4967757600021511 (-106)) (l (-1) 0) z) (V (l 1 0) (l 4967757600021511 (-106)) z) (V z z (l 1 0)))]) (fun s => let b := tree (cylinder_coll s) in [
    (1299%nat, prim_ok (cylinder_coll s) (cylinder_isector) (ray_of (V z z (l 13 (-1))) (V z z (l (-1) 0))) true (Some 0%nat) (l 11 (-1)) (V z z (l 1 0)));
    (1302%nat, bvh_ok b (cylinder_isector) (ray_of (V z z (l 13 (-1))) (V z z (l (-1) 0))) true (Some 0%nat) (l 11 (-1)) (V z z (l 1 0)));
    (1367%nat, prim_ok (cylinder_coll s) (cylinder_isector) (ray_of (V z z (l 13 (-1))) (V z z (l 1 0))) false None (l 9007199254740991 971) (V z z z));
    (1370%nat, bvh_ok b (cylinder_isector) (ray_of (V z z (l 13 (-1))) (V z z (l 1 0))) false None (l 9007199254740991 971) (V z z z))]);
  on_all (make_cylinders [(V z z z)] [(l 1 0)] [(l 1 1)] [(l 1 1)] [(M (V (l 4967757600021511 (-106)) z (l 1 0)) (V z (l 1 0) z) (V (l (-1) 0) z (l 4967757600021511 (-106))))]) (fun s => let b := tree (cylinder_coll s) in [
    (1321%nat, prim_ok (cylinder_coll s) (cylinder_isector) (ray_of (V (l 13 (-1)) z z) (V (l (-1) 0) z z)) true (Some 0%nat) (l 11 (-1)) (V (l 1 0) z z));
    (1324%nat, bvh_ok b (cylinder_isector) (ray_of (V (l 13 (-1)) z z) (V (l (-1) 0) z z)) true (Some 0%nat) (l 11 (-1)) (V (l 1 0) z z));
    (1389%nat, prim_ok (cylinder_coll s) (cylinder_isector) (ray_of (V (l 13 (-1)) z z) (V (l 1 0) z z)) false None (l 9007199254740991 971) (V z z z));
    (1392%nat, bvh_ok b (cylinder_isector) (ray_of (V (l 13 (-1)) z z) (V (l 1 0) z z)) false None (l 9007199254740991 971) (V z z z))]);
  on_all (make_cylinders [(V z z z)] [(l 1 0)] [(l 1 1)] [(l 1 1)] [(M (V (l 1 0) z z) (V z (l 4967757600021511 (-106)) (l (-1) 0)) (V z (l 1 0) (l 4967757600021511 (-106))))]) (fun s => let b := tree (cylinder_coll s) in [
    (1343%nat, prim_ok (cylinder_coll s) (cylinder_isector) (ray_of (V z (l 17 (-1)) z) (V z (l (-1) 0) z)) true (Some 0%nat) (l 15 (-1)) (V z (l 1 0) z));
    (1346%nat, bvh_ok b (cylinder_isector) (ray_of (V z (l 17 (-1)) z) (V z (l (-1) 0) z)) true (Some 0%nat) (l 15 (-1)) (V z (l 1 0) z));
    (1411%nat, prim_ok (cylinder_coll s) (cylinder_isector) (ray_of (V z (l 13 (-1)) z) (V z (l 1 0) z)) false None (l 9007199254740991 971) (V z z z));
    (1414%nat, bvh_ok b (cylinder_isector) (ray_of (V z (l 13 (-1)) z) (V z (l 1 0) z)) false None (l 9007199254740991 971) (V z z z))]);
  on_all (make_cylinders [(V (l 1 0) (l 1 1) z)] [(l 1 0)] [(l 1 1)] [(l 1 1)] [(M (V (l 1 0) z z) (V z (l 1 0) z) (V z z (l 1 0)))]) (fun s => let b := tree (cylinder_coll s) in [
    (1443%nat, prim_ok (cylinder_coll s) (cylinder_isector) (ray_of (V (l 1 0) (l 1 1) (l 13 (-1))) (V z z (l (-1) 0))) true (Some 0%nat) (l 11 (-1)) (V z z (l 1 0)));
    (1446%nat, bvh_ok b (cylinder_isector) (ray_of (V (l 1 0) (l 1 1) (l 13 (-1))) (V z z (l (-1) 0))) true (Some 0%nat) (l 11 (-1)) (V z z (l 1 0)));
    (1461%nat, prim_ok (cylinder_coll s) (cylinder_isector) (ray_of (V (l 3 1) (l 1 1) (l 3 1)) (V (l (-1) 0) z (l (-1) 0))) true (Some 0%nat) (l 124395540479019 (-44)) (V z z (l 1 0)));
    (1464%nat, bvh_ok b (cylinder_isector) (ray_of (V (l 3 1) (l 1 1) (l 3 1)) (V (l (-1) 0) z (l (-1) 0))) true (Some 0%nat) (l 124395540479019 (-44)) (V z z (l 1 0)));
    (1478%nat, prim_ok (cylinder_coll s) (cylinder_isector) (ray_of (V (l 3 1) (l 1 1) (l 1 2)) (V (l (-1) 0) z (l (-1) 0))) true (Some 0%nat) (l 6369051672525773 (-50)) (V (l 1 0) z z));
    (1481%nat, bvh_ok b (cylinder_isector) (ray_of (V (l 3 1) (l 1 1) (l 1 2)) (V (l (-1) 0) z (l (-1) 0))) true (Some 0%nat) (l 6369051672525773 (-50)) (V (l 1 0) z z));
    (1495%nat, prim_ok (cylinder_coll s) (cylinder_isector) (ray_of (V (l (-1) 2) (l 1 1) (l 1 2)) (V (l 1 0) z (l (-1) 0))) true (Some 0%nat) (l 6369051672525773 (-50)) (V (l (-1) 0) z z));
    (1498%nat, bvh_ok b (cylinder_isector) (ray_of (V (l (-1) 2) (l 1 1) (l 1 2)) (V (l 1 0) z (l (-1) 0))) true (Some 0%nat) (l 6369051672525773 (-50)) (V (l (-1) 0) z z));
    (1512%nat, prim_ok (cylinder_coll s) (cylinder_isector) (ray_of (V (l 1 0) (l 7 0) (l 3 0)) (V z (l (-1) 0) (l (-1) 0))) true (Some 0%nat) (l 4776788754394329 (-50)) (V z (l 1 0) z));
    (1515%nat, bvh_ok b (cylinder_isector) (ray_of (V (l 1 0) (l 7 0) (l 3 0)) (V z (l (-1) 0) (l (-1) 0))) true (Some 0%nat) (l 4776788754394329 (-50)) (V z (l 1 0) z));
    (1529%nat, prim_ok (cylinder_coll s) (cylinder_isector) (ray_of (V (l 1 0) (l (-3) 0) (l 3 0)) (V z (l 1 0) (l (-1) 0))) true (Some 0%nat) (l 4776788754394329 (-50)) (V z (l (-1) 0) z));
    (1532%nat, bvh_ok b (cylinder_isector) (ray_of (V (l 1 0) (l (-3) 0) (l 3 0)) (V z (l 1 0) (l (-1) 0))) true (Some 0%nat) (l 4776788754394329 (-50)) (V z (l (-1) 0) z));
    (1549%nat, prim_ok (cylinder_coll s) (cylinder_isector) (ray_of (V (l 1 0) (l 1 1) (l (-17) (-1))) (V z z (l 1 0))) true (Some 0%nat) (l 15 (-1)) (V z z (l (-1) 0)));
    (1552%nat, bvh_ok b (cylinder_isector) (ray_of (V (l 1 0) (l 1 1) (l (-17) (-1))) (V z z (l 1 0))) true (Some 0%nat) (l 15 (-1)) (V z z (l (-1) 0)));
    (1567%nat, prim_ok (cylinder_coll s) (cylinder_isector) (ray_of (V (l 3 1) (l 1 1) (l (-3) 1)) (V (l (-1) 0) z (l 1 0))) true (Some 0%nat) (l 124395540479019 (-44)) (V z z (l (-1) 0)));
    (1570%nat, bvh_ok b (cylinder_isector) (ray_of (V (l 3 1) (l 1 1) (l (-3) 1)) (V (l (-1) 0) z (l 1 0))) true (Some 0%nat) (l 124395540479019 (-44)) (V z z (l (-1) 0)));
    (1584%nat, prim_ok (cylinder_coll s) (cylinder_isector) (ray_of (V (l 3 1) (l 1 1) (l (-1) 2)) (V (l (-1) 0) z (l 1 0))) true (Some 0%nat) (l 6369051672525773 (-50)) (V (l 1 0) z z));
    (1587%nat, bvh_ok b (cylinder_isector) (ray_of (V (l 3 1) (l 1 1) (l (-1) 2)) (V (l (-1) 0) z (l 1 0))) true (Some 0%nat) (l 6369051672525773 (-50)) (V (l 1 0) z z));
    (1601%nat, prim_ok (cylinder_coll s) (cylinder_isector) (ray_of (V (l (-1) 2) (l 1 1) (l (-1) 2)) (V (l 1 0) z (l 1 0))) true (Some 0%nat) (l 6369051672525773 (-50)) (V (l (-1) 0) z z));
    (1604%nat, bvh_ok b (cylinder_isector) (ray_of (V (l (-1) 2) (l 1 1) (l (-1) 2)) (V (l 1 0) z (l 1 0))) true (Some 0%nat) (l 6369051672525773 (-50)) (V (l (-1) 0) z z));
    (1618%nat, prim_ok (cylinder_coll s) (cylinder_isector) (ray_of (V (l 1 0) (l 7 0) (l (-3) 0)) (V z (l (-1) 0) (l 1 0))) true (Some 0%nat) (l 4776788754394329 (-50)) (V z (l 1 0) z));
    (1621%nat, bvh_ok b (cylinder_isector) (ray_of (V (l 1 0) (l 7 0) (l (-3) 0)) (V z (l (-1) 0) (l 1 0))) true (Some 0%nat) (l 4776788754394329 (-50)) (V z (l 1 0) z));
    (1635%nat, prim_ok (cylinder_coll s) (cylinder_isector) (ray_of (V (l 1 0) (l (-3) 0) (l (-3) 0)) (V z (l 1 0) (l 1 0))) true (Some 0%nat) (l 4776788754394329 (-50)) (V z (l (-1) 0) z));
    (1638%nat, bvh_ok b (cylinder_isector) (ray_of (V (l 1 0) (l (-3) 0) (l (-3) 0)) (V z (l 1 0) (l 1 0))) true (Some 0%nat) (l 4776788754394329 (-50)) (V z (l (-1) 0) z));
    (1655%nat, prim_ok (cylinder_coll s) (cylinder_isector) (ray_of (V (l 3 1) (l 1 1) z) (V (l (-1) 0) z z)) true (Some 0%nat) (l 1 2) (V (l 1 0) z z));
    (1658%nat, bvh_ok b (cylinder_isector) (ray_of (V (l 3 1) (l 1 1) z) (V (l (-1) 0) z z)) true (Some 0%nat) (l 1 2) (V (l 1 0) z z));
    (1672%nat, prim_ok (cylinder_coll s) (cylinder_isector) (ray_of (V (l (-1) 2) (l 1 1) z) (V (l 1 0) z z)) true (Some 0%nat) (l 1 2) (V (l (-1) 0) z z));
    (1675%nat, bvh_ok b (cylinder_isector) (ray_of (V (l (-1) 2) (l 1 1) z) (V (l 1 0) z z)) true (Some 0%nat) (l 1 2) (V (l (-1) 0) z z));
    (1689%nat, prim_ok (cylinder_coll s) (cylinder_isector) (ray_of (V (l 1 0) (l 7 0) z) (V z (l (-1) 0) z)) true (Some 0%nat) (l 3 0) (V z (l 1 0) z));
    (1692%nat, bvh_ok b (cylinder_isector) (ray_of (V (l 1 0) (l 7 0) z) (V z (l (-1) 0) z)) true (Some 0%nat) (l 3 0) (V z (l 1 0) z));
    (1706%nat, prim_ok (cylinder_coll s) (cylinder_isector) (ray_of (V (l 1 0) (l (-3) 0) z) (V z (l 1 0) z)) true (Some 0%nat) (l 3 0) (V z (l (-1) 0) z));
    (1709%nat, bvh_ok b (cylinder_isector) (ray_of (V (l 1 0) (l (-3) 0) z) (V z (l 1 0) z)) true (Some 0%nat) (l 3 0) (V z (l (-1) 0) z));
    (1726%nat, prim_ok (cylinder_coll s) (cylinder_isector) (ray_of (V (l 1 0) (l 1 1) z) (V z z (l 1 0))) true (Some 0%nat) (l 1 0) (V z z (l 1 0)));
    (1729%nat, bvh_ok b (cylinder_isector) (ray_of (V (l 1 0) (l 1 1) z) (V z z (l 1 0))) true (Some 0%nat) (l 1 0) (V z z (l 1 0)));
    (1743%nat, prim_ok (cylinder_coll s) (cylinder_isector) (ray_of (V (l 1 0) (l 1 1) z) (V z z (l (-1) 0))) true (Some 0%nat) (l 1 0) (V z z (l (-1) 0)));
    (1746%nat, bvh_ok b (cylinder_isector) (ray_of (V (l 1 0) (l 1 1) z) (V z z (l (-1) 0))) true (Some 0%nat) (l 1 0) (V z z (l (-1) 0)));
    (1760%nat, prim_ok (cylinder_coll s) (cylinder_isector) (ray_of (V (l 1 0) (l 1 1) z) (V (l (-1) 0) z z)) true (Some 0%nat) (l 1 0) (V (l (-1) 0) z z));
    (1763%nat, bvh_ok b (cylinder_isector) (ray_of (V (l 1 0) (l 1 1) z) (V (l (-1) 0) z z)) true (Some 0%nat) (l 1 0) (V (l (-1) 0) z z));
    (1777%nat, prim_ok (cylinder_coll s) (cylinder_isector) (ray_of (V (l 1 0) (l 1 1) z) (V (l 1 0) z z)) true (Some 0%nat) (l 1 0) (V (l 1 0) z z));
    (1780%nat, bvh_ok b (cylinder_isector) (ray_of (V (l 1 0) (l 1 1) z) (V (l 1 0) z z)) true (Some 0%nat) (l 1 0) (V (l 1 0) z z));
    (1794%nat, prim_ok (cylinder_coll s) (cylinder_isector) (ray_of (V (l 1 0) (l 1 1) z) (V z (l (-1) 0) z)) true (Some 0%nat) (l 1 1) (V z (l (-1) 0) z));
    (1797%nat, bvh_ok b (cylinder_isector) (ray_of (V (l 1 0) (l 1 1) z) (V z (l (-1) 0) z)) true (Some 0%nat) (l 1 1) (V z (l (-1) 0) z));
    (1811%nat, prim_ok (cylinder_coll s) (cylinder_isector) (ray_of (V (l 1 0) (l 1 1) z) (V z (l 1 0) z)) true (Some 0%nat) (l 1 1) (V z (l 1 0) z));
    (1814%nat, bvh_ok b (cylinder_isector) (ray_of (V (l 1 0) (l 1 1) z) (V z (l 1 0) z)) true (Some 0%nat) (l 1 1) (V z (l 1 0) z));
    (1834%nat, prim_ok (cylinder_coll s) (cylinder_isector) (ray_of (V (l 1 0) (l 1 1) (l 13 (-1))) (V z z (l 1 0))) false None (l 9007199254740991 971) (V z z z));
    (1837%nat, bvh_ok b (cylinder_isector) (ray_of (V (l 1 0) (l 1 1) (l 13 (-1))) (V z z (l 1 0))) false None (l 9007199254740991 971) (V z z z));
    (1852%nat, prim_ok (cylinder_coll s) (cylinder_isector) (ray_of (V (l 3 1) (l 1 1) (l 3 1)) (V (l 1 0) z (l 1 0))) false None (l 9007199254740991 971) (V z z z));
    (1855%nat, bvh_ok b (cylinder_isector) (ray_of (V (l 3 1) (l 1 1) (l 3 1)) (V (l 1 0) z (l 1 0))) false None (l 9007199254740991 971) (V z z z));
    (1869%nat, prim_ok (cylinder_coll s) (cylinder_isector) (ray_of (V (l 3 1) (l 1 1) (l 1 2)) (V (l 1 0) z (l 1 0))) false None (l 9007199254740991 971) (V z z z));
    (1872%nat, bvh_ok b (cylinder_isector) (ray_of (V (l 3 1) (l 1 1) (l 1 2)) (V (l 1 0) z (l 1 0))) false None (l 9007199254740991 971) (V z z z));
    (1886%nat, prim_ok (cylinder_coll s) (cylinder_isector) (ray_of (V (l (-1) 2) (l 1 1) (l 1 2)) (V (l (-1) 0) z (l 1 0))) false None (l 9007199254740991 971) (V z z z));
    (1889%nat, bvh_ok b (cylinder_isector) (ray_of (V (l (-1) 2) (l 1 1) (l 1 2)) (V (l (-1) 0) z (l 1 0))) false None (l 9007199254740991 971) (V z z z));
    (1903%nat, prim_ok (cylinder_coll s) (cylinder_isector) (ray_of (V (l 1 0) (l 7 0) (l 3 0)) (V z (l 1 0) (l 1 0))) false None (l 9007199254740991 971) (V z z z));
    (1906%nat, bvh_ok b (cylinder_isector) (ray_of (V (l 1 0) (l 7 0) (l 3 0)) (V z (l 1 0) (l 1 0))) false None (l 9007199254740991 971) (V z z z));
    (1920%nat, prim_ok (cylinder_coll s) (cylinder_isector) (ray_of (V (l 1 0) (l (-3) 0) (l 3 0)) (V z (l (-1) 0) (l 1 0))) false None (l 9007199254740991 971) (V z z z));
    (1923%nat, bvh_ok b (cylinder_isector) (ray_of (V (l 1 0) (l (-3) 0) (l 3 0)) (V z (l (-1) 0) (l 1 0))) false None (l 9007199254740991 971) (V z z z));
    (1940%nat, prim_ok (cylinder_coll s) (cylinder_isector) (ray_of (V (l 1 0) (l 1 1) (l (-17) (-1))) (V z z (l (-1) 0))) false None (l 9007199254740991 971) (V z z z));
    (1943%nat, bvh_ok b (cylinder_isector) (ray_of (V (l 1 0) (l 1 1) (l (-17) (-1))) (V z z (l (-1) 0))) false None (l 9007199254740991 971) (V z z z));
    (1958%nat, prim_ok (cylinder_coll s) (cylinder_isector) (ray_of (V (l 3 1) (l 1 1) (l (-3) 1)) (V (l 1 0) z (l (-1) 0))) false None (l 9007199254740991 971) (V z z z));
    (1961%nat, bvh_ok b (cylinder_isector) (ray_of (V (l 3 1) (l 1 1) (l (-3) 1)) (V (l 1 0) z (l (-1) 0))) false None (l 9007199254740991 971) (V z z z));
    (1975%nat, prim_ok (cylinder_coll s) (cylinder_isector) (ray_of (V (l 3 1) (l 1 1) (l (-1) 2)) (V (l 1 0) z (l (-1) 0))) false None (l 9007199254740991 971) (V z z z));
    (1978%nat, bvh_ok b (cylinder_isector) (ray_of (V (l 3 1) (l 1 1) (l (-1) 2)) (V (l 1 0) z (l (-1) 0))) false None (l 9007199254740991 971) (V z z z));
    (1992%nat, prim_ok (cylinder_coll s) (cylinder_isector) (ray_of (V (l (-1) 2) (l 1 1) (l (-1) 2)) (V (l (-1) 0) z (l (-1) 0))) false None (l 9007199254740991 971) (V z z z));
    (1995%nat, bvh_ok b (cylinder_isector) (ray_of (V (l (-1) 2) (l 1 1) (l (-1) 2)) (V (l (-1) 0) z (l (-1) 0))) false None (l 9007199254740991 971) (V z z z));
    (2009%nat, prim_ok (cylinder_coll s) (cylinder_isector) (ray_of (V (l 1 0) (l 7 0) (l (-3) 0)) (V z (l 1 0) (l (-1) 0))) false None (l 9007199254740991 971) (V z z z));
    (2012%nat, bvh_ok b (cylinder_isector) (ray_of (V (l 1 0) (l 7 0) (l (-3) 0)) (V z (l 1 0) (l (-1) 0))) false None (l 9007199254740991 971) (V z z z));
    (2026%nat, prim_ok (cylinder_coll s) (cylinder_isector) (ray_of (V (l 1 0) (l (-3) 0) (l (-3) 0)) (V z (l (-1) 0) (l (-1) 0))) false None (l 9007199254740991 971) (V z z z));
    (2029%nat, bvh_ok b (cylinder_isector) (ray_of (V (l 1 0) (l (-3) 0) (l (-3) 0)) (V z (l (-1) 0) (l (-1) 0))) false None (l 9007199254740991 971) (V z z z));
    (2046%nat, prim_ok (cylinder_coll s) (cylinder_isector) (ray_of (V (l 3 1) (l 1 1) z) (V (l 1 0) z z)) false None (l 9007199254740991 971) (V z z z));
    (2049%nat, bvh_ok b (cylinder_isector) (ray_of (V (l 3 1) (l 1 1) z) (V (l 1 0) z z)) false None (l 9007199254740991 971) (V z z z));
    (2063%nat, prim_ok (cylinder_coll s) (cylinder_isector) (ray_of (V (l (-1) 2) (l 1 1) z) (V (l (-1) 0) z z)) false None (l 9007199254740991 971) (V z z z));
    (2066%nat, bvh_ok b (cylinder_isector) (ray_of (V (l (-1) 2) (l 1 1) z) (V (l (-1) 0) z z)) false None (l 9007199254740991 971) (V z z z));
    (2080%nat, prim_ok (cylinder_coll s) (cylinder_isector) (ray_of (V (l 1 0) (l 7 0) z) (V z (l 1 0) z)) false None (l 9007199254740991 971) (V z z z));
    (2083%nat, bvh_ok b (cylinder_isector) (ray_of (V (l 1 0) (l 7 0) z) (V z (l 1 0) z)) false None (l 9007199254740991 971) (V z z z));
    (2097%nat, prim_ok (cylinder_coll s) (cylinder_isector) (ray_of (V (l 1 0) (l (-3) 0) z) (V z (l (-1) 0) z)) false None (l 9007199254740991 971) (V z z z));
    (2100%nat, bvh_ok b (cylinder_isector) (ray_of (V (l 1 0) (l (-3) 0) z) (V z (l (-1) 0) z)) false None (l 9007199254740991 971) (V z z z))]);
  on_all (make_cylinders [(V (l 1 0) (l 1 1) z)] [(l 1 0)] [(l 1 1)] [(l 1 1)] [(M (V (l 4967757600021511 (-106)) (l (-1) 0) z) (V (l 1 0) (l 4967757600021511 (-106)) z) (V z z (l 1 0)))]) (fun s => let b := tree (cylinder_coll s) in [
    (2125%nat, prim_ok (cylinder_coll s) (cylinder_isector) (ray_of (V (l 1 0) (l 1 1) (l 13 (-1))) (V z z (l (-1) 0))) true (Some 0%nat) (l 11 (-1)) (V z z (l 1 0)));
    (2128%nat, bvh_ok b (cylinder_isector) (ray_of (V (l 1 0) (l 1 1) (l 13 (-1))) (V z z (l (-1) 0))) true (Some 0%nat) (l 11 (-1)) (V z z (l 1 0)));
    (2193%nat, prim_ok (cylinder_coll s) (cylinder_isector) (ray_of (V (l 1 0) (l 1 1) (l 15 (-1))) (V z z (l 1 0))) false None (l 9007199254740991 971) (V z z z));
    (2196%nat, bvh_ok b (cylinder_isector) (ray_of (V (l 1 0) (l 1 1) (l 15 (-1))) (V z z (l 1 0))) false None (l 9007199254740991 971) (V z z z))]);
  on_all (make_cylinders [(V (l 1 0) (l 1 1) z)] [(l 1 0)] [(l 1 1)] [(l 1 1)] [(M (V (l 4967757600021511 (-106)) z (l 1 0)) (V z (l 1 0) z) (V (l (-1) 0) z (l 4967757600021511 (-106))))]) (fun s => let b := tree (cylinder_coll s) in [
    (2147%nat, prim_ok (cylinder_coll s) (cylinder_isector) (ray_of (V (l 15 (-1)) (l 1 1) z) (V (l (-1) 0) z z)) true (Some 0%nat) (l 11 (-1)) (V (l 1 0) z z));
    (2150%nat, bvh_ok b (cylinder_isector) (ray_of (V (l 15 (-1)) (l 1 1) z) (V (l (-1) 0) z z)) true (Some 0%nat) (l 11 (-1)) (V (l 1 0) z z));
    (2215%nat, prim_ok (cylinder_coll s) (cylinder_isector) (ray_of (V (l 17 (-1)) (l 1 1) z) (V (l 1 0) z z)) false None (l 9007199254740991 971) (V z z z));
    (2218%nat, bvh_ok b (cylinder_isector) (ray_of (V (l 17 (-1)) (l 1 1) z) (V (l 1 0) z z)) false None (l 9007199254740991 971) (V z z z))]);
  on_all (make_cylinders [(V (l 1 0) (l 1 1) z)] [(l 1 0)] [(l 1 1)] [(l 1 1)] [(M (V (l 1 0) z z) (V z (l 4967757600021511 (-106)) (l (-1) 0)) (V z (l 1 0) (l 4967757600021511 (-106))))]) (fun s => let b := tree (cylinder_coll s) in [
    (2169%nat, prim_ok (cylinder_coll s) (cylinder_isector) (ray_of (V (l 1 0) (l 21 (-1)) z) (V z (l (-1) 0) z)) true (Some 0%nat) (l 15 (-1)) (V z (l 1 0) z));
    (2172%nat, bvh_ok b (cylinder_isector) (ray_of (V (l 1 0) (l 21 (-1)) z) (V z (l (-1) 0) z)) true (Some 0%nat) (l 15 (-1)) (V z (l 1 0) z));
    (2237%nat, prim_ok (cylinder_coll s) (cylinder_isector) (ray_of (V (l 1 0) (l 11 (-1)) z) (V z (l 1 0) z)) false None (l 9007199254740991 971) (V z z z));
    (2240%nat, bvh_ok b (cylinder_isector) (ray_of (V (l 1 0) (l 11 (-1)) z) (V z (l 1 0) z)) false None (l 9007199254740991 971) (V z z z))])].
End S64_checks64.

Section S64_distances64.
Local Existing Instance F64.
Local Notation l := (l64) (only parsing).
Definition cylinder_distances64 : list (nat * bool) := concat [
  on_all (make_cylinders [(V z z z)] [(l 1 0)] [(l 1 0)] [(l 1 1)] [(M (V (l 1 0) z z) (V z (l 1 0) z) (V z z (l 1 0)))]) (fun s => [
    (198%nat, dist_ok (cylinder_coll s) cyl64 0 (V z z (l 1 0)) z);
    (199%nat, dist_ok (cylinder_coll s) cyl64 0 (V z z (l (-1) 0)) z);
    (200%nat, dist_ok (cylinder_coll s) cyl64 0 (V z (l 1 0) z) z);
    (201%nat, dist_ok (cylinder_coll s) cyl64 0 (V z (l (-1) 0) (l 1 0)) z);
    (202%nat, dist_ok (cylinder_coll s) cyl64 0 (V (l (-1) 0) z z) z);
    (203%nat, dist_ok (cylinder_coll s) cyl64 0 (V (l 1 0) z z) z);
    (204%nat, dist_ok (cylinder_coll s) cyl64 0 (V (l 6369051672525773 (-53)) (l 6369051672525773 (-53)) z) z);
    (205%nat, dist_ok (cylinder_coll s) cyl64 0 (V (l 6369051672525773 (-53)) (l (-6369051672525773) (-53)) z) z);
    (207%nat, dist_ok (cylinder_coll s) cyl64 0 (V (l (-6369051672525773) (-53)) (l 6369051672525773 (-53)) z) z);
    (209%nat, dist_ok (cylinder_coll s) cyl64 0 (V (l (-6369051672525773) (-53)) (l (-6369051672525773) (-53)) z) z);
    (213%nat, dist_ok (cylinder_coll s) cyl64 0 (V z z z) (l 1 0));
    (214%nat, dist_ok (cylinder_coll s) cyl64 0 (V z (l 1 (-1)) z) (l 1 (-1)));
    (217%nat, dist_ok (cylinder_coll s) cyl64 0 (V z z (l 1 (-1))) (l 1 (-1)));
    (218%nat, dist_ok (cylinder_coll s) cyl64 0 (V z (l 1 (-1)) (l 1 (-1))) (l 1 (-1)));
    (219%nat, dist_ok (cylinder_coll s) cyl64 0 (V (l 1 (-1)) z (l 1 (-1))) (l 1 (-1)));
    (220%nat, dist_ok (cylinder_coll s) cyl64 0 (V z (l 1 (-1)) (l 5404319552844595 (-53))) (l 3602879701896397 (-53)));
    (221%nat, dist_ok (cylinder_coll s) cyl64 0 (V (l 5404319552844595 (-53)) z (l 1 (-1))) (l 3602879701896397 (-53)));
    (222%nat, dist_ok (cylinder_coll s) cyl64 0 (V (l (-1) (-1)) z (l (-5404319552844595) (-53))) (l 3602879701896397 (-53)));
    (223%nat, dist_ok (cylinder_coll s) cyl64 0 (V (l (-1) (-1)) (l (-1) (-1)) z) (l 2638147582215219 (-53)));
    (225%nat, dist_ok (cylinder_coll s) cyl64 0 (V (l 1 (-1)) (l (-1) (-1)) z) (l 2638147582215219 (-53)));
    (227%nat, dist_ok (cylinder_coll s) cyl64 0 (V (l (-1) (-1)) (l 1 (-1)) z) (l 2638147582215219 (-53)));
    (229%nat, dist_ok (cylinder_coll s) cyl64 0 (V (l 1 (-1)) (l 1 (-1)) z) (l 2638147582215219 (-53)));
    (233%nat, dist_ok (cylinder_coll s) cyl64 0 (V (l 3 (-2)) (l 3602879701896397 (-55)) z) (l 8768065409599607 (-55)));
    (234%nat, dist_ok (cylinder_coll s) cyl64 0 (V (l 3 (-2)) (l 1 (-1)) z) (l 1776439128837145 (-54)));
    (235%nat, dist_ok (cylinder_coll s) cyl64 0 (V (l (-3602879701896397) (-53)) (l (-3602879701896397) (-52)) z) (l 7607322612371761 (-56)));
    (237%nat, dist_ok (cylinder_coll s) cyl64 0 (V (l (-3602879701896397) (-53)) z z) (l 5404319552844595 (-53)));
    (238%nat, dist_ok (cylinder_coll s) cyl64 0 (V (l (-3602879701896397) (-54)) (l 3602879701896397 (-53)) z) (l 4979057290643731 (-53)));
    (241%nat, dist_ok (cylinder_coll s) cyl64 0 (V (l 1 1) z z) (l 1 0));
    (242%nat, dist_ok (cylinder_coll s) cyl64 0 (V (l (-1) 1) z z) (l 1 0));
    (243%nat, dist_ok (cylinder_coll s) cyl64 0 (V z (l 1 1) z) (l 1 0));
    (244%nat, dist_ok (cylinder_coll s) cyl64 0 (V z (l (-1) 1) z) (l 1 0));
    (245%nat, dist_ok (cylinder_coll s) cyl64 0 (V z z (l (-1) 1)) (l 1 0));
    (246%nat, dist_ok (cylinder_coll s) cyl64 0 (V z z (l 1 1)) (l 1 0));
    (249%nat, dist_ok (cylinder_coll s) cyl64 0 (V (l 1 0) (l 1 0) z) (l 7461808180621107 (-54)));
    (250%nat, dist_ok (cylinder_coll s) cyl64 0 (V (l (-1) 0) (l 1 0) z) (l 7461808180621107 (-54)));
    (251%nat, dist_ok (cylinder_coll s) cyl64 0 (V (l (-1) (-1)) (l 1 0) z) (l 4252622622008639 (-55)));
    (252%nat, dist_ok (cylinder_coll s) cyl64 0 (V (l 5 0) (l 1 0) z) (l 2307542844250107 (-49)));
    (253%nat, dist_ok (cylinder_coll s) cyl64 0 (V (l 15 0) (l 3 1) z) (l 8531784878606061 (-49)));
    (254%nat, dist_ok (cylinder_coll s) cyl64 0 (V (l 5 0) (l (-25) 0) z) (l 1723689254366973 (-46)));
    (255%nat, dist_ok (cylinder_coll s) cyl64 0 (V (l 5 0) (l (-125) 0) z) (l 4366379169973943 (-45)));
    (256%nat, dist_ok (cylinder_coll s) cyl64 0 (V (l (-25) 1) (l (-125) 0) z) (l 2350828343129379 (-44)))]);
  on_all (make_cylinders [(V z z z)] [(l 1 0)] [(l 1 0)] [(l 1 1)] [(M (V z z (l 1 0)) (V z (l 1 0) z) (V (l (-1) 0) z z))]) (fun s => [
    (267%nat, dist_ok (cylinder_coll s) cyl64 0 (V z z z) (l 1 0));
    (269%nat, dist_ok (cylinder_coll s) cyl64 0 (V (l 1 0) z z) z);
    (270%nat, dist_ok (cylinder_coll s) cyl64 0 (V (l (-1) 0) z z) z);
    (271%nat, dist_ok (cylinder_coll s) cyl64 0 (V z (l 1 0) z) z);
    (272%nat, dist_ok (cylinder_coll s) cyl64 0 (V (l 1 0) (l (-1) 0) z) z);
    (273%nat, dist_ok (cylinder_coll s) cyl64 0 (V z z (l (-1) 0)) z);
    (274%nat, dist_ok (cylinder_coll s) cyl64 0 (V z z (l 1 0)) z);
    (278%nat, dist_ok (cylinder_coll s) cyl64 0 (V (l 1 (-1)) z z) (l 1 (-1)));
    (279%nat, dist_ok (cylinder_coll s) cyl64 0 (V (l 1 (-1)) (l 1 (-1)) z) (l 1 (-1)));
    (280%nat, dist_ok (cylinder_coll s) cyl64 0 (V (l 1 (-1)) (l 5404319552844595 (-53)) z) (l 3602879701896397 (-53)));
    (281%nat, dist_ok (cylinder_coll s) cyl64 0 (V (l 5404319552844595 (-53)) (l 1 (-1)) z) (l 3602879701896397 (-53)));
    (282%nat, dist_ok (cylinder_coll s) cyl64 0 (V (l 1 (-1)) z (l 5404319552844595 (-53))) (l 3602879701896397 (-53)));
    (283%nat, dist_ok (cylinder_coll s) cyl64 0 (V (l (-5404319552844595) (-53)) z (l (-1) (-1))) (l 3602879701896397 (-53)));
    (284%nat, dist_ok (cylinder_coll s) cyl64 0 (V z (l (-1) (-1)) (l (-1) (-1))) (l 2638147582215219 (-53)));
    (286%nat, dist_ok (cylinder_coll s) cyl64 0 (V (l (-3602879701896397) (-55)) (l 1 (-1)) (l 1 (-1))) (l 2638147582215219 (-53)))]);
  on_all (make_cylinders [(V z z z)] [(l 1 0)] [(l 1 0)] [(l 1 1)] [(M (V z z (l 1 0)) (V z (l 1 0) z) (V (l (-1) 0) z z)); (M (V (l 1 0) z z) (V z (l 1 0) z) (V z z (l 1 0)))]) (fun s => [
    (296%nat, dist_ok (cylinder_coll s) cyl64 0 (V z z (l 5 0)) (l 1 2));
    (297%nat, dist_ok (cylinder_coll s) cyl64 0 (V z z (l (-5) 0)) (l 1 2));
    (299%nat, dist_ok (cylinder_coll s) cyl64 0 (V z (l (-1) 1) z) (l 1 0));
    (300%nat, dist_ok (cylinder_coll s) cyl64 0 (V z (l 1 1) z) (l 1 0));
    (302%nat, dist_ok (cylinder_coll s) cyl64 0 (V (l (-1) 1) z z) (l 1 0));
    (303%nat, dist_ok (cylinder_coll s) cyl64 0 (V (l 1 1) z z) (l 1 0));
    (306%nat, dist_ok (cylinder_coll s) cyl64 0 (V (l 1 1) z (l 5 0)) (l 4642204239785223 (-50)));
    (308%nat, dist_ok (cylinder_coll s) cyl64 0 (V (l 1 1) z (l 1 (-1))) (l 1 0));
    (309%nat, dist_ok (cylinder_coll s) cyl64 0 (V (l 5404319552844595 (-52)) z (l 1 (-1))) (l 3602879701896397 (-54)))]);
  on_all (make_cylinders [(V z z z)] [(l 1 0)] [(l 1 1)] [(l 1 1)] [(M (V (l 1 0) z z) (V z (l 1 0) z) (V z z (l 1 0)))]) (fun s => [
    (323%nat, dist_ok (cylinder_coll s) cyl64 0 (V z z (l 1 0)) z);
    (324%nat, dist_ok (cylinder_coll s) cyl64 0 (V z z (l (-1) 0)) z);
    (325%nat, dist_ok (cylinder_coll s) cyl64 0 (V z (l 1 1) z) z);
    (326%nat, dist_ok (cylinder_coll s) cyl64 0 (V z (l (-1) 1) (l 1 0)) z);
    (327%nat, dist_ok (cylinder_coll s) cyl64 0 (V (l (-1) 0) z z) z);
    (328%nat, dist_ok (cylinder_coll s) cyl64 0 (V (l 1 0) z z) z);
    (330%nat, dist_ok (cylinder_coll s) cyl64 0 (V (l 8721180395988501 (-53)) (l 4503621172004831 (-53)) z) z);
    (333%nat, dist_ok (cylinder_coll s) cyl64 0 (V (l (-8721180395988501) (-53)) (l 4503621172004831 (-53)) z) z);
    (337%nat, dist_ok (cylinder_coll s) cyl64 0 (V (l 8721180395988501 (-53)) (l (-4503621172004831) (-53)) z) z);
    (341%nat, dist_ok (cylinder_coll s) cyl64 0 (V (l (-8721180395988501) (-53)) (l (-4503621172004831) (-53)) z) z);
    (347%nat, dist_ok (cylinder_coll s) cyl64 0 (V z z (l 1 (-1))) (l 1 (-1)));
    (348%nat, dist_ok (cylinder_coll s) cyl64 0 (V z z (l (-1) (-1))) (l 1 (-1)));
    (350%nat, dist_ok (cylinder_coll s) cyl64 0 (V (l 1 (-1)) z z) (l 1 (-1)));
    (351%nat, dist_ok (cylinder_coll s) cyl64 0 (V (l (-1) (-1)) z z) (l 1 (-1)));
    (352%nat, dist_ok (cylinder_coll s) cyl64 0 (V z (l 3 (-1)) z) (l 1 (-1)));
    (353%nat, dist_ok (cylinder_coll s) cyl64 0 (V z (l (-3) (-1)) z) (l 1 (-1)));
    (355%nat, dist_ok (cylinder_coll s) cyl64 0 (V (l 5404319552844595 (-53)) (l 1 (-1)) z) (l 6573128286098819 (-54)));
    (356%nat, dist_ok (cylinder_coll s) cyl64 0 (V (l 5404319552844595 (-53)) (l (-1) (-1)) z) (l 6573128286098819 (-54)));
    (357%nat, dist_ok (cylinder_coll s) cyl64 0 (V (l (-5404319552844595) (-53)) (l 1 (-1)) z) (l 6573128286098819 (-54)));
    (358%nat, dist_ok (cylinder_coll s) cyl64 0 (V (l (-5404319552844595) (-53)) (l (-1) (-1)) z) (l 6573128286098819 (-54)));
    (360%nat, dist_ok (cylinder_coll s) cyl64 0 (V (l 3602879701896397 (-54)) (l 1 (-1)) z) (l 3423915598416547 (-52)));
    (361%nat, dist_ok (cylinder_coll s) cyl64 0 (V (l (-3602879701896397) (-54)) (l 1 (-1)) z) (l 3423915598416547 (-52)));
    (362%nat, dist_ok (cylinder_coll s) cyl64 0 (V (l 3602879701896397 (-54)) (l (-1) (-1)) z) (l 3423915598416547 (-52)));
    (363%nat, dist_ok (cylinder_coll s) cyl64 0 (V (l (-3602879701896397) (-54)) (l (-1) (-1)) z) (l 3423915598416547 (-52)));
    (365%nat, dist_ok (cylinder_coll s) cyl64 0 (V (l 3152519739159347 (-52)) (l 5404319552844595 (-52)) z) (l 6728258797279441 (-56)));
    (366%nat, dist_ok (cylinder_coll s) cyl64 0 (V (l 3152519739159347 (-52)) (l (-5404319552844595) (-52)) z) (l 6728258797279441 (-56)));
    (367%nat, dist_ok (cylinder_coll s) cyl64 0 (V (l (-3152519739159347) (-52)) (l 5404319552844595 (-52)) z) (l 6728258797279441 (-56)));
    (368%nat, dist_ok (cylinder_coll s) cyl64 0 (V (l (-3152519739159347) (-52)) (l (-5404319552844595) (-52)) z) (l 6728258797279441 (-56)));
    (372%nat, dist_ok (cylinder_coll s) cyl64 0 (V z z (l 3 (-1))) (l 1 (-1)));
    (373%nat, dist_ok (cylinder_coll s) cyl64 0 (V z z (l (-3) (-1))) (l 1 (-1)));
    (375%nat, dist_ok (cylinder_coll s) cyl64 0 (V (l 3 0) z (l 3 0)) (l 6369051672525773 (-51)));
    (376%nat, dist_ok (cylinder_coll s) cyl64 0 (V (l (-3) 0) z (l 3 0)) (l 6369051672525773 (-51)));
    (377%nat, dist_ok (cylinder_coll s) cyl64 0 (V (l 3 0) z (l (-3) 0)) (l 6369051672525773 (-51)));
    (378%nat, dist_ok (cylinder_coll s) cyl64 0 (V (l (-3) 0) z (l (-3) 0)) (l 6369051672525773 (-51)));
    (380%nat, dist_ok (cylinder_coll s) cyl64 0 (V z (l 1 2) (l 3 0)) (l 6369051672525773 (-51)));
    (381%nat, dist_ok (cylinder_coll s) cyl64 0 (V z (l (-1) 2) (l 3 0)) (l 6369051672525773 (-51)));
    (382%nat, dist_ok (cylinder_coll s) cyl64 0 (V z (l 1 2) (l (-3) 0)) (l 6369051672525773 (-51)));
    (383%nat, dist_ok (cylinder_coll s) cyl64 0 (V z (l (-1) 2) (l (-3) 0)) (l 6369051672525773 (-51)));
    (386%nat, dist_ok (cylinder_coll s) cyl64 0 (V (l 1 0) (l 1 0) z) (l 4645649594242247 (-55)));
    (387%nat, dist_ok (cylinder_coll s) cyl64 0 (V (l (-1) 0) (l 1 0) z) (l 4645649594242247 (-55)));
    (388%nat, dist_ok (cylinder_coll s) cyl64 0 (V (l 1 0) (l (-1) 0) z) (l 4645649594242247 (-55)));
    (389%nat, dist_ok (cylinder_coll s) cyl64 0 (V (l (-1) 0) (l (-1) 0) z) (l 4645649594242247 (-55)));
    (391%nat, dist_ok (cylinder_coll s) cyl64 0 (V (l 5 0) (l 1 0) z) (l 4574098309127817 (-50)));
    (392%nat, dist_ok (cylinder_coll s) cyl64 0 (V (l (-5) 0) (l 1 0) z) (l 4574098309127817 (-50)));
    (393%nat, dist_ok (cylinder_coll s) cyl64 0 (V (l 5 0) (l (-1) 0) z) (l 4574098309127817 (-50)));
    (394%nat, dist_ok (cylinder_coll s) cyl64 0 (V (l (-5) 0) (l (-1) 0) z) (l 4574098309127817 (-50)));
    (396%nat, dist_ok (cylinder_coll s) cyl64 0 (V (l 1 0) (l 5 0) z) (l 1767534202009031 (-49)));
    (397%nat, dist_ok (cylinder_coll s) cyl64 0 (V (l (-1) 0) (l 5 0) z) (l 1767534202009031 (-49)));
    (398%nat, dist_ok (cylinder_coll s) cyl64 0 (V (l 1 0) (l (-5) 0) z) (l 1767534202009031 (-49)));
    (399%nat, dist_ok (cylinder_coll s) cyl64 0 (V (l (-1) 0) (l (-5) 0) z) (l 1767534202009031 (-49)))]);
  on_all (make_cylinders [(V z z z)] [(l 1 1)] [(l 1 0)] [(l 1 1)] [(M (V (l 1 0) z z) (V z (l 1 0) z) (V z z (l 1 0)))]) (fun s => [
    (413%nat, dist_ok (cylinder_coll s) cyl64 0 (V z z (l 1 0)) z);
    (414%nat, dist_ok (cylinder_coll s) cyl64 0 (V z z (l (-1) 0)) z);
    (415%nat, dist_ok (cylinder_coll s) cyl64 0 (V z (l 1 0) z) z);
    (416%nat, dist_ok (cylinder_coll s) cyl64 0 (V z (l (-1) 0) (l 1 0)) z);
    (417%nat, dist_ok (cylinder_coll s) cyl64 0 (V (l (-1) 1) z z) z);
    (418%nat, dist_ok (cylinder_coll s) cyl64 0 (V (l 1 1) z z) z);
    (437%nat, dist_ok (cylinder_coll s) cyl64 0 (V z z (l 1 (-1))) (l 1 (-1)));
    (438%nat, dist_ok (cylinder_coll s) cyl64 0 (V z z (l (-1) (-1))) (l 1 (-1)));
    (440%nat, dist_ok (cylinder_coll s) cyl64 0 (V z (l 1 (-1)) z) (l 1 (-1)));
    (441%nat, dist_ok (cylinder_coll s) cyl64 0 (V z (l (-1) (-1)) z) (l 1 (-1)));
    (442%nat, dist_ok (cylinder_coll s) cyl64 0 (V (l 3602879701896397 (-51)) z z) (l 3602879701896397 (-53)));
    (443%nat, dist_ok (cylinder_coll s) cyl64 0 (V (l 3602879701896397 (-51)) z z) (l 3602879701896397 (-53)));
    (445%nat, dist_ok (cylinder_coll s) cyl64 0 (V (l 5404319552844595 (-53)) (l 1 (-1)) z) (l 8063821084955463 (-54)));
    (446%nat, dist_ok (cylinder_coll s) cyl64 0 (V (l (-5404319552844595) (-53)) (l 1 (-1)) z) (l 8063821084955463 (-54)));
    (447%nat, dist_ok (cylinder_coll s) cyl64 0 (V (l 5404319552844595 (-53)) (l (-1) (-1)) z) (l 8063821084955463 (-54)));
    (448%nat, dist_ok (cylinder_coll s) cyl64 0 (V (l (-5404319552844595) (-53)) (l (-1) (-1)) z) (l 8063821084955463 (-54)));
    (450%nat, dist_ok (cylinder_coll s) cyl64 0 (V (l 1 (-1)) (l 3602879701896397 (-54)) z) (l 3423915598416547 (-52)));
    (451%nat, dist_ok (cylinder_coll s) cyl64 0 (V (l (-1) (-1)) (l 3602879701896397 (-54)) z) (l 3423915598416547 (-52)));
    (452%nat, dist_ok (cylinder_coll s) cyl64 0 (V (l 1 (-1)) (l (-3602879701896397) (-54)) z) (l 3423915598416547 (-52)));
    (453%nat, dist_ok (cylinder_coll s) cyl64 0 (V (l (-1) (-1)) (l (-3602879701896397) (-54)) z) (l 3423915598416547 (-52)));
    (455%nat, dist_ok (cylinder_coll s) cyl64 0 (V (l 5404319552844595 (-52)) (l 3152519739159347 (-52)) z) (l 6728258797279441 (-56)));
    (456%nat, dist_ok (cylinder_coll s) cyl64 0 (V (l (-5404319552844595) (-52)) (l 3152519739159347 (-52)) z) (l 6728258797279441 (-56)));
    (457%nat, dist_ok (cylinder_coll s) cyl64 0 (V (l 5404319552844595 (-52)) (l (-3152519739159347) (-52)) z) (l 6728258797279441 (-56)));
    (458%nat, dist_ok (cylinder_coll s) cyl64 0 (V (l (-5404319552844595) (-52)) (l (-3152519739159347) (-52)) z) (l 6728258797279441 (-56)));
    (462%nat, dist_ok (cylinder_coll s) cyl64 0 (V z z (l 3 (-1))) (l 1 (-1)));
    (463%nat, dist_ok (cylinder_coll s) cyl64 0 (V z z (l (-3) (-1))) (l 1 (-1)));
    (465%nat, dist_ok (cylinder_coll s) cyl64 0 (V (l 1 2) z (l 3 0)) (l 6369051672525773 (-51)));
    (466%nat, dist_ok (cylinder_coll s) cyl64 0 (V (l (-1) 2) z (l 3 0)) (l 6369051672525773 (-51)));
    (467%nat, dist_ok (cylinder_coll s) cyl64 0 (V (l 1 2) z (l (-3) 0)) (l 6369051672525773 (-51)));
    (468%nat, dist_ok (cylinder_coll s) cyl64 0 (V (l (-1) 2) z (l (-3) 0)) (l 6369051672525773 (-51)));
    (470%nat, dist_ok (cylinder_coll s) cyl64 0 (V z (l 3 0) (l 3 0)) (l 6369051672525773 (-51)));
    (471%nat, dist_ok (cylinder_coll s) cyl64 0 (V z (l (-3) 0) (l 3 0)) (l 6369051672525773 (-51)));
    (472%nat, dist_ok (cylinder_coll s) cyl64 0 (V z (l 3 0) (l (-3) 0)) (l 6369051672525773 (-51)));
    (473%nat, dist_ok (cylinder_coll s) cyl64 0 (V z (l (-3) 0) (l (-3) 0)) (l 6369051672525773 (-51)));
    (475%nat, dist_ok (cylinder_coll s) cyl64 0 (V (l 1 0) (l 1 0) z) (l 4645649594242247 (-55)));
    (476%nat, dist_ok (cylinder_coll s) cyl64 0 (V (l (-1) 0) (l 1 0) z) (l 4645649594242247 (-55)));
    (477%nat, dist_ok (cylinder_coll s) cyl64 0 (V (l 1 0) (l (-1) 0) z) (l 4645649594242247 (-55)));
    (478%nat, dist_ok (cylinder_coll s) cyl64 0 (V (l (-1) 0) (l (-1) 0) z) (l 4645649594242247 (-55)));
    (480%nat, dist_ok (cylinder_coll s) cyl64 0 (V (l 5 0) (l 1 0) z) (l 1767534202009031 (-49)));
    (481%nat, dist_ok (cylinder_coll s) cyl64 0 (V (l (-5) 0) (l 1 0) z) (l 1767534202009031 (-49)));
    (482%nat, dist_ok (cylinder_coll s) cyl64 0 (V (l 5 0) (l (-1) 0) z) (l 1767534202009031 (-49)));
    (483%nat, dist_ok (cylinder_coll s) cyl64 0 (V (l (-5) 0) (l (-1) 0) z) (l 1767534202009031 (-49)));
    (485%nat, dist_ok (cylinder_coll s) cyl64 0 (V (l 1 0) (l 5 0) z) (l 4574098309127817 (-50)));
    (486%nat, dist_ok (cylinder_coll s) cyl64 0 (V (l (-1) 0) (l 5 0) z) (l 4574098309127817 (-50)));
    (487%nat, dist_ok (cylinder_coll s) cyl64 0 (V (l 1 0) (l (-5) 0) z) (l 4574098309127817 (-50)));
    (488%nat, dist_ok (cylinder_coll s) cyl64 0 (V (l (-1) 0) (l (-5) 0) z) (l 4574098309127817 (-50)));
    (490%nat, dist_ok (cylinder_coll s) cyl64 0 (V (l 5 1) (l 5 0) z) (l 5267864092911355 (-49)));
    (491%nat, dist_ok (cylinder_coll s) cyl64 0 (V (l (-5) 1) (l 5 0) z) (l 5267864092911355 (-49)));
    (492%nat, dist_ok (cylinder_coll s) cyl64 0 (V (l 5 1) (l (-5) 0) z) (l 5267864092911355 (-49)));
    (493%nat, dist_ok (cylinder_coll s) cyl64 0 (V (l (-5) 1) (l (-5) 0) z) (l 5267864092911355 (-49)))]);
  on_all (make_cylinders [(V (l 1 0) (l 1 0) (l 1 0))] [(l 1 0)] [(l 1 0)] [(l 1 1)] [(M (V (l 1 0) z z) (V z (l 1 0) z) (V z z (l 1 0)))]) (fun s => [
    (512%nat, dist_ok (cylinder_coll s) cyl64 0 (V (l 1 0) (l 1 0) (l 1 0)) (l 1 0));
    (514%nat, dist_ok (cylinder_coll s) cyl64 0 (V (l 1 0) (l 1 0) (l 1 1)) z);
    (515%nat, dist_ok (cylinder_coll s) cyl64 0 (V (l 1 0) (l 1 0) z) z);
    (516%nat, dist_ok (cylinder_coll s) cyl64 0 (V (l 1 0) (l 1 1) (l 1 0)) z);
    (517%nat, dist_ok (cylinder_coll s) cyl64 0 (V (l 1 0) z (l 1 1)) z);
    (518%nat, dist_ok (cylinder_coll s) cyl64 0 (V z (l 1 0) (l 1 0)) z);
    (519%nat, dist_ok (cylinder_coll s) cyl64 0 (V (l 1 1) (l 1 0) (l 1 0)) z);
    (523%nat, dist_ok (cylinder_coll s) cyl64 0 (V (l 1 0) (l 1 0) (l 3 (-1))) (l 1 (-1)));
    (524%nat, dist_ok (cylinder_coll s) cyl64 0 (V (l 1 0) (l 3 (-1)) (l 3 (-1))) (l 1 (-1)));
    (525%nat, dist_ok (cylinder_coll s) cyl64 0 (V (l 1 0) (l 3602879701896397 (-51)) (l 3 (-1))) (l 3602879701896397 (-53)));
    (526%nat, dist_ok (cylinder_coll s) cyl64 0 (V (l 1 0) (l 3 (-1)) (l 3602879701896397 (-51))) (l 3602879701896397 (-53)));
    (527%nat, dist_ok (cylinder_coll s) cyl64 0 (V (l 3602879701896397 (-51)) (l 1 0) (l 3 (-1))) (l 3602879701896397 (-53)));
    (528%nat, dist_ok (cylinder_coll s) cyl64 0 (V (l 1 (-1)) (l 1 0) (l 3602879701896397 (-53))) (l 3602879701896397 (-53)));
    (529%nat, dist_ok (cylinder_coll s) cyl64 0 (V (l 1 (-1)) (l 1 (-1)) (l 1 0)) (l 2638147582215219 (-53)));
    (531%nat, dist_ok (cylinder_coll s) cyl64 0 (V (l 3 (-1)) (l 3 (-1)) (l 8106479329266893 (-53))) (l 2638147582215219 (-53)));
    (535%nat, dist_ok (cylinder_coll s) cyl64 0 (V (l 1 0) (l 1 0) (l 3 1)) (l 1 2));
    (536%nat, dist_ok (cylinder_coll s) cyl64 0 (V (l 1 0) (l 1 0) (l (-1) 2)) (l 1 2));
    (537%nat, dist_ok (cylinder_coll s) cyl64 0 (V (l 1 0) (l (-1) 0) (l 1 0)) (l 1 0));
    (538%nat, dist_ok (cylinder_coll s) cyl64 0 (V (l 1 0) (l 3 0) (l 1 0)) (l 1 0));
    (539%nat, dist_ok (cylinder_coll s) cyl64 0 (V (l (-1) 0) (l 1 0) (l 1 0)) (l 1 0));
    (540%nat, dist_ok (cylinder_coll s) cyl64 0 (V (l 3 0) (l 1 0) (l 1 0)) (l 1 0))]);
  on_all (make_cylinders [(V (l 1 0) (l 1 0) (l 1 0))] [(l 1 0)] [(l 1 0)] [(l 1 1)] [(M (V z z (l 1 0)) (V z (l 1 0) z) (V (l (-1) 0) z z))]) (fun s => [
    (551%nat, dist_ok (cylinder_coll s) cyl64 0 (V (l 1 0) (l 1 0) (l 1 0)) (l 1 0));
    (553%nat, dist_ok (cylinder_coll s) cyl64 0 (V (l 1 1) (l 1 0) (l 1 0)) z);
    (554%nat, dist_ok (cylinder_coll s) cyl64 0 (V z (l 1 0) (l 1 0)) z);
    (555%nat, dist_ok (cylinder_coll s) cyl64 0 (V (l 1 0) (l 1 1) (l 1 0)) z);
    (556%nat, dist_ok (cylinder_coll s) cyl64 0 (V (l 1 1) z (l 1 0)) z);
    (557%nat, dist_ok (cylinder_coll s) cyl64 0 (V (l 1 0) (l 1 0) z) z);
    (558%nat, dist_ok (cylinder_coll s) cyl64 0 (V (l 1 0) (l 1 0) (l 1 1)) z);
    (562%nat, dist_ok (cylinder_coll s) cyl64 0 (V (l 3 (-1)) (l 1 0) (l 1 0)) (l 1 (-1)));
    (563%nat, dist_ok (cylinder_coll s) cyl64 0 (V (l 3 (-1)) (l 3 (-1)) (l 1 0)) (l 1 (-1)));
    (564%nat, dist_ok (cylinder_coll s) cyl64 0 (V (l 3 (-1)) (l 3602879701896397 (-51)) (l 1 0)) (l 3602879701896397 (-53)));
    (565%nat, dist_ok (cylinder_coll s) cyl64 0 (V (l 3602879701896397 (-51)) (l 3 (-1)) (l 1 0)) (l 3602879701896397 (-53)));
    (566%nat, dist_ok (cylinder_coll s) cyl64 0 (V (l 3 (-1)) (l 1 0) (l 3602879701896397 (-51))) (l 3602879701896397 (-53)));
    (567%nat, dist_ok (cylinder_coll s) cyl64 0 (V (l 3602879701896397 (-53)) (l 1 0) (l 1 (-1))) (l 3602879701896397 (-53)));
    (568%nat, dist_ok (cylinder_coll s) cyl64 0 (V (l 1 0) (l 1 (-1)) (l 1 (-1))) (l 2638147582215219 (-53)));
    (570%nat, dist_ok (cylinder_coll s) cyl64 0 (V (l 8106479329266893 (-53)) (l 3 (-1)) (l 3 (-1))) (l 2638147582215219 (-53)));
    (574%nat, dist_ok (cylinder_coll s) cyl64 0 (V (l 3 1) (l 1 0) (l 1 0)) (l 1 2));
    (575%nat, dist_ok (cylinder_coll s) cyl64 0 (V (l (-1) 2) (l 1 0) (l 1 0)) (l 1 2));
    (576%nat, dist_ok (cylinder_coll s) cyl64 0 (V (l 1 0) (l (-1) 0) (l 1 0)) (l 1 0));
    (577%nat, dist_ok (cylinder_coll s) cyl64 0 (V (l 1 0) (l 3 0) (l 1 0)) (l 1 0));
    (578%nat, dist_ok (cylinder_coll s) cyl64 0 (V (l (-1) 0) (l 1 0) (l 1 0)) (l 1 0));
    (579%nat, dist_ok (cylinder_coll s) cyl64 0 (V (l 3 0) (l 1 0) (l 1 0)) (l 1 0))])].
End S64_distances64.

Section S32_checks32.
Local Existing Instance F32.
Local Notation l := (l32) (only parsing).
Definition cylinder_checks32 : list (nat * bool) := concat [
  on_all (make_cylinders [(V z z z)] [(l 1 0)] [(l 1 0)] [(l 1 1)] [(M (V (l 1 0) z z) (V z (l 1 0) z) (V z z (l 1 0)))]) (fun s => [
    (96%nat, box_ok (cylinder_coll s) 0 (V (l (-1) 0) (l (-1) 0) (l (-1) 0)) (V (l 1 0) (l 1 0) (l 1 0)));
    (145%nat, center_ok (cylinder_coll s) 0 (V z z z))]);
  on_all (make_cylinders [(V z z z)] [(l 1 0)] [(l 1 0)] [(l 1 1)] [(M (V (l (-6151831) (-47)) z (l 1 0)) (V z (l 16777215 (-24)) z) (V (l (-1) 0) z (l (-6151831) (-47))))]) (fun s => [
    (106%nat, box_ok (cylinder_coll s) 0 (V (l (-1) 0) (l (-1) 0) (l (-1) 0)) (V (l 1 0) (l 1 0) (l 1 0)));
    (154%nat, center_ok (cylinder_coll s) 0 (V z z z))]);
  on_all (make_cylinders [(V z (l 1 0) (l 1 2))] [(l 1 0)] [(l 1 0)] [(l 1 1)] [(M (V (l 1 0) z z) (V z (l 1 0) z) (V z z (l 1 0)))]) (fun s => [
    (120%nat, box_ok (cylinder_coll s) 0 (V (l (-1) 0) z (l 3 0)) (V (l 1 0) (l 1 1) (l 5 0)));
    (167%nat, center_ok (cylinder_coll s) 0 (V z (l 1 0) (l 1 2)))]);
  on_all (make_cylinders [(V z (l 1 0) (l 1 2))] [(l 1 0)] [(l 1 0)] [(l 1 1)] [(M (V (l (-6151831) (-47)) z (l 1 0)) (V z (l 16777215 (-24)) z) (V (l (-1) 0) z (l (-6151831) (-47))))]) (fun s => [
    (130%nat, box_ok (cylinder_coll s) 0 (V (l (-1) 0) z (l 3 0)) (V (l 1 0) (l 1 1) (l 5 0)));
    (176%nat, center_ok (cylinder_coll s) 0 (V z (l 1 0) (l 1 2)))]);
  on_all (make_cylinders [(V z z z)] [(l 1 0)] [(l 1 1)] [(l 1 1)] [(M (V (l 1 0) z z) (V z (l 1 0) z) (V z z (l 1 0)))]) (fun s => let b := tree (cylinder_coll s) in [
    (609%nat, prim_ok (cylinder_coll s) (cylinder_isector) (ray_of (V z z (l 15 (-1))) (V z z (l (-1) 0))) true (Some 0%nat) (l 13 (-1)) (V z z (l 1 0)));
    (612%nat, bvh_ok b (cylinder_isector) (ray_of (V z z (l 15 (-1))) (V z z (l (-1) 0))) true (Some 0%nat) (l 13 (-1)) (V z z (l 1 0)));
    (628%nat, prim_ok (cylinder_coll s) (cylinder_isector) (ray_of (V (l 1 2) z (l 3 1)) (V (l (-1) 0) z (l (-1) 0))) true (Some 0%nat) (l 926819 (-17)) (V z z (l 1 0)));
    (631%nat, bvh_ok b (cylinder_isector) (ray_of (V (l 1 2) z (l 3 1)) (V (l (-1) 0) z (l (-1) 0))) true (Some 0%nat) (l 926819 (-17)) (V z z (l 1 0)));
    (646%nat, prim_ok (cylinder_coll s) (cylinder_isector) (ray_of (V (l 5 0) z (l 1 2)) (V (l (-1) 0) z (l (-1) 0))) true (Some 0%nat) (l 11863283 (-21)) (V (l 1 0) z z));
    (649%nat, bvh_ok b (cylinder_isector) (ray_of (V (l 5 0) z (l 1 2)) (V (l (-1) 0) z (l (-1) 0))) true (Some 0%nat) (l 11863283 (-21)) (V (l 1 0) z z));
    (664%nat, prim_ok (cylinder_coll s) (cylinder_isector) (ray_of (V (l (-5) 0) z (l 1 2)) (V (l 1 0) z (l (-1) 0))) true (Some 0%nat) (l 11863283 (-21)) (V (l (-1) 0) z z));
    (667%nat, bvh_ok b (cylinder_isector) (ray_of (V (l (-5) 0) z (l 1 2)) (V (l 1 0) z (l (-1) 0))) true (Some 0%nat) (l 11863283 (-21)) (V (l (-1) 0) z z));
    (682%nat, prim_ok (cylinder_coll s) (cylinder_isector) (ray_of (V z (l 5 0) (l 3 0)) (V z (l (-1) 0) (l (-1) 0))) true (Some 0%nat) (l 4448731 (-20)) (V z (l 1 0) z));
    (685%nat, bvh_ok b (cylinder_isector) (ray_of (V z (l 5 0) (l 3 0)) (V z (l (-1) 0) (l (-1) 0))) true (Some 0%nat) (l 4448731 (-20)) (V z (l 1 0) z));
    (700%nat, prim_ok (cylinder_coll s) (cylinder_isector) (ray_of (V z (l (-5) 0) (l 3 0)) (V z (l 1 0) (l (-1) 0))) true (Some 0%nat) (l 4448731 (-20)) (V z (l (-1) 0) z));
    (703%nat, bvh_ok b (cylinder_isector) (ray_of (V z (l (-5) 0) (l 3 0)) (V z (l 1 0) (l (-1) 0))) true (Some 0%nat) (l 4448731 (-20)) (V z (l (-1) 0) z));
    (721%nat, prim_ok (cylinder_coll s) (cylinder_isector) (ray_of (V z z (l (-17) (-1))) (V z z (l 1 0))) true (Some 0%nat) (l 15 (-1)) (V z z (l (-1) 0)));
    (724%nat, bvh_ok b (cylinder_isector) (ray_of (V z z (l (-17) (-1))) (V z z (l 1 0))) true (Some 0%nat) (l 15 (-1)) (V z z (l (-1) 0)));
    (739%nat, prim_ok (cylinder_coll s) (cylinder_isector) (ray_of (V (l 5 0) z (l (-3) 1)) (V (l (-1) 0) z (l 1 0))) true (Some 0%nat) (l 926819 (-17)) (V z z (l (-1) 0)));
    (742%nat, bvh_ok b (cylinder_isector) (ray_of (V (l 5 0) z (l (-3) 1)) (V (l (-1) 0) z (l 1 0))) true (Some 0%nat) (l 926819 (-17)) (V z z (l (-1) 0)));
    (755%nat, prim_ok (cylinder_coll s) (cylinder_isector) (ray_of (V (l 5 0) z (l (-1) 2)) (V (l (-1) 0) z (l 1 0))) true (Some 0%nat) (l 11863283 (-21)) (V (l 1 0) z z));
    (758%nat, bvh_ok b (cylinder_isector) (ray_of (V (l 5 0) z (l (-1) 2)) (V (l (-1) 0) z (l 1 0))) true (Some 0%nat) (l 11863283 (-21)) (V (l 1 0) z z));
    (772%nat, prim_ok (cylinder_coll s) (cylinder_isector) (ray_of (V (l (-5) 0) z (l (-1) 2)) (V (l 1 0) z (l 1 0))) true (Some 0%nat) (l 11863283 (-21)) (V (l (-1) 0) z z));
    (775%nat, bvh_ok b (cylinder_isector) (ray_of (V (l (-5) 0) z (l (-1) 2)) (V (l 1 0) z (l 1 0))) true (Some 0%nat) (l 11863283 (-21)) (V (l (-1) 0) z z));
    (790%nat, prim_ok (cylinder_coll s) (cylinder_isector) (ray_of (V z (l 5 0) (l (-3) 0)) (V z (l (-1) 0) (l 1 0))) true (Some 0%nat) (l 4448731 (-20)) (V z (l 1 0) z));
    (793%nat, bvh_ok b (cylinder_isector) (ray_of (V z (l 5 0) (l (-3) 0)) (V z (l (-1) 0) (l 1 0))) true (Some 0%nat) (l 4448731 (-20)) (V z (l 1 0) z));
    (806%nat, prim_ok (cylinder_coll s) (cylinder_isector) (ray_of (V z (l (-5) 0) (l (-3) 0)) (V z (l 1 0) (l 1 0))) true (Some 0%nat) (l 4448731 (-20)) (V z (l (-1) 0) z));
    (809%nat, bvh_ok b (cylinder_isector) (ray_of (V z (l (-5) 0) (l (-3) 0)) (V z (l 1 0) (l 1 0))) true (Some 0%nat) (l 4448731 (-20)) (V z (l (-1) 0) z));
    (827%nat, prim_ok (cylinder_coll s) (cylinder_isector) (ray_of (V (l 5 0) z z) (V (l (-1) 0) z z)) true (Some 0%nat) (l 1 2) (V (l 1 0) z z));
    (830%nat, bvh_ok b (cylinder_isector) (ray_of (V (l 5 0) z z) (V (l (-1) 0) z z)) true (Some 0%nat) (l 1 2) (V (l 1 0) z z));
    (844%nat, prim_ok (cylinder_coll s) (cylinder_isector) (ray_of (V (l (-5) 0) z z) (V (l 1 0) z z)) true (Some 0%nat) (l 1 2) (V (l (-1) 0) z z));
    (847%nat, bvh_ok b (cylinder_isector) (ray_of (V (l (-5) 0) z z) (V (l 1 0) z z)) true (Some 0%nat) (l 1 2) (V (l (-1) 0) z z));
    (861%nat, prim_ok (cylinder_coll s) (cylinder_isector) (ray_of (V z (l 5 0) z) (V z (l (-1) 0) z)) true (Some 0%nat) (l 3 0) (V z (l 1 0) z));
    (864%nat, bvh_ok b (cylinder_isector) (ray_of (V z (l 5 0) z) (V z (l (-1) 0) z)) true (Some 0%nat) (l 3 0) (V z (l 1 0) z));
    (878%nat, prim_ok (cylinder_coll s) (cylinder_isector) (ray_of (V z (l (-5) 0) z) (V z (l 1 0) z)) true (Some 0%nat) (l 3 0) (V z (l (-1) 0) z));
    (881%nat, bvh_ok b (cylinder_isector) (ray_of (V z (l (-5) 0) z) (V z (l 1 0) z)) true (Some 0%nat) (l 3 0) (V z (l (-1) 0) z));
    (898%nat, prim_ok (cylinder_coll s) (cylinder_isector) (ray_of (V z z z) (V z z (l 1 0))) true (Some 0%nat) (l 1 0) (V z z (l 1 0)));
    (901%nat, bvh_ok b (cylinder_isector) (ray_of (V z z z) (V z z (l 1 0))) true (Some 0%nat) (l 1 0) (V z z (l 1 0)));
    (915%nat, prim_ok (cylinder_coll s) (cylinder_isector) (ray_of (V z z z) (V z z (l (-1) 0))) true (Some 0%nat) (l 1 0) (V z z (l (-1) 0)));
    (918%nat, bvh_ok b (cylinder_isector) (ray_of (V z z z) (V z z (l (-1) 0))) true (Some 0%nat) (l 1 0) (V z z (l (-1) 0)));
    (932%nat, prim_ok (cylinder_coll s) (cylinder_isector) (ray_of (V z z z) (V (l (-1) 0) z z)) true (Some 0%nat) (l 1 0) (V (l (-1) 0) z z));
    (935%nat, bvh_ok b (cylinder_isector) (ray_of (V z z z) (V (l (-1) 0) z z)) true (Some 0%nat) (l 1 0) (V (l (-1) 0) z z));
    (949%nat, prim_ok (cylinder_coll s) (cylinder_isector) (ray_of (V z z z) (V (l 1 0) z z)) true (Some 0%nat) (l 1 0) (V (l 1 0) z z));
    (952%nat, bvh_ok b (cylinder_isector) (ray_of (V z z z) (V (l 1 0) z z)) true (Some 0%nat) (l 1 0) (V (l 1 0) z z));
    (966%nat, prim_ok (cylinder_coll s) (cylinder_isector) (ray_of (V z z z) (V z (l (-1) 0) z)) true (Some 0%nat) (l 1 1) (V z (l (-1) 0) z));
    (969%nat, bvh_ok b (cylinder_isector) (ray_of (V z z z) (V z (l (-1) 0) z)) true (Some 0%nat) (l 1 1) (V z (l (-1) 0) z));
    (983%nat, prim_ok (cylinder_coll s) (cylinder_isector) (ray_of (V z z z) (V z (l 1 0) z)) true (Some 0%nat) (l 1 1) (V z (l 1 0) z));
    (986%nat, bvh_ok b (cylinder_isector) (ray_of (V z z z) (V z (l 1 0) z)) true (Some 0%nat) (l 1 1) (V z (l 1 0) z));
    (1007%nat, prim_ok (cylinder_coll s) (cylinder_isector) (ray_of (V z z (l 13 (-1))) (V z z (l 1 0))) false None (l 16777215 104) (V z z z));
    (1010%nat, bvh_ok b (cylinder_isector) (ray_of (V z z (l 13 (-1))) (V z z (l 1 0))) false None (l 16777215 104) (V z z z));
    (1025%nat, prim_ok (cylinder_coll s) (cylinder_isector) (ray_of (V (l 5 0) z (l 3 1)) (V (l 1 0) z (l 1 0))) false None (l 16777215 104) (V z z z));
    (1028%nat, bvh_ok b (cylinder_isector) (ray_of (V (l 5 0) z (l 3 1)) (V (l 1 0) z (l 1 0))) false None (l 16777215 104) (V z z z));
    (1042%nat, prim_ok (cylinder_coll s) (cylinder_isector) (ray_of (V (l 5 0) z (l 1 2)) (V (l 1 0) z (l 1 0))) false None (l 16777215 104) (V z z z));
    (1045%nat, bvh_ok b (cylinder_isector) (ray_of (V (l 5 0) z (l 1 2)) (V (l 1 0) z (l 1 0))) false None (l 16777215 104) (V z z z));
    (1059%nat, prim_ok (cylinder_coll s) (cylinder_isector) (ray_of (V (l (-5) 0) z (l 1 2)) (V (l (-1) 0) z (l 1 0))) false None (l 16777215 104) (V z z z));
    (1062%nat, bvh_ok b (cylinder_isector) (ray_of (V (l (-5) 0) z (l 1 2)) (V (l (-1) 0) z (l 1 0))) false None (l 16777215 104) (V z z z));
    (1076%nat, prim_ok (cylinder_coll s) (cylinder_isector) (ray_of (V z (l 5 0) (l 3 0)) (V z (l 1 0) (l 1 0))) false None (l 16777215 104) (V z z z));
    (1079%nat, bvh_ok b (cylinder_isector) (ray_of (V z (l 5 0) (l 3 0)) (V z (l 1 0) (l 1 0))) false None (l 16777215 104) (V z z z));
    (1093%nat, prim_ok (cylinder_coll s) (cylinder_isector) (ray_of (V z (l (-5) 0) (l 3 0)) (V z (l (-1) 0) (l 1 0))) false None (l 16777215 104) (V z z z));
    (1096%nat, bvh_ok b (cylinder_isector) (ray_of (V z (l (-5) 0) (l 3 0)) (V z (l (-1) 0) (l 1 0))) false None (l 16777215 104) (V z z z));
    (1113%nat, prim_ok (cylinder_coll s) (cylinder_isector) (ray_of (V z z (l (-17) (-1))) (V z z (l (-1) 0))) false None (l 16777215 104) (V z z z));
    (1116%nat, bvh_ok b (cylinder_isector) (ray_of (V z z (l (-17) (-1))) (V z z (l (-1) 0))) false None (l 16777215 104) (V z z z));
    (1131%nat, prim_ok (cylinder_coll s) (cylinder_isector) (ray_of (V (l 5 0) z (l (-3) 1)) (V (l 1 0) z (l (-1) 0))) false None (l 16777215 104) (V z z z));
    (1134%nat, bvh_ok b (cylinder_isector) (ray_of (V (l 5 0) z (l (-3) 1)) (V (l 1 0) z (l (-1) 0))) false None (l 16777215 104) (V z z z));
    (1148%nat, prim_ok (cylinder_coll s) (cylinder_isector) (ray_of (V (l 5 0) z (l (-1) 2)) (V (l 1 0) z (l (-1) 0))) false None (l 16777215 104) (V z z z));
    (1151%nat, bvh_ok b (cylinder_isector) (ray_of (V (l 5 0) z (l (-1) 2)) (V (l 1 0) z (l (-1) 0))) false None (l 16777215 104) (V z z z));
    (1165%nat, prim_ok (cylinder_coll s) (cylinder_isector) (ray_of (V (l (-5) 0) z (l (-1) 2)) (V (l (-1) 0) z (l (-1) 0))) false None (l 16777215 104) (V z z z));
    (1168%nat, bvh_ok b (cylinder_isector) (ray_of (V (l (-5) 0) z (l (-1) 2)) (V (l (-1) 0) z (l (-1) 0))) false None (l 16777215 104) (V z z z));
    (1182%nat, prim_ok (cylinder_coll s) (cylinder_isector) (ray_of (V z (l 5 0) (l (-3) 0)) (V z (l 1 0) (l (-1) 0))) false None (l 16777215 104) (V z z z));
    (1185%nat, bvh_ok b (cylinder_isector) (ray_of (V z (l 5 0) (l (-3) 0)) (V z (l 1 0) (l (-1) 0))) false None (l 16777215 104) (V z z z));
    (1199%nat, prim_ok (cylinder_coll s) (cylinder_isector) (ray_of (V z (l (-5) 0) (l (-3) 0)) (V z (l (-1) 0) (l (-1) 0))) false None (l 16777215 104) (V z z z));
    (1202%nat, bvh_ok b (cylinder_isector) (ray_of (V z (l (-5) 0) (l (-3) 0)) (V z (l (-1) 0) (l (-1) 0))) false None (l 16777215 104) (V z z z));
    (1219%nat, prim_ok (cylinder_coll s) (cylinder_isector) (ray_of (V (l 5 0) z z) (V (l 1 0) z z)) false None (l 16777215 104) (V z z z));
    (1222%nat, bvh_ok b (cylinder_isector) (ray_of (V (l 5 0) z z) (V (l 1 0) z z)) false None (l 16777215 104) (V z z z));
    (1236%nat, prim_ok (cylinder_coll s) (cylinder_isector) (ray_of (V (l (-5) 0) z z) (V (l (-1) 0) z z)) false None (l 16777215 104) (V z z z));
    (1239%nat, bvh_ok b (cylinder_isector) (ray_of (V (l (-5) 0) z z) (V (l (-1) 0) z z)) false None (l 16777215 104) (V z z z));
    (1253%nat, prim_ok (cylinder_coll s) (cylinder_isector) (ray_of (V z (l 5 0) z) (V z (l 1 0) z)) false None (l 16777215 104) (V z z z));
    (1256%nat, bvh_ok b (cylinder_isector) (ray_of (V z (l 5 0) z) (V z (l 1 0) z)) false None (l 16777215 104) (V z z z));
    (1270%nat, prim_ok (cylinder_coll s) (cylinder_isector) (ray_of (V z (l (-5) 0) z) (V z (l (-1) 0) z)) false None (l 16777215 104) (V z z z));
    (1273%nat, bvh_ok b (cylinder_isector) (ray_of (V z (l (-5) 0) z) (V z (l (-1) 0) z)) false None (l 16777215 104) (V z z z))]);
  on_all (make_cylinders [(V z z z)] [(l 1 0)] [(l 1 1)] [(l 1 1)] [(M (V (l (-6151831) (-47)) (l (-1) 0) z) (V (l 1 0) (l (-6151831) (-47)) z) (V z z (l 16777215 (-24))))]) (fun s => let b := tree (cylinder_coll s) in [
    (1299%nat, prim_ok (cylinder_coll s) (cylinder_isector) (ray_of (V z z (l 13 (-1))) (V z z (l (-1) 0))) true (Some 0%nat) (l 11 (-1)) (V z z (l 1 0)));
    (1302%nat, bvh_ok b (cylinder_isector) (ray_of (V z z (l 13 (-1))) (V z z (l (-1) 0))) true (Some 0%nat) (l 11 (-1)) (V z z (l 1 0)));
    (1367%nat, prim_ok (cylinder_coll s) (cylinder_isector) (ray_of (V z z (l 13 (-1))) (V z z (l 1 0))) false None (l 16777215 104) (V z z z));
    (1370%nat, bvh_ok b (cylinder_isector) (ray_of (V z z (l 13 (-1))) (V z z (l 1 0))) false None (l 16777215 104) (V z z z))]);
  on_all (make_cylinders [(V z z z)] [(l 1 0)] [(l 1 1)] [(l 1 1)] [(M (V (l (-6151831) (-47)) z (l 1 0)) (V z (l 16777215 (-24)) z) (V (l (-1) 0) z (l (-6151831) (-47))))]) (fun s => let b := tree (cylinder_coll s) in [
    (1321%nat, prim_ok (cylinder_coll s) (cylinder_isector) (ray_of (V (l 13 (-1)) z z) (V (l (-1) 0) z z)) true (Some 0%nat) (l 11 (-1)) (V (l 1 0) z z));
    (1324%nat, bvh_ok b (cylinder_isector) (ray_of (V (l 13 (-1)) z z) (V (l (-1) 0) z z)) true (Some 0%nat) (l 11 (-1)) (V (l 1 0) z z));
    (1389%nat, prim_ok (cylinder_coll s) (cylinder_isector) (ray_of (V (l 13 (-1)) z z) (V (l 1 0) z z)) false None (l 16777215 104) (V z z z));
    (1392%nat, bvh_ok b (cylinder_isector) (ray_of (V (l 13 (-1)) z z) (V (l 1 0) z z)) false None (l 16777215 104) (V z z z))]);
  on_all (make_cylinders [(V z z z)] [(l 1 0)] [(l 1 1)] [(l 1 1)] [(M (V (l 16777215 (-24)) z z) (V z (l (-6151831) (-47)) (l (-1) 0)) (V z (l 1 0) (l (-6151831) (-47))))]) (fun s => let b := tree (cylinder_coll s) in [
    (1343%nat, prim_ok (cylinder_coll s) (cylinder_isector) (ray_of (V z (l 17 (-1)) z) (V z (l (-1) 0) z)) true (Some 0%nat) (l 15 (-1)) (V z (l 1 0) z));
    (1346%nat, bvh_ok b (cylinder_isector) (ray_of (V z (l 17 (-1)) z) (V z (l (-1) 0) z)) true (Some 0%nat) (l 15 (-1)) (V z (l 1 0) z));
    (1411%nat, prim_ok (cylinder_coll s) (cylinder_isector) (ray_of (V z (l 13 (-1)) z) (V z (l 1 0) z)) false None (l 16777215 104) (V z z z));
    (1414%nat, bvh_ok b (cylinder_isector) (ray_of (V z (l 13 (-1)) z) (V z (l 1 0) z)) false None (l 16777215 104) (V z z z))]);
  on_all (make_cylinders [(V (l 1 0) (l 1 1) z)] [(l 1 0)] [(l 1 1)] [(l 1 1)] [(M (V (l 1 0) z z) (V z (l 1 0) z) (V z z (l 1 0)))]) (fun s => let b := tree (cylinder_coll s) in [
    (1443%nat, prim_ok (cylinder_coll s) (cylinder_isector) (ray_of (V (l 1 0) (l 1 1) (l 13 (-1))) (V z z (l (-1) 0))) true (Some 0%nat) (l 11 (-1)) (V z z (l 1 0)));
    (1446%nat, bvh_ok b (cylinder_isector) (ray_of (V (l 1 0) (l 1 1) (l 13 (-1))) (V z z (l (-1) 0))) true (Some 0%nat) (l 11 (-1)) (V z z (l 1 0)));
    (1461%nat, prim_ok (cylinder_coll s) (cylinder_isector) (ray_of (V (l 3 1) (l 1 1) (l 3 1)) (V (l (-1) 0) z (l (-1) 0))) true (Some 0%nat) (l 926819 (-17)) (V z z (l 1 0)));
    (1464%nat, bvh_ok b (cylinder_isector) (ray_of (V (l 3 1) (l 1 1) (l 3 1)) (V (l (-1) 0) z (l (-1) 0))) true (Some 0%nat) (l 926819 (-17)) (V z z (l 1 0)));
    (1478%nat, prim_ok (cylinder_coll s) (cylinder_isector) (ray_of (V (l 3 1) (l 1 1) (l 1 2)) (V (l (-1) 0) z (l (-1) 0))) true (Some 0%nat) (l 11863283 (-21)) (V (l 1 0) z z));
    (1481%nat, bvh_ok b (cylinder_isector) (ray_of (V (l 3 1) (l 1 1) (l 1 2)) (V (l (-1) 0) z (l (-1) 0))) true (Some 0%nat) (l 11863283 (-21)) (V (l 1 0) z z));
    (1495%nat, prim_ok (cylinder_coll s) (cylinder_isector) (ray_of (V (l (-1) 2) (l 1 1) (l 1 2)) (V (l 1 0) z (l (-1) 0))) true (Some 0%nat) (l 11863283 (-21)) (V (l (-1) 0) z z));
    (1498%nat, bvh_ok b (cylinder_isector) (ray_of (V (l (-1) 2) (l 1 1) (l 1 2)) (V (l 1 0) z (l (-1) 0))) true (Some 0%nat) (l 11863283 (-21)) (V (l (-1) 0) z z));
    (1512%nat, prim_ok (cylinder_coll s) (cylinder_isector) (ray_of (V (l 1 0) (l 7 0) (l 3 0)) (V z (l (-1) 0) (l (-1) 0))) true (Some 0%nat) (l 4448731 (-20)) (V z (l 1 0) z));
    (1515%nat, bvh_ok b (cylinder_isector) (ray_of (V (l 1 0) (l 7 0) (l 3 0)) (V z (l (-1) 0) (l (-1) 0))) true (Some 0%nat) (l 4448731 (-20)) (V z (l 1 0) z));
    (1529%nat, prim_ok (cylinder_coll s) (cylinder_isector) (ray_of (V (l 1 0) (l (-3) 0) (l 3 0)) (V z (l 1 0) (l (-1) 0))) true (Some 0%nat) (l 4448731 (-20)) (V z (l (-1) 0) z));
    (1532%nat, bvh_ok b (cylinder_isector) (ray_of (V (l 1 0) (l (-3) 0) (l 3 0)) (V z (l 1 0) (l (-1) 0))) true (Some 0%nat) (l 4448731 (-20)) (V z (l (-1) 0) z));
    (1549%nat, prim_ok (cylinder_coll s) (cylinder_isector) (ray_of (V (l 1 0) (l 1 1) (l (-17) (-1))) (V z z (l 1 0))) true (Some 0%nat) (l 15 (-1)) (V z z (l (-1) 0)));
    (1552%nat, bvh_ok b (cylinder_isector) (ray_of (V (l 1 0) (l 1 1) (l (-17) (-1))) (V z z (l 1 0))) true (Some 0%nat) (l 15 (-1)) (V z z (l (-1) 0)));
    (1567%nat, prim_ok (cylinder_coll s) (cylinder_isector) (ray_of (V (l 3 1) (l 1 1) (l (-3) 1)) (V (l (-1) 0) z (l 1 0))) true (Some 0%nat) (l 926819 (-17)) (V z z (l (-1) 0)));
    (1570%nat, bvh_ok b (cylinder_isector) (ray_of (V (l 3 1) (l 1 1) (l (-3) 1)) (V (l (-1) 0) z (l 1 0))) true (Some 0%nat) (l 926819 (-17)) (V z z (l (-1) 0)));
    (1584%nat, prim_ok (cylinder_coll s) (cylinder_isector) (ray_of (V (l 3 1) (l 1 1) (l (-1) 2)) (V (l (-1) 0) z (l 1 0))) true (Some 0%nat) (l 11863283 (-21)) (V (l 1 0) z z));
    (1587%nat, bvh_ok b (cylinder_isector) (ray_of (V (l 3 1) (l 1 1) (l (-1) 2)) (V (l (-1) 0) z (l 1 0))) true (Some 0%nat) (l 11863283 (-21)) (V (l 1 0) z z));
    (1601%nat, prim_ok (cylinder_coll s) (cylinder_isector) (ray_of (V (l (-1) 2) (l 1 1) (l (-1) 2)) (V (l 1 0) z (l 1 0))) true (Some 0%nat) (l 11863283 (-21)) (V (l (-1) 0) z z));
    (1604%nat, bvh_ok b (cylinder_isector) (ray_of (V (l (-1) 2) (l 1 1) (l (-1) 2)) (V (l 1 0) z (l 1 0))) true (Some 0%nat) (l 11863283 (-21)) (V (l (-1) 0) z z));
    (1618%nat, prim_ok (cylinder_coll s) (cylinder_isector) (ray_of (V (l 1 0) (l 7 0) (l (-3) 0)) (V z (l (-1) 0) (l 1 0))) true (Some 0%nat) (l 4448731 (-20)) (V z (l 1 0) z));
    (1621%nat, bvh_ok b (cylinder_isector) (ray_of (V (l 1 0) (l 7 0) (l (-3) 0)) (V z (l (-1) 0) (l 1 0))) true (Some 0%nat) (l 4448731 (-20)) (V z (l 1 0) z));
    (1635%nat, prim_ok (cylinder_coll s) (cylinder_isector) (ray_of (V (l 1 0) (l (-3) 0) (l (-3) 0)) (V z (l 1 0) (l 1 0))) true (Some 0%nat) (l 4448731 (-20)) (V z (l (-1) 0) z));
    (1638%nat, bvh_ok b (cylinder_isector) (ray_of (V (l 1 0) (l (-3) 0) (l (-3) 0)) (V z (l 1 0) (l 1 0))) true (Some 0%nat) (l 4448731 (-20)) (V z (l (-1) 0) z));
    (1655%nat, prim_ok (cylinder_coll s) (cylinder_isector) (ray_of (V (l 3 1) (l 1 1) z) (V (l (-1) 0) z z)) true (Some 0%nat) (l 1 2) (V (l 1 0) z z));
    (1658%nat, bvh_ok b (cylinder_isector) (ray_of (V (l 3 1) (l 1 1) z) (V (l (-1) 0) z z)) true (Some 0%nat) (l 1 2) (V (l 1 0) z z));
    (1672%nat, prim_ok (cylinder_coll s) (cylinder_isector) (ray_of (V (l (-1) 2) (l 1 1) z) (V (l 1 0) z z)) true (Some 0%nat) (l 1 2) (V (l (-1) 0) z z));
    (1675%nat, bvh_ok b (cylinder_isector) (ray_of (V (l (-1) 2) (l 1 1) z) (V (l 1 0) z z)) true (Some 0%nat) (l 1 2) (V (l (-1) 0) z z));
    (1689%nat, prim_ok (cylinder_coll s) (cylinder_isector) (ray_of (V (l 1 0) (l 7 0) z) (V z (l (-1) 0) z)) true (Some 0%nat) (l 3 0) (V z (l 1 0) z));
    (1692%nat, bvh_ok b (cylinder_isector) (ray_of (V (l 1 0) (l 7 0) z) (V z (l (-1) 0) z)) true (Some 0%nat) (l 3 0) (V z (l 1 0) z));
    (1706%nat, prim_ok (cylinder_coll s) (cylinder_isector) (ray_of (V (l 1 0) (l (-3) 0) z) (V z (l 1 0) z)) true (Some 0%nat) (l 3 0) (V z (l (-1) 0) z));
    (1709%nat, bvh_ok b (cylinder_isector) (ray_of (V (l 1 0) (l (-3) 0) z) (V z (l 1 0) z)) true (Some 0%nat) (l 3 0) (V z (l (-1) 0) z));
    (1726%nat, prim_ok (cylinder_coll s) (cylinder_isector) (ray_of (V (l 1 0) (l 1 1) z) (V z z (l 1 0))) true (Some 0%nat) (l 1 0) (V z z (l 1 0)));
    (1729%nat, bvh_ok b (cylinder_isector) (ray_of (V (l 1 0) (l 1 1) z) (V z z (l 1 0))) true (Some 0%nat) (l 1 0) (V z z (l 1 0)));
    (1743%nat, prim_ok (cylinder_coll s) (cylinder_isector) (ray_of (V (l 1 0) (l 1 1) z) (V z z (l (-1) 0))) true (Some 0%nat) (l 1 0) (V z z (l (-1) 0)));
    (1746%nat, bvh_ok b (cylinder_isector) (ray_of (V (l 1 0) (l 1 1) z) (V z z (l (-1) 0))) true (Some 0%nat) (l 1 0) (V z z (l (-1) 0)));
    (1760%nat, prim_ok (cylinder_coll s) (cylinder_isector) (ray_of (V (l 1 0) (l 1 1) z) (V (l (-1) 0) z z)) true (Some 0%nat) (l 1 0) (V (l (-1) 0) z z));
    (1763%nat, bvh_ok b (cylinder_isector) (ray_of (V (l 1 0) (l 1 1) z) (V (l (-1) 0) z z)) true (Some 0%nat) (l 1 0) (V (l (-1) 0) z z));
    (1777%nat, prim_ok (cylinder_coll s) (cylinder_isector) (ray_of (V (l 1 0) (l 1 1) z) (V (l 1 0) z z)) true (Some 0%nat) (l 1 0) (V (l 1 0) z z));
    (1780%nat, bvh_ok b (cylinder_isector) (ray_of (V (l 1 0) (l 1 1) z) (V (l 1 0) z z)) true (Some 0%nat) (l 1 0) (V (l 1 0) z z));
    (1794%nat, prim_ok (cylinder_coll s) (cylinder_isector) (ray_of (V (l 1 0) (l 1 1) z) (V z (l (-1) 0) z)) true (Some 0%nat) (l 1 1) (V z (l (-1) 0) z));
    (1797%nat, bvh_ok b (cylinder_isector) (ray_of (V (l 1 0) (l 1 1) z) (V z (l (-1) 0) z)) true (Some 0%nat) (l 1 1) (V z (l (-1) 0) z));
    (1811%nat, prim_ok (cylinder_coll s) (cylinder_isector) (ray_of (V (l 1 0) (l 1 1) z) (V z (l 1 0) z)) true (Some 0%nat) (l 1 1) (V z (l 1 0) z));
    (1814%nat, bvh_ok b (cylinder_isector) (ray_of (V (l 1 0) (l 1 1) z) (V z (l 1 0) z)) true (Some 0%nat) (l 1 1) (V z (l 1 0) z));
    (1834%nat, prim_ok (cylinder_coll s) (cylinder_isector) (ray_of (V (l 1 0) (l 1 1) (l 13 (-1))) (V z z (l 1 0))) false None (l 16777215 104) (V z z z));
    (1837%nat, bvh_ok b (cylinder_isector) (ray_of (V (l 1 0) (l 1 1) (l 13 (-1))) (V z z (l 1 0))) false None (l 16777215 104) (V z z z));
    (1852%nat, prim_ok (cylinder_coll s) (cylinder_isector) (ray_of (V (l 3 1) (l 1 1) (l 3 1)) (V (l 1 0) z (l 1 0))) false None (l 16777215 104) (V z z z));
    (1855%nat, bvh_ok b (cylinder_isector) (ray_of (V (l 3 1) (l 1 1) (l 3 1)) (V (l 1 0) z (l 1 0))) false None (l 16777215 104) (V z z z));
    (1869%nat, prim_ok (cylinder_coll s) (cylinder_isector) (ray_of (V (l 3 1) (l 1 1) (l 1 2)) (V (l 1 0) z (l 1 0))) false None (l 16777215 104) (V z z z));
    (1872%nat, bvh_ok b (cylinder_isector) (ray_of (V (l 3 1) (l 1 1) (l 1 2)) (V (l 1 0) z (l 1 0))) false None (l 16777215 104) (V z z z));
    (1886%nat, prim_ok (cylinder_coll s) (cylinder_isector) (ray_of (V (l (-1) 2) (l 1 1) (l 1 2)) (V (l (-1) 0) z (l 1 0))) false None (l 16777215 104) (V z z z));
    (1889%nat, bvh_ok b (cylinder_isector) (ray_of (V (l (-1) 2) (l 1 1) (l 1 2)) (V (l (-1) 0) z (l 1 0))) false None (l 16777215 104) (V z z z));
    (1903%nat, prim_ok (cylinder_coll s) (cylinder_isector) (ray_of (V (l 1 0) (l 7 0) (l 3 0)) (V z (l 1 0) (l 1 0))) false None (l 16777215 104) (V z z z));
    (1906%nat, bvh_ok b (cylinder_isector) (ray_of (V (l 1 0) (l 7 0) (l 3 0)) (V z (l 1 0) (l 1 0))) false None (l 16777215 104) (V z z z));
    (1920%nat, prim_ok (cylinder_coll s) (cylinder_isector) (ray_of (V (l 1 0) (l (-3) 0) (l 3 0)) (V z (l (-1) 0) (l 1 0))) false None (l 16777215 104) (V z z z));
    (1923%nat, bvh_ok b (cylinder_isector) (ray_of (V (l 1 0) (l (-3) 0) (l 3 0)) (V z (l (-1) 0) (l 1 0))) false None (l 16777215 104) (V z z z));
    (1940%nat, prim_ok (cylinder_coll s) (cylinder_isector) (ray_of (V (l 1 0) (l 1 1) (l (-17) (-1))) (V z z (l (-1) 0))) false None (l 16777215 104) (V z z z));
    (1943%nat, bvh_ok b (cylinder_isector) (ray_of (V (l 1 0) (l 1 1) (l (-17) (-1))) (V z z (l (-1) 0))) false None (l 16777215 104) (V z z z));
    (1958%nat, prim_ok (cylinder_coll s) (cylinder_isector) (ray_of (V (l 3 1) (l 1 1) (l (-3) 1)) (V (l 1 0) z (l (-1) 0))) false None (l 16777215 104) (V z z z));
    (1961%nat, bvh_ok b (cylinder_isector) (ray_of (V (l 3 1) (l 1 1) (l (-3) 1)) (V (l 1 0) z (l (-1) 0))) false None (l 16777215 104) (V z z z));
    (1975%nat, prim_ok (cylinder_coll s) (cylinder_isector) (ray_of (V (l 3 1) (l 1 1) (l (-1) 2)) (V (l 1 0) z (l (-1) 0))) false None (l 16777215 104) (V z z z));
    (1978%nat, bvh_ok b (cylinder_isector) (ray_of (V (l 3 1) (l 1 1) (l (-1) 2)) (V (l 1 0) z (l (-1) 0))) false None (l 16777215 104) (V z z z));
    (1992%nat, prim_ok (cylinder_coll s) (cylinder_isector) (ray_of (V (l (-1) 2) (l 1 1) (l (-1) 2)) (V (l (-1) 0) z (l (-1) 0))) false None (l 16777215 104) (V z z z));
    (1995%nat, bvh_ok b (cylinder_isector) (ray_of (V (l (-1) 2) (l 1 1) (l (-1) 2)) (V (l (-1) 0) z (l (-1) 0))) false None (l 16777215 104) (V z z z));
    (2009%nat, prim_ok (cylinder_coll s) (cylinder_isector) (ray_of (V (l 1 0) (l 7 0) (l (-3) 0)) (V z (l 1 0) (l (-1) 0))) false None (l 16777215 104) (V z z z));
    (2012%nat, bvh_ok b (cylinder_isector) (ray_of (V (l 1 0) (l 7 0) (l (-3) 0)) (V z (l 1 0) (l (-1) 0))) false None (l 16777215 104) (V z z z));
    (2026%nat, prim_ok (cylinder_coll s) (cylinder_isector) (ray_of (V (l 1 0) (l (-3) 0) (l (-3) 0)) (V z (l (-1) 0) (l (-1) 0))) false None (l 16777215 104) (V z z z));
    (2029%nat, bvh_ok b (cylinder_isector) (ray_of (V (l 1 0) (l (-3) 0) (l (-3) 0)) (V z (l (-1) 0) (l (-1) 0))) false None (l 16777215 104) (V z z z));
    (2046%nat, prim_ok (cylinder_coll s) (cylinder_isector) (ray_of (V (l 3 1) (l 1 1) z) (V (l 1 0) z z)) false None (l 16777215 104) (V z z z));
    (2049%nat, bvh_ok b (cylinder_isector) (ray_of (V (l 3 1) (l 1 1) z) (V (l 1 0) z z)) false None (l 16777215 104) (V z z z));
    (2063%nat, prim_ok (cylinder_coll s) (cylinder_isector) (ray_of (V (l (-1) 2) (l 1 1) z) (V (l (-1) 0) z z)) false None (l 16777215 104) (V z z z));
    (2066%nat, bvh_ok b (cylinder_isector) (ray_of (V (l (-1) 2) (l 1 1) z) (V (l (-1) 0) z z)) false None (l 16777215 104) (V z z z));
    (2080%nat, prim_ok (cylinder_coll s) (cylinder_isector) (ray_of (V (l 1 0) (l 7 0) z) (V z (l 1 0) z)) false None (l 16777215 104) (V z z z));
    (2083%nat, bvh_ok b (cylinder_isector) (ray_of (V (l 1 0) (l 7 0) z) (V z (l 1 0) z)) false None (l 16777215 104) (V z z z));
    (2097%nat, prim_ok (cylinder_coll s) (cylinder_isector) (ray_of (V (l 1 0) (l (-3) 0) z) (V z (l (-1) 0) z)) false None (l 16777215 104) (V z z z));
    (2100%nat, bvh_ok b (cylinder_isector) (ray_of (V (l 1 0) (l (-3) 0) z) (V z (l (-1) 0) z)) false None (l 16777215 104) (V z z z))]);
  on_all (make_cylinders [(V (l 1 0) (l 1 1) z)] [(l 1 0)] [(l 1 1)] [(l 1 1)] [(M (V (l (-6151831) (-47)) (l (-1) 0) z) (V (l 1 0) (l (-6151831) (-47)) z) (V z z (l 16777215 (-24))))]) (fun s => let b := tree (cylinder_coll s) in [
    (2125%nat, prim_ok (cylinder_coll s) (cylinder_isector) (ray_of (V (l 1 0) (l 1 1) (l 13 (-1))) (V z z (l (-1) 0))) true (Some 0%nat) (l 11 (-1)) (V z z (l 1 0)));
    (2128%nat, bvh_ok b (cylinder_isector) (ray_of (V (l 1 0) (l 1 1) (l 13 (-1))) (V z z (l (-1) 0))) true (Some 0%nat) (l 11 (-1)) (V z z (l 1 0)));
    (2193%nat, prim_ok (cylinder_coll s) (cylinder_isector) (ray_of (V (l 1 0) (l 1 1) (l 15 (-1))) (V z z (l 1 0))) false None (l 16777215 104) (V z z z));
    (2196%nat, bvh_ok b (cylinder_isector) (ray_of (V (l 1 0) (l 1 1) (l 15 (-1))) (V z z (l 1 0))) false None (l 16777215 104) (V z z z))]);
  on_all (make_cylinders [(V (l 1 0) (l 1 1) z)] [(l 1 0)] [(l 1 1)] [(l 1 1)] [(M (V (l (-6151831) (-47)) z (l 1 0)) (V z (l 16777215 (-24)) z) (V (l (-1) 0) z (l (-6151831) (-47))))]) (fun s => let b := tree (cylinder_coll s) in [
    (2147%nat, prim_ok (cylinder_coll s) (cylinder_isector) (ray_of (V (l 15 (-1)) (l 1 1) z) (V (l (-1) 0) z z)) true (Some 0%nat) (l 11 (-1)) (V (l 1 0) z z));
    (2150%nat, bvh_ok b (cylinder_isector) (ray_of (V (l 15 (-1)) (l 1 1) z) (V (l (-1) 0) z z)) true (Some 0%nat) (l 11 (-1)) (V (l 1 0) z z));
    (2215%nat, prim_ok (cylinder_coll s) (cylinder_isector) (ray_of (V (l 17 (-1)) (l 1 1) z) (V (l 1 0) z z)) false None (l 16777215 104) (V z z z));
    (2218%nat, bvh_ok b (cylinder_isector) (ray_of (V (l 17 (-1)) (l 1 1) z) (V (l 1 0) z z)) false None (l 16777215 104) (V z z z))]);
  on_all (make_cylinders [(V (l 1 0) (l 1 1) z)] [(l 1 0)] [(l 1 1)] [(l 1 1)] [(M (V (l 16777215 (-24)) z z) (V z (l (-6151831) (-47)) (l (-1) 0)) (V z (l 1 0) (l (-6151831) (-47))))]) (fun s => let b := tree (cylinder_coll s) in [
    (2169%nat, prim_ok (cylinder_coll s) (cylinder_isector) (ray_of (V (l 1 0) (l 21 (-1)) z) (V z (l (-1) 0) z)) true (Some 0%nat) (l 15 (-1)) (V z (l 1 0) z));
    (2172%nat, bvh_ok b (cylinder_isector) (ray_of (V (l 1 0) (l 21 (-1)) z) (V z (l (-1) 0) z)) true (Some 0%nat) (l 15 (-1)) (V z (l 1 0) z));
    (2237%nat, prim_ok (cylinder_coll s) (cylinder_isector) (ray_of (V (l 1 0) (l 11 (-1)) z) (V z (l 1 0) z)) false None (l 16777215 104) (V z z z));
    (2240%nat, bvh_ok b (cylinder_isector) (ray_of (V (l 1 0) (l 11 (-1)) z) (V z (l 1 0) z)) false None (l 16777215 104) (V z z z))])].
End S32_checks32.

Section S32_distances32.
Local Existing Instance F32.
Local Notation l := (l32) (only parsing).
Definition cylinder_distances32 : list (nat * bool) := concat [
  on_all (make_cylinders [(V z z z)] [(l 1 0)] [(l 1 0)] [(l 1 1)] [(M (V (l 1 0) z z) (V z (l 1 0) z) (V z z (l 1 0)))]) (fun s => [
    (198%nat, dist_ok (cylinder_coll s) cyl32 0 (V z z (l 1 0)) z);
    (199%nat, dist_ok (cylinder_coll s) cyl32 0 (V z z (l (-1) 0)) z);
    (200%nat, dist_ok (cylinder_coll s) cyl32 0 (V z (l 1 0) z) z);
    (201%nat, dist_ok (cylinder_coll s) cyl32 0 (V z (l (-1) 0) (l 1 0)) z);
    (202%nat, dist_ok (cylinder_coll s) cyl32 0 (V (l (-1) 0) z z) z);
    (203%nat, dist_ok (cylinder_coll s) cyl32 0 (V (l 1 0) z z) z);
    (204%nat, dist_ok (cylinder_coll s) cyl32 0 (V (l 11863283 (-24)) (l 11863283 (-24)) z) z);
    (205%nat, dist_ok (cylinder_coll s) cyl32 0 (V (l 11863283 (-24)) (l (-11863283) (-24)) z) z);
    (207%nat, dist_ok (cylinder_coll s) cyl32 0 (V (l (-11863283) (-24)) (l 11863283 (-24)) z) z);
    (209%nat, dist_ok (cylinder_coll s) cyl32 0 (V (l (-11863283) (-24)) (l (-11863283) (-24)) z) z);
    (213%nat, dist_ok (cylinder_coll s) cyl32 0 (V z z z) (l 1 0));
    (214%nat, dist_ok (cylinder_coll s) cyl32 0 (V z (l 1 (-1)) z) (l 1 (-1)));
    (217%nat, dist_ok (cylinder_coll s) cyl32 0 (V z z (l 1 (-1))) (l 1 (-1)));
    (218%nat, dist_ok (cylinder_coll s) cyl32 0 (V z (l 1 (-1)) (l 1 (-1))) (l 1 (-1)));
    (219%nat, dist_ok (cylinder_coll s) cyl32 0 (V (l 1 (-1)) z (l 1 (-1))) (l 1 (-1)));
    (220%nat, dist_ok (cylinder_coll s) cyl32 0 (V z (l 1 (-1)) (l 5033165 (-23))) (l 13421773 (-25)));
    (221%nat, dist_ok (cylinder_coll s) cyl32 0 (V (l 5033165 (-23)) z (l 1 (-1))) (l 13421773 (-25)));
    (222%nat, dist_ok (cylinder_coll s) cyl32 0 (V (l (-1) (-1)) z (l (-5033165) (-23))) (l 13421773 (-25)));
    (223%nat, dist_ok (cylinder_coll s) cyl32 0 (V (l (-1) (-1)) (l (-1) (-1)) z) (l 4913933 (-24)));
    (225%nat, dist_ok (cylinder_coll s) cyl32 0 (V (l 1 (-1)) (l (-1) (-1)) z) (l 4913933 (-24)));
    (227%nat, dist_ok (cylinder_coll s) cyl32 0 (V (l (-1) (-1)) (l 1 (-1)) z) (l 4913933 (-24)));
    (229%nat, dist_ok (cylinder_coll s) cyl32 0 (V (l 1 (-1)) (l 1 (-1)) z) (l 4913933 (-24)));
    (233%nat, dist_ok (cylinder_coll s) cyl32 0 (V (l 3 (-2)) (l 13421773 (-27)) z) (l 16331795 (-26)));
    (234%nat, dist_ok (cylinder_coll s) cyl32 0 (V (l 3 (-2)) (l 1 (-1)) z) (l 13235503 (-27)));
    (235%nat, dist_ok (cylinder_coll s) cyl32 0 (V (l (-13421773) (-25)) (l (-13421773) (-24)) z) (l 14169743 (-27)));
    (237%nat, dist_ok (cylinder_coll s) cyl32 0 (V (l (-13421773) (-25)) z z) (l 5033165 (-23)));
    (238%nat, dist_ok (cylinder_coll s) cyl32 0 (V (l (-13421773) (-26)) (l 13421773 (-25)) z) (l 9274217 (-24)));
    (241%nat, dist_ok (cylinder_coll s) cyl32 0 (V (l 1 1) z z) (l 1 0));
    (242%nat, dist_ok (cylinder_coll s) cyl32 0 (V (l (-1) 1) z z) (l 1 0));
    (243%nat, dist_ok (cylinder_coll s) cyl32 0 (V z (l 1 1) z) (l 1 0));
    (244%nat, dist_ok (cylinder_coll s) cyl32 0 (V z (l (-1) 1) z) (l 1 0));
    (245%nat, dist_ok (cylinder_coll s) cyl32 0 (V z z (l (-1) 1)) (l 1 0));
    (246%nat, dist_ok (cylinder_coll s) cyl32 0 (V z z (l 1 1)) (l 1 0));
    (249%nat, dist_ok (cylinder_coll s) cyl32 0 (V (l 1 0) (l 1 0) z) (l 13898701 (-25)));
    (250%nat, dist_ok (cylinder_coll s) cyl32 0 (V (l (-1) 0) (l 1 0) z) (l 13898701 (-25)));
    (251%nat, dist_ok (cylinder_coll s) cyl32 0 (V (l (-1) (-1)) (l 1 0) z) (l 7921127 (-26)));
    (252%nat, dist_ok (cylinder_coll s) cyl32 0 (V (l 5 0) (l 1 0) z) (l 8596267 (-21)));
    (253%nat, dist_ok (cylinder_coll s) cyl32 0 (V (l 15 0) (l 3 1) z) (l 1986461 (-17)));
    (254%nat, dist_ok (cylinder_coll s) cyl32 0 (V (l 5 0) (l (-25) 0) z) (l 6421243 (-18)));
    (255%nat, dist_ok (cylinder_coll s) cyl32 0 (V (l 5 0) (l (-125) 0) z) (l 8133015 (-16)));
    (256%nat, dist_ok (cylinder_coll s) cyl32 0 (V (l (-25) 1) (l (-125) 0) z) (l 4378759 (-15)))]);
  on_all (make_cylinders [(V z z z)] [(l 1 0)] [(l 1 0)] [(l 1 1)] [(M (V z z (l 1 0)) (V z (l 1 0) z) (V (l (-1) 0) z z))]) (fun s => [
    (267%nat, dist_ok (cylinder_coll s) cyl32 0 (V z z z) (l 1 0));
    (269%nat, dist_ok (cylinder_coll s) cyl32 0 (V (l 1 0) z z) z);
    (270%nat, dist_ok (cylinder_coll s) cyl32 0 (V (l (-1) 0) z z) z);
    (271%nat, dist_ok (cylinder_coll s) cyl32 0 (V z (l 1 0) z) z);
    (272%nat, dist_ok (cylinder_coll s) cyl32 0 (V (l 1 0) (l (-1) 0) z) z);
    (273%nat, dist_ok (cylinder_coll s) cyl32 0 (V z z (l (-1) 0)) z);
    (274%nat, dist_ok (cylinder_coll s) cyl32 0 (V z z (l 1 0)) z);
    (278%nat, dist_ok (cylinder_coll s) cyl32 0 (V (l 1 (-1)) z z) (l 1 (-1)));
    (279%nat, dist_ok (cylinder_coll s) cyl32 0 (V (l 1 (-1)) (l 1 (-1)) z) (l 1 (-1)));
    (280%nat, dist_ok (cylinder_coll s) cyl32 0 (V (l 1 (-1)) (l 5033165 (-23)) z) (l 13421773 (-25)));
    (281%nat, dist_ok (cylinder_coll s) cyl32 0 (V (l 5033165 (-23)) (l 1 (-1)) z) (l 13421773 (-25)));
    (282%nat, dist_ok (cylinder_coll s) cyl32 0 (V (l 1 (-1)) z (l 5033165 (-23))) (l 13421773 (-25)));
    (283%nat, dist_ok (cylinder_coll s) cyl32 0 (V (l (-5033165) (-23)) z (l (-1) (-1))) (l 13421773 (-25)));
    (284%nat, dist_ok (cylinder_coll s) cyl32 0 (V z (l (-1) (-1)) (l (-1) (-1))) (l 4913933 (-24)));
    (286%nat, dist_ok (cylinder_coll s) cyl32 0 (V (l (-13421773) (-27)) (l 1 (-1)) (l 1 (-1))) (l 4913933 (-24)))]);
  on_all (make_cylinders [(V z z z)] [(l 1 0)] [(l 1 0)] [(l 1 1)] [(M (V z z (l 1 0)) (V z (l 1 0) z) (V (l (-1) 0) z z)); (M (V (l 1 0) z z) (V z (l 1 0) z) (V z z (l 1 0)))]) (fun s => [
    (296%nat, dist_ok (cylinder_coll s) cyl32 0 (V z z (l 5 0)) (l 1 2));
    (297%nat, dist_ok (cylinder_coll s) cyl32 0 (V z z (l (-5) 0)) (l 1 2));
    (299%nat, dist_ok (cylinder_coll s) cyl32 0 (V z (l (-1) 1) z) (l 1 0));
    (300%nat, dist_ok (cylinder_coll s) cyl32 0 (V z (l 1 1) z) (l 1 0));
    (302%nat, dist_ok (cylinder_coll s) cyl32 0 (V (l (-1) 1) z z) (l 1 0));
    (303%nat, dist_ok (cylinder_coll s) cyl32 0 (V (l 1 1) z z) (l 1 0));
    (306%nat, dist_ok (cylinder_coll s) cyl32 0 (V (l 1 1) z (l 5 0)) (l 8646779 (-21)));
    (308%nat, dist_ok (cylinder_coll s) cyl32 0 (V (l 1 1) z (l 1 (-1))) (l 1 0));
    (309%nat, dist_ok (cylinder_coll s) cyl32 0 (V (l 5033165 (-22)) z (l 1 (-1))) (l 13421773 (-26)))]);
  on_all (make_cylinders [(V z z z)] [(l 1 0)] [(l 1 1)] [(l 1 1)] [(M (V (l 1 0) z z) (V z (l 1 0) z) (V z z (l 1 0)))]) (fun s => [
    (323%nat, dist_ok (cylinder_coll s) cyl32 0 (V z z (l 1 0)) z);
    (324%nat, dist_ok (cylinder_coll s) cyl32 0 (V z z (l (-1) 0)) z);
    (325%nat, dist_ok (cylinder_coll s) cyl32 0 (V z (l 1 1) z) z);
    (326%nat, dist_ok (cylinder_coll s) cyl32 0 (V z (l (-1) 1) (l 1 0)) z);
    (327%nat, dist_ok (cylinder_coll s) cyl32 0 (V (l (-1) 0) z z) z);
    (328%nat, dist_ok (cylinder_coll s) cyl32 0 (V (l 1 0) z z) z);
    (330%nat, dist_ok (cylinder_coll s) cyl32 0 (V (l 1015279 (-20)) (l 1048581 (-21)) z) z);
    (333%nat, dist_ok (cylinder_coll s) cyl32 0 (V (l (-1015279) (-20)) (l 1048581 (-21)) z) z);
    (337%nat, dist_ok (cylinder_coll s) cyl32 0 (V (l 1015279 (-20)) (l (-1048581) (-21)) z) z);
    (341%nat, dist_ok (cylinder_coll s) cyl32 0 (V (l (-1015279) (-20)) (l (-1048581) (-21)) z) z);
    (347%nat, dist_ok (cylinder_coll s) cyl32 0 (V z z (l 1 (-1))) (l 1 (-1)));
    (348%nat, dist_ok (cylinder_coll s) cyl32 0 (V z z (l (-1) (-1))) (l 1 (-1)));
    (350%nat, dist_ok (cylinder_coll s) cyl32 0 (V (l 1 (-1)) z z) (l 1 (-1)));
    (351%nat, dist_ok (cylinder_coll s) cyl32 0 (V (l (-1) (-1)) z z) (l 1 (-1)));
    (352%nat, dist_ok (cylinder_coll s) cyl32 0 (V z (l 3 (-1)) z) (l 1 (-1)));
    (353%nat, dist_ok (cylinder_coll s) cyl32 0 (V z (l (-3) (-1)) z) (l 1 (-1)));
    (355%nat, dist_ok (cylinder_coll s) cyl32 0 (V (l 5033165 (-23)) (l 1 (-1)) z) (l 6121703 (-24)));
    (356%nat, dist_ok (cylinder_coll s) cyl32 0 (V (l 5033165 (-23)) (l (-1) (-1)) z) (l 6121703 (-24)));
    (357%nat, dist_ok (cylinder_coll s) cyl32 0 (V (l (-5033165) (-23)) (l 1 (-1)) z) (l 6121703 (-24)));
    (358%nat, dist_ok (cylinder_coll s) cyl32 0 (V (l (-5033165) (-23)) (l (-1) (-1)) z) (l 6121703 (-24)));
    (360%nat, dist_ok (cylinder_coll s) cyl32 0 (V (l 13421773 (-26)) (l 1 (-1)) z) (l 1594385 (-21)));
    (361%nat, dist_ok (cylinder_coll s) cyl32 0 (V (l (-13421773) (-26)) (l 1 (-1)) z) (l 1594385 (-21)));
    (362%nat, dist_ok (cylinder_coll s) cyl32 0 (V (l 13421773 (-26)) (l (-1) (-1)) z) (l 1594385 (-21)));
    (363%nat, dist_ok (cylinder_coll s) cyl32 0 (V (l (-13421773) (-26)) (l (-1) (-1)) z) (l 1594385 (-21)));
    (365%nat, dist_ok (cylinder_coll s) cyl32 0 (V (l 11744051 (-24)) (l 5033165 (-22)) z) (l 12532359 (-27)));
    (366%nat, dist_ok (cylinder_coll s) cyl32 0 (V (l 11744051 (-24)) (l (-5033165) (-22)) z) (l 12532359 (-27)));
    (367%nat, dist_ok (cylinder_coll s) cyl32 0 (V (l (-11744051) (-24)) (l 5033165 (-22)) z) (l 12532359 (-27)));
    (368%nat, dist_ok (cylinder_coll s) cyl32 0 (V (l (-11744051) (-24)) (l (-5033165) (-22)) z) (l 12532359 (-27)));
    (372%nat, dist_ok (cylinder_coll s) cyl32 0 (V z z (l 3 (-1))) (l 1 (-1)));
    (373%nat, dist_ok (cylinder_coll s) cyl32 0 (V z z (l (-3) (-1))) (l 1 (-1)));
    (375%nat, dist_ok (cylinder_coll s) cyl32 0 (V (l 3 0) z (l 3 0)) (l 11863283 (-22)));
    (376%nat, dist_ok (cylinder_coll s) cyl32 0 (V (l (-3) 0) z (l 3 0)) (l 11863283 (-22)));
    (377%nat, dist_ok (cylinder_coll s) cyl32 0 (V (l 3 0) z (l (-3) 0)) (l 11863283 (-22)));
    (378%nat, dist_ok (cylinder_coll s) cyl32 0 (V (l (-3) 0) z (l (-3) 0)) (l 11863283 (-22)));
    (380%nat, dist_ok (cylinder_coll s) cyl32 0 (V z (l 1 2) (l 3 0)) (l 11863283 (-22)));
    (381%nat, dist_ok (cylinder_coll s) cyl32 0 (V z (l (-1) 2) (l 3 0)) (l 11863283 (-22)));
    (382%nat, dist_ok (cylinder_coll s) cyl32 0 (V z (l 1 2) (l (-3) 0)) (l 11863283 (-22)));
    (383%nat, dist_ok (cylinder_coll s) cyl32 0 (V z (l (-1) 2) (l (-3) 0)) (l 11863283 (-22)));
    (386%nat, dist_ok (cylinder_coll s) cyl32 0 (V (l 1 0) (l 1 0) z) (l 8653197 (-26)));
    (387%nat, dist_ok (cylinder_coll s) cyl32 0 (V (l (-1) 0) (l 1 0) z) (l 8653197 (-26)));
    (388%nat, dist_ok (cylinder_coll s) cyl32 0 (V (l 1 0) (l (-1) 0) z) (l 8653197 (-26)));
    (389%nat, dist_ok (cylinder_coll s) cyl32 0 (V (l (-1) 0) (l (-1) 0) z) (l 8653197 (-26)));
    (391%nat, dist_ok (cylinder_coll s) cyl32 0 (V (l 5 0) (l 1 0) z) (l 4259961 (-20)));
    (392%nat, dist_ok (cylinder_coll s) cyl32 0 (V (l (-5) 0) (l 1 0) z) (l 4259961 (-20)));
    (393%nat, dist_ok (cylinder_coll s) cyl32 0 (V (l 5 0) (l (-1) 0) z) (l 4259961 (-20)));
    (394%nat, dist_ok (cylinder_coll s) cyl32 0 (V (l (-5) 0) (l (-1) 0) z) (l 4259961 (-20)));
    (396%nat, dist_ok (cylinder_coll s) cyl32 0 (V (l 1 0) (l 5 0) z) (l 3292289 (-20)));
    (397%nat, dist_ok (cylinder_coll s) cyl32 0 (V (l (-1) 0) (l 5 0) z) (l 3292289 (-20)));
    (398%nat, dist_ok (cylinder_coll s) cyl32 0 (V (l 1 0) (l (-5) 0) z) (l 3292289 (-20)));
    (399%nat, dist_ok (cylinder_coll s) cyl32 0 (V (l (-1) 0) (l (-5) 0) z) (l 3292289 (-20)))]);
  on_all (make_cylinders [(V z z z)] [(l 1 1)] [(l 1 0)] [(l 1 1)] [(M (V (l 1 0) z z) (V z (l 1 0) z) (V z z (l 1 0)))]) (fun s => [
    (413%nat, dist_ok (cylinder_coll s) cyl32 0 (V z z (l 1 0)) z);
    (414%nat, dist_ok (cylinder_coll s) cyl32 0 (V z z (l (-1) 0)) z);
    (415%nat, dist_ok (cylinder_coll s) cyl32 0 (V z (l 1 0) z) z);
    (416%nat, dist_ok (cylinder_coll s) cyl32 0 (V z (l (-1) 0) (l 1 0)) z);
    (417%nat, dist_ok (cylinder_coll s) cyl32 0 (V (l (-1) 1) z z) z);
    (418%nat, dist_ok (cylinder_coll s) cyl32 0 (V (l 1 1) z z) z);
    (437%nat, dist_ok (cylinder_coll s) cyl32 0 (V z z (l 1 (-1))) (l 1 (-1)));
    (438%nat, dist_ok (cylinder_coll s) cyl32 0 (V z z (l (-1) (-1))) (l 1 (-1)));
    (440%nat, dist_ok (cylinder_coll s) cyl32 0 (V z (l 1 (-1)) z) (l 1 (-1)));
    (441%nat, dist_ok (cylinder_coll s) cyl32 0 (V z (l (-1) (-1)) z) (l 1 (-1)));
    (442%nat, dist_ok (cylinder_coll s) cyl32 0 (V (l 13421773 (-23)) z z) (l 13421773 (-25)));
    (443%nat, dist_ok (cylinder_coll s) cyl32 0 (V (l 13421773 (-23)) z z) (l 13421773 (-25)));
    (445%nat, dist_ok (cylinder_coll s) cyl32 0 (V (l 5033165 (-23)) (l 1 (-1)) z) (l 15020037 (-25)));
    (446%nat, dist_ok (cylinder_coll s) cyl32 0 (V (l (-5033165) (-23)) (l 1 (-1)) z) (l 15020037 (-25)));
    (447%nat, dist_ok (cylinder_coll s) cyl32 0 (V (l 5033165 (-23)) (l (-1) (-1)) z) (l 15020037 (-25)));
    (448%nat, dist_ok (cylinder_coll s) cyl32 0 (V (l (-5033165) (-23)) (l (-1) (-1)) z) (l 15020037 (-25)));
    (450%nat, dist_ok (cylinder_coll s) cyl32 0 (V (l 1 (-1)) (l 13421773 (-26)) z) (l 1594385 (-21)));
    (451%nat, dist_ok (cylinder_coll s) cyl32 0 (V (l (-1) (-1)) (l 13421773 (-26)) z) (l 1594385 (-21)));
    (452%nat, dist_ok (cylinder_coll s) cyl32 0 (V (l 1 (-1)) (l (-13421773) (-26)) z) (l 1594385 (-21)));
    (453%nat, dist_ok (cylinder_coll s) cyl32 0 (V (l (-1) (-1)) (l (-13421773) (-26)) z) (l 1594385 (-21)));
    (455%nat, dist_ok (cylinder_coll s) cyl32 0 (V (l 5033165 (-22)) (l 11744051 (-24)) z) (l 12532359 (-27)));
    (456%nat, dist_ok (cylinder_coll s) cyl32 0 (V (l (-5033165) (-22)) (l 11744051 (-24)) z) (l 12532359 (-27)));
    (457%nat, dist_ok (cylinder_coll s) cyl32 0 (V (l 5033165 (-22)) (l (-11744051) (-24)) z) (l 12532359 (-27)));
    (458%nat, dist_ok (cylinder_coll s) cyl32 0 (V (l (-5033165) (-22)) (l (-11744051) (-24)) z) (l 12532359 (-27)));
    (462%nat, dist_ok (cylinder_coll s) cyl32 0 (V z z (l 3 (-1))) (l 1 (-1)));
    (463%nat, dist_ok (cylinder_coll s) cyl32 0 (V z z (l (-3) (-1))) (l 1 (-1)));
    (465%nat, dist_ok (cylinder_coll s) cyl32 0 (V (l 1 2) z (l 3 0)) (l 11863283 (-22)));
    (466%nat, dist_ok (cylinder_coll s) cyl32 0 (V (l (-1) 2) z (l 3 0)) (l 11863283 (-22)));
    (467%nat, dist_ok (cylinder_coll s) cyl32 0 (V (l 1 2) z (l (-3) 0)) (l 11863283 (-22)));
    (468%nat, dist_ok (cylinder_coll s) cyl32 0 (V (l (-1) 2) z (l (-3) 0)) (l 11863283 (-22)));
    (470%nat, dist_ok (cylinder_coll s) cyl32 0 (V z (l 3 0) (l 3 0)) (l 11863283 (-22)));
    (471%nat, dist_ok (cylinder_coll s) cyl32 0 (V z (l (-3) 0) (l 3 0)) (l 11863283 (-22)));
    (472%nat, dist_ok (cylinder_coll s) cyl32 0 (V z (l 3 0) (l (-3) 0)) (l 11863283 (-22)));
    (473%nat, dist_ok (cylinder_coll s) cyl32 0 (V z (l (-3) 0) (l (-3) 0)) (l 11863283 (-22)));
    (475%nat, dist_ok (cylinder_coll s) cyl32 0 (V (l 1 0) (l 1 0) z) (l 8653197 (-26)));
    (476%nat, dist_ok (cylinder_coll s) cyl32 0 (V (l (-1) 0) (l 1 0) z) (l 8653197 (-26)));
    (477%nat, dist_ok (cylinder_coll s) cyl32 0 (V (l 1 0) (l (-1) 0) z) (l 8653197 (-26)));
    (478%nat, dist_ok (cylinder_coll s) cyl32 0 (V (l (-1) 0) (l (-1) 0) z) (l 8653197 (-26)));
    (480%nat, dist_ok (cylinder_coll s) cyl32 0 (V (l 5 0) (l 1 0) z) (l 3292289 (-20)));
    (481%nat, dist_ok (cylinder_coll s) cyl32 0 (V (l (-5) 0) (l 1 0) z) (l 3292289 (-20)));
    (482%nat, dist_ok (cylinder_coll s) cyl32 0 (V (l 5 0) (l (-1) 0) z) (l 3292289 (-20)));
    (483%nat, dist_ok (cylinder_coll s) cyl32 0 (V (l (-5) 0) (l (-1) 0) z) (l 3292289 (-20)));
    (485%nat, dist_ok (cylinder_coll s) cyl32 0 (V (l 1 0) (l 5 0) z) (l 4259961 (-20)));
    (486%nat, dist_ok (cylinder_coll s) cyl32 0 (V (l (-1) 0) (l 5 0) z) (l 4259961 (-20)));
    (487%nat, dist_ok (cylinder_coll s) cyl32 0 (V (l 1 0) (l (-5) 0) z) (l 4259961 (-20)));
    (488%nat, dist_ok (cylinder_coll s) cyl32 0 (V (l (-1) 0) (l (-5) 0) z) (l 4259961 (-20)));
    (490%nat, dist_ok (cylinder_coll s) cyl32 0 (V (l 5 1) (l 5 0) z) (l 9812161 (-20)));
    (491%nat, dist_ok (cylinder_coll s) cyl32 0 (V (l (-5) 1) (l 5 0) z) (l 9812161 (-20)));
    (492%nat, dist_ok (cylinder_coll s) cyl32 0 (V (l 5 1) (l (-5) 0) z) (l 9812161 (-20)));
    (493%nat, dist_ok (cylinder_coll s) cyl32 0 (V (l (-5) 1) (l (-5) 0) z) (l 9812161 (-20)))]);
  on_all (make_cylinders [(V (l 1 0) (l 1 0) (l 1 0))] [(l 1 0)] [(l 1 0)] [(l 1 1)] [(M (V (l 1 0) z z) (V z (l 1 0) z) (V z z (l 1 0)))]) (fun s => [
    (512%nat, dist_ok (cylinder_coll s) cyl32 0 (V (l 1 0) (l 1 0) (l 1 0)) (l 1 0));
    (514%nat, dist_ok (cylinder_coll s) cyl32 0 (V (l 1 0) (l 1 0) (l 1 1)) z);
    (515%nat, dist_ok (cylinder_coll s) cyl32 0 (V (l 1 0) (l 1 0) z) z);
    (516%nat, dist_ok (cylinder_coll s) cyl32 0 (V (l 1 0) (l 1 1) (l 1 0)) z);
    (517%nat, dist_ok (cylinder_coll s) cyl32 0 (V (l 1 0) z (l 1 1)) z);
    (518%nat, dist_ok (cylinder_coll s) cyl32 0 (V z (l 1 0) (l 1 0)) z);
    (519%nat, dist_ok (cylinder_coll s) cyl32 0 (V (l 1 1) (l 1 0) (l 1 0)) z);
    (523%nat, dist_ok (cylinder_coll s) cyl32 0 (V (l 1 0) (l 1 0) (l 3 (-1))) (l 1 (-1)));
    (524%nat, dist_ok (cylinder_coll s) cyl32 0 (V (l 1 0) (l 3 (-1)) (l 3 (-1))) (l 1 (-1)));
    (525%nat, dist_ok (cylinder_coll s) cyl32 0 (V (l 1 0) (l 13421773 (-23)) (l 3 (-1))) (l 13421773 (-25)));
    (526%nat, dist_ok (cylinder_coll s) cyl32 0 (V (l 1 0) (l 3 (-1)) (l 13421773 (-23))) (l 13421773 (-25)));
    (527%nat, dist_ok (cylinder_coll s) cyl32 0 (V (l 13421773 (-23)) (l 1 0) (l 3 (-1))) (l 13421773 (-25)));
    (528%nat, dist_ok (cylinder_coll s) cyl32 0 (V (l 1 (-1)) (l 1 0) (l 13421773 (-25))) (l 13421773 (-25)));
    (529%nat, dist_ok (cylinder_coll s) cyl32 0 (V (l 1 (-1)) (l 1 (-1)) (l 1 0)) (l 4913933 (-24)));
    (531%nat, dist_ok (cylinder_coll s) cyl32 0 (V (l 3 (-1)) (l 3 (-1)) (l 7549747 (-23))) (l 4913933 (-24)));
    (535%nat, dist_ok (cylinder_coll s) cyl32 0 (V (l 1 0) (l 1 0) (l 3 1)) (l 1 2));
    (536%nat, dist_ok (cylinder_coll s) cyl32 0 (V (l 1 0) (l 1 0) (l (-1) 2)) (l 1 2));
    (537%nat, dist_ok (cylinder_coll s) cyl32 0 (V (l 1 0) (l (-1) 0) (l 1 0)) (l 1 0));
    (538%nat, dist_ok (cylinder_coll s) cyl32 0 (V (l 1 0) (l 3 0) (l 1 0)) (l 1 0));
    (539%nat, dist_ok (cylinder_coll s) cyl32 0 (V (l (-1) 0) (l 1 0) (l 1 0)) (l 1 0));
    (540%nat, dist_ok (cylinder_coll s) cyl32 0 (V (l 3 0) (l 1 0) (l 1 0)) (l 1 0))]);
  on_all (make_cylinders [(V (l 1 0) (l 1 0) (l 1 0))] [(l 1 0)] [(l 1 0)] [(l 1 1)] [(M (V z z (l 1 0)) (V z (l 1 0) z) (V (l (-1) 0) z z))]) (fun s => [
    (551%nat, dist_ok (cylinder_coll s) cyl32 0 (V (l 1 0) (l 1 0) (l 1 0)) (l 1 0));
    (553%nat, dist_ok (cylinder_coll s) cyl32 0 (V (l 1 1) (l 1 0) (l 1 0)) z);
    (554%nat, dist_ok (cylinder_coll s) cyl32 0 (V z (l 1 0) (l 1 0)) z);
    (555%nat, dist_ok (cylinder_coll s) cyl32 0 (V (l 1 0) (l 1 1) (l 1 0)) z);
    (556%nat, dist_ok (cylinder_coll s) cyl32 0 (V (l 1 1) z (l 1 0)) z);
    (557%nat, dist_ok (cylinder_coll s) cyl32 0 (V (l 1 0) (l 1 0) z) z);
    (558%nat, dist_ok (cylinder_coll s) cyl32 0 (V (l 1 0) (l 1 0) (l 1 1)) z);
    (562%nat, dist_ok (cylinder_coll s) cyl32 0 (V (l 3 (-1)) (l 1 0) (l 1 0)) (l 1 (-1)));
    (563%nat, dist_ok (cylinder_coll s) cyl32 0 (V (l 3 (-1)) (l 3 (-1)) (l 1 0)) (l 1 (-1)));
    (564%nat, dist_ok (cylinder_coll s) cyl32 0 (V (l 3 (-1)) (l 13421773 (-23)) (l 1 0)) (l 13421773 (-25)));
    (565%nat, dist_ok (cylinder_coll s) cyl32 0 (V (l 13421773 (-23)) (l 3 (-1)) (l 1 0)) (l 13421773 (-25)));
    (566%nat, dist_ok (cylinder_coll s) cyl32 0 (V (l 3 (-1)) (l 1 0) (l 13421773 (-23))) (l 13421773 (-25)));
    (567%nat, dist_ok (cylinder_coll s) cyl32 0 (V (l 13421773 (-25)) (l 1 0) (l 1 (-1))) (l 13421773 (-25)));
    (568%nat, dist_ok (cylinder_coll s) cyl32 0 (V (l 1 0) (l 1 (-1)) (l 1 (-1))) (l 4913933 (-24)));
    (570%nat, dist_ok (cylinder_coll s) cyl32 0 (V (l 7549747 (-23)) (l 3 (-1)) (l 3 (-1))) (l 4913933 (-24)));
    (574%nat, dist_ok (cylinder_coll s) cyl32 0 (V (l 3 1) (l 1 0) (l 1 0)) (l 1 2));
    (575%nat, dist_ok (cylinder_coll s) cyl32 0 (V (l (-1) 2) (l 1 0) (l 1 0)) (l 1 2));
    (576%nat, dist_ok (cylinder_coll s) cyl32 0 (V (l 1 0) (l (-1) 0) (l 1 0)) (l 1 0));
    (577%nat, dist_ok (cylinder_coll s) cyl32 0 (V (l 1 0) (l 3 0) (l 1 0)) (l 1 0));
    (578%nat, dist_ok (cylinder_coll s) cyl32 0 (V (l (-1) 0) (l 1 0) (l 1 0)) (l 1 0));
    (579%nat, dist_ok (cylinder_coll s) cyl32 0 (V (l 3 0) (l 1 0) (l 1 0)) (l 1 0))])].
End S32_distances32.
