(** The tests of /repo/test/test_primitives/test_plane.cpp, evaluated by the model.
    Written by tools/suite.py; each entry is the line of the test and its answer. *)

From Coq Require Import ZArith List Bool.
From Coq.Floats Require Import SpecFloat.
From Verif Require Import Num NumF Vec Ray Bvh Traverse Sphere Plane Cylinder CylDist Trimesh Suite.
Import ListNotations.

Section S64_checks64.
Local Existing Instance F64.
Local Notation l := (l64) (only parsing).
Definition plane_checks64 : list (nat * bool) := concat [
  on_all (make_planes [(V z z z)] [(l 1 1)] [(l 1 1)] [(M (V (l 1 0) z z) (V z (l 1 0) z) (V z z (l 1 0)))]) (fun s => let b := tree (plane_coll s) in [
    (73%nat, box_ok (plane_coll s) 0 (V (l (-1) 0) (l (-1) 0) (l (-1) (-1022))) (V (l 1 0) (l 1 0) (l 1 (-1022))));
    (173%nat, center_ok (plane_coll s) 0 (V z z z));
    (253%nat, dist_ok (plane_coll s) plane_distance 0 (V z z (l 1 0)) (l 1 0));
    (254%nat, dist_ok (plane_coll s) plane_distance 0 (V z z (l (-1) 0)) (l 1 0));
    (256%nat, dist_ok (plane_coll s) plane_distance 0 (V (l 1 0) (l 1 0) (l 1 0)) (l 1 0));
    (257%nat, dist_ok (plane_coll s) plane_distance 0 (V (l (-1) 0) (l 1 0) (l 1 0)) (l 1 0));
    (258%nat, dist_ok (plane_coll s) plane_distance 0 (V (l 1 0) (l (-1) 0) (l 1 0)) (l 1 0));
    (259%nat, dist_ok (plane_coll s) plane_distance 0 (V (l (-1) 0) (l (-1) 0) (l 1 0)) (l 1 0));
    (261%nat, dist_ok (plane_coll s) plane_distance 0 (V (l 1 0) (l 1 0) (l (-1) 0)) (l 1 0));
    (262%nat, dist_ok (plane_coll s) plane_distance 0 (V (l (-1) 0) (l 1 0) (l (-1) 0)) (l 1 0));
    (263%nat, dist_ok (plane_coll s) plane_distance 0 (V (l 1 0) (l (-1) 0) (l (-1) 0)) (l 1 0));
    (264%nat, dist_ok (plane_coll s) plane_distance 0 (V (l (-1) 0) (l (-1) 0) (l (-1) 0)) (l 1 0));
    (352%nat, prim_ok (plane_coll s) (plane_isector) (ray_of (V z z (l 5 0)) (V z z (l (-1) 0))) true (Some 0%nat) (l 5 0) (V z z (l 1 0)));
    (355%nat, bvh_ok b (plane_isector) (ray_of (V z z (l 5 0)) (V z z (l (-1) 0))) true (Some 0%nat) (l 5 0) (V z z (l 1 0)));
    (421%nat, prim_ok (plane_coll s) (plane_isector) (ray_of (V (l 1 2) z (l 1 2)) (V (l (-1) 0) z (l (-1) 0))) true (Some 0%nat) (l 6369051672525773 (-50)) (V z z (l 1 0)));
    (424%nat, bvh_ok b (plane_isector) (ray_of (V (l 1 2) z (l 1 2)) (V (l (-1) 0) z (l (-1) 0))) true (Some 0%nat) (l 6369051672525773 (-50)) (V z z (l 1 0)));
    (437%nat, prim_ok (plane_coll s) (plane_isector) (ray_of (V (l (-1) 2) z (l (-1) 2)) (V (l 1 0) z (l 1 0))) true (Some 0%nat) (l 6369051672525773 (-50)) (V z z (l (-1) 0)));
    (440%nat, bvh_ok b (plane_isector) (ray_of (V (l (-1) 2) z (l (-1) 2)) (V (l 1 0) z (l 1 0))) true (Some 0%nat) (l 6369051672525773 (-50)) (V z z (l (-1) 0)));
    (470%nat, prim_ok (plane_coll s) (plane_isector) (ray_of (V (l 1 0) z (l 1 2)) (V z z (l (-1) 0))) true (Some 0%nat) (l 1 2) (V (l 1592262918131443 (-51)) z (l 1592262918131443 (-51))));
    (473%nat, bvh_ok b (plane_isector) (ray_of (V (l 1 0) z (l 1 2)) (V z z (l (-1) 0))) true (Some 0%nat) (l 1 2) (V (l 1592262918131443 (-51)) z (l 1592262918131443 (-51))));
    (487%nat, prim_ok (plane_coll s) (plane_isector) (ray_of (V (l (-1) 0) z (l 1 2)) (V z z (l (-1) 0))) true (Some 0%nat) (l 1 2) (V (l (-1592262918131443) (-51)) z (l 1592262918131443 (-51))));
    (490%nat, bvh_ok b (plane_isector) (ray_of (V (l (-1) 0) z (l 1 2)) (V z z (l (-1) 0))) true (Some 0%nat) (l 1 2) (V (l (-1592262918131443) (-51)) z (l 1592262918131443 (-51))));
    (512%nat, prim_ok (plane_coll s) (plane_isector) (ray_of (V z (l 1 0) (l 1 2)) (V z z (l (-1) 0))) true (Some 0%nat) (l 1 2) (V z (l 1592262918131443 (-51)) (l 1592262918131443 (-51))));
    (515%nat, bvh_ok b (plane_isector) (ray_of (V z (l 1 0) (l 1 2)) (V z z (l (-1) 0))) true (Some 0%nat) (l 1 2) (V z (l 1592262918131443 (-51)) (l 1592262918131443 (-51))));
    (538%nat, prim_ok (plane_coll s) (plane_isector) (ray_of (V z (l (-1) 0) (l 1 2)) (V z z (l (-1) 0))) true (Some 0%nat) (l 1 2) (V z (l (-1592262918131443) (-51)) (l 1592262918131443 (-51))));
    (541%nat, bvh_ok b (plane_isector) (ray_of (V z (l (-1) 0) (l 1 2)) (V z z (l (-1) 0))) true (Some 0%nat) (l 1 2) (V z (l (-1592262918131443) (-51)) (l 1592262918131443 (-51))));
    (570%nat, prim_ok (plane_coll s) (plane_isector) (ray_of (V (l 1 0) (l 1 0) (l 1 2)) (V z z (l (-1) 0))) true (Some 0%nat) (l 1 2) (V (l 5200308914369309 (-53)) (l 5200308914369309 (-53)) (l 5200308914369309 (-53))));
    (573%nat, bvh_ok b (plane_isector) (ray_of (V (l 1 0) (l 1 0) (l 1 2)) (V z z (l (-1) 0))) true (Some 0%nat) (l 1 2) (V (l 5200308914369309 (-53)) (l 5200308914369309 (-53)) (l 5200308914369309 (-53))));
    (587%nat, prim_ok (plane_coll s) (plane_isector) (ray_of (V (l (-1) 0) (l 1 0) (l 1 2)) (V z z (l (-1) 0))) true (Some 0%nat) (l 1 2) (V (l (-5200308914369309) (-53)) (l 5200308914369309 (-53)) (l 5200308914369309 (-53))));
    (590%nat, bvh_ok b (plane_isector) (ray_of (V (l (-1) 0) (l 1 0) (l 1 2)) (V z z (l (-1) 0))) true (Some 0%nat) (l 1 2) (V (l (-5200308914369309) (-53)) (l 5200308914369309 (-53)) (l 5200308914369309 (-53))));
    (604%nat, prim_ok (plane_coll s) (plane_isector) (ray_of (V (l 1 0) (l (-1) 0) (l 1 2)) (V z z (l (-1) 0))) true (Some 0%nat) (l 1 2) (V (l 5200308914369309 (-53)) (l (-5200308914369309) (-53)) (l 5200308914369309 (-53))));
    (607%nat, bvh_ok b (plane_isector) (ray_of (V (l 1 0) (l (-1) 0) (l 1 2)) (V z z (l (-1) 0))) true (Some 0%nat) (l 1 2) (V (l 5200308914369309 (-53)) (l (-5200308914369309) (-53)) (l 5200308914369309 (-53))));
    (622%nat, prim_ok (plane_coll s) (plane_isector) (ray_of (V (l (-1) 0) (l (-1) 0) (l 1 2)) (V z z (l (-1) 0))) true (Some 0%nat) (l 1 2) (V (l (-5200308914369309) (-53)) (l (-5200308914369309) (-53)) (l 5200308914369309 (-53))));
    (625%nat, bvh_ok b (plane_isector) (ray_of (V (l (-1) 0) (l (-1) 0) (l 1 2)) (V z z (l (-1) 0))) true (Some 0%nat) (l 1 2) (V (l (-5200308914369309) (-53)) (l (-5200308914369309) (-53)) (l 5200308914369309 (-53))))]);
  on_all (make_planes [(V z z z)] [(l 1 1)] [(l 1 1)] [(M (V z z (l 1 0)) (V z (l 1 0) z) (V (l (-1) 0) z z))]) (fun s => [
    (85%nat, box_ok (plane_coll s) 0 (V (l (-1) (-1022)) (l (-1) 0) (l (-1) 0)) (V (l 1 (-1022)) (l 1 0) (l 1 0)));
    (182%nat, center_ok (plane_coll s) 0 (V z z z));
    (273%nat, dist_ok (plane_coll s) plane_distance 0 (V (l 1 0) z z) (l 1 0));
    (274%nat, dist_ok (plane_coll s) plane_distance 0 (V (l (-1) 0) z z) (l 1 0));
    (276%nat, dist_ok (plane_coll s) plane_distance 0 (V (l 1 0) (l 1 0) (l 1 0)) (l 1 0));
    (277%nat, dist_ok (plane_coll s) plane_distance 0 (V (l 1 0) (l 1 0) (l (-1) 0)) (l 1 0));
    (278%nat, dist_ok (plane_coll s) plane_distance 0 (V (l 1 0) (l (-1) 0) (l 1 0)) (l 1 0));
    (279%nat, dist_ok (plane_coll s) plane_distance 0 (V (l 1 0) (l (-1) 0) (l (-1) 0)) (l 1 0));
    (281%nat, dist_ok (plane_coll s) plane_distance 0 (V (l (-1) 0) (l 1 0) (l 1 0)) (l 1 0));
    (282%nat, dist_ok (plane_coll s) plane_distance 0 (V (l (-1) 0) (l 1 0) (l (-1) 0)) (l 1 0));
    (283%nat, dist_ok (plane_coll s) plane_distance 0 (V (l (-1) 0) (l (-1) 0) (l 1 0)) (l 1 0));
    (284%nat, dist_ok (plane_coll s) plane_distance 0 (V (l (-1) 0) (l (-1) 0) (l (-1) 0)) (l 1 0))]);
  on_all (make_planes [(V z z z)] [(l 1 1)] [(l 1 1)] [(M (V (l 4503599627370495 (-53)) (l 9007199254740989 (-54)) (l 1592262918131443 (-51))) (V (l 9007199254740989 (-54)) (l 4503599627370495 (-53)) (l (-1592262918131443) (-51))) (V (l (-1592262918131443) (-51)) (l 1592262918131443 (-51)) (l 4967757600021511 (-106))))]) (fun s => let b := tree (plane_coll s) in [
    (99%nat, box_ok (plane_coll s) 0 (V (l (-1) 0) (l (-1) 0) (l (-6369051672525773) (-52))) (V (l 1 0) (l 1 0) (l 6369051672525773 (-52))));
    (193%nat, center_ok (plane_coll s) 0 (V z z z));
    (398%nat, prim_ok (plane_coll s) (plane_isector) (ray_of (V (l (-5) 0) (l 5 0) (l 1 (-1))) (V (l 1 0) (l (-1) 0) z)) true (Some 0%nat) (l 124395540479019 (-44)) (V (l (-1592262918131443) (-51)) (l 1592262918131443 (-51)) z));
    (401%nat, bvh_ok b (plane_isector) (ray_of (V (l (-5) 0) (l 5 0) (l 1 (-1))) (V (l 1 0) (l (-1) 0) z)) true (Some 0%nat) (l 124395540479019 (-44)) (V (l (-1592262918131443) (-51)) (l 1592262918131443 (-51)) z))]);
  on_all (make_planes [(V z z z)] [(l 1 1)] [(l 1 1)] [(M (V (l 6369051672525773 (-53)) (l (-1592262918131443) (-51)) z) (V (l 1592262918131443 (-51)) (l 6369051672525773 (-53)) z) (V z z (l 1 0)))]) (fun s => [
    (110%nat, box_ok (plane_coll s) 0 (V (l (-6369051672525773) (-52)) (l (-6369051672525773) (-52)) z) (V (l 6369051672525773 (-52)) (l 6369051672525773 (-52)) z));
    (201%nat, center_ok (plane_coll s) 0 (V z z z))]);
  on_all (make_planes [(V (l 1 0) (l 1 0) (l 1 0))] [(l 1 1)] [(l 1 1)] [(M (V (l 1 0) z z) (V z (l 1 0) z) (V z z (l 1 0)))]) (fun s => let b := tree (plane_coll s) in [
    (125%nat, box_ok (plane_coll s) 0 (V z z (l 1 0)) (V (l 1 1) (l 1 1) (l 1 0)));
    (213%nat, center_ok (plane_coll s) 0 (V (l 1 0) (l 1 0) (l 1 0)));
    (648%nat, prim_ok (plane_coll s) (plane_isector) (ray_of (V (l 1 0) (l 1 0) (l 5 0)) (V z z (l (-1) 0))) true (Some 0%nat) (l 1 2) (V z z (l 1 0)));
    (651%nat, bvh_ok b (plane_isector) (ray_of (V (l 1 0) (l 1 0) (l 5 0)) (V z z (l (-1) 0))) true (Some 0%nat) (l 1 2) (V z z (l 1 0)));
    (715%nat, prim_ok (plane_coll s) (plane_isector) (ray_of (V (l 5 0) (l 1 0) (l 5 0)) (V (l (-1) 0) z (l (-1) 0))) true (Some 0%nat) (l 6369051672525773 (-50)) (V z z (l 1 0)));
    (718%nat, bvh_ok b (plane_isector) (ray_of (V (l 5 0) (l 1 0) (l 5 0)) (V (l (-1) 0) z (l (-1) 0))) true (Some 0%nat) (l 6369051672525773 (-50)) (V z z (l 1 0)));
    (731%nat, prim_ok (plane_coll s) (plane_isector) (ray_of (V (l (-3) 0) (l 1 0) (l (-3) 0)) (V (l 1 0) z (l 1 0))) true (Some 0%nat) (l 6369051672525773 (-50)) (V z z (l (-1) 0)));
    (734%nat, bvh_ok b (plane_isector) (ray_of (V (l (-3) 0) (l 1 0) (l (-3) 0)) (V (l 1 0) z (l 1 0))) true (Some 0%nat) (l 6369051672525773 (-50)) (V z z (l (-1) 0)));
    (755%nat, prim_ok (plane_coll s) (plane_isector) (ray_of (V (l 1 1) (l 1 0) (l 1 2)) (V z z (l (-1) 0))) true (Some 0%nat) (l 3 0) (V (l 1592262918131443 (-51)) z (l 1592262918131443 (-51))));
    (758%nat, bvh_ok b (plane_isector) (ray_of (V (l 1 1) (l 1 0) (l 1 2)) (V z z (l (-1) 0))) true (Some 0%nat) (l 3 0) (V (l 1592262918131443 (-51)) z (l 1592262918131443 (-51))));
    (772%nat, prim_ok (plane_coll s) (plane_isector) (ray_of (V z (l 1 0) (l 1 2)) (V z z (l (-1) 0))) true (Some 0%nat) (l 3 0) (V (l (-1592262918131443) (-51)) z (l 1592262918131443 (-51))));
    (775%nat, bvh_ok b (plane_isector) (ray_of (V z (l 1 0) (l 1 2)) (V z z (l (-1) 0))) true (Some 0%nat) (l 3 0) (V (l (-1592262918131443) (-51)) z (l 1592262918131443 (-51))));
    (788%nat, prim_ok (plane_coll s) (plane_isector) (ray_of (V (l 1 0) (l 1 1) (l 1 2)) (V z z (l (-1) 0))) true (Some 0%nat) (l 3 0) (V z (l 1592262918131443 (-51)) (l 1592262918131443 (-51))));
    (791%nat, bvh_ok b (plane_isector) (ray_of (V (l 1 0) (l 1 1) (l 1 2)) (V z z (l (-1) 0))) true (Some 0%nat) (l 3 0) (V z (l 1592262918131443 (-51)) (l 1592262918131443 (-51))));
    (805%nat, prim_ok (plane_coll s) (plane_isector) (ray_of (V (l 1 0) z (l 1 2)) (V z z (l (-1) 0))) true (Some 0%nat) (l 3 0) (V z (l (-1592262918131443) (-51)) (l 1592262918131443 (-51))));
    (808%nat, bvh_ok b (plane_isector) (ray_of (V (l 1 0) z (l 1 2)) (V z z (l (-1) 0))) true (Some 0%nat) (l 3 0) (V z (l (-1592262918131443) (-51)) (l 1592262918131443 (-51))));
    (829%nat, prim_ok (plane_coll s) (plane_isector) (ray_of (V (l 1 1) (l 1 1) (l 1 2)) (V z z (l (-1) 0))) true (Some 0%nat) (l 3 0) (V (l 5200308914369309 (-53)) (l 5200308914369309 (-53)) (l 5200308914369309 (-53))));
    (832%nat, bvh_ok b (plane_isector) (ray_of (V (l 1 1) (l 1 1) (l 1 2)) (V z z (l (-1) 0))) true (Some 0%nat) (l 3 0) (V (l 5200308914369309 (-53)) (l 5200308914369309 (-53)) (l 5200308914369309 (-53))));
    (846%nat, prim_ok (plane_coll s) (plane_isector) (ray_of (V z (l 1 1) (l 1 2)) (V z z (l (-1) 0))) true (Some 0%nat) (l 3 0) (V (l (-5200308914369309) (-53)) (l 5200308914369309 (-53)) (l 5200308914369309 (-53))));
    (849%nat, bvh_ok b (plane_isector) (ray_of (V z (l 1 1) (l 1 2)) (V z z (l (-1) 0))) true (Some 0%nat) (l 3 0) (V (l (-5200308914369309) (-53)) (l 5200308914369309 (-53)) (l 5200308914369309 (-53))));
    (863%nat, prim_ok (plane_coll s) (plane_isector) (ray_of (V (l 1 1) z (l 1 2)) (V z z (l (-1) 0))) true (Some 0%nat) (l 3 0) (V (l 5200308914369309 (-53)) (l (-5200308914369309) (-53)) (l 5200308914369309 (-53))));
    (866%nat, bvh_ok b (plane_isector) (ray_of (V (l 1 1) z (l 1 2)) (V z z (l (-1) 0))) true (Some 0%nat) (l 3 0) (V (l 5200308914369309 (-53)) (l (-5200308914369309) (-53)) (l 5200308914369309 (-53))));
    (881%nat, prim_ok (plane_coll s) (plane_isector) (ray_of (V z z (l 1 2)) (V z z (l (-1) 0))) true (Some 0%nat) (l 3 0) (V (l (-5200308914369309) (-53)) (l (-5200308914369309) (-53)) (l 5200308914369309 (-53))));
    (884%nat, bvh_ok b (plane_isector) (ray_of (V z z (l 1 2)) (V z z (l (-1) 0))) true (Some 0%nat) (l 3 0) (V (l (-5200308914369309) (-53)) (l (-5200308914369309) (-53)) (l 5200308914369309 (-53))))]);
  on_all (make_planes [(V (l 1 0) (l 1 0) (l 1 0))] [(l 1 1)] [(l 1 1)] [(M (V z z (l 1 0)) (V z (l 1 0) z) (V (l (-1) 0) z z))]) (fun s => [
    (136%nat, box_ok (plane_coll s) 0 (V (l 1 0) z z) (V (l 1 0) (l 1 1) (l 1 1)));
    (221%nat, center_ok (plane_coll s) 0 (V (l 1 0) (l 1 0) (l 1 0)))]);
  on_all (make_planes [(V (l 1 0) (l 1 0) (l 1 0))] [(l 1 1)] [(l 1 1)] [(M (V (l 4503599627370495 (-53)) (l 9007199254740989 (-54)) (l 1592262918131443 (-51))) (V (l 9007199254740989 (-54)) (l 4503599627370495 (-53)) (l (-1592262918131443) (-51))) (V (l (-1592262918131443) (-51)) (l 1592262918131443 (-51)) (l 4967757600021511 (-106))))]) (fun s => let b := tree (plane_coll s) in [
    (148%nat, box_ok (plane_coll s) 0 (V z z (l (-1865452045155277) (-52))) (V (l 1 1) (l 1 1) (l 2718162824974067 (-50))));
    (230%nat, center_ok (plane_coll s) 0 (V (l 1 0) (l 1 0) (l 1 0)));
    (693%nat, prim_ok (plane_coll s) (plane_isector) (ray_of (V (l (-1) 2) (l 3 1) (l 1 (-1))) (V (l 1 0) (l (-1) 0) z)) true (Some 0%nat) (l 124395540479019 (-44)) (V (l (-1592262918131443) (-51)) (l 1592262918131443 (-51)) z));
    (696%nat, bvh_ok b (plane_isector) (ray_of (V (l (-1) 2) (l 3 1) (l 1 (-1))) (V (l 1 0) (l (-1) 0) z)) true (Some 0%nat) (l 124395540479019 (-44)) (V (l (-1592262918131443) (-51)) (l 1592262918131443 (-51)) z))]);
  on_all (make_planes [(V (l 1 0) (l 1 0) (l 1 0))] [(l 1 1)] [(l 1 1)] [(M (V (l 6369051672525773 (-53)) (l (-1592262918131443) (-51)) z) (V (l 1592262918131443 (-51)) (l 6369051672525773 (-53)) z) (V z z (l 1 0)))]) (fun s => [
    (159%nat, box_ok (plane_coll s) 0 (V (l (-1865452045155277) (-52)) (l (-1865452045155277) (-52)) (l 1 0)) (V (l 2718162824974067 (-50)) (l 2718162824974067 (-50)) (l 1 0)));
    (238%nat, center_ok (plane_coll s) 0 (V (l 1 0) (l 1 0) (l 1 0)))]);
  on_all (make_planes [(V z z (l 1 0))] [(l 1 1)] [(l 1 1)] [(M (V (l 1 0) z z) (V z (l 1 0) z) (V z z (l 1 0)))]) (fun s => [
    (296%nat, dist_ok (plane_coll s) plane_distance 0 (V z z (l 1 1)) (l 1 0));
    (297%nat, dist_ok (plane_coll s) plane_distance 0 (V z z z) (l 1 0));
    (299%nat, dist_ok (plane_coll s) plane_distance 0 (V (l 1 0) (l 1 0) (l 1 1)) (l 1 0));
    (300%nat, dist_ok (plane_coll s) plane_distance 0 (V (l (-1) 0) (l 1 0) (l 1 1)) (l 1 0));
    (301%nat, dist_ok (plane_coll s) plane_distance 0 (V (l 1 0) (l (-1) 0) (l 1 1)) (l 1 0));
    (302%nat, dist_ok (plane_coll s) plane_distance 0 (V (l (-1) 0) (l (-1) 0) (l 1 1)) (l 1 0));
    (304%nat, dist_ok (plane_coll s) plane_distance 0 (V (l 1 0) (l 1 0) z) (l 1 0));
    (305%nat, dist_ok (plane_coll s) plane_distance 0 (V (l (-1) 0) (l 1 0) z) (l 1 0));
    (306%nat, dist_ok (plane_coll s) plane_distance 0 (V (l 1 0) (l (-1) 0) z) (l 1 0));
    (307%nat, dist_ok (plane_coll s) plane_distance 0 (V (l (-1) 0) (l (-1) 0) z) (l 1 0))]);
  on_all (make_planes [(V z z (l 1 0))] [(l 1 1)] [(l 1 1)] [(M (V z z (l 1 0)) (V z (l 1 0) z) (V (l (-1) 0) z z))]) (fun s => [
    (316%nat, dist_ok (plane_coll s) plane_distance 0 (V (l 1 0) z z) (l 1 0));
    (317%nat, dist_ok (plane_coll s) plane_distance 0 (V (l (-1) 0) z z) (l 1 0));
    (319%nat, dist_ok (plane_coll s) plane_distance 0 (V (l 1 0) (l 1 0) (l 1 1)) (l 1 0));
    (320%nat, dist_ok (plane_coll s) plane_distance 0 (V (l 1 0) (l 1 0) z) (l 1 0));
    (321%nat, dist_ok (plane_coll s) plane_distance 0 (V (l 1 0) (l (-1) 0) (l 1 1)) (l 1 0));
    (322%nat, dist_ok (plane_coll s) plane_distance 0 (V (l 1 0) (l (-1) 0) z) (l 1 0));
    (324%nat, dist_ok (plane_coll s) plane_distance 0 (V (l (-1) 0) (l 1 0) (l 1 1)) (l 1 0));
    (325%nat, dist_ok (plane_coll s) plane_distance 0 (V (l (-1) 0) (l 1 0) z) (l 1 0));
    (326%nat, dist_ok (plane_coll s) plane_distance 0 (V (l (-1) 0) (l (-1) 0) (l 1 1)) (l 1 0));
    (327%nat, dist_ok (plane_coll s) plane_distance 0 (V (l (-1) 0) (l (-1) 0) z) (l 1 0))]);
  on_all (make_planes [(V z z z)] [(l 1 1)] [(l 1 1)] [(M (V (l 4967757600021511 (-106)) z (l 1 0)) (V z (l 1 0) z) (V (l (-1) 0) z (l 4967757600021511 (-106))))]) (fun s => let b := tree (plane_coll s) in [
    (376%nat, prim_ok (plane_coll s) (plane_isector) (ray_of (V (l 5 0) z z) (V (l (-1) 0) z z)) true (Some 0%nat) (l 5 0) (V (l 1 0) z z));
    (379%nat, bvh_ok b (plane_isector) (ray_of (V (l 5 0) z z) (V (l (-1) 0) z z)) true (Some 0%nat) (l 5 0) (V (l 1 0) z z))]);
  on_all (make_planes [(V (l 1 0) (l 1 0) (l 1 0))] [(l 1 1)] [(l 1 1)] [(M (V (l 4967757600021511 (-106)) z (l 1 0)) (V z (l 1 0) z) (V (l (-1) 0) z (l 4967757600021511 (-106))))]) (fun s => let b := tree (plane_coll s) in [
    (671%nat, prim_ok (plane_coll s) (plane_isector) (ray_of (V (l 5 0) (l 1 0) (l 1 0)) (V (l (-1) 0) z z)) true (Some 0%nat) (l 1 2) (V (l 1 0) z z));
    (674%nat, bvh_ok b (plane_isector) (ray_of (V (l 5 0) (l 1 0) (l 1 0)) (V (l (-1) 0) z z)) true (Some 0%nat) (l 1 2) (V (l 1 0) z z))])].
End S64_checks64.

Section S32_checks32.
Local Existing Instance F32.
Local Notation l := (l32) (only parsing).
Definition plane_checks32 : list (nat * bool) := concat [
  on_all (make_planes [(V z z z)] [(l 1 1)] [(l 1 1)] [(M (V (l 1 0) z z) (V z (l 1 0) z) (V z z (l 1 0)))]) (fun s => let b := tree (plane_coll s) in [
    (73%nat, box_ok (plane_coll s) 0 (V (l (-1) 0) (l (-1) 0) (l (-1) (-126))) (V (l 1 0) (l 1 0) (l 1 (-126))));
    (173%nat, center_ok (plane_coll s) 0 (V z z z));
    (253%nat, dist_ok (plane_coll s) plane_distance 0 (V z z (l 1 0)) (l 1 0));
    (254%nat, dist_ok (plane_coll s) plane_distance 0 (V z z (l (-1) 0)) (l 1 0));
    (256%nat, dist_ok (plane_coll s) plane_distance 0 (V (l 1 0) (l 1 0) (l 1 0)) (l 1 0));
    (257%nat, dist_ok (plane_coll s) plane_distance 0 (V (l (-1) 0) (l 1 0) (l 1 0)) (l 1 0));
    (258%nat, dist_ok (plane_coll s) plane_distance 0 (V (l 1 0) (l (-1) 0) (l 1 0)) (l 1 0));
    (259%nat, dist_ok (plane_coll s) plane_distance 0 (V (l (-1) 0) (l (-1) 0) (l 1 0)) (l 1 0));
    (261%nat, dist_ok (plane_coll s) plane_distance 0 (V (l 1 0) (l 1 0) (l (-1) 0)) (l 1 0));
    (262%nat, dist_ok (plane_coll s) plane_distance 0 (V (l (-1) 0) (l 1 0) (l (-1) 0)) (l 1 0));
    (263%nat, dist_ok (plane_coll s) plane_distance 0 (V (l 1 0) (l (-1) 0) (l (-1) 0)) (l 1 0));
    (264%nat, dist_ok (plane_coll s) plane_distance 0 (V (l (-1) 0) (l (-1) 0) (l (-1) 0)) (l 1 0));
    (352%nat, prim_ok (plane_coll s) (plane_isector) (ray_of (V z z (l 5 0)) (V z z (l (-1) 0))) true (Some 0%nat) (l 5 0) (V z z (l 1 0)));
    (355%nat, bvh_ok b (plane_isector) (ray_of (V z z (l 5 0)) (V z z (l (-1) 0))) true (Some 0%nat) (l 5 0) (V z z (l 1 0)));
    (421%nat, prim_ok (plane_coll s) (plane_isector) (ray_of (V (l 1 2) z (l 1 2)) (V (l (-1) 0) z (l (-1) 0))) true (Some 0%nat) (l 11863283 (-21)) (V z z (l 1 0)));
    (424%nat, bvh_ok b (plane_isector) (ray_of (V (l 1 2) z (l 1 2)) (V (l (-1) 0) z (l (-1) 0))) true (Some 0%nat) (l 11863283 (-21)) (V z z (l 1 0)));
    (437%nat, prim_ok (plane_coll s) (plane_isector) (ray_of (V (l (-1) 2) z (l (-1) 2)) (V (l 1 0) z (l 1 0))) true (Some 0%nat) (l 11863283 (-21)) (V z z (l (-1) 0)));
    (440%nat, bvh_ok b (plane_isector) (ray_of (V (l (-1) 2) z (l (-1) 2)) (V (l 1 0) z (l 1 0))) true (Some 0%nat) (l 11863283 (-21)) (V z z (l (-1) 0)));
    (470%nat, prim_ok (plane_coll s) (plane_isector) (ray_of (V (l 1 0) z (l 1 2)) (V z z (l (-1) 0))) true (Some 0%nat) (l 1 2) (V (l 11863283 (-24)) z (l 11863283 (-24))));
    (473%nat, bvh_ok b (plane_isector) (ray_of (V (l 1 0) z (l 1 2)) (V z z (l (-1) 0))) true (Some 0%nat) (l 1 2) (V (l 11863283 (-24)) z (l 11863283 (-24))));
    (487%nat, prim_ok (plane_coll s) (plane_isector) (ray_of (V (l (-1) 0) z (l 1 2)) (V z z (l (-1) 0))) true (Some 0%nat) (l 1 2) (V (l (-11863283) (-24)) z (l 11863283 (-24))));
    (490%nat, bvh_ok b (plane_isector) (ray_of (V (l (-1) 0) z (l 1 2)) (V z z (l (-1) 0))) true (Some 0%nat) (l 1 2) (V (l (-11863283) (-24)) z (l 11863283 (-24))));
    (512%nat, prim_ok (plane_coll s) (plane_isector) (ray_of (V z (l 1 0) (l 1 2)) (V z z (l (-1) 0))) true (Some 0%nat) (l 1 2) (V z (l 11863283 (-24)) (l 11863283 (-24))));
    (515%nat, bvh_ok b (plane_isector) (ray_of (V z (l 1 0) (l 1 2)) (V z z (l (-1) 0))) true (Some 0%nat) (l 1 2) (V z (l 11863283 (-24)) (l 11863283 (-24))));
    (538%nat, prim_ok (plane_coll s) (plane_isector) (ray_of (V z (l (-1) 0) (l 1 2)) (V z z (l (-1) 0))) true (Some 0%nat) (l 1 2) (V z (l (-11863283) (-24)) (l 11863283 (-24))));
    (541%nat, bvh_ok b (plane_isector) (ray_of (V z (l (-1) 0) (l 1 2)) (V z z (l (-1) 0))) true (Some 0%nat) (l 1 2) (V z (l (-11863283) (-24)) (l 11863283 (-24))));
    (570%nat, prim_ok (plane_coll s) (plane_isector) (ray_of (V (l 1 0) (l 1 0) (l 1 2)) (V z z (l (-1) 0))) true (Some 0%nat) (l 1 2) (V (l 4843165 (-23)) (l 4843165 (-23)) (l 4843165 (-23))));
    (573%nat, bvh_ok b (plane_isector) (ray_of (V (l 1 0) (l 1 0) (l 1 2)) (V z z (l (-1) 0))) true (Some 0%nat) (l 1 2) (V (l 4843165 (-23)) (l 4843165 (-23)) (l 4843165 (-23))));
    (587%nat, prim_ok (plane_coll s) (plane_isector) (ray_of (V (l (-1) 0) (l 1 0) (l 1 2)) (V z z (l (-1) 0))) true (Some 0%nat) (l 1 2) (V (l (-4843165) (-23)) (l 4843165 (-23)) (l 4843165 (-23))));
    (590%nat, bvh_ok b (plane_isector) (ray_of (V (l (-1) 0) (l 1 0) (l 1 2)) (V z z (l (-1) 0))) true (Some 0%nat) (l 1 2) (V (l (-4843165) (-23)) (l 4843165 (-23)) (l 4843165 (-23))));
    (604%nat, prim_ok (plane_coll s) (plane_isector) (ray_of (V (l 1 0) (l (-1) 0) (l 1 2)) (V z z (l (-1) 0))) true (Some 0%nat) (l 1 2) (V (l 4843165 (-23)) (l (-4843165) (-23)) (l 4843165 (-23))));
    (607%nat, bvh_ok b (plane_isector) (ray_of (V (l 1 0) (l (-1) 0) (l 1 2)) (V z z (l (-1) 0))) true (Some 0%nat) (l 1 2) (V (l 4843165 (-23)) (l (-4843165) (-23)) (l 4843165 (-23))));
    (622%nat, prim_ok (plane_coll s) (plane_isector) (ray_of (V (l (-1) 0) (l (-1) 0) (l 1 2)) (V z z (l (-1) 0))) true (Some 0%nat) (l 1 2) (V (l (-4843165) (-23)) (l (-4843165) (-23)) (l 4843165 (-23))));
    (625%nat, bvh_ok b (plane_isector) (ray_of (V (l (-1) 0) (l (-1) 0) (l 1 2)) (V z z (l (-1) 0))) true (Some 0%nat) (l 1 2) (V (l (-4843165) (-23)) (l (-4843165) (-23)) (l 4843165 (-23))))]);
  on_all (make_planes [(V z z z)] [(l 1 1)] [(l 1 1)] [(M (V z z (l 1 0)) (V z (l 1 0) z) (V (l (-1) 0) z z))]) (fun s => [
    (85%nat, box_ok (plane_coll s) 0 (V (l (-1) (-126)) (l (-1) 0) (l (-1) 0)) (V (l 1 (-126)) (l 1 0) (l 1 0)));
    (182%nat, center_ok (plane_coll s) 0 (V z z z));
    (273%nat, dist_ok (plane_coll s) plane_distance 0 (V (l 1 0) z z) (l 1 0));
    (274%nat, dist_ok (plane_coll s) plane_distance 0 (V (l (-1) 0) z z) (l 1 0));
    (276%nat, dist_ok (plane_coll s) plane_distance 0 (V (l 1 0) (l 1 0) (l 1 0)) (l 1 0));
    (277%nat, dist_ok (plane_coll s) plane_distance 0 (V (l 1 0) (l 1 0) (l (-1) 0)) (l 1 0));
    (278%nat, dist_ok (plane_coll s) plane_distance 0 (V (l 1 0) (l (-1) 0) (l 1 0)) (l 1 0));
    (279%nat, dist_ok (plane_coll s) plane_distance 0 (V (l 1 0) (l (-1) 0) (l (-1) 0)) (l 1 0));
    (281%nat, dist_ok (plane_coll s) plane_distance 0 (V (l (-1) 0) (l 1 0) (l 1 0)) (l 1 0));
    (282%nat, dist_ok (plane_coll s) plane_distance 0 (V (l (-1) 0) (l 1 0) (l (-1) 0)) (l 1 0));
    (283%nat, dist_ok (plane_coll s) plane_distance 0 (V (l (-1) 0) (l (-1) 0) (l 1 0)) (l 1 0));
    (284%nat, dist_ok (plane_coll s) plane_distance 0 (V (l (-1) 0) (l (-1) 0) (l (-1) 0)) (l 1 0))]);
  on_all (make_planes [(V z z z)] [(l 1 1)] [(l 1 1)] [(M (V (l 8388607 (-24)) (l 16777215 (-25)) (l 11863283 (-24))) (V (l 16777215 (-25)) (l 8388607 (-24)) (l (-11863283) (-24))) (V (l (-11863283) (-24)) (l 11863283 (-24)) (l (-6151831) (-47))))]) (fun s => let b := tree (plane_coll s) in [
    (99%nat, box_ok (plane_coll s) 0 (V (l (-1) 0) (l (-1) 0) (l (-11863283) (-23))) (V (l 1 0) (l 1 0) (l 11863283 (-23))));
    (193%nat, center_ok (plane_coll s) 0 (V z z z));
    (398%nat, prim_ok (plane_coll s) (plane_isector) (ray_of (V (l (-5) 0) (l 5 0) (l 1 (-1))) (V (l 1 0) (l (-1) 0) z)) true (Some 0%nat) (l 926819 (-17)) (V (l (-11863283) (-24)) (l 11863283 (-24)) z));
    (401%nat, bvh_ok b (plane_isector) (ray_of (V (l (-5) 0) (l 5 0) (l 1 (-1))) (V (l 1 0) (l (-1) 0) z)) true (Some 0%nat) (l 926819 (-17)) (V (l (-11863283) (-24)) (l 11863283 (-24)) z))]);
  on_all (make_planes [(V z z z)] [(l 1 1)] [(l 1 1)] [(M (V (l 11863283 (-24)) (l (-11863283) (-24)) z) (V (l 11863283 (-24)) (l 11863283 (-24)) z) (V z z (l 1 0)))]) (fun s => [
    (110%nat, box_ok (plane_coll s) 0 (V (l (-11863283) (-23)) (l (-11863283) (-23)) z) (V (l 11863283 (-23)) (l 11863283 (-23)) z));
    (201%nat, center_ok (plane_coll s) 0 (V z z z))]);
  on_all (make_planes [(V (l 1 0) (l 1 0) (l 1 0))] [(l 1 1)] [(l 1 1)] [(M (V (l 1 0) z z) (V z (l 1 0) z) (V z z (l 1 0)))]) (fun s => let b := tree (plane_coll s) in [
    (125%nat, box_ok (plane_coll s) 0 (V z z (l 1 0)) (V (l 1 1) (l 1 1) (l 1 0)));
    (213%nat, center_ok (plane_coll s) 0 (V (l 1 0) (l 1 0) (l 1 0)));
    (648%nat, prim_ok (plane_coll s) (plane_isector) (ray_of (V (l 1 0) (l 1 0) (l 5 0)) (V z z (l (-1) 0))) true (Some 0%nat) (l 1 2) (V z z (l 1 0)));
    (651%nat, bvh_ok b (plane_isector) (ray_of (V (l 1 0) (l 1 0) (l 5 0)) (V z z (l (-1) 0))) true (Some 0%nat) (l 1 2) (V z z (l 1 0)));
    (715%nat, prim_ok (plane_coll s) (plane_isector) (ray_of (V (l 5 0) (l 1 0) (l 5 0)) (V (l (-1) 0) z (l (-1) 0))) true (Some 0%nat) (l 11863283 (-21)) (V z z (l 1 0)));
    (718%nat, bvh_ok b (plane_isector) (ray_of (V (l 5 0) (l 1 0) (l 5 0)) (V (l (-1) 0) z (l (-1) 0))) true (Some 0%nat) (l 11863283 (-21)) (V z z (l 1 0)));
    (731%nat, prim_ok (plane_coll s) (plane_isector) (ray_of (V (l (-3) 0) (l 1 0) (l (-3) 0)) (V (l 1 0) z (l 1 0))) true (Some 0%nat) (l 11863283 (-21)) (V z z (l (-1) 0)));
    (734%nat, bvh_ok b (plane_isector) (ray_of (V (l (-3) 0) (l 1 0) (l (-3) 0)) (V (l 1 0) z (l 1 0))) true (Some 0%nat) (l 11863283 (-21)) (V z z (l (-1) 0)));
    (755%nat, prim_ok (plane_coll s) (plane_isector) (ray_of (V (l 1 1) (l 1 0) (l 1 2)) (V z z (l (-1) 0))) true (Some 0%nat) (l 3 0) (V (l 11863283 (-24)) z (l 11863283 (-24))));
    (758%nat, bvh_ok b (plane_isector) (ray_of (V (l 1 1) (l 1 0) (l 1 2)) (V z z (l (-1) 0))) true (Some 0%nat) (l 3 0) (V (l 11863283 (-24)) z (l 11863283 (-24))));
    (772%nat, prim_ok (plane_coll s) (plane_isector) (ray_of (V z (l 1 0) (l 1 2)) (V z z (l (-1) 0))) true (Some 0%nat) (l 3 0) (V (l (-11863283) (-24)) z (l 11863283 (-24))));
    (775%nat, bvh_ok b (plane_isector) (ray_of (V z (l 1 0) (l 1 2)) (V z z (l (-1) 0))) true (Some 0%nat) (l 3 0) (V (l (-11863283) (-24)) z (l 11863283 (-24))));
    (788%nat, prim_ok (plane_coll s) (plane_isector) (ray_of (V (l 1 0) (l 1 1) (l 1 2)) (V z z (l (-1) 0))) true (Some 0%nat) (l 3 0) (V z (l 11863283 (-24)) (l 11863283 (-24))));
    (791%nat, bvh_ok b (plane_isector) (ray_of (V (l 1 0) (l 1 1) (l 1 2)) (V z z (l (-1) 0))) true (Some 0%nat) (l 3 0) (V z (l 11863283 (-24)) (l 11863283 (-24))));
    (805%nat, prim_ok (plane_coll s) (plane_isector) (ray_of (V (l 1 0) z (l 1 2)) (V z z (l (-1) 0))) true (Some 0%nat) (l 3 0) (V z (l (-11863283) (-24)) (l 11863283 (-24))));
    (808%nat, bvh_ok b (plane_isector) (ray_of (V (l 1 0) z (l 1 2)) (V z z (l (-1) 0))) true (Some 0%nat) (l 3 0) (V z (l (-11863283) (-24)) (l 11863283 (-24))));
    (829%nat, prim_ok (plane_coll s) (plane_isector) (ray_of (V (l 1 1) (l 1 1) (l 1 2)) (V z z (l (-1) 0))) true (Some 0%nat) (l 3 0) (V (l 4843165 (-23)) (l 4843165 (-23)) (l 4843165 (-23))));
    (832%nat, bvh_ok b (plane_isector) (ray_of (V (l 1 1) (l 1 1) (l 1 2)) (V z z (l (-1) 0))) true (Some 0%nat) (l 3 0) (V (l 4843165 (-23)) (l 4843165 (-23)) (l 4843165 (-23))));
    (846%nat, prim_ok (plane_coll s) (plane_isector) (ray_of (V z (l 1 1) (l 1 2)) (V z z (l (-1) 0))) true (Some 0%nat) (l 3 0) (V (l (-4843165) (-23)) (l 4843165 (-23)) (l 4843165 (-23))));
    (849%nat, bvh_ok b (plane_isector) (ray_of (V z (l 1 1) (l 1 2)) (V z z (l (-1) 0))) true (Some 0%nat) (l 3 0) (V (l (-4843165) (-23)) (l 4843165 (-23)) (l 4843165 (-23))));
    (863%nat, prim_ok (plane_coll s) (plane_isector) (ray_of (V (l 1 1) z (l 1 2)) (V z z (l (-1) 0))) true (Some 0%nat) (l 3 0) (V (l 4843165 (-23)) (l (-4843165) (-23)) (l 4843165 (-23))));
    (866%nat, bvh_ok b (plane_isector) (ray_of (V (l 1 1) z (l 1 2)) (V z z (l (-1) 0))) true (Some 0%nat) (l 3 0) (V (l 4843165 (-23)) (l (-4843165) (-23)) (l 4843165 (-23))));
    (881%nat, prim_ok (plane_coll s) (plane_isector) (ray_of (V z z (l 1 2)) (V z z (l (-1) 0))) true (Some 0%nat) (l 3 0) (V (l (-4843165) (-23)) (l (-4843165) (-23)) (l 4843165 (-23))));
    (884%nat, bvh_ok b (plane_isector) (ray_of (V z z (l 1 2)) (V z z (l (-1) 0))) true (Some 0%nat) (l 3 0) (V (l (-4843165) (-23)) (l (-4843165) (-23)) (l 4843165 (-23))))]);
  on_all (make_planes [(V (l 1 0) (l 1 0) (l 1 0))] [(l 1 1)] [(l 1 1)] [(M (V z z (l 1 0)) (V z (l 1 0) z) (V (l (-1) 0) z z))]) (fun s => [
    (136%nat, box_ok (plane_coll s) 0 (V (l 1 0) z z) (V (l 1 0) (l 1 1) (l 1 1)));
    (221%nat, center_ok (plane_coll s) 0 (V (l 1 0) (l 1 0) (l 1 0)))]);
  on_all (make_planes [(V (l 1 0) (l 1 0) (l 1 0))] [(l 1 1)] [(l 1 1)] [(M (V (l 8388607 (-24)) (l 16777215 (-25)) (l 11863283 (-24))) (V (l 16777215 (-25)) (l 8388607 (-24)) (l (-11863283) (-24))) (V (l (-11863283) (-24)) (l 11863283 (-24)) (l (-6151831) (-47))))]) (fun s => let b := tree (plane_coll s) in [
    (148%nat, box_ok (plane_coll s) 0 (V z z (l (-3474675) (-23))) (V (l 1 1) (l 1 1) (l 5062973 (-21))));
    (230%nat, center_ok (plane_coll s) 0 (V (l 1 0) (l 1 0) (l 1 0)));
    (693%nat, prim_ok (plane_coll s) (plane_isector) (ray_of (V (l (-1) 2) (l 3 1) (l 1 (-1))) (V (l 1 0) (l (-1) 0) z)) true (Some 0%nat) (l 926819 (-17)) (V (l (-11863283) (-24)) (l 11863283 (-24)) z));
    (696%nat, bvh_ok b (plane_isector) (ray_of (V (l (-1) 2) (l 3 1) (l 1 (-1))) (V (l 1 0) (l (-1) 0) z)) true (Some 0%nat) (l 926819 (-17)) (V (l (-11863283) (-24)) (l 11863283 (-24)) z))]);
  on_all (make_planes [(V (l 1 0) (l 1 0) (l 1 0))] [(l 1 1)] [(l 1 1)] [(M (V (l 11863283 (-24)) (l (-11863283) (-24)) z) (V (l 11863283 (-24)) (l 11863283 (-24)) z) (V z z (l 1 0)))]) (fun s => [
    (159%nat, box_ok (plane_coll s) 0 (V (l (-3474675) (-23)) (l (-3474675) (-23)) (l 1 0)) (V (l 5062973 (-21)) (l 5062973 (-21)) (l 1 0)));
    (238%nat, center_ok (plane_coll s) 0 (V (l 1 0) (l 1 0) (l 1 0)))]);
  on_all (make_planes [(V z z (l 1 0))] [(l 1 1)] [(l 1 1)] [(M (V (l 1 0) z z) (V z (l 1 0) z) (V z z (l 1 0)))]) (fun s => [
    (296%nat, dist_ok (plane_coll s) plane_distance 0 (V z z (l 1 1)) (l 1 0));
    (297%nat, dist_ok (plane_coll s) plane_distance 0 (V z z z) (l 1 0));
    (299%nat, dist_ok (plane_coll s) plane_distance 0 (V (l 1 0) (l 1 0) (l 1 1)) (l 1 0));
    (300%nat, dist_ok (plane_coll s) plane_distance 0 (V (l (-1) 0) (l 1 0) (l 1 1)) (l 1 0));
    (301%nat, dist_ok (plane_coll s) plane_distance 0 (V (l 1 0) (l (-1) 0) (l 1 1)) (l 1 0));
    (302%nat, dist_ok (plane_coll s) plane_distance 0 (V (l (-1) 0) (l (-1) 0) (l 1 1)) (l 1 0));
    (304%nat, dist_ok (plane_coll s) plane_distance 0 (V (l 1 0) (l 1 0) z) (l 1 0));
    (305%nat, dist_ok (plane_coll s) plane_distance 0 (V (l (-1) 0) (l 1 0) z) (l 1 0));
    (306%nat, dist_ok (plane_coll s) plane_distance 0 (V (l 1 0) (l (-1) 0) z) (l 1 0));
    (307%nat, dist_ok (plane_coll s) plane_distance 0 (V (l (-1) 0) (l (-1) 0) z) (l 1 0))]);
  on_all (make_planes [(V z z (l 1 0))] [(l 1 1)] [(l 1 1)] [(M (V z z (l 1 0)) (V z (l 1 0) z) (V (l (-1) 0) z z))]) (fun s => [
    (316%nat, dist_ok (plane_coll s) plane_distance 0 (V (l 1 0) z z) (l 1 0));
    (317%nat, dist_ok (plane_coll s) plane_distance 0 (V (l (-1) 0) z z) (l 1 0));
    (319%nat, dist_ok (plane_coll s) plane_distance 0 (V (l 1 0) (l 1 0) (l 1 1)) (l 1 0));
    (320%nat, dist_ok (plane_coll s) plane_distance 0 (V (l 1 0) (l 1 0) z) (l 1 0));
    (321%nat, dist_ok (plane_coll s) plane_distance 0 (V (l 1 0) (l (-1) 0) (l 1 1)) (l 1 0));
    (322%nat, dist_ok (plane_coll s) plane_distance 0 (V (l 1 0) (l (-1) 0) z) (l 1 0));
    (324%nat, dist_ok (plane_coll s) plane_distance 0 (V (l (-1) 0) (l 1 0) (l 1 1)) (l 1 0));
    (325%nat, dist_ok (plane_coll s) plane_distance 0 (V (l (-1) 0) (l 1 0) z) (l 1 0));
    (326%nat, dist_ok (plane_coll s) plane_distance 0 (V (l (-1) 0) (l (-1) 0) (l 1 1)) (l 1 0));
    (327%nat, dist_ok (plane_coll s) plane_distance 0 (V (l (-1) 0) (l (-1) 0) z) (l 1 0))]);
  on_all (make_planes [(V z z z)] [(l 1 1)] [(l 1 1)] [(M (V (l (-6151831) (-47)) z (l 1 0)) (V z (l 16777215 (-24)) z) (V (l (-1) 0) z (l (-6151831) (-47))))]) (fun s => let b := tree (plane_coll s) in [
    (376%nat, prim_ok (plane_coll s) (plane_isector) (ray_of (V (l 5 0) z z) (V (l (-1) 0) z z)) true (Some 0%nat) (l 5 0) (V (l 1 0) z z));
    (379%nat, bvh_ok b (plane_isector) (ray_of (V (l 5 0) z z) (V (l (-1) 0) z z)) true (Some 0%nat) (l 5 0) (V (l 1 0) z z))]);
  on_all (make_planes [(V (l 1 0) (l 1 0) (l 1 0))] [(l 1 1)] [(l 1 1)] [(M (V (l (-6151831) (-47)) z (l 1 0)) (V z (l 16777215 (-24)) z) (V (l (-1) 0) z (l (-6151831) (-47))))]) (fun s => let b := tree (plane_coll s) in [
    (671%nat, prim_ok (plane_coll s) (plane_isector) (ray_of (V (l 5 0) (l 1 0) (l 1 0)) (V (l (-1) 0) z z)) true (Some 0%nat) (l 1 2) (V (l 1 0) z z));
    (674%nat, bvh_ok b (plane_isector) (ray_of (V (l 5 0) (l 1 0) (l 1 0)) (V (l (-1) 0) z z)) true (Some 0%nat) (l 1 2) (V (l 1 0) z z))])].
End S32_checks32.
