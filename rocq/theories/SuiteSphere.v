(** The tests of /repo/test/test_primitives/test_sphere.cpp, evaluated by the model.
    Written by tools/suite.py; each entry is the line of the test and its answer. *)

From Coq Require Import ZArith List Bool.
From Coq.Floats Require Import SpecFloat.
From Verif Require Import Num NumF Vec Ray Bvh Traverse Sphere Plane Cylinder CylDist Trimesh Suite.
Import ListNotations.

Section S64_checks64.
Local Existing Instance F64.
Local Notation l := (l64) (only parsing).
Definition sphere_checks64 : list (nat * bool) := concat [
  on_all (make_spheres [(V (l 1 0) (l 1 0) (l 1 0))] [(l 1 0)]) (fun s => [
    (37%nat, box_ok (sphere_coll s) 0 (V z z z) (V (l 1 1) (l 1 1) (l 1 1)))]);
  on_all (make_spheres [(V z z z)] [(l 1 0)]) (fun s => let b := tree (sphere_coll s) in [
    (51%nat, dist_ok (sphere_coll s) sphere_distance 0 (V z z z) (l 1 0));
    (52%nat, dist_ok (sphere_coll s) sphere_distance 0 (V (l (-1) 0) z z) z);
    (53%nat, dist_ok (sphere_coll s) sphere_distance 0 (V (l (-1) 1) z z) (l 1 0));
    (54%nat, dist_ok (sphere_coll s) sphere_distance 0 (V (l (-1) 1) (l (-1) 1) (l (-1) 1)) (l 2774331778934357 (-50)));
    (92%nat, prim_ok (sphere_coll s) (sphere_isector s) (ray_of (V (l 1 1) z z) (V (l (-1) 0) z z)) true (Some 0%nat) (l 1 0) (V (l 1 0) z z));
    (95%nat, bvh_ok b (sphere_isector s) (ray_of (V (l 1 1) z z) (V (l (-1) 0) z z)) true (Some 0%nat) (l 1 0) (V (l 1 0) z z));
    (121%nat, prim_ok (sphere_coll s) (sphere_isector s) (ray_of (V z z z) (V (l (-1) 0) z z)) true (Some 0%nat) (l 1 0) (V (l (-1) 0) z z));
    (124%nat, bvh_ok b (sphere_isector s) (ray_of (V z z z) (V (l (-1) 0) z z)) true (Some 0%nat) (l 1 0) (V (l (-1) 0) z z));
    (141%nat, prim_ok (sphere_coll s) (sphere_isector s) (ray_of (V z z (l 1 (-1))) (V z z (l (-1) 0))) true (Some 0%nat) (l 3 (-1)) (V z z (l (-1) 0)));
    (144%nat, bvh_ok b (sphere_isector s) (ray_of (V z z (l 1 (-1))) (V z z (l (-1) 0))) true (Some 0%nat) (l 3 (-1)) (V z z (l (-1) 0)))]);
  on_all (make_spheres [(V z z z)] [(l 3 0)]) (fun s => [
    (62%nat, dist_ok (sphere_coll s) sphere_distance 0 (V z z z) (l 3 0));
    (63%nat, dist_ok (sphere_coll s) sphere_distance 0 (V (l (-1) 0) z z) (l 1 1));
    (64%nat, dist_ok (sphere_coll s) sphere_distance 0 (V (l (-1) 1) z z) (l 1 0));
    (65%nat, dist_ok (sphere_coll s) sphere_distance 0 (V (l (-1) 1) (l (-1) 1) (l (-1) 1)) (l 522531965249109 (-50)))]);
  on_all (make_spheres [(V (l 1 0) z z)] [(l 1 0)]) (fun s => let b := tree (sphere_coll s) in [
    (172%nat, prim_ok (sphere_coll s) (sphere_isector s) (ray_of (V z z z) (V (l 1 0) z z)) true (Some 0%nat) (l 1 1) (V (l 1 0) z z));
    (175%nat, bvh_ok b (sphere_isector s) (ray_of (V z z z) (V (l 1 0) z z)) true (Some 0%nat) (l 1 1) (V (l 1 0) z z));
    (192%nat, prim_ok (sphere_coll s) (sphere_isector s) (ray_of (V z z z) (V (l (-1) 0) z z)) false None (l 9007199254740991 971) (V z z z));
    (195%nat, bvh_ok b (sphere_isector s) (ray_of (V z z z) (V (l (-1) 0) z z)) false None (l 9007199254740991 971) (V z z z))]);
  on_all (make_spheres [(V z z z)] [(l 1 1)]) (fun s => let b := tree (sphere_coll s) in [
    (222%nat, prim_ok (sphere_coll s) (sphere_isector s) (ray_of (V (l 3 0) (l 1 0) z) (V (l (-1) 0) z z)) true (Some 0%nat) (l 2855167749804361 (-51)) (V (l 3900231685776981 (-52)) (l 1 (-1)) z));
    (225%nat, bvh_ok b (sphere_isector s) (ray_of (V (l 3 0) (l 1 0) z) (V (l (-1) 0) z z)) true (Some 0%nat) (l 2855167749804361 (-51)) (V (l 3900231685776981 (-52)) (l 1 (-1)) z))])].
End S64_checks64.

Section S32_checks32.
Local Existing Instance F32.
Local Notation l := (l32) (only parsing).
Definition sphere_checks32 : list (nat * bool) := concat [
  on_all (make_spheres [(V (l 1 0) (l 1 0) (l 1 0))] [(l 1 0)]) (fun s => [
    (37%nat, box_ok (sphere_coll s) 0 (V z z z) (V (l 1 1) (l 1 1) (l 1 1)))]);
  on_all (make_spheres [(V z z z)] [(l 1 0)]) (fun s => let b := tree (sphere_coll s) in [
    (51%nat, dist_ok (sphere_coll s) sphere_distance 0 (V z z z) (l 1 0));
    (52%nat, dist_ok (sphere_coll s) sphere_distance 0 (V (l (-1) 0) z z) z);
    (53%nat, dist_ok (sphere_coll s) sphere_distance 0 (V (l (-1) 1) z z) (l 1 0));
    (54%nat, dist_ok (sphere_coll s) sphere_distance 0 (V (l (-1) 1) (l (-1) 1) (l (-1) 1)) (l 10335191 (-22)));
    (92%nat, prim_ok (sphere_coll s) (sphere_isector s) (ray_of (V (l 1 1) z z) (V (l (-1) 0) z z)) true (Some 0%nat) (l 1 0) (V (l 1 0) z z));
    (95%nat, bvh_ok b (sphere_isector s) (ray_of (V (l 1 1) z z) (V (l (-1) 0) z z)) true (Some 0%nat) (l 1 0) (V (l 1 0) z z));
    (121%nat, prim_ok (sphere_coll s) (sphere_isector s) (ray_of (V z z z) (V (l (-1) 0) z z)) true (Some 0%nat) (l 1 0) (V (l (-1) 0) z z));
    (124%nat, bvh_ok b (sphere_isector s) (ray_of (V z z z) (V (l (-1) 0) z z)) true (Some 0%nat) (l 1 0) (V (l (-1) 0) z z));
    (141%nat, prim_ok (sphere_coll s) (sphere_isector s) (ray_of (V z z (l 1 (-1))) (V z z (l (-1) 0))) true (Some 0%nat) (l 3 (-1)) (V z z (l (-1) 0)));
    (144%nat, bvh_ok b (sphere_isector s) (ray_of (V z z (l 1 (-1))) (V z z (l (-1) 0))) true (Some 0%nat) (l 3 (-1)) (V z z (l (-1) 0)))]);
  on_all (make_spheres [(V z z z)] [(l 3 0)]) (fun s => [
    (62%nat, dist_ok (sphere_coll s) sphere_distance 0 (V z z z) (l 3 0));
    (63%nat, dist_ok (sphere_coll s) sphere_distance 0 (V (l (-1) 0) z z) (l 1 1));
    (64%nat, dist_ok (sphere_coll s) sphere_distance 0 (V (l (-1) 1) z z) (l 1 0));
    (65%nat, dist_ok (sphere_coll s) sphere_distance 0 (V (l (-1) 1) (l (-1) 1) (l (-1) 1)) (l 7786333 (-24)))]);
  on_all (make_spheres [(V (l 1 0) z z)] [(l 1 0)]) (fun s => let b := tree (sphere_coll s) in [
    (172%nat, prim_ok (sphere_coll s) (sphere_isector s) (ray_of (V z z z) (V (l 1 0) z z)) true (Some 0%nat) (l 1 1) (V (l 1 0) z z));
    (175%nat, bvh_ok b (sphere_isector s) (ray_of (V z z z) (V (l 1 0) z z)) true (Some 0%nat) (l 1 1) (V (l 1 0) z z));
    (192%nat, prim_ok (sphere_coll s) (sphere_isector s) (ray_of (V z z z) (V (l (-1) 0) z z)) false None (l 16777215 104) (V z z z));
    (195%nat, bvh_ok b (sphere_isector s) (ray_of (V z z z) (V (l (-1) 0) z z)) false None (l 16777215 104) (V z z z))]);
  on_all (make_spheres [(V z z z)] [(l 1 1)]) (fun s => let b := tree (sphere_coll s) in [
    (222%nat, prim_ok (sphere_coll s) (sphere_isector s) (ray_of (V (l 3 0) (l 1 0) z) (V (l (-1) 0) z z)) true (Some 0%nat) (l 10636329 (-23)) (V (l 14529495 (-24)) (l 1 (-1)) z));
    (225%nat, bvh_ok b (sphere_isector s) (ray_of (V (l 3 0) (l 1 0) z) (V (l (-1) 0) z z)) true (Some 0%nat) (l 10636329 (-23)) (V (l 14529495 (-24)) (l 1 (-1)) z))])].
End S32_checks32.
