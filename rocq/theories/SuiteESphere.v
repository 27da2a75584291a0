(** The tests of /repo/test/test_embree_primitives/test_EmbreeSphere.cpp, evaluated by the model.
    Written by tools/suite.py; each entry is the line of the test and its answer. *)

From Coq Require Import ZArith List Bool.
From Coq.Floats Require Import SpecFloat.
From Verif Require Import Num NumF Vec Ray Bvh Traverse Sphere Plane Cylinder CylDist Trimesh Embree Suite.
Import ListNotations.

Section S32_checks32.
Local Existing Instance F32.
Local Notation l := (l32) (only parsing).
Definition esphere_checks32 : list (nat * bool) := concat [
  [(26%nat, bound_ok fst vx (esphere_bounds (ESphere (V (l 1 0) (l 1 0) (l 1 0)) (l 1 0) (Some 0%nat)) 0) z);
   (27%nat, bound_ok fst vy (esphere_bounds (ESphere (V (l 1 0) (l 1 0) (l 1 0)) (l 1 0) (Some 0%nat)) 0) z);
   (28%nat, bound_ok fst vz (esphere_bounds (ESphere (V (l 1 0) (l 1 0) (l 1 0)) (l 1 0) (Some 0%nat)) 0) z);
   (29%nat, bound_ok snd vx (esphere_bounds (ESphere (V (l 1 0) (l 1 0) (l 1 0)) (l 1 0) (Some 0%nat)) 0) (l64 1 1));
   (30%nat, bound_ok snd vx (esphere_bounds (ESphere (V (l 1 0) (l 1 0) (l 1 0)) (l 1 0) (Some 0%nat)) 0) (l64 1 1));
   (31%nat, bound_ok snd vx (esphere_bounds (ESphere (V (l 1 0) (l 1 0) (l 1 0)) (l 1 0) (Some 0%nat)) 0) (l64 1 1));
   (44%nat, approx (esphere_distance (ESphere (V z z z) (l 1 0) (Some 0%nat)) (V z z z)) (l64 1 0));
   (45%nat, approx (esphere_distance (ESphere (V z z z) (l 1 0) (Some 0%nat)) (V (l (-1) 0) z z)) z);
   (46%nat, approx (esphere_distance (ESphere (V z z z) (l 1 0) (Some 0%nat)) (V (l (-1) 1) z z)) (l64 1 0));
   (47%nat, approx (esphere_distance (ESphere (V z z z) (l 1 0) (Some 0%nat)) (V (l (-1) 1) (l (-1) 1) (l (-1) 1))) (l64 10335191 (-22)));
   (57%nat, approx (esphere_distance (ESphere (V z z z) (l 3 0) (Some 0%nat)) (V z z z)) (l64 3 0));
   (58%nat, approx (esphere_distance (ESphere (V z z z) (l 3 0) (Some 0%nat)) (V (l (-1) 0) z z)) (l64 1 1));
   (59%nat, approx (esphere_distance (ESphere (V z z z) (l 3 0) (Some 0%nat)) (V (l (-1) 1) z z)) (l64 1 0));
   (60%nat, approx (esphere_distance (ESphere (V z z z) (l 3 0) (Some 0%nat)) (V (l (-1) 1) (l (-1) 1) (l (-1) 1))) (l64 1946583 (-22)));
   (93%nat, tfar_ok (shoot [esphere_intersect (ESphere (V z z z) (l 1 0) (Some 0%nat)) 0 true None; esphere_intersect (ESphere (V z z (l 5 0)) (l 1 0) (Some 1%nat)) 0 true None] (estart (V (l 1 1) z z) z (V (l (-1) 0) z z) (l 16777215 104))) (l64 1 0));
   (102%nat, tfar_ok (shoot [esphere_intersect (ESphere (V z z z) (l 1 0) (Some 0%nat)) 0 true None; esphere_intersect (ESphere (V z z (l 5 0)) (l 1 0) (Some 1%nat)) 0 true None] (estart (V (l 1 1) z (l 5 (-1))) z (V (l (-1) 0) z z) (l 16777215 104))) (l64 16777215 104));
   (111%nat, tfar_ok (shoot [esphere_intersect (ESphere (V z z z) (l 1 0) (Some 0%nat)) 0 true None; esphere_intersect (ESphere (V z z (l 5 0)) (l 1 0) (Some 1%nat)) 0 true None] (estart (V (l 3 0) z (l 5 0)) z (V (l (-1) 0) z z) (l 16777215 104))) (l64 1 1));
   (137%nat, tfar_ok (shoot [esphere_intersect (ESphere (V z z z) (l 1 0) (Some 0%nat)) 0 true None] (estart (V z z z) z (V (l (-1) 0) z z) (l 16777215 104))) (l64 1 0));
   (146%nat, tfar_ok (shoot [esphere_intersect (ESphere (V z z z) (l 1 0) (Some 0%nat)) 0 true None] (estart (V z z (l 1 (-1))) z (V z z (l (-1) 0)) (l 16777215 104))) (l64 3 (-1)));
   (173%nat, tfar_ok (shoot [esphere_intersect (ESphere (V (l 1 0) z z) (l 1 0) (Some 0%nat)) 0 true None] (estart (V z z z) z (V (l 1 0) z z) (l 16777215 104))) (l64 1 1));
   (182%nat, tfar_ok (shoot [esphere_intersect (ESphere (V (l 1 0) z z) (l 1 0) (Some 0%nat)) 0 true None] (estart (V z z z) z (V (l (-1) 0) z z) (l 16777215 104))) (l64 16777215 104));
   (204%nat, tfar_ok (shoot [esphere_intersect (ESphere (V z z z) (l 1 1) (Some 0%nat)) 0 true None] (estart (V (l 3 0) (l 1 0) z) z (V (l (-1) 0) z z) (l 16777215 104))) (l64 10636329 (-23)));
   (206%nat, ng_ok vx (shoot [esphere_intersect (ESphere (V z z z) (l 1 1) (Some 0%nat)) 0 true None] (estart (V (l 3 0) (l 1 0) z) z (V (l (-1) 0) z z) (l 16777215 104))) (l64 3900231685776981 (-52)));
   (207%nat, ng_ok vy (shoot [esphere_intersect (ESphere (V z z z) (l 1 1) (Some 0%nat)) 0 true None] (estart (V (l 3 0) (l 1 0) z) z (V (l (-1) 0) z z) (l 16777215 104))) (l64 1 (-1)));
   (208%nat, ng_ok vz (shoot [esphere_intersect (ESphere (V z z z) (l 1 1) (Some 0%nat)) 0 true None] (estart (V (l 3 0) (l 1 0) z) z (V (l (-1) 0) z z) (l 16777215 104))) z)]].
End S32_checks32.
