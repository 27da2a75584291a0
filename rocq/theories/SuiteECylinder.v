(** The tests of /repo/test/test_embree_primitives/test_EmbreeCylinder.cpp, evaluated by the model.
    Written by tools/suite.py; each entry is the line of the test and its answer. *)

From Coq Require Import ZArith List Bool.
From Coq.Floats Require Import SpecFloat.
From Verif Require Import Num NumF Vec Ray Bvh Traverse Sphere Plane Cylinder CylDist Trimesh Embree Suite.
Import ListNotations.

Section S32_checks32.
Local Existing Instance F32.
Local Notation l := (l32) (only parsing).
Definition ecylinder_checks32 : list (nat * bool) := concat [
  [(33%nat, bound_ok fst vx (ecyl_bounds (ECyl (V z z z) (l 1 0) (l 1 0) (l 1 1) (M (V (l 1 0) z z) (V z (l 1 0) z) (V z z (l 1 0))) (Some 0%nat)) 0) (l64 (-1) 0));
   (34%nat, bound_ok fst vy (ecyl_bounds (ECyl (V z z z) (l 1 0) (l 1 0) (l 1 1) (M (V (l 1 0) z z) (V z (l 1 0) z) (V z z (l 1 0))) (Some 0%nat)) 0) (l64 (-1) 0));
   (35%nat, bound_ok fst vz (ecyl_bounds (ECyl (V z z z) (l 1 0) (l 1 0) (l 1 1) (M (V (l 1 0) z z) (V z (l 1 0) z) (V z z (l 1 0))) (Some 0%nat)) 0) (l64 (-1) 0));
   (36%nat, bound_ok snd vx (ecyl_bounds (ECyl (V z z z) (l 1 0) (l 1 0) (l 1 1) (M (V (l 1 0) z z) (V z (l 1 0) z) (V z z (l 1 0))) (Some 0%nat)) 0) (l64 1 0));
   (37%nat, bound_ok snd vy (ecyl_bounds (ECyl (V z z z) (l 1 0) (l 1 0) (l 1 1) (M (V (l 1 0) z z) (V z (l 1 0) z) (V z z (l 1 0))) (Some 0%nat)) 0) (l64 1 0));
   (38%nat, bound_ok snd vz (ecyl_bounds (ECyl (V z z z) (l 1 0) (l 1 0) (l 1 1) (M (V (l 1 0) z z) (V z (l 1 0) z) (V z z (l 1 0))) (Some 0%nat)) 0) (l64 1 0));
   (50%nat, bound_ok fst vx (ecyl_bounds (ECyl (V z z z) (l 1 0) (l 1 0) (l 1 1) (M (V (l (-6151831) (-47)) z (l 1 0)) (V z (l 16777215 (-24)) z) (V (l (-1) 0) z (l (-6151831) (-47)))) (Some 0%nat)) 0) (l64 (-1) 0));
   (51%nat, bound_ok fst vy (ecyl_bounds (ECyl (V z z z) (l 1 0) (l 1 0) (l 1 1) (M (V (l (-6151831) (-47)) z (l 1 0)) (V z (l 16777215 (-24)) z) (V (l (-1) 0) z (l (-6151831) (-47)))) (Some 0%nat)) 0) (l64 (-1) 0));
   (52%nat, bound_ok fst vz (ecyl_bounds (ECyl (V z z z) (l 1 0) (l 1 0) (l 1 1) (M (V (l (-6151831) (-47)) z (l 1 0)) (V z (l 16777215 (-24)) z) (V (l (-1) 0) z (l (-6151831) (-47)))) (Some 0%nat)) 0) (l64 (-1) 0));
   (53%nat, bound_ok snd vx (ecyl_bounds (ECyl (V z z z) (l 1 0) (l 1 0) (l 1 1) (M (V (l (-6151831) (-47)) z (l 1 0)) (V z (l 16777215 (-24)) z) (V (l (-1) 0) z (l (-6151831) (-47)))) (Some 0%nat)) 0) (l64 1 0));
   (54%nat, bound_ok snd vy (ecyl_bounds (ECyl (V z z z) (l 1 0) (l 1 0) (l 1 1) (M (V (l (-6151831) (-47)) z (l 1 0)) (V z (l 16777215 (-24)) z) (V (l (-1) 0) z (l (-6151831) (-47)))) (Some 0%nat)) 0) (l64 1 0));
   (55%nat, bound_ok snd vz (ecyl_bounds (ECyl (V z z z) (l 1 0) (l 1 0) (l 1 1) (M (V (l (-6151831) (-47)) z (l 1 0)) (V z (l 16777215 (-24)) z) (V (l (-1) 0) z (l (-6151831) (-47)))) (Some 0%nat)) 0) (l64 1 0));
   (71%nat, bound_ok fst vx (ecyl_bounds (ECyl (V z (l 1 0) (l 1 2)) (l 1 0) (l 1 0) (l 1 1) (M (V (l 1 0) z z) (V z (l 1 0) z) (V z z (l 1 0))) (Some 0%nat)) 0) (l64 (-1) 0));
   (72%nat, bound_ok fst vy (ecyl_bounds (ECyl (V z (l 1 0) (l 1 2)) (l 1 0) (l 1 0) (l 1 1) (M (V (l 1 0) z z) (V z (l 1 0) z) (V z z (l 1 0))) (Some 0%nat)) 0) z);
   (73%nat, bound_ok fst vz (ecyl_bounds (ECyl (V z (l 1 0) (l 1 2)) (l 1 0) (l 1 0) (l 1 1) (M (V (l 1 0) z z) (V z (l 1 0) z) (V z z (l 1 0))) (Some 0%nat)) 0) (l64 3 0));
   (74%nat, bound_ok snd vx (ecyl_bounds (ECyl (V z (l 1 0) (l 1 2)) (l 1 0) (l 1 0) (l 1 1) (M (V (l 1 0) z z) (V z (l 1 0) z) (V z z (l 1 0))) (Some 0%nat)) 0) (l64 1 0));
   (75%nat, bound_ok snd vy (ecyl_bounds (ECyl (V z (l 1 0) (l 1 2)) (l 1 0) (l 1 0) (l 1 1) (M (V (l 1 0) z z) (V z (l 1 0) z) (V z z (l 1 0))) (Some 0%nat)) 0) (l64 1 1));
   (76%nat, bound_ok snd vz (ecyl_bounds (ECyl (V z (l 1 0) (l 1 2)) (l 1 0) (l 1 0) (l 1 1) (M (V (l 1 0) z z) (V z (l 1 0) z) (V z z (l 1 0))) (Some 0%nat)) 0) (l64 5 0));
   (87%nat, bound_ok fst vx (ecyl_bounds (ECyl (V z (l 1 0) (l 1 2)) (l 1 0) (l 1 0) (l 1 1) (M (V (l (-6151831) (-47)) z (l 1 0)) (V z (l 16777215 (-24)) z) (V (l (-1) 0) z (l (-6151831) (-47)))) (Some 0%nat)) 0) (l64 (-1) 0));
   (88%nat, bound_ok fst vy (ecyl_bounds (ECyl (V z (l 1 0) (l 1 2)) (l 1 0) (l 1 0) (l 1 1) (M (V (l (-6151831) (-47)) z (l 1 0)) (V z (l 16777215 (-24)) z) (V (l (-1) 0) z (l (-6151831) (-47)))) (Some 0%nat)) 0) z);
   (89%nat, bound_ok fst vz (ecyl_bounds (ECyl (V z (l 1 0) (l 1 2)) (l 1 0) (l 1 0) (l 1 1) (M (V (l (-6151831) (-47)) z (l 1 0)) (V z (l 16777215 (-24)) z) (V (l (-1) 0) z (l (-6151831) (-47)))) (Some 0%nat)) 0) (l64 3 0));
   (90%nat, bound_ok snd vx (ecyl_bounds (ECyl (V z (l 1 0) (l 1 2)) (l 1 0) (l 1 0) (l 1 1) (M (V (l (-6151831) (-47)) z (l 1 0)) (V z (l 16777215 (-24)) z) (V (l (-1) 0) z (l (-6151831) (-47)))) (Some 0%nat)) 0) (l64 1 0));
   (91%nat, bound_ok snd vy (ecyl_bounds (ECyl (V z (l 1 0) (l 1 2)) (l 1 0) (l 1 0) (l 1 1) (M (V (l (-6151831) (-47)) z (l 1 0)) (V z (l 16777215 (-24)) z) (V (l (-1) 0) z (l (-6151831) (-47)))) (Some 0%nat)) 0) (l64 1 1));
   (92%nat, bound_ok snd vz (ecyl_bounds (ECyl (V z (l 1 0) (l 1 2)) (l 1 0) (l 1 0) (l 1 1) (M (V (l (-6151831) (-47)) z (l 1 0)) (V z (l 16777215 (-24)) z) (V (l (-1) 0) z (l (-6151831) (-47)))) (Some 0%nat)) 0) (l64 5 0));
   (123%nat, eprim_ok (shoot [ecyl_intersect (ECyl (V z z z) (l 1 0) (l 1 1) (l 1 1) (M (V (l 1 0) z z) (V z (l 1 0) z) (V z z (l 1 0))) (Some 0%nat)) 0 true None] (estart (V z z (l 13 (-1))) z (V z z (l (-1) 0)) (l 16777215 104))) 0);
   (124%nat, tfar_ok (shoot [ecyl_intersect (ECyl (V z z z) (l 1 0) (l 1 1) (l 1 1) (M (V (l 1 0) z z) (V z (l 1 0) z) (V z z (l 1 0))) (Some 0%nat)) 0 true None] (estart (V z z (l 13 (-1))) z (V z z (l (-1) 0)) (l 16777215 104))) (l64 11 (-1)));
   (125%nat, ng_ok vx (shoot [ecyl_intersect (ECyl (V z z z) (l 1 0) (l 1 1) (l 1 1) (M (V (l 1 0) z z) (V z (l 1 0) z) (V z z (l 1 0))) (Some 0%nat)) 0 true None] (estart (V z z (l 13 (-1))) z (V z z (l (-1) 0)) (l 16777215 104))) z);
   (126%nat, ng_ok vy (shoot [ecyl_intersect (ECyl (V z z z) (l 1 0) (l 1 1) (l 1 1) (M (V (l 1 0) z z) (V z (l 1 0) z) (V z z (l 1 0))) (Some 0%nat)) 0 true None] (estart (V z z (l 13 (-1))) z (V z z (l (-1) 0)) (l 16777215 104))) z);
   (127%nat, ng_ok vz (shoot [ecyl_intersect (ECyl (V z z z) (l 1 0) (l 1 1) (l 1 1) (M (V (l 1 0) z z) (V z (l 1 0) z) (V z z (l 1 0))) (Some 0%nat)) 0 true None] (estart (V z z (l 13 (-1))) z (V z z (l (-1) 0)) (l 16777215 104))) (l64 1 0));
   (146%nat, eprim_ok (shoot [ecyl_intersect (ECyl (V z z z) (l 1 0) (l 1 1) (l 1 1) (M (V (l 1 0) z z) (V z (l 1 0) z) (V z z (l 1 0))) (Some 0%nat)) 0 true None] (estart (V (l 5 0) z (l 3 1)) z (V (l (-1) 0) z (l (-1) 0)) (l 16777215 104))) 0);
   (147%nat, tfar_ok (shoot [ecyl_intersect (ECyl (V z z z) (l 1 0) (l 1 1) (l 1 1) (M (V (l 1 0) z z) (V z (l 1 0) z) (V z z (l 1 0))) (Some 0%nat)) 0 true None] (estart (V (l 5 0) z (l 3 1)) z (V (l (-1) 0) z (l (-1) 0)) (l 16777215 104))) (l64 124395540479019 (-44)));
   (148%nat, ng_ok vx (shoot [ecyl_intersect (ECyl (V z z z) (l 1 0) (l 1 1) (l 1 1) (M (V (l 1 0) z z) (V z (l 1 0) z) (V z z (l 1 0))) (Some 0%nat)) 0 true None] (estart (V (l 5 0) z (l 3 1)) z (V (l (-1) 0) z (l (-1) 0)) (l 16777215 104))) z);
   (149%nat, ng_ok vy (shoot [ecyl_intersect (ECyl (V z z z) (l 1 0) (l 1 1) (l 1 1) (M (V (l 1 0) z z) (V z (l 1 0) z) (V z z (l 1 0))) (Some 0%nat)) 0 true None] (estart (V (l 5 0) z (l 3 1)) z (V (l (-1) 0) z (l (-1) 0)) (l 16777215 104))) z);
   (150%nat, ng_ok vz (shoot [ecyl_intersect (ECyl (V z z z) (l 1 0) (l 1 1) (l 1 1) (M (V (l 1 0) z z) (V z (l 1 0) z) (V z z (l 1 0))) (Some 0%nat)) 0 true None] (estart (V (l 5 0) z (l 3 1)) z (V (l (-1) 0) z (l (-1) 0)) (l 16777215 104))) (l64 1 0));
   (169%nat, eprim_ok (shoot [ecyl_intersect (ECyl (V z z z) (l 1 0) (l 1 1) (l 1 1) (M (V (l 1 0) z z) (V z (l 1 0) z) (V z z (l 1 0))) (Some 0%nat)) 0 true None] (estart (V (l 5 0) z (l 1 2)) z (V (l (-1) 0) z (l (-1) 0)) (l 16777215 104))) 0);
   (170%nat, tfar_ok (shoot [ecyl_intersect (ECyl (V z z z) (l 1 0) (l 1 1) (l 1 1) (M (V (l 1 0) z z) (V z (l 1 0) z) (V z z (l 1 0))) (Some 0%nat)) 0 true None] (estart (V (l 5 0) z (l 1 2)) z (V (l (-1) 0) z (l (-1) 0)) (l 16777215 104))) (l64 6369051672525773 (-50)));
   (171%nat, ng_ok vx (shoot [ecyl_intersect (ECyl (V z z z) (l 1 0) (l 1 1) (l 1 1) (M (V (l 1 0) z z) (V z (l 1 0) z) (V z z (l 1 0))) (Some 0%nat)) 0 true None] (estart (V (l 5 0) z (l 1 2)) z (V (l (-1) 0) z (l (-1) 0)) (l 16777215 104))) (l64 1 0));
   (172%nat, ng_ok vy (shoot [ecyl_intersect (ECyl (V z z z) (l 1 0) (l 1 1) (l 1 1) (M (V (l 1 0) z z) (V z (l 1 0) z) (V z z (l 1 0))) (Some 0%nat)) 0 true None] (estart (V (l 5 0) z (l 1 2)) z (V (l (-1) 0) z (l (-1) 0)) (l 16777215 104))) z);
   (173%nat, ng_ok vz (shoot [ecyl_intersect (ECyl (V z z z) (l 1 0) (l 1 1) (l 1 1) (M (V (l 1 0) z z) (V z (l 1 0) z) (V z z (l 1 0))) (Some 0%nat)) 0 true None] (estart (V (l 5 0) z (l 1 2)) z (V (l (-1) 0) z (l (-1) 0)) (l 16777215 104))) z);
   (192%nat, eprim_ok (shoot [ecyl_intersect (ECyl (V z z z) (l 1 0) (l 1 1) (l 1 1) (M (V (l 1 0) z z) (V z (l 1 0) z) (V z z (l 1 0))) (Some 0%nat)) 0 true None] (estart (V (l (-5) 0) z (l 1 2)) z (V (l 1 0) z (l (-1) 0)) (l 16777215 104))) 0);
   (193%nat, tfar_ok (shoot [ecyl_intersect (ECyl (V z z z) (l 1 0) (l 1 1) (l 1 1) (M (V (l 1 0) z z) (V z (l 1 0) z) (V z z (l 1 0))) (Some 0%nat)) 0 true None] (estart (V (l (-5) 0) z (l 1 2)) z (V (l 1 0) z (l (-1) 0)) (l 16777215 104))) (l64 6369051672525773 (-50)));
   (194%nat, ng_ok vx (shoot [ecyl_intersect (ECyl (V z z z) (l 1 0) (l 1 1) (l 1 1) (M (V (l 1 0) z z) (V z (l 1 0) z) (V z z (l 1 0))) (Some 0%nat)) 0 true None] (estart (V (l (-5) 0) z (l 1 2)) z (V (l 1 0) z (l (-1) 0)) (l 16777215 104))) (l64 (-1) 0));
   (195%nat, ng_ok vy (shoot [ecyl_intersect (ECyl (V z z z) (l 1 0) (l 1 1) (l 1 1) (M (V (l 1 0) z z) (V z (l 1 0) z) (V z z (l 1 0))) (Some 0%nat)) 0 true None] (estart (V (l (-5) 0) z (l 1 2)) z (V (l 1 0) z (l (-1) 0)) (l 16777215 104))) z);
   (196%nat, ng_ok vz (shoot [ecyl_intersect (ECyl (V z z z) (l 1 0) (l 1 1) (l 1 1) (M (V (l 1 0) z z) (V z (l 1 0) z) (V z z (l 1 0))) (Some 0%nat)) 0 true None] (estart (V (l (-5) 0) z (l 1 2)) z (V (l 1 0) z (l (-1) 0)) (l 16777215 104))) z);
   (215%nat, eprim_ok (shoot [ecyl_intersect (ECyl (V z z z) (l 1 0) (l 1 1) (l 1 1) (M (V (l 1 0) z z) (V z (l 1 0) z) (V z z (l 1 0))) (Some 0%nat)) 0 true None] (estart (V z (l 5 0) (l 3 0)) z (V z (l (-1) 0) (l (-1) 0)) (l 16777215 104))) 0);
   (216%nat, tfar_ok (shoot [ecyl_intersect (ECyl (V z z z) (l 1 0) (l 1 1) (l 1 1) (M (V (l 1 0) z z) (V z (l 1 0) z) (V z z (l 1 0))) (Some 0%nat)) 0 true None] (estart (V z (l 5 0) (l 3 0)) z (V z (l (-1) 0) (l (-1) 0)) (l 16777215 104))) (l64 4776788754394329 (-50)));
   (217%nat, ng_ok vx (shoot [ecyl_intersect (ECyl (V z z z) (l 1 0) (l 1 1) (l 1 1) (M (V (l 1 0) z z) (V z (l 1 0) z) (V z z (l 1 0))) (Some 0%nat)) 0 true None] (estart (V z (l 5 0) (l 3 0)) z (V z (l (-1) 0) (l (-1) 0)) (l 16777215 104))) z);
   (218%nat, ng_ok vy (shoot [ecyl_intersect (ECyl (V z z z) (l 1 0) (l 1 1) (l 1 1) (M (V (l 1 0) z z) (V z (l 1 0) z) (V z z (l 1 0))) (Some 0%nat)) 0 true None] (estart (V z (l 5 0) (l 3 0)) z (V z (l (-1) 0) (l (-1) 0)) (l 16777215 104))) (l64 1 0));
   (219%nat, ng_ok vz (shoot [ecyl_intersect (ECyl (V z z z) (l 1 0) (l 1 1) (l 1 1) (M (V (l 1 0) z z) (V z (l 1 0) z) (V z z (l 1 0))) (Some 0%nat)) 0 true None] (estart (V z (l 5 0) (l 3 0)) z (V z (l (-1) 0) (l (-1) 0)) (l 16777215 104))) z);
   (239%nat, eprim_ok (shoot [ecyl_intersect (ECyl (V z z z) (l 1 0) (l 1 1) (l 1 1) (M (V (l 1 0) z z) (V z (l 1 0) z) (V z z (l 1 0))) (Some 0%nat)) 0 true None] (estart (V z (l (-5) 0) (l 3 0)) z (V z (l 1 0) (l (-1) 0)) (l 16777215 104))) 0);
   (240%nat, tfar_ok (shoot [ecyl_intersect (ECyl (V z z z) (l 1 0) (l 1 1) (l 1 1) (M (V (l 1 0) z z) (V z (l 1 0) z) (V z z (l 1 0))) (Some 0%nat)) 0 true None] (estart (V z (l (-5) 0) (l 3 0)) z (V z (l 1 0) (l (-1) 0)) (l 16777215 104))) (l64 4776788754394329 (-50)));
   (241%nat, ng_ok vx (shoot [ecyl_intersect (ECyl (V z z z) (l 1 0) (l 1 1) (l 1 1) (M (V (l 1 0) z z) (V z (l 1 0) z) (V z z (l 1 0))) (Some 0%nat)) 0 true None] (estart (V z (l (-5) 0) (l 3 0)) z (V z (l 1 0) (l (-1) 0)) (l 16777215 104))) z);
   (242%nat, ng_ok vy (shoot [ecyl_intersect (ECyl (V z z z) (l 1 0) (l 1 1) (l 1 1) (M (V (l 1 0) z z) (V z (l 1 0) z) (V z z (l 1 0))) (Some 0%nat)) 0 true None] (estart (V z (l (-5) 0) (l 3 0)) z (V z (l 1 0) (l (-1) 0)) (l 16777215 104))) (l64 (-1) 0));
   (243%nat, ng_ok vz (shoot [ecyl_intersect (ECyl (V z z z) (l 1 0) (l 1 1) (l 1 1) (M (V (l 1 0) z z) (V z (l 1 0) z) (V z z (l 1 0))) (Some 0%nat)) 0 true None] (estart (V z (l (-5) 0) (l 3 0)) z (V z (l 1 0) (l (-1) 0)) (l 16777215 104))) z);
   (265%nat, eprim_ok (shoot [ecyl_intersect (ECyl (V z z z) (l 1 0) (l 1 1) (l 1 1) (M (V (l 1 0) z z) (V z (l 1 0) z) (V z z (l 1 0))) (Some 0%nat)) 0 true None] (estart (V z z (l (-17) (-1))) z (V z z (l 1 0)) (l 16777215 104))) 0);
   (266%nat, tfar_ok (shoot [ecyl_intersect (ECyl (V z z z) (l 1 0) (l 1 1) (l 1 1) (M (V (l 1 0) z z) (V z (l 1 0) z) (V z z (l 1 0))) (Some 0%nat)) 0 true None] (estart (V z z (l (-17) (-1))) z (V z z (l 1 0)) (l 16777215 104))) (l64 15 (-1)));
   (267%nat, ng_ok vx (shoot [ecyl_intersect (ECyl (V z z z) (l 1 0) (l 1 1) (l 1 1) (M (V (l 1 0) z z) (V z (l 1 0) z) (V z z (l 1 0))) (Some 0%nat)) 0 true None] (estart (V z z (l (-17) (-1))) z (V z z (l 1 0)) (l 16777215 104))) z);
   (268%nat, ng_ok vy (shoot [ecyl_intersect (ECyl (V z z z) (l 1 0) (l 1 1) (l 1 1) (M (V (l 1 0) z z) (V z (l 1 0) z) (V z z (l 1 0))) (Some 0%nat)) 0 true None] (estart (V z z (l (-17) (-1))) z (V z z (l 1 0)) (l 16777215 104))) z);
   (269%nat, ng_ok vz (shoot [ecyl_intersect (ECyl (V z z z) (l 1 0) (l 1 1) (l 1 1) (M (V (l 1 0) z z) (V z (l 1 0) z) (V z z (l 1 0))) (Some 0%nat)) 0 true None] (estart (V z z (l (-17) (-1))) z (V z z (l 1 0)) (l 16777215 104))) (l64 (-1) 0));
   (289%nat, eprim_ok (shoot [ecyl_intersect (ECyl (V z z z) (l 1 0) (l 1 1) (l 1 1) (M (V (l 1 0) z z) (V z (l 1 0) z) (V z z (l 1 0))) (Some 0%nat)) 0 true None] (estart (V (l 5 0) z (l (-3) 1)) z (V (l (-1) 0) z (l 1 0)) (l 16777215 104))) 0);
   (290%nat, tfar_ok (shoot [ecyl_intersect (ECyl (V z z z) (l 1 0) (l 1 1) (l 1 1) (M (V (l 1 0) z z) (V z (l 1 0) z) (V z z (l 1 0))) (Some 0%nat)) 0 true None] (estart (V (l 5 0) z (l (-3) 1)) z (V (l (-1) 0) z (l 1 0)) (l 16777215 104))) (l64 124395540479019 (-44)));
   (291%nat, ng_ok vx (shoot [ecyl_intersect (ECyl (V z z z) (l 1 0) (l 1 1) (l 1 1) (M (V (l 1 0) z z) (V z (l 1 0) z) (V z z (l 1 0))) (Some 0%nat)) 0 true None] (estart (V (l 5 0) z (l (-3) 1)) z (V (l (-1) 0) z (l 1 0)) (l 16777215 104))) z);
   (292%nat, ng_ok vy (shoot [ecyl_intersect (ECyl (V z z z) (l 1 0) (l 1 1) (l 1 1) (M (V (l 1 0) z z) (V z (l 1 0) z) (V z z (l 1 0))) (Some 0%nat)) 0 true None] (estart (V (l 5 0) z (l (-3) 1)) z (V (l (-1) 0) z (l 1 0)) (l 16777215 104))) z);
   (293%nat, ng_ok vz (shoot [ecyl_intersect (ECyl (V z z z) (l 1 0) (l 1 1) (l 1 1) (M (V (l 1 0) z z) (V z (l 1 0) z) (V z z (l 1 0))) (Some 0%nat)) 0 true None] (estart (V (l 5 0) z (l (-3) 1)) z (V (l (-1) 0) z (l 1 0)) (l 16777215 104))) (l64 (-1) 0));
   (312%nat, eprim_ok (shoot [ecyl_intersect (ECyl (V z z z) (l 1 0) (l 1 1) (l 1 1) (M (V (l 1 0) z z) (V z (l 1 0) z) (V z z (l 1 0))) (Some 0%nat)) 0 true None] (estart (V (l 5 0) z (l (-1) 2)) z (V (l (-1) 0) z (l 1 0)) (l 16777215 104))) 0);
   (313%nat, tfar_ok (shoot [ecyl_intersect (ECyl (V z z z) (l 1 0) (l 1 1) (l 1 1) (M (V (l 1 0) z z) (V z (l 1 0) z) (V z z (l 1 0))) (Some 0%nat)) 0 true None] (estart (V (l 5 0) z (l (-1) 2)) z (V (l (-1) 0) z (l 1 0)) (l 16777215 104))) (l64 6369051672525773 (-50)));
   (314%nat, ng_ok vx (shoot [ecyl_intersect (ECyl (V z z z) (l 1 0) (l 1 1) (l 1 1) (M (V (l 1 0) z z) (V z (l 1 0) z) (V z z (l 1 0))) (Some 0%nat)) 0 true None] (estart (V (l 5 0) z (l (-1) 2)) z (V (l (-1) 0) z (l 1 0)) (l 16777215 104))) (l64 1 0));
   (315%nat, ng_ok vy (shoot [ecyl_intersect (ECyl (V z z z) (l 1 0) (l 1 1) (l 1 1) (M (V (l 1 0) z z) (V z (l 1 0) z) (V z z (l 1 0))) (Some 0%nat)) 0 true None] (estart (V (l 5 0) z (l (-1) 2)) z (V (l (-1) 0) z (l 1 0)) (l 16777215 104))) z);
   (316%nat, ng_ok vz (shoot [ecyl_intersect (ECyl (V z z z) (l 1 0) (l 1 1) (l 1 1) (M (V (l 1 0) z z) (V z (l 1 0) z) (V z z (l 1 0))) (Some 0%nat)) 0 true None] (estart (V (l 5 0) z (l (-1) 2)) z (V (l (-1) 0) z (l 1 0)) (l 16777215 104))) z);
   (335%nat, eprim_ok (shoot [ecyl_intersect (ECyl (V z z z) (l 1 0) (l 1 1) (l 1 1) (M (V (l 1 0) z z) (V z (l 1 0) z) (V z z (l 1 0))) (Some 0%nat)) 0 true None] (estart (V (l (-5) 0) z (l (-1) 2)) z (V (l 1 0) z (l 1 0)) (l 16777215 104))) 0);
   (336%nat, tfar_ok (shoot [ecyl_intersect (ECyl (V z z z) (l 1 0) (l 1 1) (l 1 1) (M (V (l 1 0) z z) (V z (l 1 0) z) (V z z (l 1 0))) (Some 0%nat)) 0 true None] (estart (V (l (-5) 0) z (l (-1) 2)) z (V (l 1 0) z (l 1 0)) (l 16777215 104))) (l64 6369051672525773 (-50)));
   (337%nat, ng_ok vx (shoot [ecyl_intersect (ECyl (V z z z) (l 1 0) (l 1 1) (l 1 1) (M (V (l 1 0) z z) (V z (l 1 0) z) (V z z (l 1 0))) (Some 0%nat)) 0 true None] (estart (V (l (-5) 0) z (l (-1) 2)) z (V (l 1 0) z (l 1 0)) (l 16777215 104))) (l64 (-1) 0));
   (338%nat, ng_ok vy (shoot [ecyl_intersect (ECyl (V z z z) (l 1 0) (l 1 1) (l 1 1) (M (V (l 1 0) z z) (V z (l 1 0) z) (V z z (l 1 0))) (Some 0%nat)) 0 true None] (estart (V (l (-5) 0) z (l (-1) 2)) z (V (l 1 0) z (l 1 0)) (l 16777215 104))) z);
   (339%nat, ng_ok vz (shoot [ecyl_intersect (ECyl (V z z z) (l 1 0) (l 1 1) (l 1 1) (M (V (l 1 0) z z) (V z (l 1 0) z) (V z z (l 1 0))) (Some 0%nat)) 0 true None] (estart (V (l (-5) 0) z (l (-1) 2)) z (V (l 1 0) z (l 1 0)) (l 16777215 104))) z);
   (358%nat, eprim_ok (shoot [ecyl_intersect (ECyl (V z z z) (l 1 0) (l 1 1) (l 1 1) (M (V (l 1 0) z z) (V z (l 1 0) z) (V z z (l 1 0))) (Some 0%nat)) 0 true None] (estart (V z (l 5 0) (l (-3) 0)) z (V z (l (-1) 0) (l 1 0)) (l 16777215 104))) 0);
   (359%nat, tfar_ok (shoot [ecyl_intersect (ECyl (V z z z) (l 1 0) (l 1 1) (l 1 1) (M (V (l 1 0) z z) (V z (l 1 0) z) (V z z (l 1 0))) (Some 0%nat)) 0 true None] (estart (V z (l 5 0) (l (-3) 0)) z (V z (l (-1) 0) (l 1 0)) (l 16777215 104))) (l64 4776788754394329 (-50)));
   (360%nat, ng_ok vx (shoot [ecyl_intersect (ECyl (V z z z) (l 1 0) (l 1 1) (l 1 1) (M (V (l 1 0) z z) (V z (l 1 0) z) (V z z (l 1 0))) (Some 0%nat)) 0 true None] (estart (V z (l 5 0) (l (-3) 0)) z (V z (l (-1) 0) (l 1 0)) (l 16777215 104))) z);
   (361%nat, ng_ok vy (shoot [ecyl_intersect (ECyl (V z z z) (l 1 0) (l 1 1) (l 1 1) (M (V (l 1 0) z z) (V z (l 1 0) z) (V z z (l 1 0))) (Some 0%nat)) 0 true None] (estart (V z (l 5 0) (l (-3) 0)) z (V z (l (-1) 0) (l 1 0)) (l 16777215 104))) (l64 1 0));
   (362%nat, ng_ok vz (shoot [ecyl_intersect (ECyl (V z z z) (l 1 0) (l 1 1) (l 1 1) (M (V (l 1 0) z z) (V z (l 1 0) z) (V z z (l 1 0))) (Some 0%nat)) 0 true None] (estart (V z (l 5 0) (l (-3) 0)) z (V z (l (-1) 0) (l 1 0)) (l 16777215 104))) z);
   (381%nat, eprim_ok (shoot [ecyl_intersect (ECyl (V z z z) (l 1 0) (l 1 1) (l 1 1) (M (V (l 1 0) z z) (V z (l 1 0) z) (V z z (l 1 0))) (Some 0%nat)) 0 true None] (estart (V z (l (-5) 0) (l (-3) 0)) z (V z (l 1 0) (l 1 0)) (l 16777215 104))) 0);
   (382%nat, tfar_ok (shoot [ecyl_intersect (ECyl (V z z z) (l 1 0) (l 1 1) (l 1 1) (M (V (l 1 0) z z) (V z (l 1 0) z) (V z z (l 1 0))) (Some 0%nat)) 0 true None] (estart (V z (l (-5) 0) (l (-3) 0)) z (V z (l 1 0) (l 1 0)) (l 16777215 104))) (l64 4776788754394329 (-50)));
   (383%nat, ng_ok vx (shoot [ecyl_intersect (ECyl (V z z z) (l 1 0) (l 1 1) (l 1 1) (M (V (l 1 0) z z) (V z (l 1 0) z) (V z z (l 1 0))) (Some 0%nat)) 0 true None] (estart (V z (l (-5) 0) (l (-3) 0)) z (V z (l 1 0) (l 1 0)) (l 16777215 104))) z);
   (384%nat, ng_ok vy (shoot [ecyl_intersect (ECyl (V z z z) (l 1 0) (l 1 1) (l 1 1) (M (V (l 1 0) z z) (V z (l 1 0) z) (V z z (l 1 0))) (Some 0%nat)) 0 true None] (estart (V z (l (-5) 0) (l (-3) 0)) z (V z (l 1 0) (l 1 0)) (l 16777215 104))) (l64 (-1) 0));
   (385%nat, ng_ok vz (shoot [ecyl_intersect (ECyl (V z z z) (l 1 0) (l 1 1) (l 1 1) (M (V (l 1 0) z z) (V z (l 1 0) z) (V z z (l 1 0))) (Some 0%nat)) 0 true None] (estart (V z (l (-5) 0) (l (-3) 0)) z (V z (l 1 0) (l 1 0)) (l 16777215 104))) z);
   (407%nat, eprim_ok (shoot [ecyl_intersect (ECyl (V z z z) (l 1 0) (l 1 1) (l 1 1) (M (V (l 1 0) z z) (V z (l 1 0) z) (V z z (l 1 0))) (Some 0%nat)) 0 true None] (estart (V (l 5 0) z z) z (V (l (-1) 0) z z) (l 16777215 104))) 0);
   (408%nat, tfar_ok (shoot [ecyl_intersect (ECyl (V z z z) (l 1 0) (l 1 1) (l 1 1) (M (V (l 1 0) z z) (V z (l 1 0) z) (V z z (l 1 0))) (Some 0%nat)) 0 true None] (estart (V (l 5 0) z z) z (V (l (-1) 0) z z) (l 16777215 104))) (l64 1 2));
   (409%nat, ng_ok vx (shoot [ecyl_intersect (ECyl (V z z z) (l 1 0) (l 1 1) (l 1 1) (M (V (l 1 0) z z) (V z (l 1 0) z) (V z z (l 1 0))) (Some 0%nat)) 0 true None] (estart (V (l 5 0) z z) z (V (l (-1) 0) z z) (l 16777215 104))) (l64 1 0));
   (410%nat, ng_ok vy (shoot [ecyl_intersect (ECyl (V z z z) (l 1 0) (l 1 1) (l 1 1) (M (V (l 1 0) z z) (V z (l 1 0) z) (V z z (l 1 0))) (Some 0%nat)) 0 true None] (estart (V (l 5 0) z z) z (V (l (-1) 0) z z) (l 16777215 104))) z);
   (411%nat, ng_ok vz (shoot [ecyl_intersect (ECyl (V z z z) (l 1 0) (l 1 1) (l 1 1) (M (V (l 1 0) z z) (V z (l 1 0) z) (V z z (l 1 0))) (Some 0%nat)) 0 true None] (estart (V (l 5 0) z z) z (V (l (-1) 0) z z) (l 16777215 104))) z);
   (430%nat, eprim_ok (shoot [ecyl_intersect (ECyl (V z z z) (l 1 0) (l 1 1) (l 1 1) (M (V (l 1 0) z z) (V z (l 1 0) z) (V z z (l 1 0))) (Some 0%nat)) 0 true None] (estart (V (l (-5) 0) z z) z (V (l 1 0) z z) (l 16777215 104))) 0);
   (431%nat, tfar_ok (shoot [ecyl_intersect (ECyl (V z z z) (l 1 0) (l 1 1) (l 1 1) (M (V (l 1 0) z z) (V z (l 1 0) z) (V z z (l 1 0))) (Some 0%nat)) 0 true None] (estart (V (l (-5) 0) z z) z (V (l 1 0) z z) (l 16777215 104))) (l64 1 2));
   (432%nat, ng_ok vx (shoot [ecyl_intersect (ECyl (V z z z) (l 1 0) (l 1 1) (l 1 1) (M (V (l 1 0) z z) (V z (l 1 0) z) (V z z (l 1 0))) (Some 0%nat)) 0 true None] (estart (V (l (-5) 0) z z) z (V (l 1 0) z z) (l 16777215 104))) (l64 (-1) 0));
   (433%nat, ng_ok vy (shoot [ecyl_intersect (ECyl (V z z z) (l 1 0) (l 1 1) (l 1 1) (M (V (l 1 0) z z) (V z (l 1 0) z) (V z z (l 1 0))) (Some 0%nat)) 0 true None] (estart (V (l (-5) 0) z z) z (V (l 1 0) z z) (l 16777215 104))) z);
   (434%nat, ng_ok vz (shoot [ecyl_intersect (ECyl (V z z z) (l 1 0) (l 1 1) (l 1 1) (M (V (l 1 0) z z) (V z (l 1 0) z) (V z z (l 1 0))) (Some 0%nat)) 0 true None] (estart (V (l (-5) 0) z z) z (V (l 1 0) z z) (l 16777215 104))) z);
   (453%nat, eprim_ok (shoot [ecyl_intersect (ECyl (V z z z) (l 1 0) (l 1 1) (l 1 1) (M (V (l 1 0) z z) (V z (l 1 0) z) (V z z (l 1 0))) (Some 0%nat)) 0 true None] (estart (V z (l 5 0) z) z (V z (l (-1) 0) z) (l 16777215 104))) 0);
   (454%nat, tfar_ok (shoot [ecyl_intersect (ECyl (V z z z) (l 1 0) (l 1 1) (l 1 1) (M (V (l 1 0) z z) (V z (l 1 0) z) (V z z (l 1 0))) (Some 0%nat)) 0 true None] (estart (V z (l 5 0) z) z (V z (l (-1) 0) z) (l 16777215 104))) (l64 3 0));
   (455%nat, ng_ok vx (shoot [ecyl_intersect (ECyl (V z z z) (l 1 0) (l 1 1) (l 1 1) (M (V (l 1 0) z z) (V z (l 1 0) z) (V z z (l 1 0))) (Some 0%nat)) 0 true None] (estart (V z (l 5 0) z) z (V z (l (-1) 0) z) (l 16777215 104))) z);
   (456%nat, ng_ok vy (shoot [ecyl_intersect (ECyl (V z z z) (l 1 0) (l 1 1) (l 1 1) (M (V (l 1 0) z z) (V z (l 1 0) z) (V z z (l 1 0))) (Some 0%nat)) 0 true None] (estart (V z (l 5 0) z) z (V z (l (-1) 0) z) (l 16777215 104))) (l64 1 0));
   (457%nat, ng_ok vz (shoot [ecyl_intersect (ECyl (V z z z) (l 1 0) (l 1 1) (l 1 1) (M (V (l 1 0) z z) (V z (l 1 0) z) (V z z (l 1 0))) (Some 0%nat)) 0 true None] (estart (V z (l 5 0) z) z (V z (l (-1) 0) z) (l 16777215 104))) z);
   (476%nat, eprim_ok (shoot [ecyl_intersect (ECyl (V z z z) (l 1 0) (l 1 1) (l 1 1) (M (V (l 1 0) z z) (V z (l 1 0) z) (V z z (l 1 0))) (Some 0%nat)) 0 true None] (estart (V z (l (-5) 0) z) z (V z (l 1 0) z) (l 16777215 104))) 0);
   (477%nat, tfar_ok (shoot [ecyl_intersect (ECyl (V z z z) (l 1 0) (l 1 1) (l 1 1) (M (V (l 1 0) z z) (V z (l 1 0) z) (V z z (l 1 0))) (Some 0%nat)) 0 true None] (estart (V z (l (-5) 0) z) z (V z (l 1 0) z) (l 16777215 104))) (l64 3 0));
   (478%nat, ng_ok vx (shoot [ecyl_intersect (ECyl (V z z z) (l 1 0) (l 1 1) (l 1 1) (M (V (l 1 0) z z) (V z (l 1 0) z) (V z z (l 1 0))) (Some 0%nat)) 0 true None] (estart (V z (l (-5) 0) z) z (V z (l 1 0) z) (l 16777215 104))) z);
   (479%nat, ng_ok vy (shoot [ecyl_intersect (ECyl (V z z z) (l 1 0) (l 1 1) (l 1 1) (M (V (l 1 0) z z) (V z (l 1 0) z) (V z z (l 1 0))) (Some 0%nat)) 0 true None] (estart (V z (l (-5) 0) z) z (V z (l 1 0) z) (l 16777215 104))) (l64 (-1) 0));
   (480%nat, ng_ok vz (shoot [ecyl_intersect (ECyl (V z z z) (l 1 0) (l 1 1) (l 1 1) (M (V (l 1 0) z z) (V z (l 1 0) z) (V z z (l 1 0))) (Some 0%nat)) 0 true None] (estart (V z (l (-5) 0) z) z (V z (l 1 0) z) (l 16777215 104))) z);
   (502%nat, eprim_ok (shoot [ecyl_intersect (ECyl (V z z z) (l 1 0) (l 1 1) (l 1 1) (M (V (l 1 0) z z) (V z (l 1 0) z) (V z z (l 1 0))) (Some 0%nat)) 0 true None] (estart (V z z z) z (V z z (l 1 0)) (l 16777215 104))) 0);
   (503%nat, tfar_ok (shoot [ecyl_intersect (ECyl (V z z z) (l 1 0) (l 1 1) (l 1 1) (M (V (l 1 0) z z) (V z (l 1 0) z) (V z z (l 1 0))) (Some 0%nat)) 0 true None] (estart (V z z z) z (V z z (l 1 0)) (l 16777215 104))) (l64 1 0));
   (504%nat, ng_ok vx (shoot [ecyl_intersect (ECyl (V z z z) (l 1 0) (l 1 1) (l 1 1) (M (V (l 1 0) z z) (V z (l 1 0) z) (V z z (l 1 0))) (Some 0%nat)) 0 true None] (estart (V z z z) z (V z z (l 1 0)) (l 16777215 104))) z);
   (505%nat, ng_ok vy (shoot [ecyl_intersect (ECyl (V z z z) (l 1 0) (l 1 1) (l 1 1) (M (V (l 1 0) z z) (V z (l 1 0) z) (V z z (l 1 0))) (Some 0%nat)) 0 true None] (estart (V z z z) z (V z z (l 1 0)) (l 16777215 104))) z);
   (506%nat, ng_ok vz (shoot [ecyl_intersect (ECyl (V z z z) (l 1 0) (l 1 1) (l 1 1) (M (V (l 1 0) z z) (V z (l 1 0) z) (V z z (l 1 0))) (Some 0%nat)) 0 true None] (estart (V z z z) z (V z z (l 1 0)) (l 16777215 104))) (l64 1 0));
   (525%nat, eprim_ok (shoot [ecyl_intersect (ECyl (V z z z) (l 1 0) (l 1 1) (l 1 1) (M (V (l 1 0) z z) (V z (l 1 0) z) (V z z (l 1 0))) (Some 0%nat)) 0 true None] (estart (V z z z) z (V z z (l (-1) 0)) (l 16777215 104))) 0);
   (526%nat, tfar_ok (shoot [ecyl_intersect (ECyl (V z z z) (l 1 0) (l 1 1) (l 1 1) (M (V (l 1 0) z z) (V z (l 1 0) z) (V z z (l 1 0))) (Some 0%nat)) 0 true None] (estart (V z z z) z (V z z (l (-1) 0)) (l 16777215 104))) (l64 1 0));
   (527%nat, ng_ok vx (shoot [ecyl_intersect (ECyl (V z z z) (l 1 0) (l 1 1) (l 1 1) (M (V (l 1 0) z z) (V z (l 1 0) z) (V z z (l 1 0))) (Some 0%nat)) 0 true None] (estart (V z z z) z (V z z (l (-1) 0)) (l 16777215 104))) z);
   (528%nat, ng_ok vy (shoot [ecyl_intersect (ECyl (V z z z) (l 1 0) (l 1 1) (l 1 1) (M (V (l 1 0) z z) (V z (l 1 0) z) (V z z (l 1 0))) (Some 0%nat)) 0 true None] (estart (V z z z) z (V z z (l (-1) 0)) (l 16777215 104))) z);
   (529%nat, ng_ok vz (shoot [ecyl_intersect (ECyl (V z z z) (l 1 0) (l 1 1) (l 1 1) (M (V (l 1 0) z z) (V z (l 1 0) z) (V z z (l 1 0))) (Some 0%nat)) 0 true None] (estart (V z z z) z (V z z (l (-1) 0)) (l 16777215 104))) (l64 (-1) 0));
   (548%nat, eprim_ok (shoot [ecyl_intersect (ECyl (V z z z) (l 1 0) (l 1 1) (l 1 1) (M (V (l 1 0) z z) (V z (l 1 0) z) (V z z (l 1 0))) (Some 0%nat)) 0 true None] (estart (V z z z) z (V (l (-1) 0) z z) (l 16777215 104))) 0);
   (549%nat, tfar_ok (shoot [ecyl_intersect (ECyl (V z z z) (l 1 0) (l 1 1) (l 1 1) (M (V (l 1 0) z z) (V z (l 1 0) z) (V z z (l 1 0))) (Some 0%nat)) 0 true None] (estart (V z z z) z (V (l (-1) 0) z z) (l 16777215 104))) (l64 1 0));
   (550%nat, ng_ok vx (shoot [ecyl_intersect (ECyl (V z z z) (l 1 0) (l 1 1) (l 1 1) (M (V (l 1 0) z z) (V z (l 1 0) z) (V z z (l 1 0))) (Some 0%nat)) 0 true None] (estart (V z z z) z (V (l (-1) 0) z z) (l 16777215 104))) (l64 (-1) 0));
   (551%nat, ng_ok vy (shoot [ecyl_intersect (ECyl (V z z z) (l 1 0) (l 1 1) (l 1 1) (M (V (l 1 0) z z) (V z (l 1 0) z) (V z z (l 1 0))) (Some 0%nat)) 0 true None] (estart (V z z z) z (V (l (-1) 0) z z) (l 16777215 104))) z);
   (552%nat, ng_ok vz (shoot [ecyl_intersect (ECyl (V z z z) (l 1 0) (l 1 1) (l 1 1) (M (V (l 1 0) z z) (V z (l 1 0) z) (V z z (l 1 0))) (Some 0%nat)) 0 true None] (estart (V z z z) z (V (l (-1) 0) z z) (l 16777215 104))) z);
   (571%nat, eprim_ok (shoot [ecyl_intersect (ECyl (V z z z) (l 1 0) (l 1 1) (l 1 1) (M (V (l 1 0) z z) (V z (l 1 0) z) (V z z (l 1 0))) (Some 0%nat)) 0 true None] (estart (V z z z) z (V (l 1 0) z z) (l 16777215 104))) 0);
   (572%nat, tfar_ok (shoot [ecyl_intersect (ECyl (V z z z) (l 1 0) (l 1 1) (l 1 1) (M (V (l 1 0) z z) (V z (l 1 0) z) (V z z (l 1 0))) (Some 0%nat)) 0 true None] (estart (V z z z) z (V (l 1 0) z z) (l 16777215 104))) (l64 1 0));
   (573%nat, ng_ok vx (shoot [ecyl_intersect (ECyl (V z z z) (l 1 0) (l 1 1) (l 1 1) (M (V (l 1 0) z z) (V z (l 1 0) z) (V z z (l 1 0))) (Some 0%nat)) 0 true None] (estart (V z z z) z (V (l 1 0) z z) (l 16777215 104))) (l64 1 0));
   (574%nat, ng_ok vy (shoot [ecyl_intersect (ECyl (V z z z) (l 1 0) (l 1 1) (l 1 1) (M (V (l 1 0) z z) (V z (l 1 0) z) (V z z (l 1 0))) (Some 0%nat)) 0 true None] (estart (V z z z) z (V (l 1 0) z z) (l 16777215 104))) z);
   (575%nat, ng_ok vz (shoot [ecyl_intersect (ECyl (V z z z) (l 1 0) (l 1 1) (l 1 1) (M (V (l 1 0) z z) (V z (l 1 0) z) (V z z (l 1 0))) (Some 0%nat)) 0 true None] (estart (V z z z) z (V (l 1 0) z z) (l 16777215 104))) z);
   (594%nat, eprim_ok (shoot [ecyl_intersect (ECyl (V z z z) (l 1 0) (l 1 1) (l 1 1) (M (V (l 1 0) z z) (V z (l 1 0) z) (V z z (l 1 0))) (Some 0%nat)) 0 true None] (estart (V z z z) z (V z (l (-1) 0) z) (l 16777215 104))) 0);
   (595%nat, tfar_ok (shoot [ecyl_intersect (ECyl (V z z z) (l 1 0) (l 1 1) (l 1 1) (M (V (l 1 0) z z) (V z (l 1 0) z) (V z z (l 1 0))) (Some 0%nat)) 0 true None] (estart (V z z z) z (V z (l (-1) 0) z) (l 16777215 104))) (l64 1 1));
   (596%nat, ng_ok vx (shoot [ecyl_intersect (ECyl (V z z z) (l 1 0) (l 1 1) (l 1 1) (M (V (l 1 0) z z) (V z (l 1 0) z) (V z z (l 1 0))) (Some 0%nat)) 0 true None] (estart (V z z z) z (V z (l (-1) 0) z) (l 16777215 104))) z);
   (597%nat, ng_ok vy (shoot [ecyl_intersect (ECyl (V z z z) (l 1 0) (l 1 1) (l 1 1) (M (V (l 1 0) z z) (V z (l 1 0) z) (V z z (l 1 0))) (Some 0%nat)) 0 true None] (estart (V z z z) z (V z (l (-1) 0) z) (l 16777215 104))) (l64 (-1) 0));
   (598%nat, ng_ok vz (shoot [ecyl_intersect (ECyl (V z z z) (l 1 0) (l 1 1) (l 1 1) (M (V (l 1 0) z z) (V z (l 1 0) z) (V z z (l 1 0))) (Some 0%nat)) 0 true None] (estart (V z z z) z (V z (l (-1) 0) z) (l 16777215 104))) z);
   (617%nat, eprim_ok (shoot [ecyl_intersect (ECyl (V z z z) (l 1 0) (l 1 1) (l 1 1) (M (V (l 1 0) z z) (V z (l 1 0) z) (V z z (l 1 0))) (Some 0%nat)) 0 true None] (estart (V z z z) z (V z (l 1 0) z) (l 16777215 104))) 0);
   (618%nat, tfar_ok (shoot [ecyl_intersect (ECyl (V z z z) (l 1 0) (l 1 1) (l 1 1) (M (V (l 1 0) z z) (V z (l 1 0) z) (V z z (l 1 0))) (Some 0%nat)) 0 true None] (estart (V z z z) z (V z (l 1 0) z) (l 16777215 104))) (l64 1 1));
   (619%nat, ng_ok vx (shoot [ecyl_intersect (ECyl (V z z z) (l 1 0) (l 1 1) (l 1 1) (M (V (l 1 0) z z) (V z (l 1 0) z) (V z z (l 1 0))) (Some 0%nat)) 0 true None] (estart (V z z z) z (V z (l 1 0) z) (l 16777215 104))) z);
   (620%nat, ng_ok vy (shoot [ecyl_intersect (ECyl (V z z z) (l 1 0) (l 1 1) (l 1 1) (M (V (l 1 0) z z) (V z (l 1 0) z) (V z z (l 1 0))) (Some 0%nat)) 0 true None] (estart (V z z z) z (V z (l 1 0) z) (l 16777215 104))) (l64 1 0));
   (621%nat, ng_ok vz (shoot [ecyl_intersect (ECyl (V z z z) (l 1 0) (l 1 1) (l 1 1) (M (V (l 1 0) z z) (V z (l 1 0) z) (V z z (l 1 0))) (Some 0%nat)) 0 true None] (estart (V z z z) z (V z (l 1 0) z) (l 16777215 104))) z);
   (652%nat, eprim_ok (shoot [ecyl_intersect (ECyl (V (l 1 0) (l 1 1) z) (l 1 0) (l 1 1) (l 1 1) (M (V (l 1 0) z z) (V z (l 1 0) z) (V z z (l 1 0))) (Some 0%nat)) 0 true None] (estart (V (l 1 0) (l 1 1) (l 13 (-1))) z (V z z (l (-1) 0)) (l 16777215 104))) 0);
   (653%nat, tfar_ok (shoot [ecyl_intersect (ECyl (V (l 1 0) (l 1 1) z) (l 1 0) (l 1 1) (l 1 1) (M (V (l 1 0) z z) (V z (l 1 0) z) (V z z (l 1 0))) (Some 0%nat)) 0 true None] (estart (V (l 1 0) (l 1 1) (l 13 (-1))) z (V z z (l (-1) 0)) (l 16777215 104))) (l64 11 (-1)));
   (654%nat, ng_ok vx (shoot [ecyl_intersect (ECyl (V (l 1 0) (l 1 1) z) (l 1 0) (l 1 1) (l 1 1) (M (V (l 1 0) z z) (V z (l 1 0) z) (V z z (l 1 0))) (Some 0%nat)) 0 true None] (estart (V (l 1 0) (l 1 1) (l 13 (-1))) z (V z z (l (-1) 0)) (l 16777215 104))) z);
   (655%nat, ng_ok vy (shoot [ecyl_intersect (ECyl (V (l 1 0) (l 1 1) z) (l 1 0) (l 1 1) (l 1 1) (M (V (l 1 0) z z) (V z (l 1 0) z) (V z z (l 1 0))) (Some 0%nat)) 0 true None] (estart (V (l 1 0) (l 1 1) (l 13 (-1))) z (V z z (l (-1) 0)) (l 16777215 104))) z);
   (656%nat, ng_ok vz (shoot [ecyl_intersect (ECyl (V (l 1 0) (l 1 1) z) (l 1 0) (l 1 1) (l 1 1) (M (V (l 1 0) z z) (V z (l 1 0) z) (V z z (l 1 0))) (Some 0%nat)) 0 true None] (estart (V (l 1 0) (l 1 1) (l 13 (-1))) z (V z z (l (-1) 0)) (l 16777215 104))) (l64 1 0));
   (676%nat, eprim_ok (shoot [ecyl_intersect (ECyl (V (l 1 0) (l 1 1) z) (l 1 0) (l 1 1) (l 1 1) (M (V (l 1 0) z z) (V z (l 1 0) z) (V z z (l 1 0))) (Some 0%nat)) 0 true None] (estart (V (l 3 1) (l 1 1) (l 3 1)) z (V (l (-1) 0) z (l (-1) 0)) (l 16777215 104))) 0);
   (677%nat, tfar_ok (shoot [ecyl_intersect (ECyl (V (l 1 0) (l 1 1) z) (l 1 0) (l 1 1) (l 1 1) (M (V (l 1 0) z z) (V z (l 1 0) z) (V z z (l 1 0))) (Some 0%nat)) 0 true None] (estart (V (l 3 1) (l 1 1) (l 3 1)) z (V (l (-1) 0) z (l (-1) 0)) (l 16777215 104))) (l64 124395540479019 (-44)));
   (678%nat, ng_ok vx (shoot [ecyl_intersect (ECyl (V (l 1 0) (l 1 1) z) (l 1 0) (l 1 1) (l 1 1) (M (V (l 1 0) z z) (V z (l 1 0) z) (V z z (l 1 0))) (Some 0%nat)) 0 true None] (estart (V (l 3 1) (l 1 1) (l 3 1)) z (V (l (-1) 0) z (l (-1) 0)) (l 16777215 104))) z);
   (679%nat, ng_ok vy (shoot [ecyl_intersect (ECyl (V (l 1 0) (l 1 1) z) (l 1 0) (l 1 1) (l 1 1) (M (V (l 1 0) z z) (V z (l 1 0) z) (V z z (l 1 0))) (Some 0%nat)) 0 true None] (estart (V (l 3 1) (l 1 1) (l 3 1)) z (V (l (-1) 0) z (l (-1) 0)) (l 16777215 104))) z);
   (680%nat, ng_ok vz (shoot [ecyl_intersect (ECyl (V (l 1 0) (l 1 1) z) (l 1 0) (l 1 1) (l 1 1) (M (V (l 1 0) z z) (V z (l 1 0) z) (V z z (l 1 0))) (Some 0%nat)) 0 true None] (estart (V (l 3 1) (l 1 1) (l 3 1)) z (V (l (-1) 0) z (l (-1) 0)) (l 16777215 104))) (l64 1 0));
   (699%nat, eprim_ok (shoot [ecyl_intersect (ECyl (V (l 1 0) (l 1 1) z) (l 1 0) (l 1 1) (l 1 1) (M (V (l 1 0) z z) (V z (l 1 0) z) (V z z (l 1 0))) (Some 0%nat)) 0 true None] (estart (V (l 3 1) (l 1 1) (l 1 2)) z (V (l (-1) 0) z (l (-1) 0)) (l 16777215 104))) 0);
   (700%nat, tfar_ok (shoot [ecyl_intersect (ECyl (V (l 1 0) (l 1 1) z) (l 1 0) (l 1 1) (l 1 1) (M (V (l 1 0) z z) (V z (l 1 0) z) (V z z (l 1 0))) (Some 0%nat)) 0 true None] (estart (V (l 3 1) (l 1 1) (l 1 2)) z (V (l (-1) 0) z (l (-1) 0)) (l 16777215 104))) (l64 6369051672525773 (-50)));
   (701%nat, ng_ok vx (shoot [ecyl_intersect (ECyl (V (l 1 0) (l 1 1) z) (l 1 0) (l 1 1) (l 1 1) (M (V (l 1 0) z z) (V z (l 1 0) z) (V z z (l 1 0))) (Some 0%nat)) 0 true None] (estart (V (l 3 1) (l 1 1) (l 1 2)) z (V (l (-1) 0) z (l (-1) 0)) (l 16777215 104))) (l64 1 0));
   (702%nat, ng_ok vy (shoot [ecyl_intersect (ECyl (V (l 1 0) (l 1 1) z) (l 1 0) (l 1 1) (l 1 1) (M (V (l 1 0) z z) (V z (l 1 0) z) (V z z (l 1 0))) (Some 0%nat)) 0 true None] (estart (V (l 3 1) (l 1 1) (l 1 2)) z (V (l (-1) 0) z (l (-1) 0)) (l 16777215 104))) z);
   (703%nat, ng_ok vz (shoot [ecyl_intersect (ECyl (V (l 1 0) (l 1 1) z) (l 1 0) (l 1 1) (l 1 1) (M (V (l 1 0) z z) (V z (l 1 0) z) (V z z (l 1 0))) (Some 0%nat)) 0 true None] (estart (V (l 3 1) (l 1 1) (l 1 2)) z (V (l (-1) 0) z (l (-1) 0)) (l 16777215 104))) z);
   (722%nat, eprim_ok (shoot [ecyl_intersect (ECyl (V (l 1 0) (l 1 1) z) (l 1 0) (l 1 1) (l 1 1) (M (V (l 1 0) z z) (V z (l 1 0) z) (V z z (l 1 0))) (Some 0%nat)) 0 true None] (estart (V (l (-1) 2) (l 1 1) (l 1 2)) z (V (l 1 0) z (l (-1) 0)) (l 16777215 104))) 0);
   (723%nat, tfar_ok (shoot [ecyl_intersect (ECyl (V (l 1 0) (l 1 1) z) (l 1 0) (l 1 1) (l 1 1) (M (V (l 1 0) z z) (V z (l 1 0) z) (V z z (l 1 0))) (Some 0%nat)) 0 true None] (estart (V (l (-1) 2) (l 1 1) (l 1 2)) z (V (l 1 0) z (l (-1) 0)) (l 16777215 104))) (l64 6369051672525773 (-50)));
   (724%nat, ng_ok vx (shoot [ecyl_intersect (ECyl (V (l 1 0) (l 1 1) z) (l 1 0) (l 1 1) (l 1 1) (M (V (l 1 0) z z) (V z (l 1 0) z) (V z z (l 1 0))) (Some 0%nat)) 0 true None] (estart (V (l (-1) 2) (l 1 1) (l 1 2)) z (V (l 1 0) z (l (-1) 0)) (l 16777215 104))) (l64 (-1) 0));
   (725%nat, ng_ok vy (shoot [ecyl_intersect (ECyl (V (l 1 0) (l 1 1) z) (l 1 0) (l 1 1) (l 1 1) (M (V (l 1 0) z z) (V z (l 1 0) z) (V z z (l 1 0))) (Some 0%nat)) 0 true None] (estart (V (l (-1) 2) (l 1 1) (l 1 2)) z (V (l 1 0) z (l (-1) 0)) (l 16777215 104))) z);
   (726%nat, ng_ok vz (shoot [ecyl_intersect (ECyl (V (l 1 0) (l 1 1) z) (l 1 0) (l 1 1) (l 1 1) (M (V (l 1 0) z z) (V z (l 1 0) z) (V z z (l 1 0))) (Some 0%nat)) 0 true None] (estart (V (l (-1) 2) (l 1 1) (l 1 2)) z (V (l 1 0) z (l (-1) 0)) (l 16777215 104))) z);
   (745%nat, eprim_ok (shoot [ecyl_intersect (ECyl (V (l 1 0) (l 1 1) z) (l 1 0) (l 1 1) (l 1 1) (M (V (l 1 0) z z) (V z (l 1 0) z) (V z z (l 1 0))) (Some 0%nat)) 0 true None] (estart (V (l 1 0) (l 7 0) (l 3 0)) z (V z (l (-1) 0) (l (-1) 0)) (l 16777215 104))) 0);
   (746%nat, tfar_ok (shoot [ecyl_intersect (ECyl (V (l 1 0) (l 1 1) z) (l 1 0) (l 1 1) (l 1 1) (M (V (l 1 0) z z) (V z (l 1 0) z) (V z z (l 1 0))) (Some 0%nat)) 0 true None] (estart (V (l 1 0) (l 7 0) (l 3 0)) z (V z (l (-1) 0) (l (-1) 0)) (l 16777215 104))) (l64 4776788754394329 (-50)));
   (747%nat, ng_ok vx (shoot [ecyl_intersect (ECyl (V (l 1 0) (l 1 1) z) (l 1 0) (l 1 1) (l 1 1) (M (V (l 1 0) z z) (V z (l 1 0) z) (V z z (l 1 0))) (Some 0%nat)) 0 true None] (estart (V (l 1 0) (l 7 0) (l 3 0)) z (V z (l (-1) 0) (l (-1) 0)) (l 16777215 104))) z);
   (748%nat, ng_ok vy (shoot [ecyl_intersect (ECyl (V (l 1 0) (l 1 1) z) (l 1 0) (l 1 1) (l 1 1) (M (V (l 1 0) z z) (V z (l 1 0) z) (V z z (l 1 0))) (Some 0%nat)) 0 true None] (estart (V (l 1 0) (l 7 0) (l 3 0)) z (V z (l (-1) 0) (l (-1) 0)) (l 16777215 104))) (l64 1 0));
   (749%nat, ng_ok vz (shoot [ecyl_intersect (ECyl (V (l 1 0) (l 1 1) z) (l 1 0) (l 1 1) (l 1 1) (M (V (l 1 0) z z) (V z (l 1 0) z) (V z z (l 1 0))) (Some 0%nat)) 0 true None] (estart (V (l 1 0) (l 7 0) (l 3 0)) z (V z (l (-1) 0) (l (-1) 0)) (l 16777215 104))) z);
   (768%nat, eprim_ok (shoot [ecyl_intersect (ECyl (V (l 1 0) (l 1 1) z) (l 1 0) (l 1 1) (l 1 1) (M (V (l 1 0) z z) (V z (l 1 0) z) (V z z (l 1 0))) (Some 0%nat)) 0 true None] (estart (V (l 1 0) (l (-3) 0) (l 3 0)) z (V z (l 1 0) (l (-1) 0)) (l 16777215 104))) 0);
   (769%nat, tfar_ok (shoot [ecyl_intersect (ECyl (V (l 1 0) (l 1 1) z) (l 1 0) (l 1 1) (l 1 1) (M (V (l 1 0) z z) (V z (l 1 0) z) (V z z (l 1 0))) (Some 0%nat)) 0 true None] (estart (V (l 1 0) (l (-3) 0) (l 3 0)) z (V z (l 1 0) (l (-1) 0)) (l 16777215 104))) (l64 4776788754394329 (-50)));
   (770%nat, ng_ok vx (shoot [ecyl_intersect (ECyl (V (l 1 0) (l 1 1) z) (l 1 0) (l 1 1) (l 1 1) (M (V (l 1 0) z z) (V z (l 1 0) z) (V z z (l 1 0))) (Some 0%nat)) 0 true None] (estart (V (l 1 0) (l (-3) 0) (l 3 0)) z (V z (l 1 0) (l (-1) 0)) (l 16777215 104))) z);
   (771%nat, ng_ok vy (shoot [ecyl_intersect (ECyl (V (l 1 0) (l 1 1) z) (l 1 0) (l 1 1) (l 1 1) (M (V (l 1 0) z z) (V z (l 1 0) z) (V z z (l 1 0))) (Some 0%nat)) 0 true None] (estart (V (l 1 0) (l (-3) 0) (l 3 0)) z (V z (l 1 0) (l (-1) 0)) (l 16777215 104))) (l64 (-1) 0));
   (772%nat, ng_ok vz (shoot [ecyl_intersect (ECyl (V (l 1 0) (l 1 1) z) (l 1 0) (l 1 1) (l 1 1) (M (V (l 1 0) z z) (V z (l 1 0) z) (V z z (l 1 0))) (Some 0%nat)) 0 true None] (estart (V (l 1 0) (l (-3) 0) (l 3 0)) z (V z (l 1 0) (l (-1) 0)) (l 16777215 104))) z);
   (794%nat, eprim_ok (shoot [ecyl_intersect (ECyl (V (l 1 0) (l 1 1) z) (l 1 0) (l 1 1) (l 1 1) (M (V (l 1 0) z z) (V z (l 1 0) z) (V z z (l 1 0))) (Some 0%nat)) 0 true None] (estart (V (l 1 0) (l 1 1) (l (-17) (-1))) z (V z z (l 1 0)) (l 16777215 104))) 0);
   (795%nat, tfar_ok (shoot [ecyl_intersect (ECyl (V (l 1 0) (l 1 1) z) (l 1 0) (l 1 1) (l 1 1) (M (V (l 1 0) z z) (V z (l 1 0) z) (V z z (l 1 0))) (Some 0%nat)) 0 true None] (estart (V (l 1 0) (l 1 1) (l (-17) (-1))) z (V z z (l 1 0)) (l 16777215 104))) (l64 15 (-1)));
   (796%nat, ng_ok vx (shoot [ecyl_intersect (ECyl (V (l 1 0) (l 1 1) z) (l 1 0) (l 1 1) (l 1 1) (M (V (l 1 0) z z) (V z (l 1 0) z) (V z z (l 1 0))) (Some 0%nat)) 0 true None] (estart (V (l 1 0) (l 1 1) (l (-17) (-1))) z (V z z (l 1 0)) (l 16777215 104))) z);
   (797%nat, ng_ok vy (shoot [ecyl_intersect (ECyl (V (l 1 0) (l 1 1) z) (l 1 0) (l 1 1) (l 1 1) (M (V (l 1 0) z z) (V z (l 1 0) z) (V z z (l 1 0))) (Some 0%nat)) 0 true None] (estart (V (l 1 0) (l 1 1) (l (-17) (-1))) z (V z z (l 1 0)) (l 16777215 104))) z);
   (798%nat, ng_ok vz (shoot [ecyl_intersect (ECyl (V (l 1 0) (l 1 1) z) (l 1 0) (l 1 1) (l 1 1) (M (V (l 1 0) z z) (V z (l 1 0) z) (V z z (l 1 0))) (Some 0%nat)) 0 true None] (estart (V (l 1 0) (l 1 1) (l (-17) (-1))) z (V z z (l 1 0)) (l 16777215 104))) (l64 (-1) 0));
   (818%nat, eprim_ok (shoot [ecyl_intersect (ECyl (V (l 1 0) (l 1 1) z) (l 1 0) (l 1 1) (l 1 1) (M (V (l 1 0) z z) (V z (l 1 0) z) (V z z (l 1 0))) (Some 0%nat)) 0 true None] (estart (V (l 3 1) (l 1 1) (l (-3) 1)) z (V (l (-1) 0) z (l 1 0)) (l 16777215 104))) 0);
   (819%nat, tfar_ok (shoot [ecyl_intersect (ECyl (V (l 1 0) (l 1 1) z) (l 1 0) (l 1 1) (l 1 1) (M (V (l 1 0) z z) (V z (l 1 0) z) (V z z (l 1 0))) (Some 0%nat)) 0 true None] (estart (V (l 3 1) (l 1 1) (l (-3) 1)) z (V (l (-1) 0) z (l 1 0)) (l 16777215 104))) (l64 124395540479019 (-44)));
   (820%nat, ng_ok vx (shoot [ecyl_intersect (ECyl (V (l 1 0) (l 1 1) z) (l 1 0) (l 1 1) (l 1 1) (M (V (l 1 0) z z) (V z (l 1 0) z) (V z z (l 1 0))) (Some 0%nat)) 0 true None] (estart (V (l 3 1) (l 1 1) (l (-3) 1)) z (V (l (-1) 0) z (l 1 0)) (l 16777215 104))) z);
   (821%nat, ng_ok vy (shoot [ecyl_intersect (ECyl (V (l 1 0) (l 1 1) z) (l 1 0) (l 1 1) (l 1 1) (M (V (l 1 0) z z) (V z (l 1 0) z) (V z z (l 1 0))) (Some 0%nat)) 0 true None] (estart (V (l 3 1) (l 1 1) (l (-3) 1)) z (V (l (-1) 0) z (l 1 0)) (l 16777215 104))) z);
   (822%nat, ng_ok vz (shoot [ecyl_intersect (ECyl (V (l 1 0) (l 1 1) z) (l 1 0) (l 1 1) (l 1 1) (M (V (l 1 0) z z) (V z (l 1 0) z) (V z z (l 1 0))) (Some 0%nat)) 0 true None] (estart (V (l 3 1) (l 1 1) (l (-3) 1)) z (V (l (-1) 0) z (l 1 0)) (l 16777215 104))) (l64 (-1) 0));
   (841%nat, eprim_ok (shoot [ecyl_intersect (ECyl (V (l 1 0) (l 1 1) z) (l 1 0) (l 1 1) (l 1 1) (M (V (l 1 0) z z) (V z (l 1 0) z) (V z z (l 1 0))) (Some 0%nat)) 0 true None] (estart (V (l 3 1) (l 1 1) (l (-1) 2)) z (V (l (-1) 0) z (l 1 0)) (l 16777215 104))) 0);
   (842%nat, tfar_ok (shoot [ecyl_intersect (ECyl (V (l 1 0) (l 1 1) z) (l 1 0) (l 1 1) (l 1 1) (M (V (l 1 0) z z) (V z (l 1 0) z) (V z z (l 1 0))) (Some 0%nat)) 0 true None] (estart (V (l 3 1) (l 1 1) (l (-1) 2)) z (V (l (-1) 0) z (l 1 0)) (l 16777215 104))) (l64 6369051672525773 (-50)));
   (843%nat, ng_ok vx (shoot [ecyl_intersect (ECyl (V (l 1 0) (l 1 1) z) (l 1 0) (l 1 1) (l 1 1) (M (V (l 1 0) z z) (V z (l 1 0) z) (V z z (l 1 0))) (Some 0%nat)) 0 true None] (estart (V (l 3 1) (l 1 1) (l (-1) 2)) z (V (l (-1) 0) z (l 1 0)) (l 16777215 104))) (l64 1 0));
   (844%nat, ng_ok vy (shoot [ecyl_intersect (ECyl (V (l 1 0) (l 1 1) z) (l 1 0) (l 1 1) (l 1 1) (M (V (l 1 0) z z) (V z (l 1 0) z) (V z z (l 1 0))) (Some 0%nat)) 0 true None] (estart (V (l 3 1) (l 1 1) (l (-1) 2)) z (V (l (-1) 0) z (l 1 0)) (l 16777215 104))) z);
   (845%nat, ng_ok vz (shoot [ecyl_intersect (ECyl (V (l 1 0) (l 1 1) z) (l 1 0) (l 1 1) (l 1 1) (M (V (l 1 0) z z) (V z (l 1 0) z) (V z z (l 1 0))) (Some 0%nat)) 0 true None] (estart (V (l 3 1) (l 1 1) (l (-1) 2)) z (V (l (-1) 0) z (l 1 0)) (l 16777215 104))) z);
   (864%nat, eprim_ok (shoot [ecyl_intersect (ECyl (V (l 1 0) (l 1 1) z) (l 1 0) (l 1 1) (l 1 1) (M (V (l 1 0) z z) (V z (l 1 0) z) (V z z (l 1 0))) (Some 0%nat)) 0 true None] (estart (V (l (-1) 2) (l 1 1) (l (-1) 2)) z (V (l 1 0) z (l 1 0)) (l 16777215 104))) 0);
   (865%nat, tfar_ok (shoot [ecyl_intersect (ECyl (V (l 1 0) (l 1 1) z) (l 1 0) (l 1 1) (l 1 1) (M (V (l 1 0) z z) (V z (l 1 0) z) (V z z (l 1 0))) (Some 0%nat)) 0 true None] (estart (V (l (-1) 2) (l 1 1) (l (-1) 2)) z (V (l 1 0) z (l 1 0)) (l 16777215 104))) (l64 6369051672525773 (-50)));
   (866%nat, ng_ok vx (shoot [ecyl_intersect (ECyl (V (l 1 0) (l 1 1) z) (l 1 0) (l 1 1) (l 1 1) (M (V (l 1 0) z z) (V z (l 1 0) z) (V z z (l 1 0))) (Some 0%nat)) 0 true None] (estart (V (l (-1) 2) (l 1 1) (l (-1) 2)) z (V (l 1 0) z (l 1 0)) (l 16777215 104))) (l64 (-1) 0));
   (867%nat, ng_ok vy (shoot [ecyl_intersect (ECyl (V (l 1 0) (l 1 1) z) (l 1 0) (l 1 1) (l 1 1) (M (V (l 1 0) z z) (V z (l 1 0) z) (V z z (l 1 0))) (Some 0%nat)) 0 true None] (estart (V (l (-1) 2) (l 1 1) (l (-1) 2)) z (V (l 1 0) z (l 1 0)) (l 16777215 104))) z);
   (868%nat, ng_ok vz (shoot [ecyl_intersect (ECyl (V (l 1 0) (l 1 1) z) (l 1 0) (l 1 1) (l 1 1) (M (V (l 1 0) z z) (V z (l 1 0) z) (V z z (l 1 0))) (Some 0%nat)) 0 true None] (estart (V (l (-1) 2) (l 1 1) (l (-1) 2)) z (V (l 1 0) z (l 1 0)) (l 16777215 104))) z);
   (887%nat, eprim_ok (shoot [ecyl_intersect (ECyl (V (l 1 0) (l 1 1) z) (l 1 0) (l 1 1) (l 1 1) (M (V (l 1 0) z z) (V z (l 1 0) z) (V z z (l 1 0))) (Some 0%nat)) 0 true None] (estart (V (l 1 0) (l 7 0) (l (-3) 0)) z (V z (l (-1) 0) (l 1 0)) (l 16777215 104))) 0);
   (888%nat, tfar_ok (shoot [ecyl_intersect (ECyl (V (l 1 0) (l 1 1) z) (l 1 0) (l 1 1) (l 1 1) (M (V (l 1 0) z z) (V z (l 1 0) z) (V z z (l 1 0))) (Some 0%nat)) 0 true None] (estart (V (l 1 0) (l 7 0) (l (-3) 0)) z (V z (l (-1) 0) (l 1 0)) (l 16777215 104))) (l64 4776788754394329 (-50)));
   (889%nat, ng_ok vx (shoot [ecyl_intersect (ECyl (V (l 1 0) (l 1 1) z) (l 1 0) (l 1 1) (l 1 1) (M (V (l 1 0) z z) (V z (l 1 0) z) (V z z (l 1 0))) (Some 0%nat)) 0 true None] (estart (V (l 1 0) (l 7 0) (l (-3) 0)) z (V z (l (-1) 0) (l 1 0)) (l 16777215 104))) z);
   (890%nat, ng_ok vy (shoot [ecyl_intersect (ECyl (V (l 1 0) (l 1 1) z) (l 1 0) (l 1 1) (l 1 1) (M (V (l 1 0) z z) (V z (l 1 0) z) (V z z (l 1 0))) (Some 0%nat)) 0 true None] (estart (V (l 1 0) (l 7 0) (l (-3) 0)) z (V z (l (-1) 0) (l 1 0)) (l 16777215 104))) (l64 1 0));
   (891%nat, ng_ok vz (shoot [ecyl_intersect (ECyl (V (l 1 0) (l 1 1) z) (l 1 0) (l 1 1) (l 1 1) (M (V (l 1 0) z z) (V z (l 1 0) z) (V z z (l 1 0))) (Some 0%nat)) 0 true None] (estart (V (l 1 0) (l 7 0) (l (-3) 0)) z (V z (l (-1) 0) (l 1 0)) (l 16777215 104))) z);
   (910%nat, eprim_ok (shoot [ecyl_intersect (ECyl (V (l 1 0) (l 1 1) z) (l 1 0) (l 1 1) (l 1 1) (M (V (l 1 0) z z) (V z (l 1 0) z) (V z z (l 1 0))) (Some 0%nat)) 0 true None] (estart (V (l 1 0) (l (-3) 0) (l (-3) 0)) z (V z (l 1 0) (l 1 0)) (l 16777215 104))) 0);
   (911%nat, tfar_ok (shoot [ecyl_intersect (ECyl (V (l 1 0) (l 1 1) z) (l 1 0) (l 1 1) (l 1 1) (M (V (l 1 0) z z) (V z (l 1 0) z) (V z z (l 1 0))) (Some 0%nat)) 0 true None] (estart (V (l 1 0) (l (-3) 0) (l (-3) 0)) z (V z (l 1 0) (l 1 0)) (l 16777215 104))) (l64 4776788754394329 (-50)));
   (912%nat, ng_ok vx (shoot [ecyl_intersect (ECyl (V (l 1 0) (l 1 1) z) (l 1 0) (l 1 1) (l 1 1) (M (V (l 1 0) z z) (V z (l 1 0) z) (V z z (l 1 0))) (Some 0%nat)) 0 true None] (estart (V (l 1 0) (l (-3) 0) (l (-3) 0)) z (V z (l 1 0) (l 1 0)) (l 16777215 104))) z);
   (913%nat, ng_ok vy (shoot [ecyl_intersect (ECyl (V (l 1 0) (l 1 1) z) (l 1 0) (l 1 1) (l 1 1) (M (V (l 1 0) z z) (V z (l 1 0) z) (V z z (l 1 0))) (Some 0%nat)) 0 true None] (estart (V (l 1 0) (l (-3) 0) (l (-3) 0)) z (V z (l 1 0) (l 1 0)) (l 16777215 104))) (l64 (-1) 0));
   (914%nat, ng_ok vz (shoot [ecyl_intersect (ECyl (V (l 1 0) (l 1 1) z) (l 1 0) (l 1 1) (l 1 1) (M (V (l 1 0) z z) (V z (l 1 0) z) (V z z (l 1 0))) (Some 0%nat)) 0 true None] (estart (V (l 1 0) (l (-3) 0) (l (-3) 0)) z (V z (l 1 0) (l 1 0)) (l 16777215 104))) z);
   (936%nat, eprim_ok (shoot [ecyl_intersect (ECyl (V (l 1 0) (l 1 1) z) (l 1 0) (l 1 1) (l 1 1) (M (V (l 1 0) z z) (V z (l 1 0) z) (V z z (l 1 0))) (Some 0%nat)) 0 true None] (estart (V (l 3 1) (l 1 1) z) z (V (l (-1) 0) z z) (l 16777215 104))) 0);
   (937%nat, tfar_ok (shoot [ecyl_intersect (ECyl (V (l 1 0) (l 1 1) z) (l 1 0) (l 1 1) (l 1 1) (M (V (l 1 0) z z) (V z (l 1 0) z) (V z z (l 1 0))) (Some 0%nat)) 0 true None] (estart (V (l 3 1) (l 1 1) z) z (V (l (-1) 0) z z) (l 16777215 104))) (l64 1 2));
   (938%nat, ng_ok vx (shoot [ecyl_intersect (ECyl (V (l 1 0) (l 1 1) z) (l 1 0) (l 1 1) (l 1 1) (M (V (l 1 0) z z) (V z (l 1 0) z) (V z z (l 1 0))) (Some 0%nat)) 0 true None] (estart (V (l 3 1) (l 1 1) z) z (V (l (-1) 0) z z) (l 16777215 104))) (l64 1 0));
   (939%nat, ng_ok vy (shoot [ecyl_intersect (ECyl (V (l 1 0) (l 1 1) z) (l 1 0) (l 1 1) (l 1 1) (M (V (l 1 0) z z) (V z (l 1 0) z) (V z z (l 1 0))) (Some 0%nat)) 0 true None] (estart (V (l 3 1) (l 1 1) z) z (V (l (-1) 0) z z) (l 16777215 104))) z);
   (940%nat, ng_ok vz (shoot [ecyl_intersect (ECyl (V (l 1 0) (l 1 1) z) (l 1 0) (l 1 1) (l 1 1) (M (V (l 1 0) z z) (V z (l 1 0) z) (V z z (l 1 0))) (Some 0%nat)) 0 true None] (estart (V (l 3 1) (l 1 1) z) z (V (l (-1) 0) z z) (l 16777215 104))) z);
   (959%nat, eprim_ok (shoot [ecyl_intersect (ECyl (V (l 1 0) (l 1 1) z) (l 1 0) (l 1 1) (l 1 1) (M (V (l 1 0) z z) (V z (l 1 0) z) (V z z (l 1 0))) (Some 0%nat)) 0 true None] (estart (V (l (-1) 2) (l 1 1) z) z (V (l 1 0) z z) (l 16777215 104))) 0);
   (960%nat, tfar_ok (shoot [ecyl_intersect (ECyl (V (l 1 0) (l 1 1) z) (l 1 0) (l 1 1) (l 1 1) (M (V (l 1 0) z z) (V z (l 1 0) z) (V z z (l 1 0))) (Some 0%nat)) 0 true None] (estart (V (l (-1) 2) (l 1 1) z) z (V (l 1 0) z z) (l 16777215 104))) (l64 1 2));
   (961%nat, ng_ok vx (shoot [ecyl_intersect (ECyl (V (l 1 0) (l 1 1) z) (l 1 0) (l 1 1) (l 1 1) (M (V (l 1 0) z z) (V z (l 1 0) z) (V z z (l 1 0))) (Some 0%nat)) 0 true None] (estart (V (l (-1) 2) (l 1 1) z) z (V (l 1 0) z z) (l 16777215 104))) (l64 (-1) 0));
   (962%nat, ng_ok vy (shoot [ecyl_intersect (ECyl (V (l 1 0) (l 1 1) z) (l 1 0) (l 1 1) (l 1 1) (M (V (l 1 0) z z) (V z (l 1 0) z) (V z z (l 1 0))) (Some 0%nat)) 0 true None] (estart (V (l (-1) 2) (l 1 1) z) z (V (l 1 0) z z) (l 16777215 104))) z);
   (963%nat, ng_ok vz (shoot [ecyl_intersect (ECyl (V (l 1 0) (l 1 1) z) (l 1 0) (l 1 1) (l 1 1) (M (V (l 1 0) z z) (V z (l 1 0) z) (V z z (l 1 0))) (Some 0%nat)) 0 true None] (estart (V (l (-1) 2) (l 1 1) z) z (V (l 1 0) z z) (l 16777215 104))) z);
   (982%nat, eprim_ok (shoot [ecyl_intersect (ECyl (V (l 1 0) (l 1 1) z) (l 1 0) (l 1 1) (l 1 1) (M (V (l 1 0) z z) (V z (l 1 0) z) (V z z (l 1 0))) (Some 0%nat)) 0 true None] (estart (V (l 1 0) (l 7 0) z) z (V z (l (-1) 0) z) (l 16777215 104))) 0);
   (983%nat, tfar_ok (shoot [ecyl_intersect (ECyl (V (l 1 0) (l 1 1) z) (l 1 0) (l 1 1) (l 1 1) (M (V (l 1 0) z z) (V z (l 1 0) z) (V z z (l 1 0))) (Some 0%nat)) 0 true None] (estart (V (l 1 0) (l 7 0) z) z (V z (l (-1) 0) z) (l 16777215 104))) (l64 3 0));
   (984%nat, ng_ok vx (shoot [ecyl_intersect (ECyl (V (l 1 0) (l 1 1) z) (l 1 0) (l 1 1) (l 1 1) (M (V (l 1 0) z z) (V z (l 1 0) z) (V z z (l 1 0))) (Some 0%nat)) 0 true None] (estart (V (l 1 0) (l 7 0) z) z (V z (l (-1) 0) z) (l 16777215 104))) z);
   (985%nat, ng_ok vy (shoot [ecyl_intersect (ECyl (V (l 1 0) (l 1 1) z) (l 1 0) (l 1 1) (l 1 1) (M (V (l 1 0) z z) (V z (l 1 0) z) (V z z (l 1 0))) (Some 0%nat)) 0 true None] (estart (V (l 1 0) (l 7 0) z) z (V z (l (-1) 0) z) (l 16777215 104))) (l64 1 0));
   (986%nat, ng_ok vz (shoot [ecyl_intersect (ECyl (V (l 1 0) (l 1 1) z) (l 1 0) (l 1 1) (l 1 1) (M (V (l 1 0) z z) (V z (l 1 0) z) (V z z (l 1 0))) (Some 0%nat)) 0 true None] (estart (V (l 1 0) (l 7 0) z) z (V z (l (-1) 0) z) (l 16777215 104))) z);
   (1005%nat, eprim_ok (shoot [ecyl_intersect (ECyl (V (l 1 0) (l 1 1) z) (l 1 0) (l 1 1) (l 1 1) (M (V (l 1 0) z z) (V z (l 1 0) z) (V z z (l 1 0))) (Some 0%nat)) 0 true None] (estart (V (l 1 0) (l (-3) 0) z) z (V z (l 1 0) z) (l 16777215 104))) 0);
   (1006%nat, tfar_ok (shoot [ecyl_intersect (ECyl (V (l 1 0) (l 1 1) z) (l 1 0) (l 1 1) (l 1 1) (M (V (l 1 0) z z) (V z (l 1 0) z) (V z z (l 1 0))) (Some 0%nat)) 0 true None] (estart (V (l 1 0) (l (-3) 0) z) z (V z (l 1 0) z) (l 16777215 104))) (l64 3 0));
   (1007%nat, ng_ok vx (shoot [ecyl_intersect (ECyl (V (l 1 0) (l 1 1) z) (l 1 0) (l 1 1) (l 1 1) (M (V (l 1 0) z z) (V z (l 1 0) z) (V z z (l 1 0))) (Some 0%nat)) 0 true None] (estart (V (l 1 0) (l (-3) 0) z) z (V z (l 1 0) z) (l 16777215 104))) z);
   (1008%nat, ng_ok vy (shoot [ecyl_intersect (ECyl (V (l 1 0) (l 1 1) z) (l 1 0) (l 1 1) (l 1 1) (M (V (l 1 0) z z) (V z (l 1 0) z) (V z z (l 1 0))) (Some 0%nat)) 0 true None] (estart (V (l 1 0) (l (-3) 0) z) z (V z (l 1 0) z) (l 16777215 104))) (l64 (-1) 0));
   (1009%nat, ng_ok vz (shoot [ecyl_intersect (ECyl (V (l 1 0) (l 1 1) z) (l 1 0) (l 1 1) (l 1 1) (M (V (l 1 0) z z) (V z (l 1 0) z) (V z z (l 1 0))) (Some 0%nat)) 0 true None] (estart (V (l 1 0) (l (-3) 0) z) z (V z (l 1 0) z) (l 16777215 104))) z);
   (1031%nat, eprim_ok (shoot [ecyl_intersect (ECyl (V (l 1 0) (l 1 1) z) (l 1 0) (l 1 1) (l 1 1) (M (V (l 1 0) z z) (V z (l 1 0) z) (V z z (l 1 0))) (Some 0%nat)) 0 true None] (estart (V (l 1 0) (l 1 1) z) z (V z z (l 1 0)) (l 16777215 104))) 0);
   (1032%nat, tfar_ok (shoot [ecyl_intersect (ECyl (V (l 1 0) (l 1 1) z) (l 1 0) (l 1 1) (l 1 1) (M (V (l 1 0) z z) (V z (l 1 0) z) (V z z (l 1 0))) (Some 0%nat)) 0 true None] (estart (V (l 1 0) (l 1 1) z) z (V z z (l 1 0)) (l 16777215 104))) (l64 1 0));
   (1033%nat, ng_ok vx (shoot [ecyl_intersect (ECyl (V (l 1 0) (l 1 1) z) (l 1 0) (l 1 1) (l 1 1) (M (V (l 1 0) z z) (V z (l 1 0) z) (V z z (l 1 0))) (Some 0%nat)) 0 true None] (estart (V (l 1 0) (l 1 1) z) z (V z z (l 1 0)) (l 16777215 104))) z);
   (1034%nat, ng_ok vy (shoot [ecyl_intersect (ECyl (V (l 1 0) (l 1 1) z) (l 1 0) (l 1 1) (l 1 1) (M (V (l 1 0) z z) (V z (l 1 0) z) (V z z (l 1 0))) (Some 0%nat)) 0 true None] (estart (V (l 1 0) (l 1 1) z) z (V z z (l 1 0)) (l 16777215 104))) z);
   (1035%nat, ng_ok vz (shoot [ecyl_intersect (ECyl (V (l 1 0) (l 1 1) z) (l 1 0) (l 1 1) (l 1 1) (M (V (l 1 0) z z) (V z (l 1 0) z) (V z z (l 1 0))) (Some 0%nat)) 0 true None] (estart (V (l 1 0) (l 1 1) z) z (V z z (l 1 0)) (l 16777215 104))) (l64 1 0));
   (1054%nat, eprim_ok (shoot [ecyl_intersect (ECyl (V (l 1 0) (l 1 1) z) (l 1 0) (l 1 1) (l 1 1) (M (V (l 1 0) z z) (V z (l 1 0) z) (V z z (l 1 0))) (Some 0%nat)) 0 true None] (estart (V (l 1 0) (l 1 1) z) z (V z z (l (-1) 0)) (l 16777215 104))) 0);
   (1055%nat, tfar_ok (shoot [ecyl_intersect (ECyl (V (l 1 0) (l 1 1) z) (l 1 0) (l 1 1) (l 1 1) (M (V (l 1 0) z z) (V z (l 1 0) z) (V z z (l 1 0))) (Some 0%nat)) 0 true None] (estart (V (l 1 0) (l 1 1) z) z (V z z (l (-1) 0)) (l 16777215 104))) (l64 1 0));
   (1056%nat, ng_ok vx (shoot [ecyl_intersect (ECyl (V (l 1 0) (l 1 1) z) (l 1 0) (l 1 1) (l 1 1) (M (V (l 1 0) z z) (V z (l 1 0) z) (V z z (l 1 0))) (Some 0%nat)) 0 true None] (estart (V (l 1 0) (l 1 1) z) z (V z z (l (-1) 0)) (l 16777215 104))) z);
   (1057%nat, ng_ok vy (shoot [ecyl_intersect (ECyl (V (l 1 0) (l 1 1) z) (l 1 0) (l 1 1) (l 1 1) (M (V (l 1 0) z z) (V z (l 1 0) z) (V z z (l 1 0))) (Some 0%nat)) 0 true None] (estart (V (l 1 0) (l 1 1) z) z (V z z (l (-1) 0)) (l 16777215 104))) z);
   (1058%nat, ng_ok vz (shoot [ecyl_intersect (ECyl (V (l 1 0) (l 1 1) z) (l 1 0) (l 1 1) (l 1 1) (M (V (l 1 0) z z) (V z (l 1 0) z) (V z z (l 1 0))) (Some 0%nat)) 0 true None] (estart (V (l 1 0) (l 1 1) z) z (V z z (l (-1) 0)) (l 16777215 104))) (l64 (-1) 0));
   (1077%nat, eprim_ok (shoot [ecyl_intersect (ECyl (V (l 1 0) (l 1 1) z) (l 1 0) (l 1 1) (l 1 1) (M (V (l 1 0) z z) (V z (l 1 0) z) (V z z (l 1 0))) (Some 0%nat)) 0 true None] (estart (V (l 1 0) (l 1 1) z) z (V (l (-1) 0) z z) (l 16777215 104))) 0);
   (1078%nat, tfar_ok (shoot [ecyl_intersect (ECyl (V (l 1 0) (l 1 1) z) (l 1 0) (l 1 1) (l 1 1) (M (V (l 1 0) z z) (V z (l 1 0) z) (V z z (l 1 0))) (Some 0%nat)) 0 true None] (estart (V (l 1 0) (l 1 1) z) z (V (l (-1) 0) z z) (l 16777215 104))) (l64 1 0));
   (1079%nat, ng_ok vx (shoot [ecyl_intersect (ECyl (V (l 1 0) (l 1 1) z) (l 1 0) (l 1 1) (l 1 1) (M (V (l 1 0) z z) (V z (l 1 0) z) (V z z (l 1 0))) (Some 0%nat)) 0 true None] (estart (V (l 1 0) (l 1 1) z) z (V (l (-1) 0) z z) (l 16777215 104))) (l64 (-1) 0));
   (1080%nat, ng_ok vy (shoot [ecyl_intersect (ECyl (V (l 1 0) (l 1 1) z) (l 1 0) (l 1 1) (l 1 1) (M (V (l 1 0) z z) (V z (l 1 0) z) (V z z (l 1 0))) (Some 0%nat)) 0 true None] (estart (V (l 1 0) (l 1 1) z) z (V (l (-1) 0) z z) (l 16777215 104))) z);
   (1081%nat, ng_ok vz (shoot [ecyl_intersect (ECyl (V (l 1 0) (l 1 1) z) (l 1 0) (l 1 1) (l 1 1) (M (V (l 1 0) z z) (V z (l 1 0) z) (V z z (l 1 0))) (Some 0%nat)) 0 true None] (estart (V (l 1 0) (l 1 1) z) z (V (l (-1) 0) z z) (l 16777215 104))) z);
   (1100%nat, eprim_ok (shoot [ecyl_intersect (ECyl (V (l 1 0) (l 1 1) z) (l 1 0) (l 1 1) (l 1 1) (M (V (l 1 0) z z) (V z (l 1 0) z) (V z z (l 1 0))) (Some 0%nat)) 0 true None] (estart (V (l 1 0) (l 1 1) z) z (V (l 1 0) z z) (l 16777215 104))) 0);
   (1101%nat, tfar_ok (shoot [ecyl_intersect (ECyl (V (l 1 0) (l 1 1) z) (l 1 0) (l 1 1) (l 1 1) (M (V (l 1 0) z z) (V z (l 1 0) z) (V z z (l 1 0))) (Some 0%nat)) 0 true None] (estart (V (l 1 0) (l 1 1) z) z (V (l 1 0) z z) (l 16777215 104))) (l64 1 0));
   (1102%nat, ng_ok vx (shoot [ecyl_intersect (ECyl (V (l 1 0) (l 1 1) z) (l 1 0) (l 1 1) (l 1 1) (M (V (l 1 0) z z) (V z (l 1 0) z) (V z z (l 1 0))) (Some 0%nat)) 0 true None] (estart (V (l 1 0) (l 1 1) z) z (V (l 1 0) z z) (l 16777215 104))) (l64 1 0));
   (1103%nat, ng_ok vy (shoot [ecyl_intersect (ECyl (V (l 1 0) (l 1 1) z) (l 1 0) (l 1 1) (l 1 1) (M (V (l 1 0) z z) (V z (l 1 0) z) (V z z (l 1 0))) (Some 0%nat)) 0 true None] (estart (V (l 1 0) (l 1 1) z) z (V (l 1 0) z z) (l 16777215 104))) z);
   (1104%nat, ng_ok vz (shoot [ecyl_intersect (ECyl (V (l 1 0) (l 1 1) z) (l 1 0) (l 1 1) (l 1 1) (M (V (l 1 0) z z) (V z (l 1 0) z) (V z z (l 1 0))) (Some 0%nat)) 0 true None] (estart (V (l 1 0) (l 1 1) z) z (V (l 1 0) z z) (l 16777215 104))) z);
   (1123%nat, eprim_ok (shoot [ecyl_intersect (ECyl (V (l 1 0) (l 1 1) z) (l 1 0) (l 1 1) (l 1 1) (M (V (l 1 0) z z) (V z (l 1 0) z) (V z z (l 1 0))) (Some 0%nat)) 0 true None] (estart (V (l 1 0) (l 1 1) z) z (V z (l (-1) 0) z) (l 16777215 104))) 0);
   (1124%nat, tfar_ok (shoot [ecyl_intersect (ECyl (V (l 1 0) (l 1 1) z) (l 1 0) (l 1 1) (l 1 1) (M (V (l 1 0) z z) (V z (l 1 0) z) (V z z (l 1 0))) (Some 0%nat)) 0 true None] (estart (V (l 1 0) (l 1 1) z) z (V z (l (-1) 0) z) (l 16777215 104))) (l64 1 1));
   (1125%nat, ng_ok vx (shoot [ecyl_intersect (ECyl (V (l 1 0) (l 1 1) z) (l 1 0) (l 1 1) (l 1 1) (M (V (l 1 0) z z) (V z (l 1 0) z) (V z z (l 1 0))) (Some 0%nat)) 0 true None] (estart (V (l 1 0) (l 1 1) z) z (V z (l (-1) 0) z) (l 16777215 104))) z);
   (1126%nat, ng_ok vy (shoot [ecyl_intersect (ECyl (V (l 1 0) (l 1 1) z) (l 1 0) (l 1 1) (l 1 1) (M (V (l 1 0) z z) (V z (l 1 0) z) (V z z (l 1 0))) (Some 0%nat)) 0 true None] (estart (V (l 1 0) (l 1 1) z) z (V z (l (-1) 0) z) (l 16777215 104))) (l64 (-1) 0));
   (1127%nat, ng_ok vz (shoot [ecyl_intersect (ECyl (V (l 1 0) (l 1 1) z) (l 1 0) (l 1 1) (l 1 1) (M (V (l 1 0) z z) (V z (l 1 0) z) (V z z (l 1 0))) (Some 0%nat)) 0 true None] (estart (V (l 1 0) (l 1 1) z) z (V z (l (-1) 0) z) (l 16777215 104))) z);
   (1146%nat, eprim_ok (shoot [ecyl_intersect (ECyl (V (l 1 0) (l 1 1) z) (l 1 0) (l 1 1) (l 1 1) (M (V (l 1 0) z z) (V z (l 1 0) z) (V z z (l 1 0))) (Some 0%nat)) 0 true None] (estart (V (l 1 0) (l 1 1) z) z (V z (l 1 0) z) (l 16777215 104))) 0);
   (1147%nat, tfar_ok (shoot [ecyl_intersect (ECyl (V (l 1 0) (l 1 1) z) (l 1 0) (l 1 1) (l 1 1) (M (V (l 1 0) z z) (V z (l 1 0) z) (V z z (l 1 0))) (Some 0%nat)) 0 true None] (estart (V (l 1 0) (l 1 1) z) z (V z (l 1 0) z) (l 16777215 104))) (l64 1 1));
   (1148%nat, ng_ok vx (shoot [ecyl_intersect (ECyl (V (l 1 0) (l 1 1) z) (l 1 0) (l 1 1) (l 1 1) (M (V (l 1 0) z z) (V z (l 1 0) z) (V z z (l 1 0))) (Some 0%nat)) 0 true None] (estart (V (l 1 0) (l 1 1) z) z (V z (l 1 0) z) (l 16777215 104))) z);
   (1149%nat, ng_ok vy (shoot [ecyl_intersect (ECyl (V (l 1 0) (l 1 1) z) (l 1 0) (l 1 1) (l 1 1) (M (V (l 1 0) z z) (V z (l 1 0) z) (V z z (l 1 0))) (Some 0%nat)) 0 true None] (estart (V (l 1 0) (l 1 1) z) z (V z (l 1 0) z) (l 16777215 104))) (l64 1 0));
   (1150%nat, ng_ok vz (shoot [ecyl_intersect (ECyl (V (l 1 0) (l 1 1) z) (l 1 0) (l 1 1) (l 1 1) (M (V (l 1 0) z z) (V z (l 1 0) z) (V z z (l 1 0))) (Some 0%nat)) 0 true None] (estart (V (l 1 0) (l 1 1) z) z (V z (l 1 0) z) (l 16777215 104))) z)]].
End S32_checks32.
