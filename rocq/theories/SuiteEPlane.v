(** The tests of /repo/test/test_embree_primitives/test_EmbreePlane.cpp, evaluated by the model.
    Written by tools/suite.py; each entry is the line of the test and its answer. *)

From Coq Require Import ZArith List Bool.
From Coq.Floats Require Import SpecFloat.
From Verif Require Import Num NumF Vec Ray Bvh Traverse Sphere Plane Cylinder CylDist Trimesh Embree Suite.
Import ListNotations.

Section S32_checks32.
Local Existing Instance F32.
Local Notation l := (l32) (only parsing).
Definition eplane_checks32 : list (nat * bool) := concat [
  [(35%nat, bound_ok fst vx (eplane_bounds (EPlane (V z z z) (l 1 1) (l 1 1) (M (V (l 1 0) z z) (V z (l 1 0) z) (V z z (l 1 0))) (Some 0%nat)) 0) (l64 (-1) 0));
   (36%nat, bound_ok fst vy (eplane_bounds (EPlane (V z z z) (l 1 1) (l 1 1) (M (V (l 1 0) z z) (V z (l 1 0) z) (V z z (l 1 0))) (Some 0%nat)) 0) (l64 (-1) 0));
   (37%nat, bound_ok fst vz (eplane_bounds (EPlane (V z z z) (l 1 1) (l 1 1) (M (V (l 1 0) z z) (V z (l 1 0) z) (V z z (l 1 0))) (Some 0%nat)) 0) (l64 (-1) (-126)));
   (38%nat, bound_ok snd vx (eplane_bounds (EPlane (V z z z) (l 1 1) (l 1 1) (M (V (l 1 0) z z) (V z (l 1 0) z) (V z z (l 1 0))) (Some 0%nat)) 0) (l64 1 0));
   (39%nat, bound_ok snd vy (eplane_bounds (EPlane (V z z z) (l 1 1) (l 1 1) (M (V (l 1 0) z z) (V z (l 1 0) z) (V z z (l 1 0))) (Some 0%nat)) 0) (l64 1 0));
   (40%nat, bound_ok snd vz (eplane_bounds (EPlane (V z z z) (l 1 1) (l 1 1) (M (V (l 1 0) z z) (V z (l 1 0) z) (V z z (l 1 0))) (Some 0%nat)) 0) (l64 1 (-126)));
   (53%nat, bound_ok fst vx (eplane_bounds (EPlane (V z z z) (l 1 1) (l 1 1) (M (V z z (l 1 0)) (V z (l 1 0) z) (V (l (-1) 0) z z)) (Some 0%nat)) 0) (l64 (-1) (-126)));
   (54%nat, bound_ok fst vy (eplane_bounds (EPlane (V z z z) (l 1 1) (l 1 1) (M (V z z (l 1 0)) (V z (l 1 0) z) (V (l (-1) 0) z z)) (Some 0%nat)) 0) (l64 (-1) 0));
   (55%nat, bound_ok fst vz (eplane_bounds (EPlane (V z z z) (l 1 1) (l 1 1) (M (V z z (l 1 0)) (V z (l 1 0) z) (V (l (-1) 0) z z)) (Some 0%nat)) 0) (l64 (-1) 0));
   (56%nat, bound_ok snd vx (eplane_bounds (EPlane (V z z z) (l 1 1) (l 1 1) (M (V z z (l 1 0)) (V z (l 1 0) z) (V (l (-1) 0) z z)) (Some 0%nat)) 0) (l64 1 (-126)));
   (57%nat, bound_ok snd vy (eplane_bounds (EPlane (V z z z) (l 1 1) (l 1 1) (M (V z z (l 1 0)) (V z (l 1 0) z) (V (l (-1) 0) z z)) (Some 0%nat)) 0) (l64 1 0));
   (58%nat, bound_ok snd vz (eplane_bounds (EPlane (V z z z) (l 1 1) (l 1 1) (M (V z z (l 1 0)) (V z (l 1 0) z) (V (l (-1) 0) z z)) (Some 0%nat)) 0) (l64 1 0));
   (72%nat, bound_ok fst vx (eplane_bounds (EPlane (V z z z) (l 1 1) (l 1 1) (M (V (l 8388607 (-24)) (l 16777215 (-25)) (l 11863283 (-24))) (V (l 16777215 (-25)) (l 8388607 (-24)) (l (-11863283) (-24))) (V (l (-11863283) (-24)) (l 11863283 (-24)) (l (-6151831) (-47)))) (Some 0%nat)) 0) (l64 (-1) 0));
   (73%nat, bound_ok fst vy (eplane_bounds (EPlane (V z z z) (l 1 1) (l 1 1) (M (V (l 8388607 (-24)) (l 16777215 (-25)) (l 11863283 (-24))) (V (l 16777215 (-25)) (l 8388607 (-24)) (l (-11863283) (-24))) (V (l (-11863283) (-24)) (l 11863283 (-24)) (l (-6151831) (-47)))) (Some 0%nat)) 0) (l64 (-1) 0));
   (74%nat, bound_ok fst vz (eplane_bounds (EPlane (V z z z) (l 1 1) (l 1 1) (M (V (l 8388607 (-24)) (l 16777215 (-25)) (l 11863283 (-24))) (V (l 16777215 (-25)) (l 8388607 (-24)) (l (-11863283) (-24))) (V (l (-11863283) (-24)) (l 11863283 (-24)) (l (-6151831) (-47)))) (Some 0%nat)) 0) (l64 (-6369051672525773) (-52)));
   (75%nat, bound_ok snd vx (eplane_bounds (EPlane (V z z z) (l 1 1) (l 1 1) (M (V (l 8388607 (-24)) (l 16777215 (-25)) (l 11863283 (-24))) (V (l 16777215 (-25)) (l 8388607 (-24)) (l (-11863283) (-24))) (V (l (-11863283) (-24)) (l 11863283 (-24)) (l (-6151831) (-47)))) (Some 0%nat)) 0) (l64 1 0));
   (76%nat, bound_ok snd vy (eplane_bounds (EPlane (V z z z) (l 1 1) (l 1 1) (M (V (l 8388607 (-24)) (l 16777215 (-25)) (l 11863283 (-24))) (V (l 16777215 (-25)) (l 8388607 (-24)) (l (-11863283) (-24))) (V (l (-11863283) (-24)) (l 11863283 (-24)) (l (-6151831) (-47)))) (Some 0%nat)) 0) (l64 1 0));
   (77%nat, bound_ok snd vz (eplane_bounds (EPlane (V z z z) (l 1 1) (l 1 1) (M (V (l 8388607 (-24)) (l 16777215 (-25)) (l 11863283 (-24))) (V (l 16777215 (-25)) (l 8388607 (-24)) (l (-11863283) (-24))) (V (l (-11863283) (-24)) (l 11863283 (-24)) (l (-6151831) (-47)))) (Some 0%nat)) 0) (l64 6369051672525773 (-52)));
   (89%nat, bound_ok fst vx (eplane_bounds (EPlane (V z z z) (l 1 1) (l 1 1) (M (V (l 11863283 (-24)) (l (-11863283) (-24)) z) (V (l 11863283 (-24)) (l 11863283 (-24)) z) (V z z (l 1 0))) (Some 0%nat)) 0) (l64 (-6369051672525773) (-52)));
   (90%nat, bound_ok fst vy (eplane_bounds (EPlane (V z z z) (l 1 1) (l 1 1) (M (V (l 11863283 (-24)) (l (-11863283) (-24)) z) (V (l 11863283 (-24)) (l 11863283 (-24)) z) (V z z (l 1 0))) (Some 0%nat)) 0) (l64 (-6369051672525773) (-52)));
   (91%nat, bound_ok fst vz (eplane_bounds (EPlane (V z z z) (l 1 1) (l 1 1) (M (V (l 11863283 (-24)) (l (-11863283) (-24)) z) (V (l 11863283 (-24)) (l 11863283 (-24)) z) (V z z (l 1 0))) (Some 0%nat)) 0) z);
   (92%nat, bound_ok snd vx (eplane_bounds (EPlane (V z z z) (l 1 1) (l 1 1) (M (V (l 11863283 (-24)) (l (-11863283) (-24)) z) (V (l 11863283 (-24)) (l 11863283 (-24)) z) (V z z (l 1 0))) (Some 0%nat)) 0) (l64 6369051672525773 (-52)));
   (93%nat, bound_ok snd vy (eplane_bounds (EPlane (V z z z) (l 1 1) (l 1 1) (M (V (l 11863283 (-24)) (l (-11863283) (-24)) z) (V (l 11863283 (-24)) (l 11863283 (-24)) z) (V z z (l 1 0))) (Some 0%nat)) 0) (l64 6369051672525773 (-52)));
   (94%nat, bound_ok snd vz (eplane_bounds (EPlane (V z z z) (l 1 1) (l 1 1) (M (V (l 11863283 (-24)) (l (-11863283) (-24)) z) (V (l 11863283 (-24)) (l 11863283 (-24)) z) (V z z (l 1 0))) (Some 0%nat)) 0) z);
   (109%nat, bound_ok fst vx (eplane_bounds (EPlane (V (l 1 0) (l 1 0) (l 1 0)) (l 1 1) (l 1 1) (M (V (l 1 0) z z) (V z (l 1 0) z) (V z z (l 1 0))) (Some 0%nat)) 0) z);
   (110%nat, bound_ok fst vy (eplane_bounds (EPlane (V (l 1 0) (l 1 0) (l 1 0)) (l 1 1) (l 1 1) (M (V (l 1 0) z z) (V z (l 1 0) z) (V z z (l 1 0))) (Some 0%nat)) 0) z);
   (111%nat, bound_ok fst vz (eplane_bounds (EPlane (V (l 1 0) (l 1 0) (l 1 0)) (l 1 1) (l 1 1) (M (V (l 1 0) z z) (V z (l 1 0) z) (V z z (l 1 0))) (Some 0%nat)) 0) (l64 1 0));
   (112%nat, bound_ok snd vx (eplane_bounds (EPlane (V (l 1 0) (l 1 0) (l 1 0)) (l 1 1) (l 1 1) (M (V (l 1 0) z z) (V z (l 1 0) z) (V z z (l 1 0))) (Some 0%nat)) 0) (l64 1 1));
   (113%nat, bound_ok snd vy (eplane_bounds (EPlane (V (l 1 0) (l 1 0) (l 1 0)) (l 1 1) (l 1 1) (M (V (l 1 0) z z) (V z (l 1 0) z) (V z z (l 1 0))) (Some 0%nat)) 0) (l64 1 1));
   (114%nat, bound_ok snd vz (eplane_bounds (EPlane (V (l 1 0) (l 1 0) (l 1 0)) (l 1 1) (l 1 1) (M (V (l 1 0) z z) (V z (l 1 0) z) (V z z (l 1 0))) (Some 0%nat)) 0) (l64 1 0));
   (127%nat, bound_ok fst vx (eplane_bounds (EPlane (V (l 1 0) (l 1 0) (l 1 0)) (l 1 1) (l 1 1) (M (V z z (l 1 0)) (V z (l 1 0) z) (V (l (-1) 0) z z)) (Some 0%nat)) 0) (l64 1 0));
   (128%nat, bound_ok fst vy (eplane_bounds (EPlane (V (l 1 0) (l 1 0) (l 1 0)) (l 1 1) (l 1 1) (M (V z z (l 1 0)) (V z (l 1 0) z) (V (l (-1) 0) z z)) (Some 0%nat)) 0) z);
   (129%nat, bound_ok fst vz (eplane_bounds (EPlane (V (l 1 0) (l 1 0) (l 1 0)) (l 1 1) (l 1 1) (M (V z z (l 1 0)) (V z (l 1 0) z) (V (l (-1) 0) z z)) (Some 0%nat)) 0) z);
   (130%nat, bound_ok snd vx (eplane_bounds (EPlane (V (l 1 0) (l 1 0) (l 1 0)) (l 1 1) (l 1 1) (M (V z z (l 1 0)) (V z (l 1 0) z) (V (l (-1) 0) z z)) (Some 0%nat)) 0) (l64 1 0));
   (131%nat, bound_ok snd vy (eplane_bounds (EPlane (V (l 1 0) (l 1 0) (l 1 0)) (l 1 1) (l 1 1) (M (V z z (l 1 0)) (V z (l 1 0) z) (V (l (-1) 0) z z)) (Some 0%nat)) 0) (l64 1 1));
   (132%nat, bound_ok snd vz (eplane_bounds (EPlane (V (l 1 0) (l 1 0) (l 1 0)) (l 1 1) (l 1 1) (M (V z z (l 1 0)) (V z (l 1 0) z) (V (l (-1) 0) z z)) (Some 0%nat)) 0) (l64 1 1));
   (146%nat, bound_ok fst vx (eplane_bounds (EPlane (V (l 1 0) (l 1 0) (l 1 0)) (l 1 1) (l 1 1) (M (V (l 8388607 (-24)) (l 16777215 (-25)) (l 11863283 (-24))) (V (l 16777215 (-25)) (l 8388607 (-24)) (l (-11863283) (-24))) (V (l (-11863283) (-24)) (l 11863283 (-24)) (l (-6151831) (-47)))) (Some 0%nat)) 0) z);
   (147%nat, bound_ok fst vy (eplane_bounds (EPlane (V (l 1 0) (l 1 0) (l 1 0)) (l 1 1) (l 1 1) (M (V (l 8388607 (-24)) (l 16777215 (-25)) (l 11863283 (-24))) (V (l 16777215 (-25)) (l 8388607 (-24)) (l (-11863283) (-24))) (V (l (-11863283) (-24)) (l 11863283 (-24)) (l (-6151831) (-47)))) (Some 0%nat)) 0) z);
   (148%nat, bound_ok fst vz (eplane_bounds (EPlane (V (l 1 0) (l 1 0) (l 1 0)) (l 1 1) (l 1 1) (M (V (l 8388607 (-24)) (l 16777215 (-25)) (l 11863283 (-24))) (V (l 16777215 (-25)) (l 8388607 (-24)) (l (-11863283) (-24))) (V (l (-11863283) (-24)) (l 11863283 (-24)) (l (-6151831) (-47)))) (Some 0%nat)) 0) (l64 (-1865452045155277) (-52)));
   (149%nat, bound_ok snd vx (eplane_bounds (EPlane (V (l 1 0) (l 1 0) (l 1 0)) (l 1 1) (l 1 1) (M (V (l 8388607 (-24)) (l 16777215 (-25)) (l 11863283 (-24))) (V (l 16777215 (-25)) (l 8388607 (-24)) (l (-11863283) (-24))) (V (l (-11863283) (-24)) (l 11863283 (-24)) (l (-6151831) (-47)))) (Some 0%nat)) 0) (l64 1 1));
   (150%nat, bound_ok snd vy (eplane_bounds (EPlane (V (l 1 0) (l 1 0) (l 1 0)) (l 1 1) (l 1 1) (M (V (l 8388607 (-24)) (l 16777215 (-25)) (l 11863283 (-24))) (V (l 16777215 (-25)) (l 8388607 (-24)) (l (-11863283) (-24))) (V (l (-11863283) (-24)) (l 11863283 (-24)) (l (-6151831) (-47)))) (Some 0%nat)) 0) (l64 1 1));
   (151%nat, bound_ok snd vz (eplane_bounds (EPlane (V (l 1 0) (l 1 0) (l 1 0)) (l 1 1) (l 1 1) (M (V (l 8388607 (-24)) (l 16777215 (-25)) (l 11863283 (-24))) (V (l 16777215 (-25)) (l 8388607 (-24)) (l (-11863283) (-24))) (V (l (-11863283) (-24)) (l 11863283 (-24)) (l (-6151831) (-47)))) (Some 0%nat)) 0) (l64 2718162824974067 (-50)));
   (163%nat, bound_ok fst vx (eplane_bounds (EPlane (V (l 1 0) (l 1 0) (l 1 0)) (l 1 1) (l 1 1) (M (V (l 11863283 (-24)) (l (-11863283) (-24)) z) (V (l 11863283 (-24)) (l 11863283 (-24)) z) (V z z (l 1 0))) (Some 0%nat)) 0) (l64 (-1865452045155277) (-52)));
   (164%nat, bound_ok fst vy (eplane_bounds (EPlane (V (l 1 0) (l 1 0) (l 1 0)) (l 1 1) (l 1 1) (M (V (l 11863283 (-24)) (l (-11863283) (-24)) z) (V (l 11863283 (-24)) (l 11863283 (-24)) z) (V z z (l 1 0))) (Some 0%nat)) 0) (l64 (-1865452045155277) (-52)));
   (165%nat, bound_ok fst vz (eplane_bounds (EPlane (V (l 1 0) (l 1 0) (l 1 0)) (l 1 1) (l 1 1) (M (V (l 11863283 (-24)) (l (-11863283) (-24)) z) (V (l 11863283 (-24)) (l 11863283 (-24)) z) (V z z (l 1 0))) (Some 0%nat)) 0) (l64 1 0));
   (166%nat, bound_ok snd vx (eplane_bounds (EPlane (V (l 1 0) (l 1 0) (l 1 0)) (l 1 1) (l 1 1) (M (V (l 11863283 (-24)) (l (-11863283) (-24)) z) (V (l 11863283 (-24)) (l 11863283 (-24)) z) (V z z (l 1 0))) (Some 0%nat)) 0) (l64 2718162824974067 (-50)));
   (167%nat, bound_ok snd vy (eplane_bounds (EPlane (V (l 1 0) (l 1 0) (l 1 0)) (l 1 1) (l 1 1) (M (V (l 11863283 (-24)) (l (-11863283) (-24)) z) (V (l 11863283 (-24)) (l 11863283 (-24)) z) (V z z (l 1 0))) (Some 0%nat)) 0) (l64 2718162824974067 (-50)));
   (168%nat, bound_ok snd vz (eplane_bounds (EPlane (V (l 1 0) (l 1 0) (l 1 0)) (l 1 1) (l 1 1) (M (V (l 11863283 (-24)) (l (-11863283) (-24)) z) (V (l 11863283 (-24)) (l 11863283 (-24)) z) (V z z (l 1 0))) (Some 0%nat)) 0) (l64 1 0));
   (194%nat, tfar_ok (shoot [eplane_intersect (EPlane (V z z z) (l 1 1) (l 1 1) (M (V (l 1 0) z z) (V z (l 1 0) z) (V z z (l 1 0))) (Some 0%nat)) 0 true None] (estart (V z z (l 5 0)) z (V z z (l (-1) 0)) (l 16777215 104))) (l64 5 0));
   (195%nat, ng_ok vx (shoot [eplane_intersect (EPlane (V z z z) (l 1 1) (l 1 1) (M (V (l 1 0) z z) (V z (l 1 0) z) (V z z (l 1 0))) (Some 0%nat)) 0 true None] (estart (V z z (l 5 0)) z (V z z (l (-1) 0)) (l 16777215 104))) z);
   (196%nat, ng_ok vy (shoot [eplane_intersect (EPlane (V z z z) (l 1 1) (l 1 1) (M (V (l 1 0) z z) (V z (l 1 0) z) (V z z (l 1 0))) (Some 0%nat)) 0 true None] (estart (V z z (l 5 0)) z (V z z (l (-1) 0)) (l 16777215 104))) z);
   (197%nat, ng_ok vz (shoot [eplane_intersect (EPlane (V z z z) (l 1 1) (l 1 1) (M (V (l 1 0) z z) (V z (l 1 0) z) (V z z (l 1 0))) (Some 0%nat)) 0 true None] (estart (V z z (l 5 0)) z (V z z (l (-1) 0)) (l 16777215 104))) (l64 1 0));
   (221%nat, tfar_ok (shoot [eplane_intersect (EPlane (V z z z) (l 1 1) (l 1 1) (M (V (l (-6151831) (-47)) z (l 1 0)) (V z (l 16777215 (-24)) z) (V (l (-1) 0) z (l (-6151831) (-47)))) (Some 0%nat)) 0 true None] (estart (V (l 5 0) z z) z (V (l (-1) 0) z z) (l 16777215 104))) (l64 5 0));
   (222%nat, ng_ok vx (shoot [eplane_intersect (EPlane (V z z z) (l 1 1) (l 1 1) (M (V (l (-6151831) (-47)) z (l 1 0)) (V z (l 16777215 (-24)) z) (V (l (-1) 0) z (l (-6151831) (-47)))) (Some 0%nat)) 0 true None] (estart (V (l 5 0) z z) z (V (l (-1) 0) z z) (l 16777215 104))) (l64 1 0));
   (223%nat, ng_ok vy (shoot [eplane_intersect (EPlane (V z z z) (l 1 1) (l 1 1) (M (V (l (-6151831) (-47)) z (l 1 0)) (V z (l 16777215 (-24)) z) (V (l (-1) 0) z (l (-6151831) (-47)))) (Some 0%nat)) 0 true None] (estart (V (l 5 0) z z) z (V (l (-1) 0) z z) (l 16777215 104))) z);
   (224%nat, ng_ok vz (shoot [eplane_intersect (EPlane (V z z z) (l 1 1) (l 1 1) (M (V (l (-6151831) (-47)) z (l 1 0)) (V z (l 16777215 (-24)) z) (V (l (-1) 0) z (l (-6151831) (-47)))) (Some 0%nat)) 0 true None] (estart (V (l 5 0) z z) z (V (l (-1) 0) z z) (l 16777215 104))) z);
   (249%nat, tfar_ok (shoot [eplane_intersect (EPlane (V z z z) (l 1 1) (l 1 1) (M (V (l 8388607 (-24)) (l 16777215 (-25)) (l 11863283 (-24))) (V (l 16777215 (-25)) (l 8388607 (-24)) (l (-11863283) (-24))) (V (l (-11863283) (-24)) (l 11863283 (-24)) (l (-6151831) (-47)))) (Some 0%nat)) 0 true None] (estart (V (l (-5) 0) (l 5 0) (l 1 (-1))) z (V (l 1 0) (l (-1) 0) z) (l 16777215 104))) (l64 124395540479019 (-44)));
   (250%nat, ng_ok vx (shoot [eplane_intersect (EPlane (V z z z) (l 1 1) (l 1 1) (M (V (l 8388607 (-24)) (l 16777215 (-25)) (l 11863283 (-24))) (V (l 16777215 (-25)) (l 8388607 (-24)) (l (-11863283) (-24))) (V (l (-11863283) (-24)) (l 11863283 (-24)) (l (-6151831) (-47)))) (Some 0%nat)) 0 true None] (estart (V (l (-5) 0) (l 5 0) (l 1 (-1))) z (V (l 1 0) (l (-1) 0) z) (l 16777215 104))) (l64 (-1592262918131443) (-51)));
   (251%nat, ng_ok vy (shoot [eplane_intersect (EPlane (V z z z) (l 1 1) (l 1 1) (M (V (l 8388607 (-24)) (l 16777215 (-25)) (l 11863283 (-24))) (V (l 16777215 (-25)) (l 8388607 (-24)) (l (-11863283) (-24))) (V (l (-11863283) (-24)) (l 11863283 (-24)) (l (-6151831) (-47)))) (Some 0%nat)) 0 true None] (estart (V (l (-5) 0) (l 5 0) (l 1 (-1))) z (V (l 1 0) (l (-1) 0) z) (l 16777215 104))) (l64 1592262918131443 (-51)));
   (252%nat, ng_ok vz (shoot [eplane_intersect (EPlane (V z z z) (l 1 1) (l 1 1) (M (V (l 8388607 (-24)) (l 16777215 (-25)) (l 11863283 (-24))) (V (l 16777215 (-25)) (l 8388607 (-24)) (l (-11863283) (-24))) (V (l (-11863283) (-24)) (l 11863283 (-24)) (l (-6151831) (-47)))) (Some 0%nat)) 0 true None] (estart (V (l (-5) 0) (l 5 0) (l 1 (-1))) z (V (l 1 0) (l (-1) 0) z) (l 16777215 104))) z);
   (277%nat, tfar_ok (shoot [eplane_intersect (EPlane (V z z z) (l 1 1) (l 1 1) (M (V (l 1 0) z z) (V z (l 1 0) z) (V z z (l 1 0))) (Some 0%nat)) 0 true None] (estart (V (l 1 2) z (l 1 2)) z (V (l (-1) 0) z (l (-1) 0)) (l 16777215 104))) (l64 6369051672525773 (-50)));
   (278%nat, ng_ok vx (shoot [eplane_intersect (EPlane (V z z z) (l 1 1) (l 1 1) (M (V (l 1 0) z z) (V z (l 1 0) z) (V z z (l 1 0))) (Some 0%nat)) 0 true None] (estart (V (l 1 2) z (l 1 2)) z (V (l (-1) 0) z (l (-1) 0)) (l 16777215 104))) z);
   (279%nat, ng_ok vy (shoot [eplane_intersect (EPlane (V z z z) (l 1 1) (l 1 1) (M (V (l 1 0) z z) (V z (l 1 0) z) (V z z (l 1 0))) (Some 0%nat)) 0 true None] (estart (V (l 1 2) z (l 1 2)) z (V (l (-1) 0) z (l (-1) 0)) (l 16777215 104))) z);
   (280%nat, ng_ok vz (shoot [eplane_intersect (EPlane (V z z z) (l 1 1) (l 1 1) (M (V (l 1 0) z z) (V z (l 1 0) z) (V z z (l 1 0))) (Some 0%nat)) 0 true None] (estart (V (l 1 2) z (l 1 2)) z (V (l (-1) 0) z (l (-1) 0)) (l 16777215 104))) (l64 1 0));
   (295%nat, tfar_ok (shoot [eplane_intersect (EPlane (V z z z) (l 1 1) (l 1 1) (M (V (l 1 0) z z) (V z (l 1 0) z) (V z z (l 1 0))) (Some 0%nat)) 0 true None] (estart (V (l (-1) 2) z (l (-1) 2)) z (V (l 1 0) z (l 1 0)) (l 16777215 104))) (l64 6369051672525773 (-50)));
   (297%nat, ng_ok vx (shoot [eplane_intersect (EPlane (V z z z) (l 1 1) (l 1 1) (M (V (l 1 0) z z) (V z (l 1 0) z) (V z z (l 1 0))) (Some 0%nat)) 0 true None] (estart (V (l (-1) 2) z (l (-1) 2)) z (V (l 1 0) z (l 1 0)) (l 16777215 104))) z);
   (298%nat, ng_ok vy (shoot [eplane_intersect (EPlane (V z z z) (l 1 1) (l 1 1) (M (V (l 1 0) z z) (V z (l 1 0) z) (V z z (l 1 0))) (Some 0%nat)) 0 true None] (estart (V (l (-1) 2) z (l (-1) 2)) z (V (l 1 0) z (l 1 0)) (l 16777215 104))) z);
   (299%nat, ng_ok vz (shoot [eplane_intersect (EPlane (V z z z) (l 1 1) (l 1 1) (M (V (l 1 0) z z) (V z (l 1 0) z) (V z z (l 1 0))) (Some 0%nat)) 0 true None] (estart (V (l (-1) 2) z (l (-1) 2)) z (V (l 1 0) z (l 1 0)) (l 16777215 104))) (l64 (-1) 0));
   (324%nat, tfar_ok (shoot [eplane_intersect (EPlane (V z z z) (l 1 1) (l 1 1) (M (V (l 1 0) z z) (V z (l 1 0) z) (V z z (l 1 0))) (Some 0%nat)) 0 true None] (estart (V (l 1 0) z (l 1 2)) z (V z z (l (-1) 0)) (l 16777215 104))) (l64 1 2));
   (325%nat, ng_ok vx (shoot [eplane_intersect (EPlane (V z z z) (l 1 1) (l 1 1) (M (V (l 1 0) z z) (V z (l 1 0) z) (V z z (l 1 0))) (Some 0%nat)) 0 true None] (estart (V (l 1 0) z (l 1 2)) z (V z z (l (-1) 0)) (l 16777215 104))) (l64 1592262918131443 (-51)));
   (326%nat, ng_ok vy (shoot [eplane_intersect (EPlane (V z z z) (l 1 1) (l 1 1) (M (V (l 1 0) z z) (V z (l 1 0) z) (V z z (l 1 0))) (Some 0%nat)) 0 true None] (estart (V (l 1 0) z (l 1 2)) z (V z z (l (-1) 0)) (l 16777215 104))) z);
   (327%nat, ng_ok vz (shoot [eplane_intersect (EPlane (V z z z) (l 1 1) (l 1 1) (M (V (l 1 0) z z) (V z (l 1 0) z) (V z z (l 1 0))) (Some 0%nat)) 0 true None] (estart (V (l 1 0) z (l 1 2)) z (V z z (l (-1) 0)) (l 16777215 104))) (l64 1592262918131443 (-51)));
   (344%nat, tfar_ok (shoot [eplane_intersect (EPlane (V z z z) (l 1 1) (l 1 1) (M (V (l 1 0) z z) (V z (l 1 0) z) (V z z (l 1 0))) (Some 0%nat)) 0 true None] (estart (V (l (-1) 0) z (l 1 2)) z (V z z (l (-1) 0)) (l 16777215 104))) (l64 1 2));
   (345%nat, ng_ok vx (shoot [eplane_intersect (EPlane (V z z z) (l 1 1) (l 1 1) (M (V (l 1 0) z z) (V z (l 1 0) z) (V z z (l 1 0))) (Some 0%nat)) 0 true None] (estart (V (l (-1) 0) z (l 1 2)) z (V z z (l (-1) 0)) (l 16777215 104))) (l64 (-1592262918131443) (-51)));
   (346%nat, ng_ok vy (shoot [eplane_intersect (EPlane (V z z z) (l 1 1) (l 1 1) (M (V (l 1 0) z z) (V z (l 1 0) z) (V z z (l 1 0))) (Some 0%nat)) 0 true None] (estart (V (l (-1) 0) z (l 1 2)) z (V z z (l (-1) 0)) (l 16777215 104))) z);
   (347%nat, ng_ok vz (shoot [eplane_intersect (EPlane (V z z z) (l 1 1) (l 1 1) (M (V (l 1 0) z z) (V z (l 1 0) z) (V z z (l 1 0))) (Some 0%nat)) 0 true None] (estart (V (l (-1) 0) z (l 1 2)) z (V z z (l (-1) 0)) (l 16777215 104))) (l64 1592262918131443 (-51)));
   (363%nat, tfar_ok (shoot [eplane_intersect (EPlane (V z z z) (l 1 1) (l 1 1) (M (V (l 1 0) z z) (V z (l 1 0) z) (V z z (l 1 0))) (Some 0%nat)) 0 true None] (estart (V z (l 1 0) (l 1 2)) z (V z z (l (-1) 0)) (l 16777215 104))) (l64 1 2));
   (364%nat, ng_ok vx (shoot [eplane_intersect (EPlane (V z z z) (l 1 1) (l 1 1) (M (V (l 1 0) z z) (V z (l 1 0) z) (V z z (l 1 0))) (Some 0%nat)) 0 true None] (estart (V z (l 1 0) (l 1 2)) z (V z z (l (-1) 0)) (l 16777215 104))) z);
   (365%nat, ng_ok vy (shoot [eplane_intersect (EPlane (V z z z) (l 1 1) (l 1 1) (M (V (l 1 0) z z) (V z (l 1 0) z) (V z z (l 1 0))) (Some 0%nat)) 0 true None] (estart (V z (l 1 0) (l 1 2)) z (V z z (l (-1) 0)) (l 16777215 104))) (l64 1592262918131443 (-51)));
   (366%nat, ng_ok vz (shoot [eplane_intersect (EPlane (V z z z) (l 1 1) (l 1 1) (M (V (l 1 0) z z) (V z (l 1 0) z) (V z z (l 1 0))) (Some 0%nat)) 0 true None] (estart (V z (l 1 0) (l 1 2)) z (V z z (l (-1) 0)) (l 16777215 104))) (l64 1592262918131443 (-51)));
   (381%nat, tfar_ok (shoot [eplane_intersect (EPlane (V z z z) (l 1 1) (l 1 1) (M (V (l 1 0) z z) (V z (l 1 0) z) (V z z (l 1 0))) (Some 0%nat)) 0 true None] (estart (V z (l (-1) 0) (l 1 2)) z (V z z (l (-1) 0)) (l 16777215 104))) (l64 1 2));
   (382%nat, ng_ok vx (shoot [eplane_intersect (EPlane (V z z z) (l 1 1) (l 1 1) (M (V (l 1 0) z z) (V z (l 1 0) z) (V z z (l 1 0))) (Some 0%nat)) 0 true None] (estart (V z (l (-1) 0) (l 1 2)) z (V z z (l (-1) 0)) (l 16777215 104))) z);
   (383%nat, ng_ok vy (shoot [eplane_intersect (EPlane (V z z z) (l 1 1) (l 1 1) (M (V (l 1 0) z z) (V z (l 1 0) z) (V z z (l 1 0))) (Some 0%nat)) 0 true None] (estart (V z (l (-1) 0) (l 1 2)) z (V z z (l (-1) 0)) (l 16777215 104))) (l64 (-1592262918131443) (-51)));
   (384%nat, ng_ok vz (shoot [eplane_intersect (EPlane (V z z z) (l 1 1) (l 1 1) (M (V (l 1 0) z z) (V z (l 1 0) z) (V z z (l 1 0))) (Some 0%nat)) 0 true None] (estart (V z (l (-1) 0) (l 1 2)) z (V z z (l (-1) 0)) (l 16777215 104))) (l64 1592262918131443 (-51)));
   (409%nat, tfar_ok (shoot [eplane_intersect (EPlane (V z z z) (l 1 1) (l 1 1) (M (V (l 1 0) z z) (V z (l 1 0) z) (V z z (l 1 0))) (Some 0%nat)) 0 true None] (estart (V (l 1 0) (l 1 0) (l 1 2)) z (V z z (l (-1) 0)) (l 16777215 104))) (l64 1 2));
   (410%nat, ng_ok vx (shoot [eplane_intersect (EPlane (V z z z) (l 1 1) (l 1 1) (M (V (l 1 0) z z) (V z (l 1 0) z) (V z z (l 1 0))) (Some 0%nat)) 0 true None] (estart (V (l 1 0) (l 1 0) (l 1 2)) z (V z z (l (-1) 0)) (l 16777215 104))) (l64 5200308914369309 (-53)));
   (411%nat, ng_ok vy (shoot [eplane_intersect (EPlane (V z z z) (l 1 1) (l 1 1) (M (V (l 1 0) z z) (V z (l 1 0) z) (V z z (l 1 0))) (Some 0%nat)) 0 true None] (estart (V (l 1 0) (l 1 0) (l 1 2)) z (V z z (l (-1) 0)) (l 16777215 104))) (l64 5200308914369309 (-53)));
   (412%nat, ng_ok vz (shoot [eplane_intersect (EPlane (V z z z) (l 1 1) (l 1 1) (M (V (l 1 0) z z) (V z (l 1 0) z) (V z z (l 1 0))) (Some 0%nat)) 0 true None] (estart (V (l 1 0) (l 1 0) (l 1 2)) z (V z z (l (-1) 0)) (l 16777215 104))) (l64 5200308914369309 (-53)));
   (428%nat, tfar_ok (shoot [eplane_intersect (EPlane (V z z z) (l 1 1) (l 1 1) (M (V (l 1 0) z z) (V z (l 1 0) z) (V z z (l 1 0))) (Some 0%nat)) 0 true None] (estart (V (l (-1) 0) (l 1 0) (l 1 2)) z (V z z (l (-1) 0)) (l 16777215 104))) (l64 1 2));
   (430%nat, ng_ok vx (shoot [eplane_intersect (EPlane (V z z z) (l 1 1) (l 1 1) (M (V (l 1 0) z z) (V z (l 1 0) z) (V z z (l 1 0))) (Some 0%nat)) 0 true None] (estart (V (l (-1) 0) (l 1 0) (l 1 2)) z (V z z (l (-1) 0)) (l 16777215 104))) (l64 (-5200308914369309) (-53)));
   (431%nat, ng_ok vy (shoot [eplane_intersect (EPlane (V z z z) (l 1 1) (l 1 1) (M (V (l 1 0) z z) (V z (l 1 0) z) (V z z (l 1 0))) (Some 0%nat)) 0 true None] (estart (V (l (-1) 0) (l 1 0) (l 1 2)) z (V z z (l (-1) 0)) (l 16777215 104))) (l64 5200308914369309 (-53)));
   (432%nat, ng_ok vz (shoot [eplane_intersect (EPlane (V z z z) (l 1 1) (l 1 1) (M (V (l 1 0) z z) (V z (l 1 0) z) (V z z (l 1 0))) (Some 0%nat)) 0 true None] (estart (V (l (-1) 0) (l 1 0) (l 1 2)) z (V z z (l (-1) 0)) (l 16777215 104))) (l64 5200308914369309 (-53)));
   (448%nat, tfar_ok (shoot [eplane_intersect (EPlane (V z z z) (l 1 1) (l 1 1) (M (V (l 1 0) z z) (V z (l 1 0) z) (V z z (l 1 0))) (Some 0%nat)) 0 true None] (estart (V (l 1 0) (l (-1) 0) (l 1 2)) z (V z z (l (-1) 0)) (l 16777215 104))) (l64 1 2));
   (449%nat, ng_ok vx (shoot [eplane_intersect (EPlane (V z z z) (l 1 1) (l 1 1) (M (V (l 1 0) z z) (V z (l 1 0) z) (V z z (l 1 0))) (Some 0%nat)) 0 true None] (estart (V (l 1 0) (l (-1) 0) (l 1 2)) z (V z z (l (-1) 0)) (l 16777215 104))) (l64 5200308914369309 (-53)));
   (450%nat, ng_ok vy (shoot [eplane_intersect (EPlane (V z z z) (l 1 1) (l 1 1) (M (V (l 1 0) z z) (V z (l 1 0) z) (V z z (l 1 0))) (Some 0%nat)) 0 true None] (estart (V (l 1 0) (l (-1) 0) (l 1 2)) z (V z z (l (-1) 0)) (l 16777215 104))) (l64 (-5200308914369309) (-53)));
   (451%nat, ng_ok vz (shoot [eplane_intersect (EPlane (V z z z) (l 1 1) (l 1 1) (M (V (l 1 0) z z) (V z (l 1 0) z) (V z z (l 1 0))) (Some 0%nat)) 0 true None] (estart (V (l 1 0) (l (-1) 0) (l 1 2)) z (V z z (l (-1) 0)) (l 16777215 104))) (l64 5200308914369309 (-53)));
   (467%nat, tfar_ok (shoot [eplane_intersect (EPlane (V z z z) (l 1 1) (l 1 1) (M (V (l 1 0) z z) (V z (l 1 0) z) (V z z (l 1 0))) (Some 0%nat)) 0 true None] (estart (V (l (-1) 0) (l (-1) 0) (l 1 2)) z (V z z (l (-1) 0)) (l 16777215 104))) (l64 1 2));
   (468%nat, ng_ok vx (shoot [eplane_intersect (EPlane (V z z z) (l 1 1) (l 1 1) (M (V (l 1 0) z z) (V z (l 1 0) z) (V z z (l 1 0))) (Some 0%nat)) 0 true None] (estart (V (l (-1) 0) (l (-1) 0) (l 1 2)) z (V z z (l (-1) 0)) (l 16777215 104))) (l64 (-5200308914369309) (-53)));
   (469%nat, ng_ok vy (shoot [eplane_intersect (EPlane (V z z z) (l 1 1) (l 1 1) (M (V (l 1 0) z z) (V z (l 1 0) z) (V z z (l 1 0))) (Some 0%nat)) 0 true None] (estart (V (l (-1) 0) (l (-1) 0) (l 1 2)) z (V z z (l (-1) 0)) (l 16777215 104))) (l64 (-5200308914369309) (-53)));
   (470%nat, ng_ok vz (shoot [eplane_intersect (EPlane (V z z z) (l 1 1) (l 1 1) (M (V (l 1 0) z z) (V z (l 1 0) z) (V z z (l 1 0))) (Some 0%nat)) 0 true None] (estart (V (l (-1) 0) (l (-1) 0) (l 1 2)) z (V z z (l (-1) 0)) (l 16777215 104))) (l64 5200308914369309 (-53)));
   (495%nat, tfar_ok (shoot [eplane_intersect (EPlane (V (l 1 0) (l 1 0) (l 1 0)) (l 1 1) (l 1 1) (M (V (l 1 0) z z) (V z (l 1 0) z) (V z z (l 1 0))) (Some 0%nat)) 0 true None] (estart (V (l 1 0) (l 1 0) (l 5 0)) z (V z z (l (-1) 0)) (l 16777215 104))) (l64 1 2));
   (496%nat, ng_ok vx (shoot [eplane_intersect (EPlane (V (l 1 0) (l 1 0) (l 1 0)) (l 1 1) (l 1 1) (M (V (l 1 0) z z) (V z (l 1 0) z) (V z z (l 1 0))) (Some 0%nat)) 0 true None] (estart (V (l 1 0) (l 1 0) (l 5 0)) z (V z z (l (-1) 0)) (l 16777215 104))) z);
   (497%nat, ng_ok vy (shoot [eplane_intersect (EPlane (V (l 1 0) (l 1 0) (l 1 0)) (l 1 1) (l 1 1) (M (V (l 1 0) z z) (V z (l 1 0) z) (V z z (l 1 0))) (Some 0%nat)) 0 true None] (estart (V (l 1 0) (l 1 0) (l 5 0)) z (V z z (l (-1) 0)) (l 16777215 104))) z);
   (498%nat, ng_ok vz (shoot [eplane_intersect (EPlane (V (l 1 0) (l 1 0) (l 1 0)) (l 1 1) (l 1 1) (M (V (l 1 0) z z) (V z (l 1 0) z) (V z z (l 1 0))) (Some 0%nat)) 0 true None] (estart (V (l 1 0) (l 1 0) (l 5 0)) z (V z z (l (-1) 0)) (l 16777215 104))) (l64 1 0));
   (522%nat, tfar_ok (shoot [eplane_intersect (EPlane (V (l 1 0) (l 1 0) (l 1 0)) (l 1 1) (l 1 1) (M (V (l (-6151831) (-47)) z (l 1 0)) (V z (l 16777215 (-24)) z) (V (l (-1) 0) z (l (-6151831) (-47)))) (Some 0%nat)) 0 true None] (estart (V (l 5 0) (l 1 0) (l 1 0)) z (V (l (-1) 0) z z) (l 16777215 104))) (l64 1 2));
   (523%nat, ng_ok vx (shoot [eplane_intersect (EPlane (V (l 1 0) (l 1 0) (l 1 0)) (l 1 1) (l 1 1) (M (V (l (-6151831) (-47)) z (l 1 0)) (V z (l 16777215 (-24)) z) (V (l (-1) 0) z (l (-6151831) (-47)))) (Some 0%nat)) 0 true None] (estart (V (l 5 0) (l 1 0) (l 1 0)) z (V (l (-1) 0) z z) (l 16777215 104))) (l64 1 0));
   (524%nat, ng_ok vy (shoot [eplane_intersect (EPlane (V (l 1 0) (l 1 0) (l 1 0)) (l 1 1) (l 1 1) (M (V (l (-6151831) (-47)) z (l 1 0)) (V z (l 16777215 (-24)) z) (V (l (-1) 0) z (l (-6151831) (-47)))) (Some 0%nat)) 0 true None] (estart (V (l 5 0) (l 1 0) (l 1 0)) z (V (l (-1) 0) z z) (l 16777215 104))) z);
   (525%nat, ng_ok vz (shoot [eplane_intersect (EPlane (V (l 1 0) (l 1 0) (l 1 0)) (l 1 1) (l 1 1) (M (V (l (-6151831) (-47)) z (l 1 0)) (V z (l 16777215 (-24)) z) (V (l (-1) 0) z (l (-6151831) (-47)))) (Some 0%nat)) 0 true None] (estart (V (l 5 0) (l 1 0) (l 1 0)) z (V (l (-1) 0) z z) (l 16777215 104))) z);
   (550%nat, tfar_ok (shoot [eplane_intersect (EPlane (V (l 1 0) (l 1 0) (l 1 0)) (l 1 1) (l 1 1) (M (V (l 8388607 (-24)) (l 16777215 (-25)) (l 11863283 (-24))) (V (l 16777215 (-25)) (l 8388607 (-24)) (l (-11863283) (-24))) (V (l (-11863283) (-24)) (l 11863283 (-24)) (l (-6151831) (-47)))) (Some 0%nat)) 0 true None] (estart (V (l (-1) 2) (l 3 1) (l 1 (-1))) z (V (l 1 0) (l (-1) 0) z) (l 16777215 104))) (l64 124395540479019 (-44)));
   (551%nat, ng_ok vx (shoot [eplane_intersect (EPlane (V (l 1 0) (l 1 0) (l 1 0)) (l 1 1) (l 1 1) (M (V (l 8388607 (-24)) (l 16777215 (-25)) (l 11863283 (-24))) (V (l 16777215 (-25)) (l 8388607 (-24)) (l (-11863283) (-24))) (V (l (-11863283) (-24)) (l 11863283 (-24)) (l (-6151831) (-47)))) (Some 0%nat)) 0 true None] (estart (V (l (-1) 2) (l 3 1) (l 1 (-1))) z (V (l 1 0) (l (-1) 0) z) (l 16777215 104))) (l64 (-1592262918131443) (-51)));
   (552%nat, ng_ok vy (shoot [eplane_intersect (EPlane (V (l 1 0) (l 1 0) (l 1 0)) (l 1 1) (l 1 1) (M (V (l 8388607 (-24)) (l 16777215 (-25)) (l 11863283 (-24))) (V (l 16777215 (-25)) (l 8388607 (-24)) (l (-11863283) (-24))) (V (l (-11863283) (-24)) (l 11863283 (-24)) (l (-6151831) (-47)))) (Some 0%nat)) 0 true None] (estart (V (l (-1) 2) (l 3 1) (l 1 (-1))) z (V (l 1 0) (l (-1) 0) z) (l 16777215 104))) (l64 1592262918131443 (-51)));
   (553%nat, ng_ok vz (shoot [eplane_intersect (EPlane (V (l 1 0) (l 1 0) (l 1 0)) (l 1 1) (l 1 1) (M (V (l 8388607 (-24)) (l 16777215 (-25)) (l 11863283 (-24))) (V (l 16777215 (-25)) (l 8388607 (-24)) (l (-11863283) (-24))) (V (l (-11863283) (-24)) (l 11863283 (-24)) (l (-6151831) (-47)))) (Some 0%nat)) 0 true None] (estart (V (l (-1) 2) (l 3 1) (l 1 (-1))) z (V (l 1 0) (l (-1) 0) z) (l 16777215 104))) z);
   (578%nat, tfar_ok (shoot [eplane_intersect (EPlane (V (l 1 0) (l 1 0) (l 1 0)) (l 1 1) (l 1 1) (M (V (l 1 0) z z) (V z (l 1 0) z) (V z z (l 1 0))) (Some 0%nat)) 0 true None] (estart (V (l 5 0) (l 1 0) (l 5 0)) z (V (l (-1) 0) z (l (-1) 0)) (l 16777215 104))) (l64 6369051672525773 (-50)));
   (579%nat, ng_ok vx (shoot [eplane_intersect (EPlane (V (l 1 0) (l 1 0) (l 1 0)) (l 1 1) (l 1 1) (M (V (l 1 0) z z) (V z (l 1 0) z) (V z z (l 1 0))) (Some 0%nat)) 0 true None] (estart (V (l 5 0) (l 1 0) (l 5 0)) z (V (l (-1) 0) z (l (-1) 0)) (l 16777215 104))) z);
   (580%nat, ng_ok vy (shoot [eplane_intersect (EPlane (V (l 1 0) (l 1 0) (l 1 0)) (l 1 1) (l 1 1) (M (V (l 1 0) z z) (V z (l 1 0) z) (V z z (l 1 0))) (Some 0%nat)) 0 true None] (estart (V (l 5 0) (l 1 0) (l 5 0)) z (V (l (-1) 0) z (l (-1) 0)) (l 16777215 104))) z);
   (581%nat, ng_ok vz (shoot [eplane_intersect (EPlane (V (l 1 0) (l 1 0) (l 1 0)) (l 1 1) (l 1 1) (M (V (l 1 0) z z) (V z (l 1 0) z) (V z z (l 1 0))) (Some 0%nat)) 0 true None] (estart (V (l 5 0) (l 1 0) (l 5 0)) z (V (l (-1) 0) z (l (-1) 0)) (l 16777215 104))) (l64 1 0));
   (596%nat, tfar_ok (shoot [eplane_intersect (EPlane (V (l 1 0) (l 1 0) (l 1 0)) (l 1 1) (l 1 1) (M (V (l 1 0) z z) (V z (l 1 0) z) (V z z (l 1 0))) (Some 0%nat)) 0 true None] (estart (V (l (-3) 0) (l 1 0) (l (-3) 0)) z (V (l 1 0) z (l 1 0)) (l 16777215 104))) (l64 6369051672525773 (-50)));
   (598%nat, ng_ok vx (shoot [eplane_intersect (EPlane (V (l 1 0) (l 1 0) (l 1 0)) (l 1 1) (l 1 1) (M (V (l 1 0) z z) (V z (l 1 0) z) (V z z (l 1 0))) (Some 0%nat)) 0 true None] (estart (V (l (-3) 0) (l 1 0) (l (-3) 0)) z (V (l 1 0) z (l 1 0)) (l 16777215 104))) z);
   (599%nat, ng_ok vy (shoot [eplane_intersect (EPlane (V (l 1 0) (l 1 0) (l 1 0)) (l 1 1) (l 1 1) (M (V (l 1 0) z z) (V z (l 1 0) z) (V z z (l 1 0))) (Some 0%nat)) 0 true None] (estart (V (l (-3) 0) (l 1 0) (l (-3) 0)) z (V (l 1 0) z (l 1 0)) (l 16777215 104))) z);
   (600%nat, ng_ok vz (shoot [eplane_intersect (EPlane (V (l 1 0) (l 1 0) (l 1 0)) (l 1 1) (l 1 1) (M (V (l 1 0) z z) (V z (l 1 0) z) (V z z (l 1 0))) (Some 0%nat)) 0 true None] (estart (V (l (-3) 0) (l 1 0) (l (-3) 0)) z (V (l 1 0) z (l 1 0)) (l 16777215 104))) (l64 (-1) 0));
   (625%nat, tfar_ok (shoot [eplane_intersect (EPlane (V (l 1 0) (l 1 0) (l 1 0)) (l 1 1) (l 1 1) (M (V (l 1 0) z z) (V z (l 1 0) z) (V z z (l 1 0))) (Some 0%nat)) 0 true None] (estart (V (l 1 1) (l 1 0) (l 1 2)) z (V z z (l (-1) 0)) (l 16777215 104))) (l64 3 0));
   (626%nat, ng_ok vx (shoot [eplane_intersect (EPlane (V (l 1 0) (l 1 0) (l 1 0)) (l 1 1) (l 1 1) (M (V (l 1 0) z z) (V z (l 1 0) z) (V z z (l 1 0))) (Some 0%nat)) 0 true None] (estart (V (l 1 1) (l 1 0) (l 1 2)) z (V z z (l (-1) 0)) (l 16777215 104))) (l64 1592262918131443 (-51)));
   (627%nat, ng_ok vy (shoot [eplane_intersect (EPlane (V (l 1 0) (l 1 0) (l 1 0)) (l 1 1) (l 1 1) (M (V (l 1 0) z z) (V z (l 1 0) z) (V z z (l 1 0))) (Some 0%nat)) 0 true None] (estart (V (l 1 1) (l 1 0) (l 1 2)) z (V z z (l (-1) 0)) (l 16777215 104))) z);
   (628%nat, ng_ok vz (shoot [eplane_intersect (EPlane (V (l 1 0) (l 1 0) (l 1 0)) (l 1 1) (l 1 1) (M (V (l 1 0) z z) (V z (l 1 0) z) (V z z (l 1 0))) (Some 0%nat)) 0 true None] (estart (V (l 1 1) (l 1 0) (l 1 2)) z (V z z (l (-1) 0)) (l 16777215 104))) (l64 1592262918131443 (-51)));
   (645%nat, tfar_ok (shoot [eplane_intersect (EPlane (V (l 1 0) (l 1 0) (l 1 0)) (l 1 1) (l 1 1) (M (V (l 1 0) z z) (V z (l 1 0) z) (V z z (l 1 0))) (Some 0%nat)) 0 true None] (estart (V z (l 1 0) (l 1 2)) z (V z z (l (-1) 0)) (l 16777215 104))) (l64 3 0));
   (646%nat, ng_ok vx (shoot [eplane_intersect (EPlane (V (l 1 0) (l 1 0) (l 1 0)) (l 1 1) (l 1 1) (M (V (l 1 0) z z) (V z (l 1 0) z) (V z z (l 1 0))) (Some 0%nat)) 0 true None] (estart (V z (l 1 0) (l 1 2)) z (V z z (l (-1) 0)) (l 16777215 104))) (l64 (-1592262918131443) (-51)));
   (647%nat, ng_ok vy (shoot [eplane_intersect (EPlane (V (l 1 0) (l 1 0) (l 1 0)) (l 1 1) (l 1 1) (M (V (l 1 0) z z) (V z (l 1 0) z) (V z z (l 1 0))) (Some 0%nat)) 0 true None] (estart (V z (l 1 0) (l 1 2)) z (V z z (l (-1) 0)) (l 16777215 104))) z);
   (648%nat, ng_ok vz (shoot [eplane_intersect (EPlane (V (l 1 0) (l 1 0) (l 1 0)) (l 1 1) (l 1 1) (M (V (l 1 0) z z) (V z (l 1 0) z) (V z z (l 1 0))) (Some 0%nat)) 0 true None] (estart (V z (l 1 0) (l 1 2)) z (V z z (l (-1) 0)) (l 16777215 104))) (l64 1592262918131443 (-51)));
   (664%nat, tfar_ok (shoot [eplane_intersect (EPlane (V (l 1 0) (l 1 0) (l 1 0)) (l 1 1) (l 1 1) (M (V (l 1 0) z z) (V z (l 1 0) z) (V z z (l 1 0))) (Some 0%nat)) 0 true None] (estart (V (l 1 0) (l 1 1) (l 1 2)) z (V z z (l (-1) 0)) (l 16777215 104))) (l64 3 0));
   (665%nat, ng_ok vx (shoot [eplane_intersect (EPlane (V (l 1 0) (l 1 0) (l 1 0)) (l 1 1) (l 1 1) (M (V (l 1 0) z z) (V z (l 1 0) z) (V z z (l 1 0))) (Some 0%nat)) 0 true None] (estart (V (l 1 0) (l 1 1) (l 1 2)) z (V z z (l (-1) 0)) (l 16777215 104))) z);
   (666%nat, ng_ok vy (shoot [eplane_intersect (EPlane (V (l 1 0) (l 1 0) (l 1 0)) (l 1 1) (l 1 1) (M (V (l 1 0) z z) (V z (l 1 0) z) (V z z (l 1 0))) (Some 0%nat)) 0 true None] (estart (V (l 1 0) (l 1 1) (l 1 2)) z (V z z (l (-1) 0)) (l 16777215 104))) (l64 1592262918131443 (-51)));
   (667%nat, ng_ok vz (shoot [eplane_intersect (EPlane (V (l 1 0) (l 1 0) (l 1 0)) (l 1 1) (l 1 1) (M (V (l 1 0) z z) (V z (l 1 0) z) (V z z (l 1 0))) (Some 0%nat)) 0 true None] (estart (V (l 1 0) (l 1 1) (l 1 2)) z (V z z (l (-1) 0)) (l 16777215 104))) (l64 1592262918131443 (-51)));
   (682%nat, tfar_ok (shoot [eplane_intersect (EPlane (V (l 1 0) (l 1 0) (l 1 0)) (l 1 1) (l 1 1) (M (V (l 1 0) z z) (V z (l 1 0) z) (V z z (l 1 0))) (Some 0%nat)) 0 true None] (estart (V (l 1 0) z (l 1 2)) z (V z z (l (-1) 0)) (l 16777215 104))) (l64 3 0));
   (683%nat, ng_ok vx (shoot [eplane_intersect (EPlane (V (l 1 0) (l 1 0) (l 1 0)) (l 1 1) (l 1 1) (M (V (l 1 0) z z) (V z (l 1 0) z) (V z z (l 1 0))) (Some 0%nat)) 0 true None] (estart (V (l 1 0) z (l 1 2)) z (V z z (l (-1) 0)) (l 16777215 104))) z);
   (684%nat, ng_ok vy (shoot [eplane_intersect (EPlane (V (l 1 0) (l 1 0) (l 1 0)) (l 1 1) (l 1 1) (M (V (l 1 0) z z) (V z (l 1 0) z) (V z z (l 1 0))) (Some 0%nat)) 0 true None] (estart (V (l 1 0) z (l 1 2)) z (V z z (l (-1) 0)) (l 16777215 104))) (l64 (-1592262918131443) (-51)));
   (685%nat, ng_ok vz (shoot [eplane_intersect (EPlane (V (l 1 0) (l 1 0) (l 1 0)) (l 1 1) (l 1 1) (M (V (l 1 0) z z) (V z (l 1 0) z) (V z z (l 1 0))) (Some 0%nat)) 0 true None] (estart (V (l 1 0) z (l 1 2)) z (V z z (l (-1) 0)) (l 16777215 104))) (l64 1592262918131443 (-51)));
   (710%nat, tfar_ok (shoot [eplane_intersect (EPlane (V (l 1 0) (l 1 0) (l 1 0)) (l 1 1) (l 1 1) (M (V (l 1 0) z z) (V z (l 1 0) z) (V z z (l 1 0))) (Some 0%nat)) 0 true None] (estart (V (l 1 1) (l 1 1) (l 1 2)) z (V z z (l (-1) 0)) (l 16777215 104))) (l64 3 0));
   (711%nat, ng_ok vx (shoot [eplane_intersect (EPlane (V (l 1 0) (l 1 0) (l 1 0)) (l 1 1) (l 1 1) (M (V (l 1 0) z z) (V z (l 1 0) z) (V z z (l 1 0))) (Some 0%nat)) 0 true None] (estart (V (l 1 1) (l 1 1) (l 1 2)) z (V z z (l (-1) 0)) (l 16777215 104))) (l64 5200308914369309 (-53)));
   (712%nat, ng_ok vy (shoot [eplane_intersect (EPlane (V (l 1 0) (l 1 0) (l 1 0)) (l 1 1) (l 1 1) (M (V (l 1 0) z z) (V z (l 1 0) z) (V z z (l 1 0))) (Some 0%nat)) 0 true None] (estart (V (l 1 1) (l 1 1) (l 1 2)) z (V z z (l (-1) 0)) (l 16777215 104))) (l64 5200308914369309 (-53)));
   (713%nat, ng_ok vz (shoot [eplane_intersect (EPlane (V (l 1 0) (l 1 0) (l 1 0)) (l 1 1) (l 1 1) (M (V (l 1 0) z z) (V z (l 1 0) z) (V z z (l 1 0))) (Some 0%nat)) 0 true None] (estart (V (l 1 1) (l 1 1) (l 1 2)) z (V z z (l (-1) 0)) (l 16777215 104))) (l64 5200308914369309 (-53)));
   (729%nat, tfar_ok (shoot [eplane_intersect (EPlane (V (l 1 0) (l 1 0) (l 1 0)) (l 1 1) (l 1 1) (M (V (l 1 0) z z) (V z (l 1 0) z) (V z z (l 1 0))) (Some 0%nat)) 0 true None] (estart (V z (l 1 1) (l 1 2)) z (V z z (l (-1) 0)) (l 16777215 104))) (l64 3 0));
   (731%nat, ng_ok vx (shoot [eplane_intersect (EPlane (V (l 1 0) (l 1 0) (l 1 0)) (l 1 1) (l 1 1) (M (V (l 1 0) z z) (V z (l 1 0) z) (V z z (l 1 0))) (Some 0%nat)) 0 true None] (estart (V z (l 1 1) (l 1 2)) z (V z z (l (-1) 0)) (l 16777215 104))) (l64 (-5200308914369309) (-53)));
   (732%nat, ng_ok vy (shoot [eplane_intersect (EPlane (V (l 1 0) (l 1 0) (l 1 0)) (l 1 1) (l 1 1) (M (V (l 1 0) z z) (V z (l 1 0) z) (V z z (l 1 0))) (Some 0%nat)) 0 true None] (estart (V z (l 1 1) (l 1 2)) z (V z z (l (-1) 0)) (l 16777215 104))) (l64 5200308914369309 (-53)));
   (733%nat, ng_ok vz (shoot [eplane_intersect (EPlane (V (l 1 0) (l 1 0) (l 1 0)) (l 1 1) (l 1 1) (M (V (l 1 0) z z) (V z (l 1 0) z) (V z z (l 1 0))) (Some 0%nat)) 0 true None] (estart (V z (l 1 1) (l 1 2)) z (V z z (l (-1) 0)) (l 16777215 104))) (l64 5200308914369309 (-53)));
   (749%nat, tfar_ok (shoot [eplane_intersect (EPlane (V (l 1 0) (l 1 0) (l 1 0)) (l 1 1) (l 1 1) (M (V (l 1 0) z z) (V z (l 1 0) z) (V z z (l 1 0))) (Some 0%nat)) 0 true None] (estart (V (l 1 1) z (l 1 2)) z (V z z (l (-1) 0)) (l 16777215 104))) (l64 3 0));
   (750%nat, ng_ok vx (shoot [eplane_intersect (EPlane (V (l 1 0) (l 1 0) (l 1 0)) (l 1 1) (l 1 1) (M (V (l 1 0) z z) (V z (l 1 0) z) (V z z (l 1 0))) (Some 0%nat)) 0 true None] (estart (V (l 1 1) z (l 1 2)) z (V z z (l (-1) 0)) (l 16777215 104))) (l64 5200308914369309 (-53)));
   (751%nat, ng_ok vy (shoot [eplane_intersect (EPlane (V (l 1 0) (l 1 0) (l 1 0)) (l 1 1) (l 1 1) (M (V (l 1 0) z z) (V z (l 1 0) z) (V z z (l 1 0))) (Some 0%nat)) 0 true None] (estart (V (l 1 1) z (l 1 2)) z (V z z (l (-1) 0)) (l 16777215 104))) (l64 (-5200308914369309) (-53)));
   (752%nat, ng_ok vz (shoot [eplane_intersect (EPlane (V (l 1 0) (l 1 0) (l 1 0)) (l 1 1) (l 1 1) (M (V (l 1 0) z z) (V z (l 1 0) z) (V z z (l 1 0))) (Some 0%nat)) 0 true None] (estart (V (l 1 1) z (l 1 2)) z (V z z (l (-1) 0)) (l 16777215 104))) (l64 5200308914369309 (-53)));
   (768%nat, tfar_ok (shoot [eplane_intersect (EPlane (V (l 1 0) (l 1 0) (l 1 0)) (l 1 1) (l 1 1) (M (V (l 1 0) z z) (V z (l 1 0) z) (V z z (l 1 0))) (Some 0%nat)) 0 true None] (estart (V z z (l 1 2)) z (V z z (l (-1) 0)) (l 16777215 104))) (l64 3 0));
   (769%nat, ng_ok vx (shoot [eplane_intersect (EPlane (V (l 1 0) (l 1 0) (l 1 0)) (l 1 1) (l 1 1) (M (V (l 1 0) z z) (V z (l 1 0) z) (V z z (l 1 0))) (Some 0%nat)) 0 true None] (estart (V z z (l 1 2)) z (V z z (l (-1) 0)) (l 16777215 104))) (l64 (-5200308914369309) (-53)));
   (770%nat, ng_ok vy (shoot [eplane_intersect (EPlane (V (l 1 0) (l 1 0) (l 1 0)) (l 1 1) (l 1 1) (M (V (l 1 0) z z) (V z (l 1 0) z) (V z z (l 1 0))) (Some 0%nat)) 0 true None] (estart (V z z (l 1 2)) z (V z z (l (-1) 0)) (l 16777215 104))) (l64 (-5200308914369309) (-53)));
   (771%nat, ng_ok vz (shoot [eplane_intersect (EPlane (V (l 1 0) (l 1 0) (l 1 0)) (l 1 1) (l 1 1) (M (V (l 1 0) z z) (V z (l 1 0) z) (V z z (l 1 0))) (Some 0%nat)) 0 true None] (estart (V z z (l 1 2)) z (V z z (l (-1) 0)) (l 16777215 104))) (l64 5200308914369309 (-53)))]].
End S32_checks32.
