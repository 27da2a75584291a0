(** The tests of /repo/test/test_bvh/test_intersect.cpp, evaluated by the model.
    Written by tools/suite.py; each entry is the line of the test and its answer. *)

From Coq Require Import ZArith List Bool.
From Coq.Floats Require Import SpecFloat.
From Verif Require Import Num NumF Vec Ray Bvh Traverse Sphere Plane Cylinder CylDist Trimesh Suite.
Import ListNotations.

Section S64_checks64.
Local Existing Instance F64.
Local Notation l := (l64) (only parsing).
Definition node_checks64 : list (nat * bool) := concat [
  [(49%nat, node_hit_ok (node_answer (V (l (-1) 0) (l 1 0) (l 1 0)) (V (l 1 0) (l 1 1) (l 1 1)) (make_ray (V z (l (-1060307260551005) (-51)) (l 8080242270750245 (-52))) (V z (l 4416142765648337 (-52)) (l (-3532914212518669) (-54))) z (l 3 0) false) z (l 3 0)) true);
   (50%nat, node_tmin_ok (node_answer (V (l (-1) 0) (l 1 0) (l 1 0)) (V (l 1 0) (l 1 1) (l 1 1)) (make_ray (V z (l (-1060307260551005) (-51)) (l 8080242270750245 (-52))) (V z (l 4416142765648337 (-52)) (l (-3532914212518669) (-54))) z (l 3 0) false) z (l 3 0)) (l 3 (-1)));
   (51%nat, node_tmax_ok (node_answer (V (l (-1) 0) (l 1 0) (l 1 0)) (V (l 1 0) (l 1 1) (l 1 1)) (make_ray (V z (l (-1060307260551005) (-51)) (l 8080242270750245 (-52))) (V z (l 4416142765648337 (-52)) (l (-3532914212518669) (-54))) z (l 3 0) false) z (l 3 0)) (l 5674093958665007 (-51)));
   (84%nat, node_hit_ok (node_answer (V (l (-1) 0) (l 1 0) (l 1 0)) (V (l (-1) 0) (l 1 0) (l 1 0)) (make_ray (V z z z) (V (l (-5200308914369309) (-53)) (l 5200308914369309 (-53)) (l 5200308914369309 (-53))) z (l 3 0) false) z (l 3 0)) true);
   (85%nat, node_tmin_ok (node_answer (V (l (-1) 0) (l 1 0) (l 1 0)) (V (l (-1) 0) (l 1 0) (l 1 0)) (make_ray (V z z z) (V (l (-5200308914369309) (-53)) (l 5200308914369309 (-53)) (l 5200308914369309 (-53))) z (l 3 0) false) z (l 3 0)) (l 3900231685776981 (-51)));
   (86%nat, node_tmax_ok (node_answer (V (l (-1) 0) (l 1 0) (l 1 0)) (V (l (-1) 0) (l 1 0) (l 1 0)) (make_ray (V z z z) (V (l (-5200308914369309) (-53)) (l 5200308914369309 (-53)) (l 5200308914369309 (-53))) z (l 3 0) false) z (l 3 0)) (l 3900231685776981 (-51)));
   (154%nat, node_hit_ok (node_answer (V (l (-1) 0) (l 1 0) (l 1 0)) (V (l (-1) 0) (l 5 0) (l 1 0)) (make_ray (V z z z) (V (l (-7354347395230783) (-54)) (l 7354347395230783 (-53)) (l 7354347395230783 (-54))) z (l 3 0) false) z (l 3 0)) true);
   (155%nat, node_tmin_ok (node_answer (V (l (-1) 0) (l 1 0) (l 1 0)) (V (l (-1) 0) (l 5 0) (l 1 0)) (make_ray (V z z z) (V (l (-7354347395230783) (-54)) (l 7354347395230783 (-53)) (l 7354347395230783 (-54))) z (l 3 0) false) z (l 3 0)) (l 2757880273211543 (-50)));
   (156%nat, node_tmax_ok (node_answer (V (l (-1) 0) (l 1 0) (l 1 0)) (V (l (-1) 0) (l 5 0) (l 1 0)) (make_ray (V z z z) (V (l (-7354347395230783) (-54)) (l 7354347395230783 (-53)) (l 7354347395230783 (-54))) z (l 3 0) false) z (l 3 0)) (l 2757880273211543 (-50)));
   (188%nat, node_hit_ok (node_answer (V (l (-1) 0) (l 1 0) (l 1 0)) (V (l (-1) 0) (l 9007199254740991 971) (l 1 0)) (make_ray (V z z z) (V (l (-7354347395230783) (-54)) (l 7354347395230783 (-53)) (l 7354347395230783 (-54))) z (l 3 0) false) z (l 3 0)) true);
   (189%nat, node_tmin_ok (node_answer (V (l (-1) 0) (l 1 0) (l 1 0)) (V (l (-1) 0) (l 9007199254740991 971) (l 1 0)) (make_ray (V z z z) (V (l (-7354347395230783) (-54)) (l 7354347395230783 (-53)) (l 7354347395230783 (-54))) z (l 3 0) false) z (l 3 0)) (l 2757880273211543 (-50)));
   (190%nat, node_tmax_ok (node_answer (V (l (-1) 0) (l 1 0) (l 1 0)) (V (l (-1) 0) (l 9007199254740991 971) (l 1 0)) (make_ray (V z z z) (V (l (-7354347395230783) (-54)) (l 7354347395230783 (-53)) (l 7354347395230783 (-54))) z (l 3 0) false) z (l 3 0)) (l 2757880273211543 (-50)));
   (224%nat, node_hit_ok (node_answer (V (l (-1) 0) (l 1 0) (l 1 0)) (V (l (-1) 0) (l 5 0) (l 5 0)) (make_ray (V z z z) (V (l (-2407275258974741) (-53)) (l 2407275258974741 (-52)) (l 7221825776924223 (-53))) z (l 5 0) false) z (l 5 0)) true);
   (225%nat, node_tmin_ok (node_answer (V (l (-1) 0) (l 1 0) (l 1 0)) (V (l (-1) 0) (l 5 0) (l 5 0)) (make_ray (V z z z) (V (l (-2407275258974741) (-53)) (l 2407275258974741 (-52)) (l 7221825776924223 (-53))) z (l 5 0) false) z (l 5 0)) (l 8425463406411593 (-51)));
   (226%nat, node_tmax_ok (node_answer (V (l (-1) 0) (l 1 0) (l 1 0)) (V (l (-1) 0) (l 5 0) (l 5 0)) (make_ray (V z z z) (V (l (-2407275258974741) (-53)) (l 2407275258974741 (-52)) (l 7221825776924223 (-53))) z (l 5 0) false) z (l 5 0)) (l 8425463406411593 (-51)));
   (257%nat, node_hit_ok (node_answer (V (l (-1) 0) (l 1 0) (l 1 0)) (V (l (-1) 0) (l 9007199254740991 971) (l 1 1)) (make_ray (V z z z) (V (l (-836297455818609) (-51)) (l 836297455818609 (-50)) (l 2508892367455827 (-52))) z (l 9007199254740991 971) false) z (l 9007199254740991 971)) true);
   (258%nat, node_tmin_ok (node_answer (V (l (-1) 0) (l 1 0) (l 1 0)) (V (l (-1) 0) (l 9007199254740991 971) (l 1 1)) (make_ray (V z z z) (V (l (-836297455818609) (-51)) (l 836297455818609 (-50)) (l 2508892367455827 (-52))) z (l 9007199254740991 971) false) z (l 9007199254740991 971)) (l 6063156554684915 (-51)));
   (259%nat, node_tmax_ok (node_answer (V (l (-1) 0) (l 1 0) (l 1 0)) (V (l (-1) 0) (l 9007199254740991 971) (l 1 1)) (make_ray (V z z z) (V (l (-836297455818609) (-51)) (l 836297455818609 (-50)) (l 2508892367455827 (-52))) z (l 9007199254740991 971) false) z (l 9007199254740991 971)) (l 6063156554684915 (-51)));
   (290%nat, node_hit_ok (node_answer (V (l (-1) 0) (l 1 0) (l 1 0)) (V (l (-1) 0) (l 9007199254740991 971) (l 9007199254740991 971)) (make_ray (V z z z) (V (l (-836297455818609) (-51)) (l 836297455818609 (-50)) (l 2508892367455827 (-52))) z (l 9007199254740991 971) false) z (l 9007199254740991 971)) true);
   (291%nat, node_tmin_ok (node_answer (V (l (-1) 0) (l 1 0) (l 1 0)) (V (l (-1) 0) (l 9007199254740991 971) (l 9007199254740991 971)) (make_ray (V z z z) (V (l (-836297455818609) (-51)) (l 836297455818609 (-50)) (l 2508892367455827 (-52))) z (l 9007199254740991 971) false) z (l 9007199254740991 971)) (l 6063156554684915 (-51)));
   (292%nat, node_tmax_ok (node_answer (V (l (-1) 0) (l 1 0) (l 1 0)) (V (l (-1) 0) (l 9007199254740991 971) (l 9007199254740991 971)) (make_ray (V z z z) (V (l (-836297455818609) (-51)) (l 836297455818609 (-50)) (l 2508892367455827 (-52))) z (l 9007199254740991 971) false) z (l 9007199254740991 971)) (l 6063156554684915 (-51)))]].
End S64_checks64.

Section S64_warnings64.
Local Existing Instance F64.
Local Notation l := (l64) (only parsing).
Definition node_warnings64 : list (nat * bool) := concat [
  [(118%nat, node_hit_ok (node_answer (V (l (-1) 0) (l 9007199254740991 971) (l 1 0)) (V (l (-1) 0) (l 9007199254740991 971) (l 1 0)) (make_ray (V z z z) (V (l (-4611681406748287) (-62)) (l 562949390472203 (-49)) (l 4611681406748287 (-62))) z (l 9007199254740991 971) false) z (l 9007199254740991 971)) true);
   (119%nat, node_tmin_ok (node_answer (V (l (-1) 0) (l 9007199254740991 971) (l 1 0)) (V (l (-1) 0) (l 9007199254740991 971) (l 1 0)) (make_ray (V z z z) (V (l (-4611681406748287) (-62)) (l 562949390472203 (-49)) (l 4611681406748287 (-62))) z (l 9007199254740991 971) false) z (l 9007199254740991 971)) (l 9007199254740991 971));
   (120%nat, node_tmax_ok (node_answer (V (l (-1) 0) (l 9007199254740991 971) (l 1 0)) (V (l (-1) 0) (l 9007199254740991 971) (l 1 0)) (make_ray (V z z z) (V (l (-4611681406748287) (-62)) (l 562949390472203 (-49)) (l 4611681406748287 (-62))) z (l 9007199254740991 971) false) z (l 9007199254740991 971)) (l 9007199254740991 971))]].
End S64_warnings64.

Section S32_checks32.
Local Existing Instance F32.
Local Notation l := (l32) (only parsing).
Definition node_checks32 : list (nat * bool) := concat [
  [(49%nat, node_hit_ok (node_answer (V (l (-1) 0) (l 1 0) (l 1 0)) (V (l 1 0) (l 1 1) (l 1 1)) (make_ray (V z (l (-15799809) (-25)) (l 117583 (-16))) (V z (l 8225707 (-23)) (l (-13161131) (-26))) z (l 3 0) false) z (l 3 0)) true);
   (50%nat, node_tmin_ok (node_answer (V (l (-1) 0) (l 1 0) (l 1 0)) (V (l 1 0) (l 1 1) (l 1 1)) (make_ray (V z (l (-15799809) (-25)) (l 117583 (-16))) (V z (l 8225707 (-23)) (l (-13161131) (-26))) z (l 3 0) false) z (l 3 0)) (l 3 (-1)));
   (51%nat, node_tmax_ok (node_answer (V (l (-1) 0) (l 1 0) (l 1 0)) (V (l 1 0) (l 1 1) (l 1 1)) (make_ray (V z (l (-15799809) (-25)) (l 117583 (-16))) (V z (l 8225707 (-23)) (l (-13161131) (-26))) z (l 3 0) false) z (l 3 0)) (l 1321103 (-19)));
   (84%nat, node_hit_ok (node_answer (V (l (-1) 0) (l 1 0) (l 1 0)) (V (l (-1) 0) (l 1 0) (l 1 0)) (make_ray (V z z z) (V (l (-4843165) (-23)) (l 4843165 (-23)) (l 4843165 (-23))) z (l 3 0) false) z (l 3 0)) true);
   (85%nat, node_tmin_ok (node_answer (V (l (-1) 0) (l 1 0) (l 1 0)) (V (l (-1) 0) (l 1 0) (l 1 0)) (make_ray (V z z z) (V (l (-4843165) (-23)) (l 4843165 (-23)) (l 4843165 (-23))) z (l 3 0) false) z (l 3 0)) (l 14529495 (-23)));
   (86%nat, node_tmax_ok (node_answer (V (l (-1) 0) (l 1 0) (l 1 0)) (V (l (-1) 0) (l 1 0) (l 1 0)) (make_ray (V z z z) (V (l (-4843165) (-23)) (l 4843165 (-23)) (l 4843165 (-23))) z (l 3 0) false) z (l 3 0)) (l 14529495 (-23)));
   (154%nat, node_hit_ok (node_answer (V (l (-1) 0) (l 1 0) (l 1 0)) (V (l (-1) 0) (l 5 0) (l 1 0)) (make_ray (V z z z) (V (l (-3424635) (-23)) (l 3424635 (-22)) (l 3424635 (-23))) z (l 3 0) false) z (l 3 0)) true);
   (155%nat, node_tmin_ok (node_answer (V (l (-1) 0) (l 1 0) (l 1 0)) (V (l (-1) 0) (l 5 0) (l 1 0)) (make_ray (V z z z) (V (l (-3424635) (-23)) (l 3424635 (-22)) (l 3424635 (-23))) z (l 3 0) false) z (l 3 0)) (l 10273905 (-22)));
   (156%nat, node_tmax_ok (node_answer (V (l (-1) 0) (l 1 0) (l 1 0)) (V (l (-1) 0) (l 5 0) (l 1 0)) (make_ray (V z z z) (V (l (-3424635) (-23)) (l 3424635 (-22)) (l 3424635 (-23))) z (l 3 0) false) z (l 3 0)) (l 10273905 (-22)));
   (188%nat, node_hit_ok (node_answer (V (l (-1) 0) (l 1 0) (l 1 0)) (V (l (-1) 0) (l 16777215 104) (l 1 0)) (make_ray (V z z z) (V (l (-3424635) (-23)) (l 3424635 (-22)) (l 3424635 (-23))) z (l 3 0) false) z (l 3 0)) true);
   (189%nat, node_tmin_ok (node_answer (V (l (-1) 0) (l 1 0) (l 1 0)) (V (l (-1) 0) (l 16777215 104) (l 1 0)) (make_ray (V z z z) (V (l (-3424635) (-23)) (l 3424635 (-22)) (l 3424635 (-23))) z (l 3 0) false) z (l 3 0)) (l 10273905 (-22)));
   (190%nat, node_tmax_ok (node_answer (V (l (-1) 0) (l 1 0) (l 1 0)) (V (l (-1) 0) (l 16777215 104) (l 1 0)) (make_ray (V z z z) (V (l (-3424635) (-23)) (l 3424635 (-22)) (l 3424635 (-23))) z (l 3 0) false) z (l 3 0)) (l 10273905 (-22)));
   (224%nat, node_hit_ok (node_answer (V (l (-1) 0) (l 1 0) (l 1 0)) (V (l (-1) 0) (l 5 0) (l 5 0)) (make_ray (V z z z) (V (l (-8967799) (-25)) (l 8967799 (-24)) (l 13451699 (-24))) z (l 5 0) false) z (l 5 0)) true);
   (225%nat, node_tmin_ok (node_answer (V (l (-1) 0) (l 1 0) (l 1 0)) (V (l (-1) 0) (l 5 0) (l 5 0)) (make_ray (V z z z) (V (l (-8967799) (-25)) (l 8967799 (-24)) (l 13451699 (-24))) z (l 5 0) false) z (l 5 0)) (l 15693649 (-22)));
   (226%nat, node_tmax_ok (node_answer (V (l (-1) 0) (l 1 0) (l 1 0)) (V (l (-1) 0) (l 5 0) (l 5 0)) (make_ray (V z z z) (V (l (-8967799) (-25)) (l 8967799 (-24)) (l 13451699 (-24))) z (l 5 0) false) z (l 5 0)) (l 15693649 (-22)));
   (257%nat, node_hit_ok (node_answer (V (l (-1) 0) (l 1 0) (l 1 0)) (V (l (-1) 0) (l 16777215 104) (l 1 1)) (make_ray (V z z z) (V (l (-12461803) (-25)) (l 12461803 (-24)) (l 584147 (-20))) z (l 16777215 104) false) z (l 16777215 104)) true);
   (258%nat, node_tmin_ok (node_answer (V (l (-1) 0) (l 1 0) (l 1 0)) (V (l (-1) 0) (l 16777215 104) (l 1 1)) (make_ray (V z z z) (V (l (-12461803) (-25)) (l 12461803 (-24)) (l 584147 (-20))) z (l 16777215 104) false) z (l 16777215 104)) (l 11293509 (-22)));
   (259%nat, node_tmax_ok (node_answer (V (l (-1) 0) (l 1 0) (l 1 0)) (V (l (-1) 0) (l 16777215 104) (l 1 1)) (make_ray (V z z z) (V (l (-12461803) (-25)) (l 12461803 (-24)) (l 584147 (-20))) z (l 16777215 104) false) z (l 16777215 104)) (l 11293509 (-22)));
   (290%nat, node_hit_ok (node_answer (V (l (-1) 0) (l 1 0) (l 1 0)) (V (l (-1) 0) (l 16777215 104) (l 16777215 104)) (make_ray (V z z z) (V (l (-12461803) (-25)) (l 12461803 (-24)) (l 584147 (-20))) z (l 16777215 104) false) z (l 16777215 104)) true);
   (291%nat, node_tmin_ok (node_answer (V (l (-1) 0) (l 1 0) (l 1 0)) (V (l (-1) 0) (l 16777215 104) (l 16777215 104)) (make_ray (V z z z) (V (l (-12461803) (-25)) (l 12461803 (-24)) (l 584147 (-20))) z (l 16777215 104) false) z (l 16777215 104)) (l 11293509 (-22)));
   (292%nat, node_tmax_ok (node_answer (V (l (-1) 0) (l 1 0) (l 1 0)) (V (l (-1) 0) (l 16777215 104) (l 16777215 104)) (make_ray (V z z z) (V (l (-12461803) (-25)) (l 12461803 (-24)) (l 584147 (-20))) z (l 16777215 104) false) z (l 16777215 104)) (l 11293509 (-22)))]].
End S32_checks32.

Section S32_warnings32.
Local Existing Instance F32.
Local Notation l := (l32) (only parsing).
Definition node_warnings32 : list (nat * bool) := concat [
  [(118%nat, node_hit_ok (node_answer (V (l (-1) 0) (l 16777215 104) (l 1 0)) (V (l (-1) 0) (l 16777215 104) (l 1 0)) (make_ray (V z z z) (V (l (-4294963) (-32)) (l 16777199 (-24)) (l 4294963 (-32))) z (l 16777215 104) false) z (l 16777215 104)) true);
   (119%nat, node_tmin_ok (node_answer (V (l (-1) 0) (l 16777215 104) (l 1 0)) (V (l (-1) 0) (l 16777215 104) (l 1 0)) (make_ray (V z z z) (V (l (-4294963) (-32)) (l 16777199 (-24)) (l 4294963 (-32))) z (l 16777215 104) false) z (l 16777215 104)) (l 16777215 104));
   (120%nat, node_tmax_ok (node_answer (V (l (-1) 0) (l 16777215 104) (l 1 0)) (V (l (-1) 0) (l 16777215 104) (l 1 0)) (make_ray (V z z z) (V (l (-4294963) (-32)) (l 16777199 (-24)) (l 4294963 (-32))) z (l 16777215 104) false) z (l 16777215 104)) (l 16777215 104))]].
End S32_warnings32.
