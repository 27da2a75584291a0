(** The tests of /repo/test/test_scene.cpp, test_embree_primitives/test_EmbreeScene.cpp
    and test_math.cpp, written down for the model.  Each entry is the line of the test
    and its answer. *)

From Coq Require Import ZArith List Bool.
From Coq.Floats Require Import SpecFloat.
From Verif Require Import Num NumF Vec Ray Bvh Traverse Sphere Plane Cylinder Trimesh Scene Embree EmbreeScene Suite.
Import ListNotations.
Local Open Scope Z_scope.

Section Scenes.
Context {N : num spec_float}.
Variable single : bool.                   (* the type is float *)
Variable l : Z -> Z -> spec_float.
Local Notation F := spec_float.
Local Notation part := libstdcxx_partition.

Definition pt (x y z : Z) : vec F := V (l x 0) (l y 0) (l z 0).
Definition one : F := l 1 0.
Definition two : F := l 1 1.
Definition unit3 : mat F := V (pt 1 0 0) (pt 0 1 0) (pt 0 0 1).

(** The checks on a record, line by line from [k]. *)
Definition record_checks (k : nat) (rh : rayhit F) (d : F) (n : vec F) : list (nat * bool) :=
  [(k, approx (h_distance rh) d); (k + 1, approx (vx (h_normal rh)) (vx n));
   (k + 2, approx (vy (h_normal rh)) (vy n)); (k + 3, approx (vz (h_normal rh)) (vz n))]%nat.

(** Add, commit, shoot. *)
Definition scene_run (add : scene F -> res (scene F * option nat)) (r : ray F)
    : res (option nat * (bool * rayhit F)) :=
  do (s, id) <- add (new_scene default_options);
  do s <- commit part s;
  do a <- intersect1 s r new_rayhit;
  Ok (id, a).

(** CHECK(geom_id == 0) and the six checks below it, from line [k]. *)
Definition one_kind (k : nat) (a : res (option nat * (bool * rayhit F))) (d : F) (n : vec F) : list (nat * bool) :=
  on_all a (fun '(id, (hit, rh)) =>
    [(k, same id (Some 0%nat)); (k + 1, same id (h_geom rh)); (k + 2, hit)]%nat
    ++ record_checks (k + 3) rh d n).

Definition test_scene : list (nat * bool) := concat [
  one_kind 40 (scene_run (fun s => add_spheres s [pt 0 0 0] [one]) (ray_of (pt 2 0 0) (pt (-1) 0 0))) one (pt 1 0 0);
  one_kind 74 (scene_run (fun s => add_planes s [pt 0 0 0] [two] [two] [unit3])
                         (ray_of (pt 0 0 5) (pt 0 0 (-1)))) (l 5 0) (pt 0 0 1);
  one_kind 110 (scene_run (fun s => add_cylinders s [pt 0 0 0] [two] [two] [two] [unit3])
                          (ray_of (pt 0 0 4) (pt 0 0 (-1)))) (l 3 0) (pt 0 0 1);
  on_all (do (s, c) <- add_cylinders (new_scene default_options) [pt 0 0 (-2)] [two] [two] [two] [unit3];
          do (s, i) <- add_spheres s [pt 0 0 3] [two];
          do s <- commit part s;
          do a <- intersect1 s (ray_of (pt 0 0 7) (pt 0 0 (-1))) new_rayhit;
          Ok (c, i, a)) (fun '(c, i, (hit, rh)) =>
    [(157, same c (Some 0)); (158, same i (Some 1)); (159, hit); (160, same (h_prim rh) (Some 0));
     (161, same (h_geom rh) i)]%nat ++ record_checks 162 rh two (pt 0 0 1))].

(** The same for EmbreeScene, with an Embree that calls the only object. *)
Definition escene_run (add : escene F -> res (escene F * option nat)) (r : ray F)
    : res (option nat * (bool * rayhit F)) :=
  do (s, id) <- add (new_escene default_options);
  do (s, _) <- e_commit part single s;
  do a <- e_intersect1 single (fun _ _ _ rh => rh) [0%nat] s r new_rayhit;
  Ok (id, a).

(** CHECK(hit), CHECK(prim_id == ...) and the checks of the record, from line [k]. *)
Definition e_hits (k : nat) (a : res (option nat * (bool * rayhit F))) (d : F) (n : vec F) : list (nat * bool) :=
  on_all a (fun '(id, (hit, rh)) => [(k, hit); (k + 1, same (h_prim rh) id)]%nat ++ record_checks (k + 2) rh d n).
Definition e_misses (k : nat) (a : res (option nat * (bool * rayhit F))) : list (nat * bool) :=
  on_all a (fun '(_, (hit, rh)) => [(k, negb hit); (k + 1, approx (h_distance rh) nmaxv)]%nat).

Definition ball (o d : vec F) : res (option nat * (bool * rayhit F)) :=
  escene_run (fun s => e_add_spheres single s [pt 0 0 0] [one]) (ray_of o d).

(** 1.133974596 and sqrt(3) / 2 as doubles. *)
Definition chord : F := f64 5106967567993209 (-52).
Definition s3h : F := f64 3900231685776981 (-52).

Definition test_escene : list (nat * bool) := concat [
  e_hits 39 (ball (pt 2 0 0) (pt (-1) 0 0)) one (pt 1 0 0);
  e_hits 57 (ball (pt 0 0 3) (pt 0 0 (-1))) two (pt 0 0 1);
  e_misses 75 (ball (V (l 1 1) (l 0 0) (l 5 (-1))) (pt (-1) 0 0));
  e_hits 92 (ball (pt 0 0 0) (pt (-1) 0 0)) one (pt (-1) 0 0);
  e_hits 110 (ball (V (l 0 0) (l 0 0) (l 1 (-1))) (pt 0 0 (-1))) (l 3 (-1)) (pt 0 0 (-1));
  e_hits 130 (ball (pt 1 0 0) (pt (-1) 0 0)) two (pt (-1) 0 0);
  e_misses 147 (ball (pt 1 0 0) (pt 1 0 0));
  e_hits 162 (ball (V (l 2 0) (l 1 (-1)) (l 0 0)) (pt (-1) 0 0)) chord (V s3h (l 1 (-1)) (l 0 0));
  e_hits 195 (escene_run (fun s => e_add_planes single s [pt 0 0 0] [two] [two] [unit3])
                         (ray_of (pt 0 0 5) (pt 0 0 (-1)))) (l 5 0) (pt 0 0 1);
  e_hits 229 (escene_run (fun s => e_add_cylinders single s [pt 0 0 0] [two] [two] [two] [unit3])
                         (ray_of (pt 0 0 5) (pt 0 0 (-1)))) (l 4 0) (pt 0 0 1)].

Definition test_math : list (nat * bool) :=
  let lowest := nopp nmaxv in
  let differ a b := negb (neqb a b) in
  [(11, approx (l 0 0) (l 0 0)); (12, approx one one); (14, differ (l 0 0) one); (15, differ one (l 0 0));
   (17, differ (l 0 0) lowest); (18, differ lowest (l 0 0)); (20, differ (l 0 0) nmaxv); (21, differ (l 0 0) ntiny);
   (22, differ nmaxv (l 0 0)); (23, differ ntiny (l 0 0)); (25, approx nmaxv nmaxv); (26, approx ntiny ntiny);
   (28, negb (approx (nadd nmaxv lowest) nmaxv))]%nat.
End Scenes.

Definition scene_checks64 := @test_scene F64 l64.
Definition scene_checks32 := @test_scene F32 l32.
Definition escene_checks64 := @test_escene F64 false l64.
Definition escene_checks32 := @test_escene F32 true l32.
Definition math_checks64 := @test_math F64 l64.
Definition math_checks32 := @test_math F32 l32.
