(** The model against the project's own tests: every CHECK of /repo/test holds of the
    model, in float and in double.  Tests on literals, not proofs. *)

From Coq Require Import List.
From Verif Require Import Suite SuiteSphere SuitePlane SuiteCylinder SuiteTrimesh SuiteNode SuiteScene.
From Verif Require Import SuiteESphere SuiteEPlane SuiteECylinder.
Import ListNotations.

Lemma suite_sphere : failing sphere_checks64 = [] /\ failing sphere_checks32 = [].
Proof. split; vm_cast_no_check (@eq_refl (list nat) []). Qed.
Lemma suite_plane : failing plane_checks64 = [] /\ failing plane_checks32 = [].
Proof. split; vm_cast_no_check (@eq_refl (list nat) []). Qed.
Lemma suite_cylinder : failing cylinder_checks64 = [] /\ failing cylinder_checks32 = [].
Proof. split; vm_cast_no_check (@eq_refl (list nat) []). Qed.
Lemma suite_trimesh : failing trimesh_checks64 = [] /\ failing trimesh_checks32 = [].
Proof. split; vm_cast_no_check (@eq_refl (list nat) []). Qed.
Lemma suite_node : failing node_checks64 = [] /\ failing node_checks32 = [].
Proof. split; vm_cast_no_check (@eq_refl (list nat) []). Qed.
Lemma suite_scene : failing scene_checks64 = [] /\ failing scene_checks32 = [].
Proof. split; vm_cast_no_check (@eq_refl (list nat) []). Qed.
Lemma suite_math : failing math_checks64 = [] /\ failing math_checks32 = [].
Proof. split; vm_cast_no_check (@eq_refl (list nat) []). Qed.
Lemma suite_escene : failing escene_checks64 = [] /\ failing escene_checks32 = [].
Proof. split; vm_cast_no_check (@eq_refl (list nat) []). Qed.
Lemma suite_embree :
  failing esphere_checks32 = [] /\ failing eplane_checks32 = [] /\ failing ecylinder_checks32 = [].
Proof. repeat split; vm_cast_no_check (@eq_refl (list nat) []). Qed.

(** The distances to cylinders run Newton's method, up to a hundred steps for each check.
    They are evaluated here when this file is compiled, and compilation stops if one
    fails; no lemma is stored, since checking it again without the virtual machine takes
    minutes. *)
Ltac passes l := let r := eval vm_compute in (failing l) in constr_eq r (@nil nat).
Goal True.
Proof.
  passes cylinder_distances64.
  passes cylinder_distances32.
Abort.

(** How many checks that is, for each type; the Embree primitives exist for float only. *)
Lemma suite_size :
  map (@length (nat * bool)) [sphere_checks64; plane_checks64; cylinder_checks64; cylinder_distances64; trimesh_checks64; node_checks64;
                              scene_checks64; math_checks64; escene_checks64]
  = [21; 108; 184; 207; 90; 21; 30; 13; 52] /\
  map (@length (nat * bool)) [esphere_checks32; eplane_checks32; ecylinder_checks32] = [25; 152; 244].
Proof.
  split; [vm_cast_no_check (@eq_refl (list nat) [21; 108; 184; 207; 90; 21; 30; 13; 52])
         |vm_cast_no_check (@eq_refl (list nat) [25; 152; 244])].
Qed.

(** The WARN lines are not failures of the test run.  The model reports these: a box at
    infinity, and rays that pass the border of a triangle within a few units in the last
    place. *)
Lemma suite_warnings :
  failing node_warnings64 = [118; 119; 120] /\ failing node_warnings32 = [118; 119; 120] /\
  failing trimesh_warnings64 = [515; 515; 561; 561; 561; 1099; 1099; 1109; 1109; 1126; 1126; 1136; 1136] /\
  failing trimesh_warnings32 =
    [515; 515; 561; 561; 561; 1099; 1099; 1109; 1109; 1109; 1126; 1126; 1136; 1136; 1136].
Proof.
  split; [vm_cast_no_check (@eq_refl (list nat) [118; 119; 120])|].
  split; [vm_cast_no_check (@eq_refl (list nat) [118; 119; 120])|].
  split; [vm_cast_no_check (@eq_refl (list nat) [515; 515; 561; 561; 561; 1099; 1099; 1109; 1109; 1126; 1126; 1136; 1136])|].
  vm_cast_no_check (@eq_refl (list nat) [515; 515; 561; 561; 561; 1099; 1099; 1109; 1109; 1109; 1126; 1126; 1136; 1136; 1136]).
Qed.
