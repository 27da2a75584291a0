(** The four collections put the index into each primitive object. *)

From Coq Require Import List.
From Verif Require Import Num Vec Bvh SpecBvh Sphere Plane Trimesh Cylinder.

Ltac unbind H :=
  repeat match type of H with
  | bind ?e _ = Ok _ =>
      let E := fresh "E" in destruct e eqn:E; cbn [bind] in H; [|discriminate|discriminate]
  | context [let (_, _) := ?p in _] => destruct p
  end.

Section N.
Context {T : Type} {N : num T}.
Lemma spheres_numbered (s : spheres T) : numbered (sphere_coll s) sp_id.
Proof. intros i p H. cbn in H. unfold sphere_prim in H. unbind H. injection H as <-. reflexivity. Qed.
Lemma planes_numbered (s : planes T) : numbered (plane_coll s) pl_id.
Proof. intros i p H. cbn in H. unfold plane_prim in H. unbind H. injection H as <-. reflexivity. Qed.
Lemma mesh_numbered (m : mesh T) : numbered (mesh_coll m) tr_id.
Proof. intros i p H. cbn in H. unfold tri_prim in H. unbind H. injection H as <-. reflexivity. Qed.
Lemma cylinders_numbered (s : cylinders T) : numbered (cylinder_coll s) cy_id.
Proof. intros i p H. cbn in H. unfold cylinder_prim in H. unbind H. injection H as <-. reflexivity. Qed.
End N.
