(** Every primitive routine leaves the intersector alone when it rejects. *)

From Coq Require Import ZArith List Bool Arith.
From Verif Require Import Num Vec Ray Bvh Traverse Sphere Plane Trimesh Cylinder SpecAny.

Lemma all_reject (T : Type) (N : num T) (s : spheres T) (m : mesh T) (r : ray T) :
  rejecting (sphere_isector s) r /\ rejecting plane_isector r /\ rejecting (tri_isector m) r /\
  rejecting cylinder_isector r.
Proof.
  repeat split; intros i p i' H.
  - cbn [is_prim sphere_isector] in H. unfold sphere_intersect in H.
    repeat match type of H with context [if ?b then _ else _] => destruct b end; injection H; congruence.
  - cbn [is_prim plane_isector] in H. unfold plane_intersect in H.
    repeat match type of H with (if ?b then _ else _) = _ => destruct b; [discriminate|] end. injection H; congruence.
  - cbn [is_prim tri_isector] in H. unfold tri_intersect in H.
    repeat match type of H with context [if ?b then _ else _] => destruct b end; injection H; congruence.
  - cbn [is_prim cylinder_isector] in H. unfold cylinder_intersect in H.
    destruct (cyl_local _ _ _ _ _ _) as [[n t]|]; injection H; congruence.
Qed.
