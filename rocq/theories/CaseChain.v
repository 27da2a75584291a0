(** Traversal stack overflow in binary64 with the default build options: 31
    spheres of radius 1/4 on the x axis at 1, 64, 64^2, ..., 64^30 and the ray from
    the origin along the x axis. *)

From Coq Require Import ZArith List Bool Floats.SpecFloat.
From Verif Require Import Num NumF Vec Ray Bvh Traverse Sphere.
Import ListNotations.

Definition chain_centers : list (vec spec_float) :=
  map (fun k => V (f64 1 (6 * Z.of_nat k)) (f64 0 0) (f64 0 0)) (seq 0 31).
Definition chain_radii : list spec_float := repeat (f64 1 (-2)) 31.
Definition chain_ray : ray spec_float :=
  @make_ray _ F64 (V (f64 0 0) (f64 0 0) (f64 0 0)) (V (f64 1 0) (f64 0 0) (f64 0 0)) (f64 0 0)
    (@nmaxv _ F64) false.

Definition chain_outcome : nat :=
  match @make_spheres _ F64 chain_centers chain_radii with
  | Ok s => match @build _ F64 _ libstdcxx_partition [] (sphere_coll s) default_options with
            | Ok (nodes, _) =>
                match @traverse _ F64 _ _ (@sphere_isector _ F64 s) nodes chain_ray (@new_rayhit _ F64) with
                | UB UBstack => 1
                | _ => 0
                end
            | _ => 0
            end
  | _ => 0
  end.

Lemma chain_overflows : chain_outcome = 1.
Proof. vm_compute. reflexivity. Qed.

Lemma chain_refutes : exists s nodes st,
  @make_spheres _ F64 chain_centers chain_radii = Ok s /\
  @build _ F64 _ libstdcxx_partition [] (sphere_coll s) default_options = Ok (nodes, st) /\
  @traverse _ F64 _ _ (@sphere_isector _ F64 s) nodes chain_ray (@new_rayhit _ F64) = UB UBstack.
Proof.
  pose proof chain_overflows as H. unfold chain_outcome in H.
  destruct (make_spheres _ _) as [s| |] eqn:Es; [|discriminate..].
  destruct (build _ _ _ _) as [[nodes st]| |] eqn:Eb; [|discriminate..].
  destruct (traverse _ _ _ _) as [?|[]|] eqn:Et; try discriminate.
  exists s, nodes, st. auto.
Qed.
