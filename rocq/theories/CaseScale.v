(** Scaling the direction changes the answer (binary64): a sphere of radius 1/2 at
    x = 17/2, max_hit_distance 10, directions (1,0,0) and (1/2,0,0). *)

From Coq Require Import ZArith List Bool Floats.SpecFloat.
From Verif Require Import Num NumF Vec Ray Bvh Traverse Sphere.
Import ListNotations.

Definition scale_spheres : res (spheres spec_float) :=
  @make_spheres _ F64 [V (f64 17 (-1)) (f64 0 0) (f64 0 0)] [f64 1 (-1)].
Definition scale_ray (d : vec spec_float) : ray spec_float :=
  @make_ray _ F64 (V (f64 0 0) (f64 0 0) (f64 0 0)) d (f64 0 0) (f64 10 0) false.
Definition scale_d : vec spec_float := V (f64 1 0) (f64 0 0) (f64 0 0).

Definition scale_query (d : vec spec_float) : option (bool * spec_float) :=
  match scale_spheres with
  | Ok s => match @build _ F64 _ libstdcxx_partition [] (sphere_coll s) default_options with
            | Ok (nodes, _) =>
                match @traverse _ F64 _ _ (@sphere_isector _ F64 s) nodes (scale_ray d) (@new_rayhit _ F64) with
                | Ok (b, rh) => Some (b, h_distance rh)
                | _ => None
                end
            | _ => None
            end
  | _ => None
  end.

Lemma scale_one : scale_query scale_d = Some (true, f64 8 0).
Proof. vm_compute. reflexivity. Qed.
Lemma scale_half : scale_query (@vscale _ F64 (f64 1 (-1)) scale_d) = Some (false, @nmaxv _ F64).
Proof. vm_compute. reflexivity. Qed.

Lemma scale_refutes : exists s nodes st rh1 rh2,
  scale_spheres = Ok s /\
  @build _ F64 _ libstdcxx_partition [] (sphere_coll s) default_options = Ok (nodes, st) /\
  @traverse _ F64 _ _ (@sphere_isector _ F64 s) nodes (scale_ray scale_d) (@new_rayhit _ F64) = Ok (true, rh1) /\
  @traverse _ F64 _ _ (@sphere_isector _ F64 s) nodes
    (scale_ray (@vscale _ F64 (f64 1 (-1)) scale_d)) (@new_rayhit _ F64) = Ok (false, rh2).
Proof.
  pose proof scale_one as H1. pose proof scale_half as H2. unfold scale_query in H1, H2.
  destruct scale_spheres as [s| |]; [|discriminate..].
  destruct (build _ _ _ _) as [[nodes st]| |] eqn:Eb; [|discriminate..].
  destruct (traverse _ _ (scale_ray scale_d) _) as [[b1 rh1]| |] eqn:E1; [|discriminate..].
  destruct (traverse _ _ (scale_ray (@vscale _ F64 _ _)) _) as [[b2 rh2]| |] eqn:E2; [|discriminate..].
  injection H1 as -> _. injection H2 as -> _. exists s, nodes, st, rh1, rh2. auto.
Qed.
