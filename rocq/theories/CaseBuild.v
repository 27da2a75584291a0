(** A concrete build in binary64: four spheres, three splits. *)

From Coq Require Import ZArith List Bool Lia Floats.SpecFloat.
From Verif Require Import Num NumF Vec Bvh SpecBvh Sphere PfPart PfOrder PfNumbered PfBuild2.
Import ListNotations.

Definition fv (x y z : Z) : vec spec_float := V (f64 x 0) (f64 y 0) (f64 z 0).
Definition case_centers : list (vec spec_float) := [fv 9 0 1; fv 0 5 0; fv 3 0 0; fv 20 1 7].
Definition case_radii : list spec_float := [f64 1 0; f64 1 (-1); f64 3 (-1); f64 1 0].
Definition case_box (i : nat) : vec spec_float * vec spec_float :=
  @sphere_box _ F64 (nth i case_centers (fv 0 0 0)) (nth i case_radii (f64 0 0)).
Definition case_spheres : spheres spec_float :=
  Spheres case_centers case_radii (map case_box [0; 1; 2; 3]).
Definition case_opt : options := Options 1 28 4.

Definition case_build : res (list (node spec_float (sphere spec_float)) * stats) :=
  @build _ F64 _ libstdcxx_partition [] (sphere_coll case_spheres) case_opt.

Definition case_shape (r : res (list (node spec_float (sphere spec_float)) * stats))
    : option (list (bool * option nat * list nat) * stats) :=
  match r with
  | Ok (nodes, st) =>
      Some (map (fun nd => (nd_leaf nd, nd_child1 nd, map sp_id (nd_prims nd))) nodes, st)
  | _ => None
  end.

Lemma case_made : @make_spheres _ F64 case_centers case_radii = Ok case_spheres.
Proof. vm_compute. reflexivity. Qed.

Definition case_answer : list (bool * option nat * list nat) * stats :=
  ([(false, Some 6, []); (false, Some 3, []); (true, None, [1]); (false, Some 5, []);
    (true, None, [2]); (true, None, [0]); (true, None, [3])],
   Stats 3 4 1 (Some 1) 3 0).

Lemma case_result : case_shape case_build = Some case_answer.
Proof. vm_compute. reflexivity. Qed.

Lemma case_some : exists nodes st, case_build = Ok (nodes, st) /\
  length nodes = 7 /\ st = snd case_answer /\
  map (fun nd => map sp_id (nd_prims nd)) nodes = [[]; []; [1]; []; [2]; [0]; [3]].
Proof.
  pose proof case_result as H. destruct case_build as [[nodes st]| |]; try discriminate.
  exists nodes, st. injection H as H1 H2. split; [reflexivity|].
  assert (E : map snd (map (fun nd : node spec_float (sphere spec_float) =>
            (nd_leaf nd, nd_child1 nd, map sp_id (nd_prims nd))) nodes) = map snd (fst case_answer))
    by (rewrite H1; reflexivity).
  rewrite map_map in E. cbn [snd] in E. rewrite <- (map_length (fun nd => map sp_id (nd_prims nd))).
  rewrite E. auto.
Qed.

Lemma case_boxes_ok : forall i, i < c_size (sphere_coll case_spheres) ->
  exists b, c_box (sphere_coll case_spheres) i = Ok b /\
    vall f_number (fst b) /\ vall f_number (snd b).
Proof.
  intros i Hi. destruct i as [|[|[|[|i]]]]; [| | | |cbn in Hi; lia];
    (eexists; split; [reflexivity|]); vm_compute; repeat split; discriminate.
Qed.
