(** Cylinders in binary64: the interval and the best hit so far are ignored (C31). *)

From Coq Require Import ZArith List Bool Floats.SpecFloat.
From Verif Require Import Num NumF Vec Ray Bvh Traverse Cylinder.
Import ListNotations.

Definition id64 : mat spec_float :=
  V (V (f64 1 0) (f64 0 0) (f64 0 0)) (V (f64 0 0) (f64 1 0) (f64 0 0)) (V (f64 0 0) (f64 0 0) (f64 1 0)).
Definition cyl64 (x : Z) (i : nat) : cylinder spec_float :=
  Cylinder (V (f64 x 0) (f64 0 0) (f64 0 0)) (f64 1 0) (f64 1 0) (f64 2 0) id64 i.
Definition x64 : vec spec_float := V (f64 1 0) (f64 0 0) (f64 0 0).
Definition o64 : vec spec_float := V (f64 0 0) (f64 0 0) (f64 0 0).
Definition ray64 (tmin tmax : spec_float) : ray spec_float := @make_ray _ F64 o64 x64 tmin tmax false.

(** The cylinder around (10, 0, 0) is hit at 9. *)
Definition alone (tmin tmax : spec_float) : option spec_float :=
  match @cylinder_intersect _ F64 (@cylinder_prepare _ F64 (ray64 tmin tmax)) (cyl64 10 0) (ray64 tmin tmax) with
  | (true, i') => Some (ci_hd i')
  | _ => None
  end.
Lemma alone_min : alone (f64 20 0) (f64 100 0) = Some (f64 9 0).
Proof. vm_compute. reflexivity. Qed.
Lemma alone_max : alone (f64 0 0) (f64 5 0) = Some (f64 9 0).
Proof. vm_compute. reflexivity. Qed.
Lemma below_min_refutes : exists i c r i', i = @cylinder_prepare _ F64 r /\
  @cylinder_intersect _ F64 i c r = (true, i') /\ @nltb _ F64 (ci_hd i') (ci_min i) = true.
Proof.
  pose proof alone_min as H. unfold alone in H.
  destruct (cylinder_intersect _ _ _) as [[] i'] eqn:E; [|discriminate]. injection H as H.
  exists (@cylinder_prepare _ F64 (ray64 (f64 20 0) (f64 100 0))), (cyl64 10 0), (ray64 (f64 20 0) (f64 100 0)), i'.
  split; [reflexivity|]. split; [exact E|]. rewrite H. vm_compute. reflexivity.
Qed.
Lemma above_best_refutes : exists i c r i', i = @cylinder_prepare _ F64 r /\
  @cylinder_intersect _ F64 i c r = (true, i') /\ @nltb _ F64 (ci_hd i) (ci_hd i') = true.
Proof.
  pose proof alone_max as H. unfold alone in H.
  destruct (cylinder_intersect _ _ _) as [[] i'] eqn:E; [|discriminate]. injection H as H.
  exists (@cylinder_prepare _ F64 (ray64 (f64 0 0) (f64 5 0))), (cyl64 10 0), (ray64 (f64 0 0) (f64 5 0)), i'.
  split; [reflexivity|]. split; [exact E|]. rewrite H. vm_compute. reflexivity.
Qed.

(** Two cylinders in one leaf, around x = 10 and x = 20: the farther one is reported. *)
Definition two (xs : list Z) : res (cylinders spec_float) :=
  @make_cylinders _ F64 (map (fun x => V (f64 x 0) (f64 0 0) (f64 0 0)) xs) (map (fun _ => f64 1 0) xs)
    (map (fun _ => f64 1 0) xs) (map (fun _ => f64 2 0) xs) (map (fun _ => id64) xs).
Definition two_query (xs : list Z) (tmin : spec_float) : option (bool * option nat * spec_float) :=
  match two xs with
  | Ok s => match @build _ F64 _ libstdcxx_partition [] (cylinder_coll s) default_options with
            | Ok (nodes, _) =>
                match @traverse _ F64 _ _ (@cylinder_isector _ F64) nodes (ray64 tmin (f64 100 0)) (@new_rayhit _ F64) with
                | Ok (b, rh) => Some (b, h_prim rh, h_distance rh)
                | _ => None
                end
            | _ => None
            end
  | _ => None
  end.
Lemma near_alone : two_query [10%Z] (f64 0 0) = Some (true, Some 0%nat, f64 9 0).
Proof. vm_compute. reflexivity. Qed.
Lemma near_and_far : two_query [10%Z; 20%Z] (f64 0 0) = Some (true, Some 1%nat, f64 19 0).
Proof. vm_compute. reflexivity. Qed.
Lemma query_below_min : two_query [10%Z] (f64 9 0) = Some (true, Some 0%nat, f64 9 0).
Proof. vm_compute. reflexivity. Qed.
Lemma two_query_inv xs tmin b p d : two_query xs tmin = Some (b, p, d) -> exists s nodes st rh,
  two xs = Ok s /\ @build _ F64 _ libstdcxx_partition [] (cylinder_coll s) default_options = Ok (nodes, st) /\
  @traverse _ F64 _ _ (@cylinder_isector _ F64) nodes (ray64 tmin (f64 100 0)) (@new_rayhit _ F64) = Ok (b, rh) /\
  h_prim rh = p /\ h_distance rh = d.
Proof.
  unfold two_query. destruct (two xs) as [s| |]; [|discriminate..].
  destruct (build _ _ _ _) as [[nodes st]| |] eqn:B1; [|discriminate..].
  destruct (traverse _ _ _ _) as [[b1 rh1]| |] eqn:E1; [|discriminate..].
  intros H. injection H as <- <- <-. exists s, nodes, st, rh1. auto 8.
Qed.
Lemma farther_refutes : exists s nodes st rh s' nodes' st' rh',
  two [10%Z] = Ok s /\ @build _ F64 _ libstdcxx_partition [] (cylinder_coll s) default_options = Ok (nodes, st) /\
  two [10%Z; 20%Z] = Ok s' /\ @build _ F64 _ libstdcxx_partition [] (cylinder_coll s') default_options = Ok (nodes', st') /\
  @traverse _ F64 _ _ (@cylinder_isector _ F64) nodes (ray64 (f64 0 0) (f64 100 0)) (@new_rayhit _ F64) = Ok (true, rh) /\
  @traverse _ F64 _ _ (@cylinder_isector _ F64) nodes' (ray64 (f64 0 0) (f64 100 0)) (@new_rayhit _ F64) = Ok (true, rh') /\
  h_distance rh = f64 9 0 /\ h_distance rh' = f64 19 0.
Proof.
  destruct (two_query_inv _ _ _ _ _ near_alone) as (s & nodes & st & rh & A1 & A2 & A3 & _ & A4).
  destruct (two_query_inv _ _ _ _ _ near_and_far) as (s' & nodes' & st' & rh' & B1 & B2 & B3 & _ & B4).
  exists s, nodes, st, rh, s', nodes', st', rh'.
  exact (conj A1 (conj A2 (conj B1 (conj B2 (conj A3 (conj B3 (conj A4 B4))))))).
Qed.
