(** Collections on which binning converts an unconvertible number (binary64). *)

From Coq Require Import ZArith List Bool Floats.SpecFloat.
From Verif Require Import Num NumF Vec Bvh Sphere.
Import ListNotations.

Definition two_spheres (x0 x1 r0 r1 : spec_float) : res (list (node spec_float (sphere spec_float)) * stats) :=
  do s <- @make_spheres _ F64 [V x0 (f64 0 0) (f64 0 0); V x1 (f64 0 0) (f64 0 0)] [r0; r1];
  @build _ F64 _ libstdcxx_partition [] (sphere_coll s) (Options 1 26 64).

(** A negative radius puts the center outside the box. *)
Lemma negative_radius : two_spheres (f64 0 0) (f64 1 0) (f64 (-1) (-2)) (f64 1 (-2)) = UB UBconv.
Proof. vm_compute. reflexivity. Qed.
(** Centers inside their boxes, but a denormal extent: its reciprocal overflows. *)
Lemma denormal_extent : two_spheres (f64 0 0) (f64 1 (-1070)) (f64 0 0) (f64 0 0) = UB UBconv.
Proof. vm_compute. reflexivity. Qed.
(** Centers inside their boxes, but the extent overflows. *)
Lemma huge_extent : two_spheres (f64 (-1) 1023) (f64 1 1023) (f64 1 0) (f64 1 0) = UB UBconv.
Proof. vm_compute. reflexivity. Qed.
(** An ordinary pair. *)
Lemma usual_extent : exists r, two_spheres (f64 0 0) (f64 1 0) (f64 1 (-2)) (f64 1 (-2)) = Ok r.
Proof. eexists. vm_compute. reflexivity. Qed.
