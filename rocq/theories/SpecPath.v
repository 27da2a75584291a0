(** Vocabulary for the path loop of examples/path_tracer/main.cc. *)

From Coq Require Import Reals ZArith List Bool.
From Verif Require Import Num NumX Vec Bvh Trimesh PathTracer SpecReal SpecTri SpecOptics SpecLight.
Local Open Scope R_scope.

(** A finite vector, and one with no negative coordinate. *)
Definition finite (v : vec xr) : Prop := exists a, visR v a.
Definition colour (v : vec xr) : Prop := exists a, visR v a /\ vnonneg a.

(** The interpolated normal does not vanish where a face can be hit. *)
Definition normals_defined (tol : R) (faces : list (vec nat)) (P : nat -> vec R) : Prop :=
  forall i U p u v, (i < length faces)%nat ->
    tri_det (fa faces P i) (fb faces P i) (fc faces P i) U <> 0 ->
    near_tri tol (fa faces P i) (fb faces P i) (fc faces P i) U p u v ->
    mixed_normal P faces i u v <> rv_zero.

(** Every face has a material, and the materials are physical. *)
Definition materials_valid (faces : list (vec nat)) (material_ids : list Z) (materials : list (material xr))
    (sf : nat -> surface) : Prop :=
  materials_are materials sf /\ (forall j, (j < length materials)%nat -> physical (sf j)) /\
  forall f, (f < length faces)%nat -> exists id m, has_material material_ids materials f id m.

Definition path_ok (q : path xr) : Prop :=
  finite (pa_org q) /\ finite (pa_dir q) /\ colour (pa_color q) /\ colour (pa_weight q).
