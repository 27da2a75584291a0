(** Area lights of examples/path_tracer/main.cc. *)

From Coq Require Import Reals ZArith List Bool Sorting.Sorted.
From Verif Require Import Num NumX Vec PathTracer SpecReal SpecTri SpecOptics.
Import ListNotations.
Local Open Scope R_scope.

(** Face [f] of the mesh has the material number [id] of an existing material [m]. *)
Definition has_material {T} (material_ids : list Z) (materials : list (material T)) (f : nat) (id : Z)
    (m : material T) : Prop :=
  nth_error material_ids f = Some id /\ (0 <= id < Z.of_nat (length materials))%Z /\
  nth_error materials (Z.to_nat id) = Some m.

(** The material gives off light in some colour. *)
Definition emits {T} {N : num T} (m : material T) : Prop :=
  nltb (nofZ 0) (vx (mt_emission m)) = true \/ nltb (nofZ 0) (vy (mt_emission m)) = true \/
  nltb (nofZ 0) (vz (mt_emission m)) = true.

(** [l] lists the faces among the first [n] that emit, each once and in order. *)
Definition lists_lights {T} {N : num T} (n : nat) (material_ids : list Z) (materials : list (material T))
    (l : list (nat * Z)) : Prop :=
  StronglySorted lt (map fst l) /\
  forall f id, In (f, id) l <->
    (f < n)%nat /\ exists m, has_material material_ids materials f id m /\ emits m.

(** The point of a triangle that belongs to two numbers in [0, 1]. *)
Definition sampled (A B C : vec R) (xi1 xi2 : R) : vec R := bary A B C (sqrt xi1 * (1 - xi2)) (sqrt xi1 * xi2).

(** Static_cast<unsigned>(std::floor(.)) of a finite number in range. *)
Definition floors (floor_u : xr -> option Z) : Prop :=
  forall x a, isR x a -> 0 <= a < 4294967296 -> floor_u x = Some (Int_part a).

(** The materials over the reals. *)
Definition materials_are (materials : list (material xr)) (s : nat -> surface) : Prop :=
  forall j, (j < length materials)%nat -> exists m, nth_error materials j = Some m /\ material_is m (s j).

(** The cosine at the light of area [A B C] for the direction [w] towards it. *)
Definition cos_at_light (A B C w : vec R) : R := Rmax (- rv_dot w (unit_of (tri_cross A B C))) 0.
Definition tri_area (A B C : vec R) : R := rv_norm (tri_cross A B C) / 2.

(** What a sample of the point [p] of the triangle, seen from [x], has to say.  [n] is
    the number of faces among which one was picked evenly. *)
Definition sample_says (n : nat) (A B C E p x : vec R) (l : light_sample xr) : Prop :=
  isR (ls_dist l) (rv_norm (rv_sub p x)) /\
  (rv_norm (rv_sub p x) <= 1 / 1000000 -> isR (ls_pdf l) 0 /\ ls_rad l = None /\ visR (ls_dir l) (rv_sub p x)) /\
  (1 / 1000000 < rv_norm (rv_sub p x) ->
   let w := unit_of (rv_sub p x) in
   let c := cos_at_light A B C w in
   visR (ls_dir l) w /\
   (exists rad, ls_rad l = Some rad /\ visR rad (rv_scale c E)) /\
   (0 < c -> isR (ls_pdf l) (rv_norm (rv_sub p x) * rv_norm (rv_sub p x) / (INR n * tri_area A B C * c))) /\
   (c = 0 -> ls_pdf l = Xinf false)).

(** The point the share [a] of the way from [A] to [B]. *)
Definition cut_b (A B : vec R) (a : R) : vec R := rv_add (rv_scale (1 - a) A) (rv_scale a B).
