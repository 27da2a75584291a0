(** examples/scene_primitives/main.cc: the scene, the picture and the file's bytes;
    examples/scene_mesh/main.cc: the queries.

    The geometry is computed in the type ft, the colours in float. *)

From Coq Require Import ZArith List Bool Floats.SpecFloat.
From Verif Require Import Num NumF Vec Ray Bvh Traverse Scene PathTracer Image Camera.
Import ListNotations.

Section Model.
Context {T : Type} {N : num T}.
Local Open Scope num_scope.
Variable part : (nat -> bool) -> list nat -> list nat * list nat.

(** scene_primitives/main.cc:92, scene_mesh/main.cc:70. *)
Definition pinhole_ray (width height x y : Z) : ray T :=
  make_ray pinhole_origin (pinhole_direction width height x y) n0 nmaxv false.

(** scene_primitives/main.cc:99-106: float(0), float(1). *)
Definition red32 : vec spec_float := V (@nofZ _ F32 1) (@nofZ _ F32 0) (@nofZ _ F32 0).
Definition green32 : vec spec_float := V (@nofZ _ F32 0) (@nofZ _ F32 1) (@nofZ _ F32 0).

(** scene_primitives/main.cc:92-108: the body of the loops. *)
Definition scene_pixel (s : scene T) (width height x y : Z) : res (option (vec spec_float)) :=
  do (hit, rh) <- intersect1 s (pinhole_ray width height x y) new_rayhit;
  Ok (if hit then Some (match h_prim rh with Some O => red32 | _ => green32 end) else None).

(** scene_primitives/main.cc:84-110, with the loops in the order [ps]. *)
Definition scene_image (s : scene T) (width height : Z) (ps : list (Z * Z)) : res (list spec_float) :=
  rgb_image (@nofZ _ F32 0) width height (scene_pixel s width height) ps.

(** scene_primitives/main.cc:47-50. *)
Definition quarter_turn : mat T :=
  V (V (nofZ 0) (nofZ 0) (nofZ 1)) (V (nofZ 0) (nofZ 1) (nofZ 0)) (V (nofZ (-1)) (nofZ 0) (nofZ 0)).
(** scene_primitives/main.cc:56-73. *)
Definition ex_cyl_centers : list (vec T) := [V (nofZ (-3)) (nofZ 3) (nofZ 0); V (nofZ 1) (nofZ 4) (nofZ 0)].
Definition ex_semi_axes : list T := [nofZ 1; nhalf].
Definition ex_heights : list T := [nofZ 1; nofZ 2].
Definition ex_rotations : list (mat T) := [quarter_turn; quarter_turn].
Definition ex_sph_centers : list (vec T) := [V (nofZ 1) (nofZ 1) (nofZ 0); V (nofZ (-2)) (nofZ 10) (nofZ 0)].
Definition ex_radii : list T := [nhalf; nofZ 3 / nofZ 2].
(** scene_primitives/main.cc:78-81. *)
Definition primitives_scene : res (scene T) :=
  do (s, _) <- add_cylinders (new_scene default_options) ex_cyl_centers ex_semi_axes ex_semi_axes ex_heights ex_rotations;
  do (s, _) <- add_spheres s ex_sph_centers ex_radii;
  commit part s.
(** scene_primitives/main.cc:33-115 main, for any size: the bytes handed to stbi_write_png. *)
Definition primitives_main (width height : Z) (ps : list (Z * Z)) : res (list Z) :=
  do s <- primitives_scene;
  do img <- scene_image s width height ps;
  png_bytes (N := F32) sf_u8 img width height.
End Model.
