(** examples/renderer/renderer.cc: the camera and the picture; the rays of scene_mesh,
    scene_primitives and benchmark_blaze.

    std::tan and the constant ft(3.14159265 * (1.0 / 180.0) * 0.5) are arguments. *)

From Coq Require Import ZArith List Bool.
From Verif Require Import Num Vec Ray Bvh Traverse Trimesh PathTracer Image.
Import ListNotations.

(** renderer.cc:78-84. *)
Record camera (T : Type) := Camera { ca_eye : vec T; ca_dir : vec T; ca_up : vec T; ca_fov : T }.
Arguments Camera {T}.
Arguments ca_eye {T} c.
Arguments ca_dir {T} c.
Arguments ca_up {T} c.
Arguments ca_fov {T} c.

Section Model.
Context {T : Type} {N : num T}.
Local Open Scope num_scope.
Variables (ftan : T -> T) (half_degree : T).

(** renderer.cc:89-91: dir, image_u and image_v. *)
Definition image_axes (c : camera T) : vec T * vec T * vec T :=
  let dir := normalize (ca_dir c) in
  let image_u := normalize (cross dir (ca_up c)) in
  let image_v := normalize (cross image_u dir) in
  (dir, image_u, image_v).

(** renderer.cc:92-104: the direction passed to the ray of pixel (i, j). *)
Definition pixel_direction (c : camera T) (width height i j : Z) : vec T :=
  let '(dir, image_u, image_v) := image_axes c in
  let image_w := ftan (ca_fov c * half_degree) in
  let ratio := nofZ height / nofZ width in
  let image_u_ := vscaler image_u image_w in
  let image_v_ := vscaler (vscaler image_v image_w) ratio in
  let u := n2 * (nofZ i + nhalf) / nofZ width - n1 in
  let v := n2 * (nofZ j + nhalf) / nofZ height - n1 in
  normalize (vadd (vadd (vscaler image_u_ u) (vscaler image_v_ v)) dir).

(** renderer.cc:104-112. *)
Definition render_pixel (c : camera T) (ms : mesh T) (nodes : list (node T (triangle T)))
    (width height i j : Z) : res (option (vec T)) :=
  do a <- traverse (tri_isector ms) nodes
            (make_ray (ca_eye c) (pixel_direction c width height i j) n0 nmaxv false) new_rayhit;
  let (hit, rh) := a in
  Ok (Some (if hit then vmap nabs (h_normal rh) else vconst n0)).

(** renderer.cc:86-115 render. *)
Definition render (c : camera T) (ms : mesh T) (nodes : list (node T (triangle T)))
    (width height : Z) : res (list T) :=
  pixel_image n0 width height (render_pixel c ms nodes width height).
End Model.

Section Pinhole.
Context {T : Type} {N : num T}.
Local Open Scope num_scope.
(** scene_mesh/main.cc:70, scene_primitives/main.cc:92, benchmark_blaze/main.cc:74: the
    arguments of the ray of pixel (x, y). *)
Definition pinhole_origin : vec T := V (nofZ 0) (nofZ 5) (nofZ 20).
Definition pinhole_direction (width height x y : Z) : vec T :=
  V (nofZ x / nofZ width - nhalf) (nofZ y / nofZ height - nhalf) (nofZ (-1)).
End Pinhole.
