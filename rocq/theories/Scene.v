(** blazert/scene.h: BlazertScene. *)

From Coq Require Import ZArith List Bool Arith.
From Verif Require Import Num Vec Ray Bvh Traverse Sphere Plane Trimesh Cylinder.
Import ListNotations.

(** One geometry kind of the scene: the collection (unique_ptr), the node array of
    its BVH and the geometry id.  [None] while has_<kind> is false. *)
Record geometry (C T P : Type) := Geometry {
  g_coll : C; g_nodes : list (node T P); g_id : nat }.
Arguments Geometry {C T P}.
Arguments g_coll {C T P} g.
Arguments g_nodes {C T P} g.
Arguments g_id {C T P} g.

(** BlazertScene, scene.h:38-72. *)
Record scene (T : Type) := Scene {
  sc_options : options;
  sc_committed : bool;
  sc_count : nat;                      (* geometries *)
  sc_mesh : option (geometry (mesh T) T (triangle T));
  sc_spheres : option (geometry (spheres T) T (sphere T));
  sc_planes : option (geometry (planes T) T (plane T));
  sc_cylinders : option (geometry (cylinders T) T (cylinder T)) }.
Arguments Scene {T}.
Arguments sc_options {T} s.
Arguments sc_committed {T} s.
Arguments sc_count {T} s.
Arguments sc_mesh {T} s.
Arguments sc_spheres {T} s.
Arguments sc_planes {T} s.
Arguments sc_cylinders {T} s.

Section Model.
Context {T : Type} {N : num T}.
Local Open Scope num_scope.
Variable part : (nat -> bool) -> list nat -> list nat * list nat.

(** Default-constructed scene. *)
Definition new_scene (opt : options) : scene T := Scene opt false 0 None None None None.

(** scene.h:227-240 add_mesh.  Result: None is static_cast<unsigned>(-1). *)
Definition add_mesh (s : scene T) (vertices : list (vec T)) (faces : list (vec nat))
    : res (scene T * option nat) :=
  match sc_mesh s, sc_committed s with
  | None, false =>
      do m <- make_mesh vertices faces;
      Ok (Scene (sc_options s) false (S (sc_count s)) (Some (Geometry m [] (sc_count s)))
                (sc_spheres s) (sc_planes s) (sc_cylinders s), Some (sc_count s))
  | _, _ => Ok (s, None)
  end.

(** scene.h:258-271 add_spheres. *)
Definition add_spheres (s : scene T) (centers : list (vec T)) (radii : list T)
    : res (scene T * option nat) :=
  match sc_spheres s, sc_committed s with
  | None, false =>
      do m <- make_spheres centers radii;
      Ok (Scene (sc_options s) false (S (sc_count s)) (sc_mesh s)
                (Some (Geometry m [] (sc_count s))) (sc_planes s) (sc_cylinders s),
          Some (sc_count s))
  | _, _ => Ok (s, None)
  end.

(** scene.h:293-307 add_planes. *)
Definition add_planes (s : scene T) (centers : list (vec T)) (dxs dys : list T)
    (rots : list (mat T)) : res (scene T * option nat) :=
  match sc_planes s, sc_committed s with
  | None, false =>
      do m <- make_planes centers dxs dys rots;
      Ok (Scene (sc_options s) false (S (sc_count s)) (sc_mesh s) (sc_spheres s)
                (Some (Geometry m [] (sc_count s))) (sc_cylinders s), Some (sc_count s))
  | _, _ => Ok (s, None)
  end.

(** scene.h:331-346 add_cylinders. *)
Definition add_cylinders (s : scene T) (centers : list (vec T)) (sa sb hs : list T)
    (rots : list (mat T)) : res (scene T * option nat) :=
  match sc_cylinders s, sc_committed s with
  | None, false =>
      do m <- make_cylinders centers sa sb hs rots;
      Ok (Scene (sc_options s) false (S (sc_count s)) (sc_mesh s) (sc_spheres s)
                (sc_planes s) (Some (Geometry m [] (sc_count s))), Some (sc_count s))
  | _, _ => Ok (s, None)
  end.

(** One `if (has_...) builder.build(...)` of commit; the BVH keeps the nodes it
    already has. *)
Definition build_geometry {C P} (coll_of : C -> coll T P) (opt : options)
    (g : option (geometry C T P)) : res (option (geometry C T P)) :=
  match g with
  | None => Ok None
  | Some g =>
      do (nodes, _) <- build part (g_nodes g) (coll_of (g_coll g)) opt;
      Ok (Some (Geometry (g_coll g) nodes (g_id g)))
  end.

(** scene.h:91-115 commit; always returns true. *)
Definition commit (s : scene T) : res (scene T) :=
  do m <- build_geometry mesh_coll (sc_options s) (sc_mesh s);
  do sp <- build_geometry sphere_coll (sc_options s) (sc_spheres s);
  do pl <- build_geometry plane_coll (sc_options s) (sc_planes s);
  do cy <- build_geometry cylinder_coll (sc_options s) (sc_cylinders s);
  Ok (Scene (sc_options s) true (sc_count s) m sp pl cy).

(** One block of intersect1 (scene.h:178-208): traverse into the shared temporary
    record; on a hit that is nearer than the caller's record, copy it and set the
    geometry id.  [always] is the mesh block (scene.h:169-176), which copies
    without comparing. *)
Definition query_block {C P I} (always : bool) (isx : C -> isector T P I)
    (g : option (geometry C T P)) (r : ray T) (st : bool * rayhit T * rayhit T)
    : res (bool * rayhit T * rayhit T) :=
  match g with
  | None => Ok st
  | Some g =>
      let '(hit, rh, tmp) := st in
      do (h, tmp) <- traverse (isx (g_coll g)) (g_nodes g) r tmp;
      if h && (always || (h_distance tmp <? h_distance rh)) then
        Ok (true, RayHit (h_normal tmp) (h_uv tmp) (h_distance tmp) (h_prim tmp) (Some (g_id g)),
            tmp)
      else Ok (hit, rh, tmp)
  end.

(** scene.h:161-211 intersect1. *)
Definition intersect1 (s : scene T) (r : ray T) (rh : rayhit T) : res (bool * rayhit T) :=
  do st <- query_block true tri_isector (sc_mesh s) r (false, rh, new_rayhit);
  do st <- query_block false sphere_isector (sc_spheres s) r st;
  do st <- query_block false (fun _ => plane_isector) (sc_planes s) r st;
  do (hit, rh, _) <- query_block false (fun _ => cylinder_isector) (sc_cylinders s) r st;
  Ok (hit, rh).
End Model.
