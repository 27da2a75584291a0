(** blazert/primitives/trimesh.h. *)

From Coq Require Import ZArith List Bool Arith.
From Verif Require Import Num Vec Datatypes Ray Bvh Traverse TriDist.
Import ListNotations.

(** Triangle, trimesh.h:19-31: a vertex and two edges. *)
Record triangle (T : Type) := Triangle {
  tr_a : vec T; tr_b : vec T; tr_c : vec T; tr_id : nat }.
Arguments Triangle {T}.
Arguments tr_a {T} t.
Arguments tr_b {T} t.
Arguments tr_c {T} t.
Arguments tr_id {T} t.

(** TriangleMesh, trimesh.h:61-95; contents of the caller's vectors. *)
Record mesh (T : Type) := Mesh {
  m_vertices : list (vec T); m_faces : list (vec nat); m_centers : list (vec T);
  m_box : list (vec T * vec T); m_fnormals : list (vec T); m_vnormals : list (vec T) }.
Arguments Mesh {T}.
Arguments m_vertices {T} m.
Arguments m_faces {T} m.
Arguments m_centers {T} m.
Arguments m_box {T} m.
Arguments m_fnormals {T} m.
Arguments m_vnormals {T} m.

(** TriangleIntersector, trimesh.h:45-59 ([origin] is never used). *)
Record tri_isect (T : Type) := TriIsect {
  ti_min : T; ti_uv : T * T; ti_hd : T; ti_prim : option nat }.
Arguments TriIsect {T}.
Arguments ti_min {T} t.
Arguments ti_uv {T} t.
Arguments ti_hd {T} t.
Arguments ti_prim {T} t.

Section Model.
Context {T : Type} {N : num T}.
Local Open Scope num_scope.

(** trimesh.h:26-27 constructor: b := c_ - a, c := a - b_. *)
Definition make_triangle (a b_ c_ : vec T) (id : nat) : triangle T :=
  Triangle a (vsub c_ a) (vsub a b_) id.

(** The three vertices of a face; an index may be out of range. *)
Definition face_vertices (vertices : list (vec T)) (f : vec nat) : res (vec T * vec T * vec T) :=
  do a <- at_ UBprim vertices (vx f);
  do b <- at_ UBprim vertices (vy f);
  do c <- at_ UBprim vertices (vz f);
  Ok (a, b, c).

(** trimesh.h:109-120 pre_compute_bounding_box. *)
Definition tri_box (a b c : vec T) : vec T * vec T :=
  let (mn, mx) := unity a a b b in unity mn mx c c.

(** trimesh.h:122-124 pre_compute_center. *)
Definition tri_center (a b c : vec T) : vec T := vdivs (vadd (vadd a b) c) (nofZ 3).

(** trimesh.h:126-130 pre_compute_face_normal. *)
Definition tri_normal (a b c : vec T) : vec T :=
  normalize (cross (vsub b a) (vsub c a)).

(** trimesh.h:91-93: add a third of the face normal to vertex [v]'s normal. *)
Definition add_normal (fn : vec T) (vns : list (vec T)) (v : nat) : res (list (vec T)) :=
  do old <- at_ UBprim vns v;
  Ok (list_set vns v (vadd old (vdivs fn (nofZ 3)))).

(** trimesh.h:85-94: one pass over the faces. *)
Fixpoint mesh_loop (vertices : list (vec T)) (faces : list (vec nat)) (vns : list (vec T))
    : res (list (vec T) * list (vec T * vec T) * list (vec T) * list (vec T)) :=
  match faces with
  | [] => Ok ([], [], [], vns)
  | f :: fs =>
      do (a, b, c) <- face_vertices vertices f;
      let fn := tri_normal a b c in
      do vns <- add_normal fn vns (vx f);
      do vns <- add_normal fn vns (vy f);
      do vns <- add_normal fn vns (vz f);
      do (cs, bs, fns, vns) <- mesh_loop vertices fs vns;
      Ok (tri_center a b c :: cs, tri_box a b c :: bs, fn :: fns, vns)
  end.

(** trimesh.h:78-95 constructor; resize() zero-initialises the vertex normals. *)
Definition make_mesh (vertices : list (vec T)) (faces : list (vec nat)) : res (mesh T) :=
  do (cs, bs, fns, vns) <- mesh_loop vertices faces (repeat (vconst n0) (length vertices));
  Ok (Mesh vertices faces cs bs fns vns).

(** trimesh.h:35-43 primitive_from_collection. *)
Definition tri_prim (m : mesh T) (i : nat) : res (triangle T) :=
  do f <- at_ UBprim (m_faces m) i;
  do (a, b, c) <- face_vertices (m_vertices m) f;
  Ok (make_triangle a b c i).

(** trimesh.h:97-106. *)
Definition mesh_coll (m : mesh T) : coll T (triangle T) := {|
  c_size := length (m_faces m);
  c_box := at_ UBprim (m_box m);
  c_center := at_ UBprim (m_centers m);
  c_prim := tri_prim m |}.

(** trimesh.h:145-151 prepare_traversal. *)
Definition tri_prepare (r : ray T) : tri_isect T :=
  TriIsect (min_hit_distance r) (n0, n0) (max_hit_distance r) None.

(** trimesh.h:153-181 intersect_primitive. *)
Definition tri_intersect (i : tri_isect T) (tri : triangle T) (r : ray T) : bool * tri_isect T :=
  let tolerance := n4 * neps in
  let e2 := tr_b tri in
  let e1 := tr_c tri in
  let c := vsub (tr_a tri) (origin r) in
  let rr := cross (direction r) c in
  let det := dot (cross e1 e2) (direction r) in
  let abs_det := nabs det in
  let u := npsign (dot rr e2) det in
  let v := npsign (dot rr e1) det in
  let w := abs_det - u - v in
  if ((- tolerance) <=? u) && ((- tolerance) <=? v) && ((- tolerance) <=? w) then
    let t := npsign (dot (cross e1 e2) c) det in
    if ((abs_det * ti_min i) <=? t) && (t <? (abs_det * ti_hd i)) then
      let inv_det := n1 / abs_det in
      (true, TriIsect (ti_min i) (u * inv_det, v * inv_det) (t * inv_det) (Some (tr_id tri)))
    else (false, i)
  else (false, i).

(** trimesh.h:133-143 post_traversal. *)
Definition tri_post (m : mesh T) (i : tri_isect T) (rh : rayhit T) : res (rayhit T) :=
  do k <- match ti_prim i with Some k => Ok k | None => UB UBprim end;
  do f <- at_ UBprim (m_faces m) k;
  do na <- at_ UBprim (m_vnormals m) (vx f);
  do nb <- at_ UBprim (m_vnormals m) (vy f);
  do nc <- at_ UBprim (m_vnormals m) (vz f);
  let (u, v) := ti_uv i in
  Ok (RayHit (normalize (vadd (vadd (vscale (n1 - u - v) na) (vscale u nb)) (vscale v nc)))
             (ti_uv i) (ti_hd i) (ti_prim i) (h_geom rh)).

Definition tri_isector (m : mesh T) : isector T (triangle T) (tri_isect T) := {|
  is_prepare := tri_prepare;
  is_hd := ti_hd;
  is_prim := tri_intersect;
  is_post := tri_post m |}.

(** trimesh.h:183-192 distance_to_surface.  The declared return type is the scalar
    T but the body returns the vector computed by closest_point_on_triangle, so
    an instantiation does not type check; the model returns the vector. *)
Definition triangle_distance (t : triangle T) (point : vec T) : vec T :=
  let v0 := tr_a t in
  let v1 := vadd (tr_b t) (tr_a t) in
  let v2 := vsub (tr_c t) (tr_a t) in
  closest_point_on_triangle v0 v1 v2 point.
End Model.
