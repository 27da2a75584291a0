(** blazert/primitives/sphere.h. *)

From Coq Require Import ZArith List Bool Arith.
From Verif Require Import Num Vec Ray Bvh Traverse.
Import ListNotations.

(** Sphere, sphere.h:16-31. *)
Record sphere (T : Type) := Sphere { sp_center : vec T; sp_radius : T; sp_id : nat }.
Arguments Sphere {T}.
Arguments sp_center {T} s.
Arguments sp_radius {T} s.
Arguments sp_id {T} s.

(** SphereCollection, sphere.h:60-101.  The code keeps references to the caller's
    vectors; the model keeps their contents, so they must not change later. *)
Record spheres (T : Type) := Spheres {
  ss_centers : list (vec T); ss_radii : list T; ss_box : list (vec T * vec T) }.
Arguments Spheres {T}.
Arguments ss_centers {T} s.
Arguments ss_radii {T} s.
Arguments ss_box {T} s.

(** SphereIntersector, sphere.h:42-58 (without the collection reference). *)
Record sphere_isect (T : Type) := SphereIsect {
  si_org : vec T; si_dir : vec T; si_min : T; si_uv : T * T; si_hd : T; si_prim : option nat }.
Arguments SphereIsect {T}.
Arguments si_org {T} s.
Arguments si_dir {T} s.
Arguments si_min {T} s.
Arguments si_uv {T} s.
Arguments si_hd {T} s.
Arguments si_prim {T} s.

Section Model.
Context {T : Type} {N : num T}.
Local Open Scope num_scope.

(** sphere.h:92-100 pre_compute_bounding_box. *)
Definition sphere_box (center : vec T) (radius : T) : vec T * vec T :=
  (vsubs center radius, vadds center radius).

(** sphere.h:72-79 constructor: one box per center; radii[i] may be missing. *)
Definition make_spheres (centers : list (vec T)) (radii : list T) : res (spheres T) :=
  do box <- mapM (fun i => do c <- at_ UBprim centers i; do r <- at_ UBprim radii i;
                           Ok (sphere_box c r)) (seq 0 (length centers));
  Ok (Spheres centers radii box).

(** sphere.h:35-40 primitive_from_collection. *)
Definition sphere_prim (s : spheres T) (i : nat) : res (sphere T) :=
  do c <- at_ UBprim (ss_centers s) i;
  do r <- at_ UBprim (ss_radii s) i;
  Ok (Sphere c r i).

(** sphere.h:81-90: size, get_primitive_bounding_box, get_primitive_center. *)
Definition sphere_coll (s : spheres T) : coll T (sphere T) := {|
  c_size := length (ss_centers s);
  c_box := at_ UBprim (ss_box s);
  c_center := at_ UBprim (ss_centers s);
  c_prim := sphere_prim s |}.

(** sphere.h:120-128 prepare_traversal. *)
Definition sphere_prepare (r : ray T) : sphere_isect T :=
  SphereIsect (origin r) (direction r) (min_hit_distance r) (n0, n0) (max_hit_distance r) None.

(** sphere.h:135-177 intersect_primitive. *)
Definition sphere_intersect (i : sphere_isect T) (s : sphere T) (_ : ray T)
    : bool * sphere_isect T :=
  let org := si_org i in
  let dir := si_dir i in
  let v := vsub org (sp_center s) in
  let A := dot dir dir in
  let B := n2 * dot v dir in
  let C := dot v v - sp_radius s * sp_radius s in
  let D := B * B - n4 * A * C in
  if D <? n0 then (false, i)
  else
    let Q := nsqrt D in
    let rcpA := n1 / A in
    let t0 := nhalf * rcpA * (- B - Q) in
    let t1 := nhalf * rcpA * (- B + Q) in
    if (si_min i <? t0) && (t0 <? si_hd i) then
      (true, SphereIsect org dir (si_min i) (si_uv i) (norm (vscale t0 dir)) (Some (sp_id s)))
    else if (si_min i <? t1) && (t1 <? si_hd i) then
      (true, SphereIsect org dir (si_min i) (si_uv i) (norm (vscale t1 dir)) (Some (sp_id s)))
    else (false, i).

(** sphere.h:107-114 post_traversal. *)
Definition sphere_post (s : spheres T) (i : sphere_isect T) (rh : rayhit T) : res (rayhit T) :=
  do k <- match si_prim i with Some k => Ok k | None => UB UBprim end;
  do center <- at_ UBprim (ss_centers s) k;
  Ok (RayHit (normalize (vsub (vadd (si_org i) (vscale (si_hd i) (si_dir i))) center))
             (si_uv i) (si_hd i) (si_prim i) (h_geom rh)).

Definition sphere_isector (s : spheres T) : isector T (sphere T) (sphere_isect T) := {|
  is_prepare := sphere_prepare;
  is_hd := si_hd;
  is_prim := sphere_intersect;
  is_post := sphere_post s |}.

(** sphere.h:179-182 distance_to_surface. *)
Definition sphere_distance (s : sphere T) (point : vec T) : T :=
  nabs (norm (vsub (sp_center s) point) - sp_radius s).
End Model.
