(** blazert/embree/scene.h: EmbreeScene.

    [single] is std::is_same<float, T>: the branch chosen by if constexpr.  The double
    branch hands every call to the member blazertscene.  In the float branch Embree does
    the work; of Embree we only say that rtcAttachGeometry numbers the geometries
    consecutively, that rtcCommitScene runs the bounds callback of every attached user
    geometry, and that rtcIntersect1 runs intersection callbacks of committed geometries,
    one after the other on the same record.  Which ones, and in which order, is the
    parameter [calls]; Embree's own triangle test is the parameter [tri]. *)

From Coq Require Import ZArith List Bool Arith.
From Verif Require Import Num Vec Ray Bvh Traverse Sphere Plane Trimesh Cylinder Scene Embree.
Import ListNotations.

(** What is attached to the RTCScene: a triangle mesh by reference to the caller's
    buffers, or a user geometry with a pointer to its EmbreeSphere etc. *)
Inductive egeom (T : Type) :=
| GMesh (vertices : list (vec T)) (faces : list (vec nat))
| GSphere (e : esphere T)
| GPlane (e : eplane T)
| GCyl (e : ecyl T).
Arguments GMesh {T}.
Arguments GSphere {T} e.
Arguments GPlane {T} e.
Arguments GCyl {T} e.

(** EmbreeScene, embree/scene.h:33-49: the attached geometries by id, the ids of the
    objects that the three unique_ptr members own, the number of geometries that
    rtcCommitScene has seen, has_been_committed, and blazertscene. *)
Record escene (T : Type) := EScene {
  q_geoms : list (egeom T); q_sphere : option nat; q_plane : option nat; q_cyl : option nat;
  q_built : nat; q_committed : bool; q_blazert : scene T }.
Arguments EScene {T}.
Arguments q_geoms {T} e.
Arguments q_sphere {T} e.
Arguments q_plane {T} e.
Arguments q_cyl {T} e.
Arguments q_built {T} e.
Arguments q_committed {T} e.
Arguments q_blazert {T} e.

Section Model.
Context {T : Type} {N : num T}.
Local Open Scope num_scope.
Variable part : (nat -> bool) -> list nat -> list nat * list nat.
Variable single : bool.

(** embree/scene.h:50-58, the constructor. *)
Definition new_escene (opt : options) : escene T := EScene [] None None None 0 false (new_scene opt).

Definition with_blazert (s : escene T) (b : scene T) : escene T :=
  EScene (q_geoms s) (q_sphere s) (q_plane s) (q_cyl s) (q_built s) (q_committed s) b.

(** embree/scene.h:159-180 add_mesh. *)
Definition e_add_mesh (s : escene T) (vertices : list (vec T)) (faces : list (vec nat))
    : res (escene T * option nat) :=
  if single then
    let g := length (q_geoms s) in
    Ok (EScene (q_geoms s ++ [GMesh vertices faces]) (q_sphere s) (q_plane s) (q_cyl s)
               (q_built s) (q_committed s) (q_blazert s), Some g)
  else
    do (b, id) <- add_mesh (q_blazert s) vertices faces;
    Ok (with_blazert s b, id).

(** embree/scene.h:200-220 add_spheres: only element 0.  The assignment to the
    unique_ptr destroys the object it held before. *)
Definition e_add_spheres (s : escene T) (centers : list (vec T)) (radii : list T)
    : res (escene T * option nat) :=
  if single then
    do c <- at_ UBprim centers 0;
    do r <- at_ UBprim radii 0;
    let g := length (q_geoms s) in
    Ok (EScene (q_geoms s ++ [GSphere (ESphere c r (Some g))]) (Some g) (q_plane s) (q_cyl s)
               (q_built s) (q_committed s) (q_blazert s), Some g)
  else
    do (b, id) <- add_spheres (q_blazert s) centers radii;
    Ok (with_blazert s b, id).

(** embree/scene.h:244-267 add_planes. *)
Definition e_add_planes (s : escene T) (centers : list (vec T)) (dxs dys : list T)
    (rots : list (mat T)) : res (escene T * option nat) :=
  if single then
    do c <- at_ UBprim centers 0;
    do x <- at_ UBprim dxs 0;
    do y <- at_ UBprim dys 0;
    do m <- at_ UBprim rots 0;
    let g := length (q_geoms s) in
    Ok (EScene (q_geoms s ++ [GPlane (EPlane c x y m (Some g))]) (q_sphere s) (Some g) (q_cyl s)
               (q_built s) (q_committed s) (q_blazert s), Some g)
  else
    do (b, id) <- add_planes (q_blazert s) centers dxs dys rots;
    Ok (with_blazert s b, id).

(** embree/scene.h:292-316 add_cylinders. *)
Definition e_add_cylinders (s : escene T) (centers : list (vec T)) (sa sb hs : list T)
    (rots : list (mat T)) : res (escene T * option nat) :=
  if single then
    do c <- at_ UBprim centers 0;
    do a <- at_ UBprim sa 0;
    do b <- at_ UBprim sb 0;
    do h <- at_ UBprim hs 0;
    do m <- at_ UBprim rots 0;
    let g := length (q_geoms s) in
    Ok (EScene (q_geoms s ++ [GCyl (ECyl c a b h m (Some g))]) (q_sphere s) (q_plane s) (Some g)
               (q_built s) (q_committed s) (q_blazert s), Some g)
  else
    do (b, id) <- add_cylinders (q_blazert s) centers sa sb hs rots;
    Ok (with_blazert s b, id).

(** The user pointer of geometry [g] still points to a live object: the member of its
    kind owns it.  Its use is undefined otherwise. *)
Definition live (s : escene T) (g : nat) (o : egeom T) : bool :=
  let owns m := match m with Some k => Nat.eqb k g | None => false end in
  match o with
  | GMesh _ _ => true
  | GSphere _ => owns (q_sphere s)
  | GPlane _ => owns (q_plane s)
  | GCyl _ => owns (q_cyl s)
  end.

(** The bounds callback of one geometry; Embree computes those of meshes itself. *)
Definition bounds_call (s : escene T) (g : nat) (o : egeom T) : res (option (vec T * vec T)) :=
  if live s g o then
    match o with
    | GMesh _ _ => Ok None
    | GSphere e => do b <- esphere_bounds e 0; Ok (Some b)
    | GPlane e => do b <- eplane_bounds e 0; Ok (Some b)
    | GCyl e => do b <- ecyl_bounds e 0; Ok (Some b)
    end
  else UB UBprim.

(** rtcCommitScene: the bounds of geometries [g], [g + 1], ... *)
Fixpoint bounds_calls (s : escene T) (g : nat) (l : list (egeom T)) : res (list (option (vec T * vec T))) :=
  match l with
  | [] => Ok []
  | o :: l =>
      do b <- bounds_call s g o;
      do bs <- bounds_calls s (S g) l;
      Ok (b :: bs)
  end.

(** embree/scene.h:77-88 commit. *)
Definition e_commit (s : escene T) : res (escene T * bool) :=
  if q_committed s then Ok (s, true)
  else if single then
    do _ <- bounds_calls s 0 (q_geoms s);
    Ok (EScene (q_geoms s) (q_sphere s) (q_plane s) (q_cyl s) (length (q_geoms s)) true (q_blazert s), true)
  else
    do b <- commit part (q_blazert s);
    Ok (EScene (q_geoms s) (q_sphere s) (q_plane s) (q_cyl s) (q_built s) true b, true).

(** The intersection callback of one geometry.  rtcInitIntersectContext sets
    instID[0] to RTC_INVALID_GEOMETRY_ID. *)
Variable tri : nat -> list (vec T) -> list (vec nat) -> rtc_rayhit T -> rtc_rayhit T.
Definition intersect_call (s : escene T) (g : nat) (rh : rtc_rayhit T) : res (rtc_rayhit T) :=
  do o <- at_ UBprim (firstn (q_built s) (q_geoms s)) g;
  if live s g o then
    match o with
    | GMesh vs fs => Ok (tri g vs fs rh)
    | GSphere e => esphere_intersect e 0 true None rh
    | GPlane e => eplane_intersect e 0 true None rh
    | GCyl e => ecyl_intersect e 0 true None rh
    end
  else UB UBprim.

(** rtcIntersect1. *)
Fixpoint intersect_calls (s : escene T) (calls : list nat) (rh : rtc_rayhit T) : res (rtc_rayhit T) :=
  match calls with
  | [] => Ok rh
  | g :: calls => do rh <- intersect_call s g rh; intersect_calls s calls rh
  end.

(** The record handed to rtcIntersect1, embree/scene.h:111-127. *)
Definition rtc_start (r : ray T) : rtc_rayhit T :=
  RTCRayHit (RTCRay (origin r) (direction r) (min_hit_distance r) (max_hit_distance r))
            (RTCHit (V n0 n0 n0) n0 n0 (Some 0%nat) None None).

(** embree/scene.h:102-143 intersect1.  geom_id is not written in the float branch. *)
Definition e_intersect1 (calls : list nat) (s : escene T) (r : ray T) (rh : rayhit T) : res (bool * rayhit T) :=
  if single then
    do q <- intersect_calls s calls (rtc_start r);
    match e_geom (rh_hit q) with
    | None => Ok (false, rh)
    | Some _ =>
        Ok (true, RayHit (e_ng (rh_hit q)) (e_u (rh_hit q), e_v (rh_hit q)) (r_tfar (rh_ray q))
                         (e_prim (rh_hit q)) (h_geom rh))
    end
  else intersect1 (q_blazert s) r rh.

(** The byte stride of both shared buffers, embree/scene.h:165-166, from sizeof of the
    vector type; the element types have 4 bytes. *)
Definition buffer_stride (size : nat) : nat := size / 8 * 4.
End Model.
