(** Nearest hits of Embree-backed scenes: the geometry and Embree's part. *)

From Coq Require Import Reals List.
From Verif Require Import Num NumX Vec Ray Embree EmbreeScene SpecReal SpecSphere SpecPlane.
Local Open Scope R_scope.

(** The attached geometry has finite data that make sense; no cylinders. *)
Definition fine (o : egeom xr) : Prop :=
  match o with
  | GMesh _ _ => True
  | GSphere e => exists C rad, visR (es_center e) C /\ isR (es_radius e) rad /\ 0 <= rad
  | GPlane e => exists C dx dy Rm, visR (ep_center e) C /\ isR (ep_d1 e) dx /\ isR (ep_d2 e) dy /\
      misR (ep_rot e) Rm /\ 0 < dx /\ 0 < dy /\ orthogonal Rm
  | GCyl _ => False
  end.

(** Geometry [g] is hit at distance [t] beyond [m] by the ray from [O] with direction
    [U].  The hits of meshes, which Embree finds itself, are given by [mesh]. *)
Definition geom_hit (mesh : nat -> R -> Prop) (O U : vec R) (m : R) (g : nat) (o : egeom xr) (t : R) : Prop :=
  m < t /\
  match o with
  | GMesh _ _ => mesh g t
  | GSphere e => exists C rad, visR (es_center e) C /\ isR (es_radius e) rad /\ on_sphere C rad (at_t O U t)
  | GPlane e => exists C dx dy Rm, visR (ep_center e) C /\ isR (ep_d1 e) dx /\ isR (ep_d2 e) dy /\
      misR (ep_rot e) Rm /\ rv_dot U (normal_of Rm) <> 0 /\ on_patch C dx dy Rm (at_t O U t)
  | GCyl _ => False
  end.

(** The normal of a hit on a sphere or patch. *)
Definition geom_normal (O U : vec R) (o : egeom xr) (t : R) (n : vec xr) : Prop :=
  match o with
  | GSphere e => forall C rad, visR (es_center e) C -> isR (es_radius e) rad -> rad <> 0 ->
      visR n (rv_scale (/ Rabs rad) (rv_sub (at_t O U t) C))
  | GPlane e => forall C dx dy Rm, visR (ep_center e) C -> isR (ep_d1 e) dx -> isR (ep_d2 e) dy -> misR (ep_rot e) Rm ->
      exists k, visR n k /\ rv_norm k = 1 /\ faces C Rm O k /\
        (in_patch C dx dy Rm (at_t O U t) -> k = normal_of Rm \/ k = rv_scale (-1) (normal_of Rm))
  | _ => True
  end.

(** Embree's triangle test: the nearest hit of the mesh below the ray's end is
    recorded; nothing changes if there is none. *)
Definition finds (mesh : nat -> R -> Prop)
    (tri : nat -> list (vec xr) -> list (vec nat) -> rtc_rayhit xr -> rtc_rayhit xr)
    (O U : vec R) (m : R) : Prop :=
  forall g vs fs rh, visR (r_org (rh_ray rh)) O -> visR (r_dir (rh_ray rh)) U -> isR (r_tnear (rh_ray rh)) m ->
  let q := tri g vs fs rh in
  (q = rh /\ forall u, mesh g u -> m < u -> xltb (Fin u) (r_tfar (rh_ray rh)) = false) \/
  (exists t, mesh g t /\ m < t /\ xltb (Fin t) (r_tfar (rh_ray rh)) = true /\
     (forall u, mesh g u -> m < u -> t <= u) /\
     r_org (rh_ray q) = r_org (rh_ray rh) /\ r_dir (rh_ray q) = r_dir (rh_ray rh) /\
     r_tnear (rh_ray q) = r_tnear (rh_ray rh) /\ isR (r_tfar (rh_ray q)) t /\ e_geom (rh_hit q) = Some g).

Section Calls.
Variable N : num xr.

(** Embree's traversal: when it ends with the callbacks [ids] having left the record
    [q], then no geometry left out could be hit before the ray's end: the ray does not
    meet its bounds up to there. *)
Definition covers (mesh : nat -> R -> Prop) (s : escene xr) (ids : list nat) (O U : vec R) (m : R)
    (q : rtc_rayhit xr) : Prop :=
  forall g o, nth_error (q_geoms s) g = Some o -> ~ In g ids ->
  match @bounds_call _ N s g o with
  | Ok (Some b) => forall lo hi t, visR (fst b) lo -> visR (snd b) hi -> m <= t ->
      xltb (Fin t) (r_tfar (rh_ray q)) = true -> ~ in_box lo hi (at_t O U t)
  | _ => forall t, mesh g t -> m < t -> xltb (Fin t) (r_tfar (rh_ray q)) = false
  end.
End Calls.
