(** blazert/ray.h: Ray and RayHit. *)

From Coq Require Import ZArith List Bool.
From Verif Require Import Num Vec.

(** Ray<T>, ray.h:20-66.  [direction_sign] is 0/1 in the code, a bool here.
    [cull_back_face] is stored but read nowhere in the library. *)
Record ray (T : Type) := Ray {
  origin : vec T;
  direction : vec T;
  direction_inv : vec T;
  direction_sign : vec bool;
  min_hit_distance : T;
  max_hit_distance : T;
  any_hit : bool
}.
Arguments Ray {T}.
Arguments origin {T} r.
Arguments direction {T} r.
Arguments direction_inv {T} r.
Arguments direction_sign {T} r.
Arguments min_hit_distance {T} r.
Arguments max_hit_distance {T} r.
Arguments any_hit {T} r.

(** RayHit<T>, ray.h:72-85.  None stands for static_cast<unsigned int>(-1). *)
Record rayhit (T : Type) := RayHit {
  h_normal : vec T;
  h_uv : T * T;
  h_distance : T;
  h_prim : option nat;
  h_geom : option nat
}.
Arguments RayHit {T}.
Arguments h_normal {T} r.
Arguments h_uv {T} r.
Arguments h_distance {T} r.
Arguments h_prim {T} r.
Arguments h_geom {T} r.

Section Model.
Context {T : Type} {N : num T}.
Local Open Scope num_scope.

(** Ray constructor, ray.h:56-65.  In the member initialisers for direction_inv
    and direction_sign the name [direction] is the constructor's parameter, not
    the normalised member. *)
Definition make_ray (o d : vec T) (tmin tmax : T) (anyhit : bool) : ray T := {|
  origin := o;
  direction := normalize d;
  direction_inv := vmap (fun c => n1 / c) d;
  direction_sign := vmap (fun c => c <? n0) d;
  min_hit_distance := tmin;
  max_hit_distance := tmax;
  any_hit := anyhit |}.

(** Default-constructed RayHit, ray.h:72-85.  normal and uv are value-initialised
    by blaze; zero here. *)
Definition new_rayhit : rayhit T := {|
  h_normal := vconst n0; h_uv := (n0, n0); h_distance := nmaxv;
  h_prim := None; h_geom := None |}.
End Model.
