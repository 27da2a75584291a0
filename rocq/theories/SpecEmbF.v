(** The Embree callbacks of spheres and planes, and Embree-backed scenes, in IEEE arithmetic. *)

From Coq Require Import Reals ZArith List Floats.SpecFloat.
From Verif Require Import Num NumF Vec Embree EmbreeScene SpecReal SpecIEEE SpecTriF SpecSphF SpecPlane SpecPlaneF.
Local Open Scope R_scope.

Section Spec.
Variables prec emax : Z.
Variable M : R.

(** A number or plus infinity. *)
Definition limit (x : spec_float) : Prop := x = S754_infinity false \/ exists h, isF prec emax x h.
(** The ray but for its end. *)
Definition same_ray (rh rh' : rtc_rayhit spec_float) : Prop :=
  r_org (rh_ray rh') = r_org (rh_ray rh) /\ r_dir (rh_ray rh') = r_dir (rh_ray rh) /\ r_tnear (rh_ray rh') = r_tnear (rh_ray rh).

(** The surface is met at the parameter [t], the reported distance is [x] and the normal [n], up to the error
    terms of [SpecSphF] and [SpecPlaneF]. *)
Definition ball_near (C : vec R) (r : R) (O U : vec R) (t x : R) (n : vec spec_float) : Prop :=
  0 <= x <= 2.2 * M /\ Rabs (x - t) <= 28 * (ulpf prec * M) /\ Rabs (power C r (at_t O U x)) <= power_err prec M /\
  (coords M C -> large prec M r -> normal_near prec emax M C r (at_t O U t) n).
Definition patch_near (C : vec R) (dx dy : R) (Q : mat R) (O U : vec R) (t x : R) (n : vec spec_float) : Prop :=
  0 <= x <= 3.2 * M /\ Rabs (x - t) <= 125 * (ulpf prec * M) /\
  near_patch (patch_err prec M) C dx dy Q (at_t O U x) /\ patch_normal prec emax M C dx dy Q O (at_t O U x) n.
(** The record says: element 0 of geometry [g], at distance [x]. *)
Definition records (g : nat) (rh : rtc_rayhit spec_float) (x : R) : Prop :=
  e_prim (rh_hit rh) = Some 0%nat /\ e_geom (rh_hit rh) = Some g /\ isF prec emax (r_tfar (rh_ray rh)) x.

(** ** Scenes *)
Inductive shape := Ball (C : vec R) (r : R) | Patch (C : vec R) (dx dy : R) (Q : mat R) | Triangles.
Definition shape_isF (O : vec R) (o : egeom spec_float) (s : shape) : Prop :=
  match o, s with
  | GSphere e, Ball C r => sphere_isF prec emax M O (es_center e) (es_radius e) C r /\ coords M C
  | GPlane e, Patch C dx dy Q => plane_isF prec emax M O (ep_center e) (ep_d1 e) (ep_d2 e) (ep_rot e) C dx dy Q /\ coords M C
  | GMesh _ _, Triangles => True
  | _, _ => False
  end.
(** Up to [y] the ray has met the shape, with the margins of [SpecSphF] and [SpecPlaneF].  The hits of meshes
    are given by [mesh]. *)
Definition meets_by (mesh : nat -> R -> Prop) (O U : vec R) (lo : R) (g : nat) (s : shape) (y : R) : Prop :=
  match s with
  | Ball C r => exists y0, lo <= y0 /\ crosses (power_err prec M) C r O U y0 y
  | Patch C dx dy Q => exists t, pierces (patch_err prec M) C dx dy Q O U lo t /\ y = t + patch_err prec M / steepness Q U
  | Triangles => lo < y /\ mesh g y
  end.
(** The hit at [t], reported as [x] with normal [n], belongs to the shape; [e] is Embree's own error. *)
Definition shape_near (mesh : nat -> R -> Prop) (e : R) (O U : vec R) (g : nat) (s : shape) (t x : R) (n : vec spec_float) : Prop :=
  match s with
  | Ball C r => ball_near C r O U t x n
  | Patch C dx dy Q => patch_near C dx dy Q O U t x n
  | Triangles => mesh g t /\ Rabs (x - t) <= e
  end.

(** Embree's triangle test, with an error of at most [e] in distances. *)
Definition finds_near (mesh : nat -> R -> Prop) (e : R)
    (tri : nat -> list (vec spec_float) -> list (vec nat) -> rtc_rayhit spec_float -> rtc_rayhit spec_float)
    (O U : vec R) (lo : R) : Prop :=
  forall g vs fs rh, visF prec emax (r_org (rh_ray rh)) O -> unit_near prec emax (r_dir (rh_ray rh)) U ->
  isF prec emax (r_tnear (rh_ray rh)) lo -> limit (r_tfar (rh_ray rh)) ->
  let q := tri g vs fs rh in
  same_ray rh q /\
  ((q = rh /\ forall y, mesh g y -> lo < y -> ~ at_least prec emax (r_tfar (rh_ray rh)) y) \/
   (exists t x, mesh g t /\ lo < t /\ Rabs (x - t) <= e /\ isF prec emax (r_tfar (rh_ray q)) x /\ e_geom (rh_hit q) = Some g /\
      (forall h, isF prec emax (r_tfar (rh_ray rh)) h -> t < h + e) /\ (forall y, mesh g y -> lo < y -> x <= y + e))).

(** Embree's traversal: when it ends with the callbacks [ids] having left the record [q], then the ray does
    not meet the bounds of a geometry left out before the end of the ray. *)
Definition covers_near (mesh : nat -> R -> Prop) (s : escene spec_float) (ids : list nat) (O U : vec R) (lo : R)
    (q : rtc_rayhit spec_float) : Prop :=
  forall g o, nth_error (q_geoms s) g = Some o -> ~ In g ids ->
  match @bounds_call _ (Fnum prec emax) s g o with
  | Ok (Some b) => forall low high t, visF prec emax (fst b) low -> visF prec emax (snd b) high -> lo <= t ->
      (forall h, isF prec emax (r_tfar (rh_ray q)) h -> t < h) -> ~ in_box low high (at_t O U t)
  | _ => forall t, mesh g t -> lo < t -> ~ (forall h, isF prec emax (r_tfar (rh_ray q)) h -> t < h)
  end.
End Spec.
