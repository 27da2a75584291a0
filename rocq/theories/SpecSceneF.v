(** Scenes in IEEE arithmetic: what a scene query must answer, with the error terms of [SpecTriF],
    [SpecSphF], [SpecPlaneF], [SpecTubeF] and [SpecMeshN]. *)

From Coq Require Import Reals ZArith List Floats.SpecFloat.
From Verif Require Import Num NumF Vec Ray Bvh Trimesh Sphere Plane Cylinder Scene.
From Verif Require Import SpecBvh SpecReal SpecIEEE SpecTri SpecTriF SpecSphF SpecPlaneF SpecTubeF SpecTubeN SpecTubeQ SpecMeshN SpecScene.
Local Open Scope R_scope.

(** The real points, lengths and rotations that the numbers of a call stand for. *)
Inductive shape :=
| Corners (P : nat -> vec R)
| Balls (C : nat -> vec R) (r : nat -> R)
| Patches (C : nat -> vec R) (dx dy : nat -> R) (Q : nat -> mat R)
| Tubes (ratio v : R) (C : nat -> vec R) (a b h : nat -> R) (Q : nat -> mat R) (B : nat -> vec R).

Section S.
Variables (prec emax : Z) (M : R).

(** The call adds this shape, and the ray and the shape are of moderate size. *)
Definition shape_ray (o d : vec spec_float) (tmin tmax : spec_float) (O D : vec R) (lo : R) (c : call spec_float) (sh : shape) : Prop :=
  match c, sh with
  | AddMesh vs fs, Corners P => mesh_ray prec emax M vs fs P o d tmin tmax O D lo
  | AddSpheres ce ra, Balls C r => sphere_ray prec emax M ce ra C r o d tmin tmax O D lo
  | AddPlanes ce dxs dys ro, Patches C dx dy Q => patch_ray prec emax M ce dxs dys ro C dx dy Q o d tmin tmax O D lo
  | AddCylinders ce sa sb hs ro, Tubes ratio v C a b h Q B => tubes_ray prec emax M ratio v ce sa sb hs ro C a b h Q B o d tmin tmax O D lo
  | _, _ => False
  end.

(** Primitive [k] is hit after [l], with a margin. *)
Definition sure (O D : vec R) (l : R) (c : call spec_float) (sh : shape) (k : nat) : Prop :=
  (k < primitives c)%nat /\ let U := unit_of D in
  match c, sh with
  | AddMesh vs fs, Corners P => exists s, surely_hit prec M fs P O U l k s
  | AddSpheres ce ra, Balls C r => exists y0 y, l <= y0 /\ crosses (power_err prec M) (C k) (r k) O U y0 y
  | AddPlanes ce dxs dys ro, Patches C dx dy Q => exists t, pierces (patch_err prec M) (C k) (dx k) (dy k) (Q k) O U l t
  | AddCylinders ce sa sb hs ro, Tubes ratio v C a b h Q B => off_sides prec emax ce sa sb hs ro O D /\
      exists t, plain_view prec M ratio (a k) (b k) (h k) (C k) (Q k) O U l t
  | _, _ => False
  end.
(** Primitive [k] is hit at distance [x] up to the error terms, and the record describes that hit. *)
Definition near (O U : vec R) (lo : R) (c : call spec_float) (sh : shape) (k : nat) (x : R) (rh : rayhit spec_float) : Prop :=
  (k < primitives c)%nat /\
  match c, sh with
  | AddMesh vs fs, Corners P => exists u v, isF prec emax (fst (h_uv rh)) u /\ isF prec emax (snd (h_uv rh)) v /\
      nearly_hit prec M fs P O U lo k x u v /\ mesh_normal prec emax fs P k u v (h_normal rh)
  | AddSpheres ce ra, Balls C r => lo - 28 * (ulpf prec * M) <= x /\ Rabs (power (C k) (r k) (at_t O U x)) <= power_err prec M /\
      (large prec M (r k) -> normal_near prec emax M (C k) (r k) (at_t O U x) (h_normal rh))
  | AddPlanes ce dxs dys ro, Patches C dx dy Q => lo - 125 * (ulpf prec * M) <= x /\
      near_patch (patch_err prec M) (C k) (dx k) (dy k) (Q k) (at_t O U x) /\
      patch_normal prec emax M (C k) (dx k) (dy k) (Q k) O (at_t O U x) (h_normal rh)
  | AddCylinders ce sa sb hs ro, Tubes ratio v C a b h Q B => first_meeting prec M ratio (a k) (b k) (h k) (C k) (Q k) O U x /\
      tube_normal prec emax M ratio (a k) (b k) (h k) (C k) (Q k) (B k) O U x (h_normal rh)
  | _, _ => False
  end.
(** Up to the error terms, [x] is not behind a sure hit of primitive [k]; for cylinders: if the [k]th is in
    plain view, not behind the first meeting with some cylinder of the collection. *)
Definition in_front (O D : vec R) (l : R) (c : call spec_float) (sh : shape) (k : nat) (x : R) : Prop :=
  let U := unit_of D in
  match c, sh with
  | AddMesh vs fs, Corners P => forall s, surely_hit prec M fs P O U l k s -> not_behind prec M fs P O U k s (length fs) x
  | AddSpheres ce ra, Balls C r => forall y0 y, l <= y0 -> crosses (power_err prec M) (C k) (r k) O U y0 y ->
      x <= y + 40 * (INR (length ce) + 1) * (ulpf prec * M)
  | AddPlanes ce dxs dys ro, Patches C dx dy Q => forall t, pierces (patch_err prec M) (C k) (dx k) (dy k) (Q k) O U l t ->
      x <= t + patch_err prec M / steepness (Q k) U + 128 * INR (length ce) * (ulpf prec * M)
  | AddCylinders ce sa sb hs ro, Tubes ratio v C a b h Q B => off_sides prec emax ce sa sb hs ro O D ->
      forall t, plain_view prec M ratio (a k) (b k) (h k) (C k) (Q k) O U l t ->
      exists j y, (j < length ce)%nat /\ first_meeting prec M ratio (a j) (b j) (h j) (C j) (Q j) O U y /\ x <= y
  | _, _ => False
  end.

(** The answer to a query, over the geometries [geo] with their ids. *)
Definition answerF (geo : nat -> call spec_float -> Prop) (sh : call spec_float -> shape) (O D : vec R) (lo : R)
    (any : bool) (rh : rayhit spec_float) (res : res (bool * rayhit spec_float)) : Prop :=
  (res = Ok (false, rh) /\ forall g c k, geo g c -> ~ sure O D (lo_unit lo D) c (sh c) k) \/
  (exists rh' g c k x, res = Ok (true, rh') /\ geo g c /\ h_geom rh' = Some g /\ h_prim rh' = Some k /\
     isF prec emax (h_distance rh') x /\ near O (unit_of D) lo c (sh c) k x rh' /\
     (any = false -> forall g c k, geo g c -> (k < primitives c)%nat -> in_front O D (lo_unit lo D) c (sh c) k x)).

(** Extents of bounding boxes are zero or not tiny, so that the hierarchy can be built. *)
Definition shape_wide (opt : options) (c : call spec_float) (sh : shape) : Prop :=
  match c, sh with
  | AddMesh vs fs, Corners P => extents_wide (bin_extent prec M (bin_size opt)) fs P
  | AddSpheres ce ra, Balls C r => spread_boxes emax (length ce) (fun i => rlow prec emax (C i) (r i)) (fun i => rhigh prec emax (C i) (r i))
  | AddPlanes ce dxs dys ro, Patches C dx dy Q => spread_boxes emax (length ce)
      (fun i => box_low (box_of prec emax ce dxs dys ro i)) (fun i => box_high (box_of prec emax ce dxs dys ro i))
  | AddCylinders ce sa sb hs ro, Tubes ratio v C a b h Q B => spread_boxes emax (length ce)
      (fun i => box_low (tube_box_of prec emax ce sa sb hs ro i)) (fun i => box_high (tube_box_of prec emax ce sa sb hs ro i))
  | _, _ => False
  end.
End S.
