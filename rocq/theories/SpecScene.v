(** Scenes: histories of calls, and what a scene query must answer. *)

From Coq Require Import Reals ZArith List Bool Arith.
From Verif Require Import Num NumX Vec Ray Bvh Traverse Sphere Plane Trimesh Cylinder Scene.
From Verif Require Import SpecBvh SpecReal SpecSphere SpecPlane SpecTri SpecCyl.
Import ListNotations.

(** What a program can do with a scene: the member functions, assigning to the public
    member [build_options], and queries. *)
Inductive call (T : Type) :=
| AddMesh (vertices : list (vec T)) (faces : list (vec nat))
| AddSpheres (centers : list (vec T)) (radii : list T)
| AddPlanes (centers : list (vec T)) (dxs dys : list T) (rots : list (mat T))
| AddCylinders (centers : list (vec T)) (sa sb hs : list T) (rots : list (mat T))
| SetOptions (opt : options)
| Commit
| Query (r : ray T) (rh : rayhit T).
Arguments AddMesh {T}.
Arguments AddSpheres {T}.
Arguments AddPlanes {T}.
Arguments AddCylinders {T}.
Arguments SetOptions {T}.
Arguments Commit {T}.
Arguments Query {T}.

(** What it gets back; [Id None] is (unsigned)-1. *)
Inductive reply (T : Type) :=
| Id (id : option nat)
| Done
| Answer (hit : bool) (rh : rayhit T).
Arguments Id {T}.
Arguments Done {T}.
Arguments Answer {T}.

Section Calls.
Context {T : Type} {N : num T}.
Variable part : (nat -> bool) -> list nat -> list nat * list nat.

Definition step (s : scene T) (c : call T) : res (scene T * reply T) :=
  match c with
  | AddMesh v f => do (s, id) <- add_mesh s v f; Ok (s, Id id)
  | AddSpheres c r => do (s, id) <- add_spheres s c r; Ok (s, Id id)
  | AddPlanes c x y m => do (s, id) <- add_planes s c x y m; Ok (s, Id id)
  | AddCylinders c a b h m => do (s, id) <- add_cylinders s c a b h m; Ok (s, Id id)
  | SetOptions opt =>
      Ok (Scene opt (sc_committed s) (sc_count s) (sc_mesh s) (sc_spheres s) (sc_planes s) (sc_cylinders s), Done)
  | Commit => do s <- commit part s; Ok (s, Done)
  | Query r rh => do (b, rh) <- intersect1 s r rh; Ok (s, Answer b rh)
  end.

Fixpoint run (s : scene T) (cs : list (call T)) : res (scene T * list (reply T)) :=
  match cs with
  | [] => Ok (s, [])
  | c :: cs =>
      do (s, a) <- step s c;
      do (s, l) <- run s cs;
      Ok (s, a :: l)
  end.
End Calls.

(** The part [f] of an outcome. *)
Definition mapr {A B} (f : A -> B) (x : res A) : res B := do a <- x; Ok (f a).

(** Two answers: equal, up to the record of a miss. *)
Definition same_reply {T} (x y : res (bool * rayhit T)) : Prop :=
  match x, y with
  | Ok (true, a), Ok (true, b) => a = b
  | Ok (false, _), Ok (false, _) => True
  | UB u, UB w => u = w
  | NoFuel, NoFuel => True
  | _, _ => False
  end.

(** No geometry has an empty node array. *)
Definition node_arrays {T} (s : scene T) : Prop :=
  (forall g, sc_mesh s = Some g -> g_nodes g <> []) /\ (forall g, sc_spheres s = Some g -> g_nodes g <> []) /\
  (forall g, sc_planes s = Some g -> g_nodes g <> []) /\ (forall g, sc_cylinders s = Some g -> g_nodes g <> []).

(** The kind of geometry that a call adds. *)
Inductive kind := KMesh | KSpheres | KPlanes | KCylinders.
Definition adds {T} (c : call T) : option kind :=
  match c with
  | AddMesh _ _ => Some KMesh
  | AddSpheres _ _ => Some KSpheres
  | AddPlanes _ _ _ _ => Some KPlanes
  | AddCylinders _ _ _ _ _ => Some KCylinders
  | _ => None
  end.
Definition accepted {T} (a : reply T) : Prop := exists n, a = Id (Some n).
(** The ids handed out, in order. *)
Fixpoint ids {T} (l : list (reply T)) : list nat :=
  match l with
  | Id (Some n) :: l => n :: ids l
  | _ :: l => ids l
  | [] => []
  end.

(** The [i]th call adds geometry of kind [k] and is answered by [a]. *)
Definition added {T} (cs : list (call T)) (l : list (reply T)) (i : nat) (k : kind) (a : reply T) : Prop :=
  (exists c, nth_error cs i = Some c /\ adds c = Some k) /\ nth_error l i = Some a.

(** C35 of a history and its replies. *)
Definition ids_in_order {T} (cs : list (call T)) (l : list (reply T)) : Prop :=
  length l = length cs /\
  ids l = seq 0 (length (ids l)) /\
  forall i k a, added cs l i k a ->
    (accepted a \/ a = Id None) /\
    (accepted a <-> (forall j, j < i -> nth_error cs j <> Some Commit) /\
                    (forall j b, j < i -> added cs l j k b -> ~ accepted b)).

(** What a scene query must answer.  [firm g i u]: primitive [i] of geometry [g] is
    certainly hit at [u]; [hit g i t]: it may be reported at [t]. *)
Definition scene_answer (firm hit : nat -> nat -> R -> Prop) (about : nat -> nat -> R -> rayhit xr -> Prop)
    (anyhit : bool) (rh : rayhit xr) (res : res (bool * rayhit xr)) : Prop :=
  exists b rh', res = Ok (b, rh') /\
    (b = false -> rh' = rh /\ forall g j u, ~ firm g j u) /\
    (b = true -> exists g i t, hit g i t /\ h_geom rh' = Some g /\ h_prim rh' = Some i /\
       isR (h_distance rh') t /\ about g i t rh' /\
       (anyhit = false -> forall g j u, firm g j u -> (t <= u)%R)).

(** The real number that a scalar stands for (0 for infinities and NaN). *)
Definition xval (x : xr) : R := match x with Xf _ a => a | _ => 0%R end.
Definition vval (v : vec xr) : vec R := vmap xval v.
Definition mval (m : mat xr) : mat R := vmap vval m.
Definition finite (x : xr) : Prop := exists s a, x = Xf s a.
Definition vfinite (v : vec xr) : Prop := finite (vx v) /\ finite (vy v) /\ finite (vz v).
Definition mfinite (m : mat xr) : Prop := vfinite (vx m) /\ vfinite (vy m) /\ vfinite (vz m).
Definition xn (l : list xr) (i : nat) : R := xval (nth i l (Fin 0)).
Definition vn (l : list (vec xr)) (i : nat) : vec R := vval (nth i l (vfin rv_zero)).
Definition mn (l : list (mat xr)) (i : nat) : mat R := mval (nth i l (mfin (V rv_zero rv_zero rv_zero))).

(** The [j]th call added the geometry with id [g]. *)
Definition geometry_of {T} (cs : list (call T)) (l : list (reply T)) (g : nat) (c : call T) : Prop :=
  exists j, nth_error cs j = Some c /\ nth_error l j = Some (Id (Some g)).

Local Open Scope R_scope.

(** Primitive [i] of the geometry that the call adds is hit at [t].  [tol] widens the
    triangles.  A cylinder is hit where the ray first meets its surface, unless the ray
    starts beside one of its caps (C30). *)
Definition call_hit (tol : R) (O U : vec R) (m : R) (tmax : xr) (c : call xr) (i : nat) (t : R) : Prop :=
  match c with
  | AddMesh vs fs => SpecTri.mesh_hit tol fs (vn vs) O U m tmax i t
  | AddSpheres cs rs => (i < length cs)%nat /\
      (SpecSphere.on_sphere (vn cs i) (xn rs i) (at_t O U t) /\ m < t) /\ xltb (Fin t) tmax = true
  | AddPlanes cs dxs dys rots => (i < length cs)%nat /\
      (rv_dot U (SpecPlane.normal_of (mn rots i)) <> 0 /\
       SpecPlane.on_patch (vn cs i) (xn dxs i) (xn dys i) (mn rots i) (at_t O U t) /\ m < t) /\
      xltb (Fin t) tmax = true
  | AddCylinders cs sa sb hs rots => (i < length cs)%nat /\
      (SpecCyl.seen_from (vn cs i) (xn sa i) (xn sb i) (xn hs i) (mn rots i) O /\
       SpecCyl.first_met (vn cs i) (xn sa i) (xn sb i) (xn hs i) (mn rots i) O U t) /\ xltb (Fin t) tmax = true
  | _ => False
  end.

(** The same without tolerance; cylinders are not only touched from the side. *)
Definition call_cross (O U : vec R) (m : R) (tmax : xr) (c : call xr) (i : nat) (t : R) : Prop :=
  match c with
  | AddMesh vs fs => SpecTri.mesh_cross fs (vn vs) O U m tmax i t
  | AddCylinders cs sa sb hs rots => (i < length cs)%nat /\
      (SpecCyl.seen_from (vn cs i) (xn sa i) (xn sb i) (xn hs i) (mn rots i) O /\
       SpecCyl.pierces (vn cs i) (xn sa i) (xn sb i) (xn hs i) (mn rots i) O U t) /\ xltb (Fin t) tmax = true
  | _ => call_hit 0 O U m tmax c i t
  end.

(** What the record says beyond distance and ids. *)
Definition call_about (O U : vec R) (c : call xr) (i : nat) (t : R) (rh : rayhit xr) : Prop :=
  match c with
  | AddMesh vs fs => SpecTri.mesh_about fs (vn vs) O U i t rh
  | AddSpheres cs rs => SpecSphere.sphere_about (vn cs) (xn rs) O U i t rh
  | AddPlanes cs dxs dys rots => SpecPlane.plane_about (vn cs) (xn dxs) (xn dys) (mn rots) O U i t rh
  | AddCylinders cs sa sb hs rots => SpecCyl.cylinder_about (vn cs) (xn sa) (xn sb) (xn hs) (mn rots) O U i t rh
  | _ => False
  end.

(** The data are finite and well formed, and a ray in a plane of constant z does not
    run along the top or bottom of a primitive's box. *)
Definition call_ok (big tiny : R) (O D : vec R) (c : call xr) : Prop :=
  match c with
  | AddMesh vs fs => SpecTri.mesh_are vs fs (vn vs) /\
      forall i, (i < length fs)%nat ->
        let lo := SpecTri.tri_lower (SpecTri.fa fs (vn vs) i) (SpecTri.fb fs (vn vs) i) (SpecTri.fc fs (vn vs) i) in
        let hi := SpecTri.tri_upper (SpecTri.fa fs (vn vs) i) (SpecTri.fb fs (vn vs) i) (SpecTri.fc fs (vn vs) i) in
        in_bounds big lo /\ in_bounds big hi /\ (vz D = 0 -> vz O <> vz lo /\ vz O <> vz hi)
  | AddSpheres cs rs =>
      (forall c, In c cs -> vfinite c) /\ (forall x, In x rs -> finite x) /\
      forall i, (i < length cs)%nat ->
        let lo := SpecSphere.lower (vn cs i) (xn rs i) in
        let hi := SpecSphere.upper (vn cs i) (xn rs i) in
        0 <= xn rs i /\ in_bounds big lo /\ in_bounds big hi /\ (vz D = 0 -> vz O <> vz lo /\ vz O <> vz hi)
  | AddPlanes cs dxs dys rots =>
      (forall c, In c cs -> vfinite c) /\ (forall x, In x dxs -> finite x) /\ (forall x, In x dys -> finite x) /\
      (forall r, In r rots -> mfinite r) /\
      forall i, (i < length cs)%nat ->
        let lo := SpecPlane.plane_lower (vn cs i) (xn dxs i) (xn dys i) (mn rots i) tiny in
        let hi := SpecPlane.plane_upper (vn cs i) (xn dxs i) (xn dys i) (mn rots i) tiny in
        0 < xn dxs i /\ 0 < xn dys i /\ SpecPlane.orthogonal (mn rots i) /\
        in_bounds big lo /\ in_bounds big hi /\ (vz D = 0 -> vz O <> vz lo /\ vz O <> vz hi)
  | _ => False
  end.

(** The same for cylinders: turned by multiples of right angles, the ray's interval starts
    at 0, and it starts on no surface. *)
Definition cylinders_plain (big : R) (O D : vec R) (m : R) (cs : list (vec xr)) (sa sb hs : list xr) (rots : list (mat xr)) : Prop :=
  let C := vn cs in let a := xn sa in let b := xn sb in let h := xn hs in let Rm := mn rots in
  (forall c, In c cs -> vfinite c) /\ (forall x, In x sa -> finite x) /\ (forall x, In x sb -> finite x) /\
  (forall x, In x hs -> finite x) /\ (forall r, In r rots -> mfinite r) /\ m = 0 /\
  (forall i, (i < length cs)%nat ->
     let lo := SpecCyl.cyl_lower (C i) (a i) (b i) (h i) (Rm i) in
     let hi := SpecCyl.cyl_upper (C i) (a i) (b i) (h i) (Rm i) in
     (0 < a i /\ 0 < b i /\ 0 < h i /\ SpecPlane.orthogonal (Rm i) /\ SpecCyl.axis_aligned (Rm i)) /\
     in_bounds big lo /\ in_bounds big hi /\ (vz D = 0 -> vz O <> vz lo /\ vz O <> vz hi) /\
     ~ SpecCyl.world (SpecCyl.on_surface (a i) (b i) (h i)) (C i) (Rm i) O).
(** The ray meets at most one of those that can be seen. *)
Definition cylinders_ok (big : R) (O D : vec R) (m : R) (cs : list (vec xr)) (sa sb hs : list xr) (rots : list (mat xr)) : Prop :=
  let C := vn cs in let a := xn sa in let b := xn sb in let h := xn hs in let Rm := mn rots in
  cylinders_plain big O D m cs sa sb hs rots /\
  (forall i j t u, (i < length cs)%nat -> (j < length cs)%nat ->
     SpecCyl.seen_from (C i) (a i) (b i) (h i) (Rm i) O -> SpecCyl.seen_from (C j) (a j) (b j) (h j) (Rm j) O ->
     SpecCyl.meets (C i) (a i) (b i) (h i) (Rm i) O (unit_of D) t ->
     SpecCyl.meets (C j) (a j) (b j) (h j) (Rm j) O (unit_of D) u -> i = j).
Definition call_plain (big tiny : R) (O D : vec R) (m : R) (c : call xr) : Prop :=
  match c with
  | AddCylinders cs sa sb hs rots => cylinders_plain big O D m cs sa sb hs rots
  | _ => call_ok big tiny O D c
  end.
Definition call_fine (big tiny : R) (O D : vec R) (m : R) (c : call xr) : Prop :=
  match c with
  | AddCylinders cs sa sb hs rots => cylinders_ok big O D m cs sa sb hs rots
  | _ => call_ok big tiny O D c
  end.

(** Instead of that, all seen cylinders that the ray meets are first met before [tmax]. *)
Definition call_seen (big tiny : R) (O D : vec R) (m : R) (tmax : xr) (c : call xr) : Prop :=
  match c with
  | AddCylinders cs sa sb hs rots => cylinders_plain big O D m cs sa sb hs rots /\
      forall i t, (i < length cs)%nat -> SpecCyl.seen_from (vn cs i) (xn sa i) (xn sb i) (xn hs i) (mn rots i) O ->
        SpecCyl.first_met (vn cs i) (xn sa i) (xn sb i) (xn hs i) (mn rots i) O (unit_of D) t -> xltb (Fin t) tmax = true
  | _ => call_ok big tiny O D c
  end.

(** How many primitives the call adds, and the options that the history sets. *)
Definition primitives {T} (c : call T) : nat :=
  match c with
  | AddMesh _ fs => length fs
  | AddSpheres cs _ => length cs
  | AddPlanes cs _ _ _ => length cs
  | AddCylinders cs _ _ _ _ => length cs
  | _ => 0%nat
  end.
Definition used_options {T} (opt0 : options) (cs : list (call T)) (opt : options) : Prop :=
  opt = opt0 \/ In (SetOptions opt) cs.
(** All trees of the history have depth 26 or less. *)
Definition all_shallow {T} (opt0 : options) (cs : list (call T)) (l : list (reply T)) : Prop :=
  forall opt g c, used_options opt0 cs opt -> geometry_of cs l g c -> SpecBvh.shallow opt (primitives c).

(** [scene_answer] over the geometries that a history added. *)
Definition history_answer (tol : R) (cs : list (call xr)) (l : list (reply xr)) (O U : vec R) (m : R) (tmax : xr)
    (anyhit : bool) (rh : rayhit xr) (res : res (bool * rayhit xr)) : Prop :=
  scene_answer (fun g i t => exists c, geometry_of cs l g c /\ call_cross O U m tmax c i t)
    (fun g i t => exists c, geometry_of cs l g c /\ call_hit tol O U m tmax c i t)
    (fun g i t rh => exists c, geometry_of cs l g c /\ call_about O U c i t rh) anyhit rh res.

(** The same with exact hits: true exactly if something is hit. *)
Definition exact_answer (cs : list (call xr)) (l : list (reply xr)) (O U : vec R) (m : R) (tmax : xr)
    (anyhit : bool) (rh : rayhit xr) (res : res (bool * rayhit xr)) : Prop :=
  exists b rh', res = Ok (b, rh') /\
    (b = true <-> exists g c i t, geometry_of cs l g c /\ call_cross O U m tmax c i t) /\
    (b = false -> rh' = rh) /\
    (b = true -> exists g c i t, geometry_of cs l g c /\ call_cross O U m tmax c i t /\
       h_geom rh' = Some g /\ h_prim rh' = Some i /\ isR (h_distance rh') t /\ call_about O U c i t rh' /\
       (anyhit = false -> forall g c j u, geometry_of cs l g c -> call_cross O U m tmax c j u -> t <= u)).

(** The call's arrays are long enough. *)
Definition call_lengths (c : call xr) : Prop :=
  match c with
  | AddSpheres cs rs => (length cs <= length rs)%nat
  | AddPlanes cs dxs dys rots => (length cs <= length dxs /\ length cs <= length dys /\ length cs <= length rots)%nat
  | AddCylinders cs sa sb hs rots => (length cs <= length sa /\ length cs <= length sb /\ length cs <= length hs /\ length cs <= length rots)%nat
  | _ => True
  end.
(** The bin count is at least 1, and three times it fits into 32 bits. *)
Definition bins_ok (opt : options) : Prop :=
  (1 <= bin_size opt)%nat /\ (3 * Z.of_nat (bin_size opt) < 4294967296)%Z.
Definition is_query {T} (c : call T) : bool := match c with Query _ _ => true | _ => false end.
