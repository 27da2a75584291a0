(** Embree-backed scenes: histories of calls. *)

From Coq Require Import List Bool Arith.
From Verif Require Import Num Vec Ray Bvh Scene Embree EmbreeScene SpecScene.
Import ListNotations.

Section Calls.
Context {T : Type} {N : num T}.
Variable part : (nat -> bool) -> list nat -> list nat * list nat.
Variable single : bool.
Variable tri : nat -> list (vec T) -> list (vec nat) -> rtc_rayhit T -> rtc_rayhit T.
(** The callbacks that Embree runs for a ray. *)
Variable calls : escene T -> ray T -> list nat.

(** The same calls as on BlazertScene; SetOptions is an assignment to
    blazertscene.build_options. *)
Definition e_step (s : escene T) (c : call T) : res (escene T * reply T) :=
  match c with
  | AddMesh v f => do (s, id) <- e_add_mesh single s v f; Ok (s, Id id)
  | AddSpheres c r => do (s, id) <- e_add_spheres single s c r; Ok (s, Id id)
  | AddPlanes c x y m => do (s, id) <- e_add_planes single s c x y m; Ok (s, Id id)
  | AddCylinders c a b h m => do (s, id) <- e_add_cylinders single s c a b h m; Ok (s, Id id)
  | SetOptions opt =>
      let b := q_blazert s in
      Ok (with_blazert s (Scene opt (sc_committed b) (sc_count b) (sc_mesh b) (sc_spheres b)
                                (sc_planes b) (sc_cylinders b)), Done)
  | Commit => do (s, _) <- e_commit part single s; Ok (s, Done)
  | Query r rh => do (b, rh) <- e_intersect1 single tri (calls s r) s r rh; Ok (s, Answer b rh)
  end.

Fixpoint e_run (s : escene T) (cs : list (call T)) : res (escene T * list (reply T)) :=
  match cs with
  | [] => Ok (s, [])
  | c :: cs =>
      do (s, a) <- e_step s c;
      do (s, l) <- e_run s cs;
      Ok (s, a :: l)
  end.
End Calls.

(** The call adds at least one primitive, with all its data. *)
Definition first_given {T} (c : call T) : Prop :=
  match c with
  | AddMesh _ _ => True
  | AddSpheres c r => c <> [] /\ r <> []
  | AddPlanes c x y m => c <> [] /\ x <> [] /\ y <> [] /\ m <> []
  | AddCylinders c a b h m => c <> [] /\ a <> [] /\ b <> [] /\ h <> [] /\ m <> []
  | _ => False
  end.

(** Spheres, planes and cylinders are added at most once each. *)
Definition each_once {T} (cs : list (call T)) : Prop :=
  forall i j c c', nth_error cs i = Some c -> nth_error cs j = Some c' ->
    adds c = adds c' -> adds c <> Some KMesh -> i = j.

(** What call number [g] attaches: its first primitive. *)
Definition attaches {T} (g : nat) (c : call T) (o : egeom T) : Prop :=
  match c, o with
  | AddMesh v f, GMesh v' f' => v' = v /\ f' = f
  | AddSpheres cs rs, GSphere e =>
      es_geom e = Some g /\ hd_error cs = Some (es_center e) /\ hd_error rs = Some (es_radius e)
  | AddPlanes cs xs ys ms, GPlane e =>
      ep_geom e = Some g /\ hd_error cs = Some (ep_center e) /\ hd_error xs = Some (ep_d1 e) /\
      hd_error ys = Some (ep_d2 e) /\ hd_error ms = Some (ep_rot e)
  | AddCylinders cs sa sb hs ms, GCyl e =>
      ec_geom e = Some g /\ hd_error cs = Some (ec_center e) /\ hd_error sa = Some (ec_a e) /\
      hd_error sb = Some (ec_b e) /\ hd_error hs = Some (ec_h e) /\ hd_error ms = Some (ec_rot e)
  | _, _ => False
  end.
