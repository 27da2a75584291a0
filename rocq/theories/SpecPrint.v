(** What the printed texts should say. *)

From Coq Require Import ZArith Strings.String List Bool.
From Verif Require Import Num Vec Bvh Sphere Plane Cylinder Trimesh Scene Embree Print SpecJson.
Import ListNotations.
Local Open Scope string_scope.
Local Open Scope list_scope.

(** Numbers of type unsigned int. *)
Definition fits (n : nat) : Prop := (Z.of_nat n < 4294967296)%Z.

Section Spec.
Context {T : Type}.
Variable show : T -> string.
Definition jnum (x : T) : json := JWord (show x).
Definition jvec (v : vec T) : json := JArr [jnum (vx v); jnum (vy v); jnum (vz v)].
Definition jmat (m : mat T) : json := JArr [jvec (vx m); jvec (vy m); jvec (vz m)].
Definition jid (n : nat) : json := JWord (show_nat n).
Definition jsphere (at_ : string) (s : sphere T) : json :=
  JObj [("Sphere", JWord at_); ("center", jvec (sp_center s)); ("radius", jnum (sp_radius s)); ("prim_id", jid (sp_id s))].
Definition jplane (at_ : string) (p : plane T) : json :=
  JObj [("Plane", JWord at_); ("center", jvec (pl_center p)); ("dx", jnum (pl_dx p)); ("dy", jnum (pl_dy p));
        ("rotation", jmat (pl_rot p)); ("prim_id", jid (pl_id p))].
Definition jcylinder (at_ : string) (c : cylinder T) : json :=
  JObj [("Cylinder", JWord at_); ("center", jvec (cy_center c)); ("semi_axis_a", jnum (cy_a c)); ("semi_axis_b", jnum (cy_b c));
        ("height", jnum (cy_h c)); ("rotation", jmat (cy_rot c)); ("prim_id", jid (cy_id c))].
Definition jtriangle (at_ : string) (t : triangle T) : json :=
  JObj [("Triangle", JWord at_); ("a", jvec (tr_a t)); ("b", jvec (tr_b t)); ("c", jvec (tr_c t)); ("prim_id", jid (tr_id t))].
(** As it is printed: the second number of "a" is that of "c". *)
Definition mixed (t : triangle T) : triangle T := Triangle (V (vx (tr_a t)) (vy (tr_c t)) (vz (tr_a t))) (tr_b t) (tr_c t) (tr_id t).
Definition jesphere (at_ : string) (s : esphere T) : json :=
  JObj [("EmbreeSphere", JWord at_); ("center", jvec (es_center s)); ("radius", jnum (es_radius s))].

(** A collection [c]: its size and its primitives in order. *)
Definition jcoll {P} (name : string) (jprim : string -> P -> json) (addrs : nat -> string) (c : coll T P) (v : json) : Prop :=
  exists items, v = JObj [(name, JArr (JObj [("size", jid (c_size c))] :: items))] /\ length items = c_size c /\
    forall i p, (i < c_size c)%nat -> c_prim c i = Ok p -> nth_error items i = Some (jprim (addrs i) p).
(** Its primitives can be read; their numbers are unsigned. *)
Definition printable {P} (id : P -> nat) (c : coll T P) : Prop :=
  fits (c_size c) /\ forall i, (i < c_size c)%nat -> exists p, c_prim c i = Ok p /\ fits (id p).

(** A scene: its collections that are there, meshes first, then spheres, cylinders and planes. *)
Definition jpart {C P} (name : string) (jprim : string -> P -> json) (addrs : nat -> string) (of : C -> coll T P)
    (g : option (geometry C T P)) (l : list json) : Prop :=
  match g with
  | None => l = []
  | Some g => exists v, l = [v] /\ jcoll name jprim addrs (of (g_coll g)) v
  end.
(** The collection is printable if it is there, and holds a primitive. *)
Definition part_printable {C P} (id : P -> nat) (of : C -> coll T P) (g : option (geometry C T P)) : Prop :=
  forall g', g = Some g' -> printable id (of (g_coll g')).
Definition part_filled {C P} (of : C -> coll T P) (g : option (geometry C T P)) : Prop :=
  forall g', g = Some g' -> c_size (of (g_coll g')) <> 0%nat.
Context {N : num T}.
Definition jscene (addr : string) (addrs : nat -> string) (s : scene T) (v : json) : Prop :=
  exists m b c p,
    jpart "TriangleMesh" (fun a t => jtriangle a (mixed t)) addrs mesh_coll (sc_mesh s) m /\
    jpart "SphereCollection" jsphere addrs sphere_coll (sc_spheres s) b /\
    jpart "CylinderCollection" jcylinder addrs cylinder_coll (sc_cylinders s) c /\
    jpart "PlaneCollection" jplane addrs plane_coll (sc_planes s) p /\
    v = JObj [("Scene", JWord addr); ("Collections", JArr (m ++ b ++ c ++ p))].
Definition scene_printable (s : scene T) : Prop :=
  part_printable tr_id mesh_coll (sc_mesh s) /\ part_printable sp_id sphere_coll (sc_spheres s) /\
  part_printable cy_id cylinder_coll (sc_cylinders s) /\ part_printable pl_id plane_coll (sc_planes s).
Definition scene_filled (s : scene T) : Prop :=
  part_filled mesh_coll (sc_mesh s) /\ part_filled sphere_coll (sc_spheres s) /\
  part_filled cylinder_coll (sc_cylinders s) /\ part_filled plane_coll (sc_planes s).
End Spec.
