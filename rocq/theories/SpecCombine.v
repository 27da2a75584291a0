(** What a scene query makes of the answers of its geometries. *)

From Coq Require Import List Bool.
From Verif Require Import Num Vec Ray Bvh Traverse Sphere Plane Trimesh Cylinder Scene SpecScene.
Import ListNotations.
Open Scope num_scope.

(** [<] is a strict order on the numbers, and total among those that are below some number
    (NaN is below none). *)
Definition ordered (T : Type) (N : num T) : Prop :=
  (forall a : T, (a <? a) = false) /\
  (forall a b c : T, (a <? b) = true -> (b <? c) = true -> (a <? c) = true) /\
  (forall a b c m : T, (a <? b) = true -> (c <? m) = true -> (a <? c) = true \/ (c <? b) = true).

Section S.
Context {T : Type} {N : num T}.

(** What a geometry alone answers to a ray, on a fresh record. *)
Definition asked {C P I} (isx : C -> isector T P I) (g : option (geometry C T P)) (r : ray T)
    : list (nat * res (bool * rayhit T)) :=
  match g with
  | None => []
  | Some g => [(g_id g, traverse (isx (g_coll g)) (g_nodes g) r new_rayhit)]
  end.
(** The answers of all geometries of a scene: mesh, spheres, planes, cylinders. *)
Definition answers (s : scene T) (r : ray T) : list (nat * res (bool * rayhit T)) :=
  asked tri_isector (sc_mesh s) r ++ asked sphere_isector (sc_spheres s) r ++
  asked (fun _ => plane_isector) (sc_planes s) r ++ asked (fun _ => cylinder_isector) (sc_cylinders s) r.

(** The combination: a hit exactly if one geometry reports one; then the record of the
    first geometry among those with the least distance, with that geometry's id. *)
Definition combined (l : list (nat * res (bool * rayhit T))) (rh : rayhit T) (x : res (bool * rayhit T)) : Prop :=
  exists b rh', x = Ok (b, rh') /\
    (b = true <-> exists g rec, In (g, Ok (true, rec)) l) /\
    (b = false -> rh' = rh) /\
    (b = true -> exists l1 g rec l2, l = l1 ++ (g, Ok (true, rec)) :: l2 /\
       rh' = RayHit (h_normal rec) (h_uv rec) (h_distance rec) (h_prim rec) (Some g) /\
       (forall g' rec', In (g', Ok (true, rec')) l1 -> (h_distance rec <? h_distance rec') = true) /\
       (forall g' rec', In (g', Ok (true, rec')) l2 -> (h_distance rec' <? h_distance rec) = false)).

(** What the geometry that the call adds answers alone, to a fresh record, when built with
    the options [opt]. *)
Definition alone (part : (nat -> bool) -> list nat -> list nat * list nat) (opt : options) (c : call T)
    (r : ray T) (a : res (bool * rayhit T)) : Prop :=
  match c with
  | AddMesh vs fs => exists m n st, make_mesh vs fs = Ok m /\ build part [] (mesh_coll m) opt = Ok (n, st) /\
      a = traverse (tri_isector m) n r new_rayhit
  | AddSpheres ce ra => exists m n st, make_spheres ce ra = Ok m /\ build part [] (sphere_coll m) opt = Ok (n, st) /\
      a = traverse (sphere_isector m) n r new_rayhit
  | AddPlanes ce dx dy ro => exists m n st, make_planes ce dx dy ro = Ok m /\ build part [] (plane_coll m) opt = Ok (n, st) /\
      a = traverse plane_isector n r new_rayhit
  | AddCylinders ce sa sb hs ro => exists m n st, make_cylinders ce sa sb hs ro = Ok m /\
      build part [] (cylinder_coll m) opt = Ok (n, st) /\ a = traverse cylinder_isector n r new_rayhit
  | _ => False
  end.

(** [la] holds, by geometry id, the answers of exactly the geometries that the history added. *)
Definition answers_of part (opt0 : options) (cs : list (call T)) (l : list (reply T)) (r : ray T)
    (la : list (nat * res (bool * rayhit T))) : Prop :=
  (forall g a, In (g, a) la -> exists c opt, geometry_of cs l g c /\ (opt = opt0 \/ In (SetOptions opt) cs) /\ alone part opt c r a) /\
  (forall g c, geometry_of cs l g c -> exists a, In (g, a) la) /\
  NoDup (map fst la).
End S.
