(** The stream output operators, as the text they produce.

    [show] is the stream's formatting of a number, [addr] that of the address of the object printed,
    [addrs i] of element [i] of a container.  The arguments of a chain of << are listed in order. *)

From Coq Require Import ZArith Strings.String Strings.Ascii List Bool.
From Verif Require Import Num Vec Datatypes Ray Bvh Sphere Plane Cylinder Trimesh Scene Embree Mains.
Import ListNotations.
Local Open Scope string_scope.
Local Open Scope list_scope.

Definition NL : ascii := "010".
Definition ln (s : string) : string := s ++ String NL "".
Fixpoint cat (l : list string) : string :=
  match l with
  | [] => ""
  | s :: l => s ++ cat l
  end.
Fixpoint of_codes (l : list Z) : string :=
  match l with
  | [] => ""
  | c :: l => String (ascii_of_N (Z.to_N c)) (of_codes l)
  end.
(** An unsigned int; None is static_cast<unsigned int>(-1). *)
Definition dec (z : Z) : string := of_codes (print_size z).
Definition show_nat (n : nat) : string := dec (Z.of_nat n).
Definition show_opt (n : option nat) : string := match n with Some n => show_nat n | None => dec 4294967295 end.
Definition show_bit (b : bool) : string := if b then dec 1 else dec 0.

Section Model.
Context {T : Type} {N : num T}.
Variable show : T -> string.
Variable addr : string.
Variable addrs : nat -> string.

(** The three rows of a rotation, as in plane.h:296-302. *)
Definition show_rot (m : mat T) : list string :=
  ["  ""rotation"": [["; show (vx (vx m)); ", "; show (vy (vx m)); ", "; show (vz (vx m)); ln "],";
   "             ["; show (vx (vy m)); ", "; show (vy (vy m)); ", "; show (vz (vy m)); ln "],";
   "             ["; show (vx (vz m)); ", "; show (vy (vz m)); ", "; show (vz (vz m)); ln "]],"].
(** A vector with "," between, as in sphere.h:191. *)
Definition show_vec (v : vec T) : list string := [show (vx v); ","; show (vy v); ","; show (vz v); ln "],"].
(** With ", " between, as in node.h:47. *)
Definition show_vec2 (v : vec T) : list string := [show (vx v); ", "; show (vy v); ", "; show (vz v); ln "],"].

(** sphere.h:184-199. *)
Definition print_sphere (at_ : string) (s : sphere T) : list string :=
  [ln "{"; "  ""Sphere"": "; at_; ln ","; "  ""center"": ["] ++ show_vec (sp_center s) ++
  ["  ""radius"": "; show (sp_radius s); ln ","; "  ""prim_id"": "; show_nat (sp_id s); ln ""; ln "}"].
(** plane.h:287-306. *)
Definition print_plane (at_ : string) (p : plane T) : list string :=
  [ln "{"; "  ""Plane"": "; at_; ln ","; "  ""center"": ["] ++ show_vec (pl_center p) ++
  ["  ""dx"": "; show (pl_dx p); ln ","; "  ""dy"": "; show (pl_dy p); ln ","] ++ show_rot (pl_rot p) ++
  ["  ""prim_id"": "; show_nat (pl_id p); ln ""; ln "}"].
(** cylinder.h:761-782. *)
Definition print_cylinder (at_ : string) (c : cylinder T) : list string :=
  [ln "{"; "  ""Cylinder"": "; at_; ln ","; "  ""center"": ["] ++ show_vec (cy_center c) ++
  ["  ""semi_axis_a"": "; show (cy_a c); ln ","; "  ""semi_axis_b"": "; show (cy_b c); ln ",";
   "  ""height"": "; show (cy_h c); ln ","] ++ show_rot (cy_rot c) ++
  ["  ""prim_id"": "; show_nat (cy_id c); ln ""; ln "}"].
(** trimesh.h:195-208: the second number of "a" is c[1]. *)
Definition print_triangle (at_ : string) (t : triangle T) : list string :=
  [ln "{"; "  ""Triangle"": "; at_; ln ",";
   "  ""a"": [ "; show (vx (tr_a t)); ", "; show (vy (tr_c t)); ", "; show (vz (tr_a t)); ln "],"; "  ""b"": [ "] ++ show_vec2 (tr_b t) ++
  ["  ""c"": [ "] ++ show_vec2 (tr_c t) ++
  ["  ""prim_id"": "; show_nat (tr_id t); ln ""; ln "}"].

(** sphere.h:202-220, plane.h:308-326, cylinder.h:784-802, trimesh.h:210-227.  The number of
    primitives is below 2^32. *)
Fixpoint print_items {P} (print : string -> P -> list string) (prim : nat -> res P) (last : nat) (ids : list nat) : res (list string) :=
  match ids with
  | [] => Ok []
  | i :: ids =>
      do p <- prim i;
      do rest <- print_items print prim last ids;
      Ok (print (addrs i) p ++ [if (i =? last)%nat then ln "]" else ln ", "] ++ rest)
  end.
Definition print_coll {P} (head size : string) (print : string -> P -> list string) (c : coll T P) : res (list string) :=
  do items <- print_items print (c_prim c) (c_size c - 1) (seq 0 (c_size c));
  Ok ([ln "{"; head; ln ""; size; show_nat (c_size c); ln "},"] ++ items ++ [ln "}"]).
Definition print_spheres (s : spheres T) : res (list string) :=
  print_coll """SphereCollection"": [" "{""size"": " print_sphere (sphere_coll s).
Definition print_planes (s : planes T) : res (list string) :=
  print_coll """PlaneCollection"": [" "{""size"": " print_plane (plane_coll s).
Definition print_cylinders (s : cylinders T) : res (list string) :=
  print_coll """CylinderCollection"": [" "{ ""size"": " print_cylinder (cylinder_coll s).
Definition print_mesh (s : mesh T) : res (list string) :=
  print_coll """TriangleMesh"": [" "{""size"": " print_triangle (mesh_coll s).

(** node.h:43-53. *)
Definition print_node {P} (at_ : string) (n : node T P) : list string :=
  [ln "{"; "  ""node"": "; at_; ln ","; "  ""min:"" ["] ++ show_vec2 (nd_min n) ++ ["  ""max:"" ["] ++ show_vec2 (nd_max n) ++
  ["  ""leaf"": "; show_bit (nd_leaf n); ln ","; "  ""axis"": "; show_opt (nd_axis n); ln ""; ln "}"].
(** accel.h:122-144. *)
Fixpoint print_nodes {P} (i : nat) (nodes : list (node T P)) : list string :=
  match nodes with
  | [] => []
  | n :: rest => print_node (addrs i) n ++ [match rest with [] => "]" | _ => ", " end; ln ""] ++ print_nodes (S i) rest
  end.
Definition print_bvh {P} (nodes : list (node T P)) : list string :=
  ["{"; ln ""; """nodes"": [ "; ln ""] ++ print_nodes 0 nodes ++ ["}"; ln ""].
(** statistics.h:39-53; [time] is the formatted build time. *)
Definition print_stats (time : string) (s : stats) : list string :=
  [ln "{"; "  statistics: "; addr; ln ","; "  max_tree_depth: "; show_nat (st_depth s); ln ",";
   "  max_num_prims_per_leaf: "; show_nat (st_max_prims s); ln ","; "  min_num_prims_per_leaf: "; show_opt (st_min_prims s); ln ",";
   "  leaf_nodes: "; show_nat (st_leaves s); ln ","; "  branch_nodes: "; show_nat (st_branches s); ln ",";
   "  bad_splits: "; show_nat (st_bad s); ln ","; "  build_time: "; time; ln ""; ln "}"].
(** ray.h:87-104; [cull] is the cull_back_face flag. *)
Definition print_ray (cull : bool) (r : ray T) : list string :=
  [ln "{"; "  Ray: "; addr; ln ","; "  origin: ["] ++ show_vec (origin r) ++ ["  direction: ["] ++ show_vec (direction r) ++
  ["  direction_inv: ["] ++ show_vec (direction_inv r) ++
  ["  direction_sign: ["; show_bit (vx (direction_sign r)); ","; show_bit (vy (direction_sign r)); ","; show_bit (vz (direction_sign r)); ln "],";
   "  min_hit_distance: "; show (min_hit_distance r); ln ","; "  max_hit_distance "; show (max_hit_distance r); ln ",";
   "  cull_back_face "; if cull then "yes" else "no"; ln ","; "  any_hit: "; if any_hit r then "yes" else "no"; ln ""; ln "}"].
(** ray.h:106-120. *)
Definition print_rayhit (h : rayhit T) : list string :=
  [ln "{"; "  Ray: "; addr; ln ","; "  normal: ["] ++ show_vec (h_normal h) ++
  ["  uv: ["; show (fst (h_uv h)); ","; show (snd (h_uv h)); ln "],"; "  hit_distance: "; show (h_distance h); ln ",";
   "  prim_id: "; show_opt (h_prim h); ln ","; "  geom_id: "; show_opt (h_geom h); ln ","; ln "}"].

(** scene.h:118-150. *)
Definition some {A} (o : option A) : bool := match o with Some _ => true | None => false end.
Definition print_part {C P} (print : C -> res (list string)) (more : bool) (g : option (geometry C T P)) : res (list string) :=
  match g with
  | None => Ok []
  | Some g => do l <- print (g_coll g); Ok (l ++ (if more then [ln ","] else []))
  end.
Definition print_scene (s : scene T) : res (list string) :=
  do m <- print_part print_mesh (some (sc_spheres s) || some (sc_cylinders s) || some (sc_planes s)) (sc_mesh s);
  do b <- print_part print_spheres (some (sc_cylinders s) || some (sc_planes s)) (sc_spheres s);
  do c <- print_part print_cylinders (some (sc_planes s)) (sc_cylinders s);
  do p <- print_part print_planes false (sc_planes s);
  Ok ([ln "{"; "  ""Scene"": "; addr; ln ","; "  ""Collections"": ["; ln ""] ++ m ++ b ++ c ++ p ++ [ln "  ]"; ln "}"]).

(** EmbreeSphere.h:190-203, EmbreePlane.h:266-287, EmbreeCylinder.h:551-574. *)
Definition print_esphere (e : esphere T) : list string :=
  [ln "{"; "  ""EmbreeSphere"": "; addr; ln ","; "  ""center"": ["] ++ show_vec (es_center e) ++
  ["  ""radius"": "; show (es_radius e); ln ""; ln "}"].
Definition print_eplane (e : eplane T) : list string :=
  [ln "{"; "  ""EmbreePlane"": "; addr; ln ","; "  ""center"": ["] ++ show_vec (ep_center e) ++
  ["  ""d1"": "; show (ep_d1 e); ln ""; "  ""d2"": "; show (ep_d2 e); ln ""] ++ show_rot (ep_rot e) ++ [ln "}"].
Definition print_ecyl (e : ecyl T) : list string :=
  [ln "{"; "  ""EmbreeCylinder"": "; addr; ln ","; "  ""cylinder"": ["] ++ show_vec (ec_center e) ++
  ["  ""a"": "; show (ec_a e); ln ""; "  ""b"": "; show (ec_b e); ln ""; "  ""height"": "; show (ec_h e); ln ""] ++
  show_rot (ec_rot e) ++ [ln "}"].
End Model.
