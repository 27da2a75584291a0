(** C98: the stream output operators and JSON. *)

From Coq Require Import ZArith Strings.String List Bool Floats.SpecFloat.
From Verif Require Import Num NumF Vec Datatypes Ray Bvh Sphere Plane Cylinder Trimesh Scene Embree SpecMain Mains Print SpecJson SpecPrint.
From Verif Require Import PfPrint PfPrint2 CasePrint.
Import ListNotations.
Local Open Scope string_scope.
Local Open Scope list_scope.

(** C98.  A sphere, plane, cylinder and Embree sphere are printed as the JSON object that lists their
    members, whatever the stream's way to write numbers and addresses as words. *)
Theorem C98_sphere : forall T (show : T -> string), (forall x, word (show x)) -> forall a, word a ->
  forall s, fits (sp_id s) -> json_text (cat (print_sphere show a s)) (jsphere show a s).
Proof. exact (@sphere_text). Qed.
Print Assumptions C98_sphere.
Theorem C98_plane : forall T (show : T -> string), (forall x, word (show x)) -> forall a, word a ->
  forall p, fits (pl_id p) -> json_text (cat (print_plane show a p)) (jplane show a p).
Proof. exact (@plane_text). Qed.
Print Assumptions C98_plane.
Theorem C98_cylinder : forall T (show : T -> string), (forall x, word (show x)) -> forall a, word a ->
  forall c, fits (cy_id c) -> json_text (cat (print_cylinder show a c)) (jcylinder show a c).
Proof. exact (@cylinder_text). Qed.
Print Assumptions C98_cylinder.
Theorem C98_embree_sphere : forall T (show : T -> string), (forall x, word (show x)) -> forall a, word a ->
  forall s, json_text (cat (print_esphere show a s)) (jesphere show a s).
Proof. exact (@esphere_text). Qed.
Print Assumptions C98_embree_sphere.
(** A triangle is printed as JSON as well, but with the second number of "c" in the place of that of "a". *)
Theorem C98_triangle : forall T (show : T -> string), (forall x, word (show x)) -> forall a, word a ->
  forall t, fits (tr_id t) -> json_text (cat (print_triangle show a t)) (jtriangle show a (mixed t)).
Proof. exact (@triangle_text). Qed.
Print Assumptions C98_triangle.
(** A number of type unsigned int is written in decimal. *)
Theorem C98_numbers : forall n, fits n -> decimal_of (Z.of_nat n) (codes (show_nat n)).
Proof. exact nat_decimal. Qed.
Print Assumptions C98_numbers.
Example C98_sphere_case :
  cat (print_sphere show_whole "0x7f" sphere_) =
    (ln "{" ++ ln "  ""Sphere"": 0x7f," ++ ln "  ""center"": [1,2,-3]," ++ ln "  ""radius"": 4," ++ ln "  ""prim_id"": 7" ++ ln "}")%string /\
  json_text (cat (print_sphere show_whole "0x7f" sphere_))
    (JObj [("Sphere", JWord "0x7f"); ("center", JArr [JWord "1"; JWord "2"; JWord "-3"]); ("radius", JWord "4"); ("prim_id", JWord "7")]).
Proof. exact sphere_case. Qed.

(** A collection that was constructed is printed without undefined behaviour; the text is JSON, with
    the primitives in order, unless the collection is empty. *)
Theorem C98_spheres : forall T (N : num T) (show : T -> string), (forall x, word (show x)) -> forall addrs, (forall i, word (addrs i)) ->
  forall centers radii s, make_spheres centers radii = Ok s -> fits (length centers) ->
  exists l, print_spheres show addrs s = Ok l /\
    (c_size (sphere_coll s) <> 0%nat -> exists v, jcoll "SphereCollection" (jsphere show) addrs (sphere_coll s) v /\ json_text (cat l) v) /\
    (c_size (sphere_coll s) = 0%nat -> not_json (cat l)).
Proof. exact (@spheres_text). Qed.
Print Assumptions C98_spheres.
Theorem C98_planes : forall T (N : num T) (show : T -> string), (forall x, word (show x)) -> forall addrs, (forall i, word (addrs i)) ->
  forall centers dxs dys rots s, make_planes centers dxs dys rots = Ok s -> fits (length centers) ->
  exists l, print_planes show addrs s = Ok l /\
    (c_size (plane_coll s) <> 0%nat -> exists v, jcoll "PlaneCollection" (jplane show) addrs (plane_coll s) v /\ json_text (cat l) v) /\
    (c_size (plane_coll s) = 0%nat -> not_json (cat l)).
Proof. exact (@planes_text). Qed.
Print Assumptions C98_planes.
Theorem C98_cylinders : forall T (N : num T) (show : T -> string), (forall x, word (show x)) -> forall addrs, (forall i, word (addrs i)) ->
  forall centers a b heights rots s, make_cylinders centers a b heights rots = Ok s -> fits (length centers) ->
  exists l, print_cylinders show addrs s = Ok l /\
    (c_size (cylinder_coll s) <> 0%nat -> exists v, jcoll "CylinderCollection" (jcylinder show) addrs (cylinder_coll s) v /\ json_text (cat l) v) /\
    (c_size (cylinder_coll s) = 0%nat -> not_json (cat l)).
Proof. exact (@cylinders_text). Qed.
Print Assumptions C98_cylinders.
Theorem C98_mesh : forall T (N : num T) (show : T -> string), (forall x, word (show x)) -> forall addrs, (forall i, word (addrs i)) ->
  forall vertices faces s, make_mesh vertices faces = Ok s -> fits (length faces) ->
  exists l, print_mesh show addrs s = Ok l /\
    (c_size (mesh_coll s) <> 0%nat -> exists v, jcoll "TriangleMesh" (fun a t => jtriangle show a (mixed t)) addrs (mesh_coll s) v /\ json_text (cat l) v) /\
    (c_size (mesh_coll s) = 0%nat -> not_json (cat l)).
Proof. exact (@mesh_text). Qed.
Print Assumptions C98_mesh.
(** A scene: JSON exactly if none of its collections is empty. *)
Theorem C98_scene : forall T (N : num T) (show : T -> string), (forall x, word (show x)) -> forall addrs, (forall i, word (addrs i)) ->
  forall a s, word a -> scene_printable s -> exists l, print_scene show a addrs s = Ok l /\
    (scene_filled s -> exists v, jscene show a addrs s v /\ json_text (cat l) v) /\ (~ scene_filled s -> not_json (cat l)).
Proof. exact (@scene_reads). Qed.
Print Assumptions C98_scene.
(** Every scene made with the calls of the library can be printed. *)
Theorem C98_scene_made : forall T (N : num T) part (s s' : scene T) o,
  scene_printable (new_scene (T := T) default_options) /\
  (scene_printable s ->
    (forall vs fs, add_mesh s vs fs = Ok (s', o) -> fits (length fs) -> scene_printable s') /\
    (forall cs rs, add_spheres s cs rs = Ok (s', o) -> fits (length cs) -> scene_printable s') /\
    (forall cs dxs dys ms, add_planes s cs dxs dys ms = Ok (s', o) -> fits (length cs) -> scene_printable s') /\
    (forall cs sa sb hs ms, add_cylinders s cs sa sb hs ms = Ok (s', o) -> fits (length cs) -> scene_printable s') /\
    (commit part s = Ok s' -> scene_printable s')).
Proof. exact (@scene_made). Qed.
Print Assumptions C98_scene_made.
Example C98_scene_case : exists s l, objects = Ok s /\ @scene_printable _ F32 s /\ @scene_filled _ F32 s /\
  @print_scene _ F32 show_whole "0x7f" addr_ s = Ok l /\
  json_text (cat l) (JObj [("Scene", JWord "0x7f"); ("Collections", JArr
    [JObj [("TriangleMesh", JArr [JObj [("size", JWord "1")];
       JObj [("Triangle", JWord "0x10"); ("a", JArr [JWord "0"; JWord "-2"; JWord "0"]); ("b", JArr [JWord "0"; JWord "3"; JWord "1"]);
             ("c", JArr [JWord "-1"; JWord "-2"; JWord "0"]); ("prim_id", JWord "0")]])];
     JObj [("SphereCollection", JArr [JObj [("size", JWord "2")];
       JObj [("Sphere", JWord "0x10"); ("center", JArr [JWord "1"; JWord "2"; JWord "-3"]); ("radius", JWord "4"); ("prim_id", JWord "0")];
       JObj [("Sphere", JWord "0x20"); ("center", JArr [JWord "5"; JWord "0"; JWord "0"]); ("radius", JWord "2"); ("prim_id", JWord "1")]])]])]).
Proof. exact scene_case. Qed.
Example C98_empty_case : exists s l, @add_spheres _ F32 (new_scene default_options) [] [] = Ok (s, Some 0%nat) /\ @scene_printable _ F32 s /\
  @print_scene _ F32 show_whole "0x7f" addr_ s = Ok l /\
  cat l = (ln "{" ++ ln "  ""Scene"": 0x7f," ++ ln "  ""Collections"": [" ++ ln "{" ++ ln """SphereCollection"": [" ++ ln "{""size"": 0}," ++
    ln "}" ++ ln "  ]" ++ ln "}")%string /\ not_json (cat l).
Proof. exact empty_case. Qed.

(** What is not JSON or loses data. *)
Theorem C98_empty_refuted : exists show : spec_float -> string, (forall x, word (show x)) /\ exists s l,
  @add_spheres _ F32 (new_scene default_options) [] [] = Ok (s, Some 0%nat) /\ @print_scene _ F32 show "0x7f" addr_ s = Ok l /\ not_json (cat l).
Proof. exact empty_exists. Qed.
Print Assumptions C98_empty_refuted.
(** Two meshes with different vertices and the same text. *)
Theorem C98_mesh_refuted : exists s s', at_height 6 <> at_height 0 /\ @make_mesh _ F32 (at_height 6) [V 0 1 2]%nat = Ok s /\
  @make_mesh _ F32 (at_height 0) [V 0 1 2]%nat = Ok s' /\ forall show addrs, @print_mesh _ F32 show addrs s = @print_mesh _ F32 show addrs s'.
Proof. exact mesh_twice. Qed.
Print Assumptions C98_mesh_refuted.
(** Rays, hits and statistics, the hierarchy and its nodes, Embree planes and cylinders: never JSON. *)
Theorem C98_ray_refuted : forall T (show : T -> string) a cull r, not_json (cat (print_ray show a cull r)).
Proof. exact (@ray_never). Qed.
Print Assumptions C98_ray_refuted.
Theorem C98_rayhit_refuted : forall T (show : T -> string) a h, not_json (cat (print_rayhit show a h)).
Proof. exact (@rayhit_never). Qed.
Print Assumptions C98_rayhit_refuted.
Theorem C98_statistics_refuted : forall a time s, not_json (cat (print_stats a time s)).
Proof. exact stats_never. Qed.
Print Assumptions C98_statistics_refuted.
Theorem C98_node_refuted : forall T (show : T -> string) P a (n : node T P), word a -> not_json (cat (print_node show a n)).
Proof. exact (@node_never). Qed.
Print Assumptions C98_node_refuted.
Theorem C98_bvh_refuted : forall T (show : T -> string) addrs, (forall i, word (addrs i)) ->
  forall P (nodes : list (node T P)), not_json (cat (print_bvh show addrs nodes)).
Proof. exact (@bvh_never). Qed.
Print Assumptions C98_bvh_refuted.
Theorem C98_embree_plane_refuted : forall T (show : T -> string), (forall x, word (show x)) ->
  forall a e, word a -> not_json (cat (print_eplane show a e)).
Proof. exact (@eplane_never). Qed.
Print Assumptions C98_embree_plane_refuted.
Theorem C98_embree_cylinder_refuted : forall T (show : T -> string), (forall x, word (show x)) ->
  forall a e, word a -> not_json (cat (print_ecyl show a e)).
Proof. exact (@ecyl_never). Qed.
Print Assumptions C98_embree_cylinder_refuted.
