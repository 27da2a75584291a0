(** C01-C04 and C06: the tree that the builder makes.  [T], the arithmetic [N], the
    collection [c], the options and std::partition are arbitrary. *)

From Coq Require Import ZArith List Bool Floats.SpecFloat.
From Verif Require Import Num NumR NumX NumF Vec Bvh SpecBvh PfBuild2 PfPart PfOrder PfNumbered.
From Verif Require Import Sphere Plane Trimesh Cylinder CaseBuild.
Import ListNotations.

(** C01. *)
Theorem C01_build_keeps_primitives : forall (T P : Type) (N : num T) part (c : coll T P) opt pid nodes st,
  partition_ok part -> numbered c pid ->
  build part [] c opt = Ok (nodes, st) -> stores_each_once c pid nodes.
Proof. exact (fun T P N part c opt pid nodes st Hp Hn => @build_stores T P N part Hp c opt nodes st pid Hn). Qed.
Print Assumptions C01_build_keeps_primitives.

(** The hypotheses of C01 hold of libstdc++'s partition and the four collections. *)
Theorem C01_partition : partition_ok libstdcxx_partition.
Proof. exact libstdcxx_partition_ok. Qed.
Print Assumptions C01_partition.
Theorem C01_numbered : forall (T : Type) (N : num T) (s : spheres T) (p : planes T) (m : mesh T) (c : cylinders T),
  numbered (sphere_coll s) sp_id /\ numbered (plane_coll p) pl_id /\
  numbered (mesh_coll m) tr_id /\ numbered (cylinder_coll c) cy_id.
Proof.
  exact (fun T N s p m c => conj (spheres_numbered s) (conj (planes_numbered p)
           (conj (mesh_numbered m) (cylinders_numbered c)))).
Qed.
Print Assumptions C01_numbered.

(** C02. *)
Theorem C02_build_is_tree : forall (T P : Type) (N : num T) part (c : coll T P) opt nodes st,
  partition_ok part -> build part [] c opt = Ok (nodes, st) -> is_tree nodes.
Proof. exact (fun T P N part c opt nodes st Hp => @build_is_tree T P N part Hp c opt nodes st). Qed.
Print Assumptions C02_build_is_tree.

(** C03. *)
Theorem C03_build_statistics : forall (T P : Type) (N : num T) part (c : coll T P) opt nodes st,
  partition_ok part -> build part [] c opt = Ok (nodes, st) -> stats_describe nodes st.
Proof. exact (fun T P N part c opt nodes st Hp => @build_stats T P N part Hp c opt nodes st). Qed.
Print Assumptions C03_build_statistics.

(** C04. *)
Theorem C04_build_options : forall (T P : Type) (N : num T) part (c : coll T P) opt nodes st,
  partition_ok part -> build part [] c opt = Ok (nodes, st) -> respects opt (c_size c) nodes.
Proof. exact (fun T P N part c opt nodes st Hp => @build_respects T P N part Hp c opt nodes st). Qed.
Print Assumptions C04_build_options.

(** Fewer primitives make lower trees (C08_traversal_safe_refuted: this bound is reached). *)
Theorem C04_few_primitives : forall (T P : Type) (N : num T) part (c : coll T P) opt nodes st,
  partition_ok part -> build part [] c opt = Ok (nodes, st) -> 1 <= min_leaf_primitives opt ->
  forall k d, node_depth nodes k d -> d <= c_size c - min_leaf_primitives opt.
Proof. exact (fun T P N part c opt nodes st Hp => @build_low T P N part Hp c opt nodes st). Qed.
Print Assumptions C04_few_primitives.

(** C06. *)
Theorem C06_build_boxes : forall (T P : Type) (N : num T) part (c : coll T P) opt (ok : T -> Prop) pid nodes st,
  partition_ok part -> numbered c pid -> weak_order ok -> ok nmaxv -> ok (nopp nmaxv) ->
  (forall i, i < c_size c -> exists b, c_box c i = Ok b /\ vall ok (fst b) /\ vall ok (snd b)) ->
  build part [] c opt = Ok (nodes, st) -> boxes_enclose ok c pid nodes.
Proof.
  exact (fun T P N part c opt ok pid nodes st Hp Hn Hw H1 H2 Hb =>
           @build_boxes' T P N part c opt ok nodes st pid Hp Hn Hw H1 H2 Hb).
Qed.
Print Assumptions C06_build_boxes.

(** The order hypothesis of C06 holds of all non-NaN values, in exact arithmetic
    and in every IEEE binary format. *)
Theorem C06_order_exact : forall big tiny eps, @weak_order xr (Xnum big tiny eps) x_number.
Proof. exact x_order. Qed.
Print Assumptions C06_order_exact.
Theorem C06_order_ieee : forall prec emax, @weak_order spec_float (Fnum prec emax) f_number.
Proof. exact f_order. Qed.
Print Assumptions C06_order_ieee.

(** A case that meets the hypotheses of C01-C04 and C06: four spheres in binary64. *)
Example C01_case : exists nodes st,
  @build _ F64 _ libstdcxx_partition [] (sphere_coll case_spheres) case_opt = Ok (nodes, st) /\
  length nodes = 7 /\ st = Stats 3 4 1 (Some 1) 3 0 /\
  map (fun nd => map sp_id (nd_prims nd)) nodes = [[]; []; [1]; []; [2]; [0]; [3]].
Proof. exact case_some. Qed.
Example C06_case : forall i, i < c_size (sphere_coll case_spheres) ->
  exists b, c_box (sphere_coll case_spheres) i = Ok b /\
    vall f_number (fst b) /\ vall f_number (snd b).
Proof. exact case_boxes_ok. Qed.
Example C06_case_made : @make_spheres _ F64 case_centers case_radii = Ok case_spheres.
Proof. exact case_made. Qed.
