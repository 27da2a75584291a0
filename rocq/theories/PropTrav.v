(** C08-C15 and C47: the traversal stack, traversal, and the nearest hit. *)

From Coq Require Import Reals ZArith List Bool Floats.SpecFloat.
From Verif Require Import Num NumX NumF Vec Datatypes Ray Bvh Traverse Sphere.
From Verif Require Import SpecBvh SpecStack SpecTrav SpecReal SpecNearest SpecSphere.
From Verif Require Import PfStack PfTrav2 PfNearest3 PfSlab2 PfSphere2 PfPart.
From Verif Require Import CaseChain CaseNode CaseScale CaseSphere CaseStack.
Import ListNotations.

(** C47: the code's stack behaves like a list of bounded length, exactly. *)
Theorem C47_stack_is_list : forall (A : Type) (cap : nat) (zero : A) (ops : list (op A)),
  match run_list cap ops [] with
  | Some l => exists s, run_stack zero ops (stack_new cap) = Ok s /\ looks_like s l
  | None => run_stack zero ops (stack_new cap) = UB UBstack
  end.
Proof. exact (fun A cap zero ops => @stack_is_list A cap zero ops). Qed.
Print Assumptions C47_stack_is_list.
Theorem C47_careful_calls : forall (A : Type) (cap : nat) (zero : A) (ops : list (op A)),
  careful cap ops 0 ->
  exists l s, run_list cap ops [] = Some l /\ run_stack zero ops (stack_new cap) = Ok s /\
    looks_like s l.
Proof. exact (fun A cap zero ops => @careful_stack A cap zero ops). Qed.
Print Assumptions C47_careful_calls.
Example C47_case : careful 4 [Push 7; Push 8; Pop; Push 9; Push 1; Pop; Pop] 0 /\
  run_list 4 [Push 7; Push 8; Pop; Push 9; Push 1; Pop; Pop] [] = Some [7].
Proof. exact stack_case. Qed.

(** C08, for trees of depth at most 26: in particular for every tree built with
    max_tree_depth <= 26, or of at most 26 + min_leaf_primitives primitives (30 with the
    default options).  Missing: deeper trees, for which it is false. *)
Theorem C08_traversal_safe_partial : forall (T P I : Type) (N : num T) part (c : coll T P) opt nodes st
    (isx : isector T P I) r rh,
  partition_ok part -> build part [] c opt = Ok (nodes, st) ->
  (shallow opt (c_size c) \/ forall k d, node_depth nodes k d -> d <= 26) ->
  finished isx rh (traverse isx nodes r rh).
Proof. exact safe_either. Qed.
Print Assumptions C08_traversal_safe_partial.
(** With the default options a query can leave the stack array: binary64, 31
    spheres, a tree of depth 27. *)
Theorem C08_traversal_safe_refuted : exists s nodes st,
  @make_spheres _ F64 chain_centers chain_radii = Ok s /\
  @build _ F64 _ libstdcxx_partition [] (sphere_coll s) default_options = Ok (nodes, st) /\
  @traverse _ F64 _ _ (@sphere_isector _ F64 s) nodes chain_ray (@new_rayhit _ F64) = UB UBstack.
Proof. exact chain_refutes. Qed.
Print Assumptions C08_traversal_safe_refuted.

(** C09: the loop ends, within one iteration per node, for any tree; the only other
    outcome is the stack overflow of C08. *)
Theorem C09_traversal_terminates : forall (T P I : Type) (N : num T) part (c : coll T P) opt nodes st
    (isx : isector T P I) r rh,
  partition_ok part -> build part [] c opt = Ok (nodes, st) ->
  traverse isx nodes r rh = UB UBstack \/ finished isx rh (traverse isx nodes r rh).
Proof.
  exact (fun T P I N part c opt nodes st isx r rh Hp Hb => built_terminates part Hp c opt nodes st Hb isx r rh).
Qed.
Print Assumptions C09_traversal_terminates.
(** Each node is popped at most once: [trace] is the loop with a log. *)
Theorem C09_nodes_once : forall (T P I : Type) (N : num T) part (c : coll T P) opt nodes st
    (isx : isector T P I) r rh i seen,
  partition_ok part -> build part [] c opt = Ok (nodes, st) ->
  conclude isx r rh (trace isx nodes r) = traverse isx nodes r rh /\
  (trace isx nodes r = Ok (i, seen) -> NoDup seen /\ forall k, In k seen -> k < length nodes).
Proof.
  exact (fun T P I N part c opt nodes st isx r rh i seen Hp Hb =>
    conj (trace_traverse isx r nodes rh) (built_trace part Hp c opt nodes st Hb isx r i seen)).
Qed.
Print Assumptions C09_nodes_once.

(** C10, for admissible rays that do not run inside a horizontal face plane of the
    box.  [hd] is the current best distance.  Missing: the four kinds of ray below. *)
Theorem C10_node_test_partial : forall (P : Type) big tiny eps (nd : node xr P) o d tmin tmax hd any m M O D lo t,
  (0 <= eps)%R -> visR (nd_min nd) m -> visR (nd_max nd) M ->
  admissible o d tmin O D lo ->
  (vz D = 0%R -> vz m <> vz O /\ vz M <> vz O) ->
  (lo <= t)%R -> xltb hd (Fin t) = false ->
  in_box m M (at_t O (unit_of D) t) ->
  @intersect_node _ (Xnum big tiny eps) _ tmin hd nd (@make_ray _ (Xnum big tiny eps) o d tmin tmax any) = true.
Proof. exact node_test_unit. Qed.
Print Assumptions C10_node_test_partial.
Theorem C10_short_direction_refuted : forall big tiny eps, (0 <= eps <= 1 / 100)%R ->
  exists o d lo hi O D m M, skips big tiny eps o d lo hi O D m M /\ (rv_norm D < 1)%R.
Proof. exact short_refutes. Qed.
Print Assumptions C10_short_direction_refuted.
Theorem C10_long_direction_refuted : forall big tiny eps, (0 <= eps <= 1 / 100)%R ->
  exists o d lo hi O D m M, skips big tiny eps o d lo hi O D m M /\ (1 < rv_norm D /\ 0 < lo)%R.
Proof. exact long_refutes. Qed.
Print Assumptions C10_long_direction_refuted.
Theorem C10_negative_zero_refuted : forall big tiny eps, (0 <= eps <= 1 / 100)%R ->
  exists o d lo hi O D m M, skips big tiny eps o d lo hi O D m M /\ rv_norm D = 1%R /\
    vy d = Xf true 0.
Proof. exact negzero_refutes. Qed.
Print Assumptions C10_negative_zero_refuted.
Theorem C10_face_origin_refuted : forall big tiny eps, (0 <= eps <= 1 / 100)%R ->
  exists o d lo hi O D m M, skips big tiny eps o d lo hi O D m M /\
    admissible o d (Fin lo) O D lo /\ vz D = 0%R /\ vz O = vz m.
Proof. exact face_refutes. Qed.
Print Assumptions C10_face_origin_refuted.

(** C11 and C12 for any primitive kind: [contract] says that its routine finds the
    nearest hit closer than the best so far; [hit] is the geometric meaning of a hit
    within the interval's lower end.  With [any = false] the answer is the nearest
    hit, with [any = true] some hit. *)
Theorem C11_nearest_hit : forall (P I : Type) big tiny eps (c : coll xr P) bmin bmax part opt nodes st pid
    o d tmin tmax any O D m (isx : isector xr P I) best inv won hit about rh,
  (0 <= eps)%R -> boxes_are c bmin bmax ->
  (forall i, i < c_size c -> in_bounds big (bmin i) /\ in_bounds big (bmax i)) ->
  partition_ok part -> @build _ (Xnum big tiny eps) _ part [] c opt = Ok (nodes, st) ->
  (forall k d, node_depth nodes k d -> d <= 26) -> numbered c pid ->
  admissible o d tmin O D m ->
  (vz D = 0%R -> forall i, i < c_size c -> vz O <> vz (bmin i) /\ vz O <> vz (bmax i)) ->
  contract isx (@make_ray _ (Xnum big tiny eps) o d tmin tmax any)
    (fun p => exists i, i < c_size c /\ c_prim c i = Ok p) best inv won ->
  (forall p t, (exists i, i < c_size c /\ c_prim c i = Ok p) -> best p = Some t ->
     hit (pid p) t /\ (forall u, hit (pid p) u -> (t <= u)%R)) ->
  (forall p u, (exists i, i < c_size c /\ c_prim c i = Ok p) -> best p = None -> ~ hit (pid p) u) ->
  (forall i, i < c_size c -> exists p, c_prim c i = Ok p) ->
  (forall i t, i < c_size c -> hit i t ->
     (m <= t)%R /\ in_box (bmin i) (bmax i) (at_t O (unit_of D) t)) ->
  (forall p i t rh0, (exists i, i < c_size c /\ c_prim c i = Ok p) -> best p = Some t -> won p i ->
     isR (is_hd isx i) t ->
     exists rh', is_post isx i rh0 = Ok rh' /\ h_prim rh' = Some (pid p) /\ isR (h_distance rh') t /\
       h_geom rh' = h_geom rh0 /\ about (pid p) t rh') ->
  hit_answer (fun i t => i < c_size c /\ hit i t /\ xltb (Fin t) tmax = true) about any rh
    (@traverse _ (Xnum big tiny eps) _ _ isx nodes
       (@make_ray _ (Xnum big tiny eps) o d tmin tmax any) rh).
Proof.
  exact (fun P I big tiny eps c bmin bmax part opt nodes st pid o d tmin tmax any O D m isx best inv won hit about rh
    Heps Hb Hbd Hp Hbu Hde Hn Had Hz Hc H1 H2 H3 H4 H5 =>
    @hit_theorem P I big tiny eps Heps c bmin bmax Hb Hbd part Hp opt nodes st Hbu Hde pid Hn o d tmin tmax any
      O D m Had Hz isx best inv won Hc hit about H1 H2 H3 H4 H5 rh).
Qed.
Print Assumptions C11_nearest_hit.

(** C11 for spheres: nothing is assumed of the routines. *)
Theorem C11_spheres : forall big tiny eps centers radii s C rad part opt nodes st o d tmin tmax O D m rh,
  (0 <= eps)%R -> @make_spheres _ (Xnum big tiny eps) centers radii = Ok s -> spheres_are s C rad ->
  (forall i, i < length (ss_centers s) -> (0 <= rad i)%R) ->
  (forall i, i < length (ss_centers s) ->
     in_bounds big (lower (C i) (rad i)) /\ in_bounds big (upper (C i) (rad i))) ->
  partition_ok part -> @build _ (Xnum big tiny eps) _ part [] (sphere_coll s) opt = Ok (nodes, st) ->
  (forall k d, node_depth nodes k d -> d <= 26) -> admissible o d tmin O D m ->
  (vz D = 0%R -> forall i, i < length (ss_centers s) ->
     vz O <> (vz (C i) - rad i)%R /\ vz O <> (vz (C i) + rad i)%R) ->
  hit_answer (sphere_hit s C rad O (unit_of D) m tmax) (sphere_about C rad O (unit_of D)) false rh
    (@traverse _ (Xnum big tiny eps) _ _ (@sphere_isector _ (Xnum big tiny eps) s) nodes
       (@make_ray _ (Xnum big tiny eps) o d tmin tmax false) rh).
Proof.
  exact (fun big tiny eps centers radii s C rad part opt nodes st o d tmin tmax O D m rh H1 H2 H3 H4 H5 H6 H7 H8 H9 H10 =>
    sphere_query big tiny eps H1 centers radii s H2 C rad H3 H4 H5 part H6 opt nodes st H7 H8 o d tmin tmax false O D m H9 H10 rh).
Qed.
Print Assumptions C11_spheres.
Example C11_case : exists s nodes st rh,
  five = Ok s /\
  @build _ (Xnum 1000 0 0) _ libstdcxx_partition [] (sphere_coll s) five_opt = Ok (nodes, st) /\
  @traverse _ (Xnum 1000 0 0) _ _ (@sphere_isector _ (Xnum 1000 0 0) s) nodes
    (@make_ray _ (Xnum 1000 0 0) (vfin (V 0 0 0)%R) (vfin (V 1 0 0)%R) (Fin 0) (Fin 1000) false)
    (@new_rayhit _ (Xnum 1000 0 0)) = Ok (true, rh) /\
  h_prim rh = Some 1 /\ isR (h_distance rh) 9 /\ visR (h_normal rh) (V (-1) 0 0)%R.
Proof. exact five_query. Qed.

(** C12 for spheres. *)
Theorem C12_spheres_any_hit : forall big tiny eps centers radii s C rad part opt nodes st o d tmin tmax O D m rh,
  (0 <= eps)%R -> @make_spheres _ (Xnum big tiny eps) centers radii = Ok s -> spheres_are s C rad ->
  (forall i, i < length (ss_centers s) -> (0 <= rad i)%R) ->
  (forall i, i < length (ss_centers s) ->
     in_bounds big (lower (C i) (rad i)) /\ in_bounds big (upper (C i) (rad i))) ->
  partition_ok part -> @build _ (Xnum big tiny eps) _ part [] (sphere_coll s) opt = Ok (nodes, st) ->
  (forall k d, node_depth nodes k d -> d <= 26) -> admissible o d tmin O D m ->
  (vz D = 0%R -> forall i, i < length (ss_centers s) ->
     vz O <> (vz (C i) - rad i)%R /\ vz O <> (vz (C i) + rad i)%R) ->
  hit_answer (sphere_hit s C rad O (unit_of D) m tmax) (sphere_about C rad O (unit_of D)) true rh
    (@traverse _ (Xnum big tiny eps) _ _ (@sphere_isector _ (Xnum big tiny eps) s) nodes
       (@make_ray _ (Xnum big tiny eps) o d tmin tmax true) rh).
Proof.
  exact (fun big tiny eps centers radii s C rad part opt nodes st o d tmin tmax O D m rh H1 H2 H3 H4 H5 H6 H7 H8 H9 H10 =>
    sphere_query big tiny eps H1 centers radii s H2 C rad H3 H4 H5 part H6 opt nodes st H7 H8 o d tmin tmax true O D m H9 H10 rh).
Qed.
Print Assumptions C12_spheres_any_hit.

(** C13, in any arithmetic, for any node array. *)
Theorem C13_miss_keeps_record : forall (T P I : Type) (N : num T) (isx : isector T P I) nodes r rh rh',
  traverse isx nodes r rh = Ok (false, rh') -> rh' = rh.
Proof. exact (fun T P I N isx nodes r rh rh' => @miss_keeps T P I N isx nodes r rh rh'). Qed.
Print Assumptions C13_miss_keeps_record.

(** C14: any two queries with the same set of hits agree on the answer and on the
    distance; with C11 this covers every pair of builds. *)
Theorem C14_answers_agree : forall hit about1 about2 rh1 rh2 r1 r2,
  hit_answer hit about1 false rh1 r1 -> hit_answer hit about2 false rh2 r2 -> same_answer r1 r2.
Proof. exact hit_answers_agree. Qed.
Print Assumptions C14_answers_agree.
(** Two builds over the same spheres, with different options and partitions. *)
Theorem C14_spheres : forall big tiny eps centers radii s C rad part1 part2 opt1 opt2 nodes1 nodes2 st1 st2
    o d tmin tmax O D m rh1 rh2,
  (0 <= eps)%R -> @make_spheres _ (Xnum big tiny eps) centers radii = Ok s -> spheres_are s C rad ->
  (forall i, i < length (ss_centers s) -> (0 <= rad i)%R) ->
  (forall i, i < length (ss_centers s) ->
     in_bounds big (lower (C i) (rad i)) /\ in_bounds big (upper (C i) (rad i))) ->
  partition_ok part1 -> @build _ (Xnum big tiny eps) _ part1 [] (sphere_coll s) opt1 = Ok (nodes1, st1) ->
  partition_ok part2 -> @build _ (Xnum big tiny eps) _ part2 [] (sphere_coll s) opt2 = Ok (nodes2, st2) ->
  (forall k d, node_depth nodes1 k d -> d <= 26) -> (forall k d, node_depth nodes2 k d -> d <= 26) ->
  admissible o d tmin O D m ->
  (vz D = 0%R -> forall i, i < length (ss_centers s) ->
     vz O <> (vz (C i) - rad i)%R /\ vz O <> (vz (C i) + rad i)%R) ->
  same_answer
    (@traverse _ (Xnum big tiny eps) _ _ (@sphere_isector _ (Xnum big tiny eps) s) nodes1
       (@make_ray _ (Xnum big tiny eps) o d tmin tmax false) rh1)
    (@traverse _ (Xnum big tiny eps) _ _ (@sphere_isector _ (Xnum big tiny eps) s) nodes2
       (@make_ray _ (Xnum big tiny eps) o d tmin tmax false) rh2).
Proof.
  exact (fun big tiny eps centers radii s C rad part1 part2 opt1 opt2 nodes1 nodes2 st1 st2 o d tmin tmax O D m rh1 rh2
    H1 H2 H3 H4 H5 Q1 B1 Q2 B2 D1 D2 H9 H10 =>
    hit_answers_agree _ _ _ _ _ _ _
      (sphere_query big tiny eps H1 centers radii s H2 C rad H3 H4 H5 part1 Q1 opt1 nodes1 st1 B1 D1 o d tmin tmax false O D m H9 H10 rh1)
      (sphere_query big tiny eps H1 centers radii s H2 C rad H3 H4 H5 part2 Q2 opt2 nodes2 st2 B2 D2 o d tmin tmax false O D m H9 H10 rh2)).
Qed.
Print Assumptions C14_spheres.

(** C15, for spheres and two rays that are both admissible, the second direction
    being [k] times the first.  Missing: directions shorter than 1, and directions
    other than unit ones if min_hit_distance is not 0; it is false there. *)
Theorem C15_scaling_partial : forall big tiny eps centers radii s C rad part opt nodes st o d d' k tmin tmax O D m rh,
  (0 <= eps)%R -> @make_spheres _ (Xnum big tiny eps) centers radii = Ok s -> spheres_are s C rad ->
  (forall i, i < length (ss_centers s) -> (0 <= rad i)%R) ->
  (forall i, i < length (ss_centers s) ->
     in_bounds big (lower (C i) (rad i)) /\ in_bounds big (upper (C i) (rad i))) ->
  partition_ok part -> @build _ (Xnum big tiny eps) _ part [] (sphere_coll s) opt = Ok (nodes, st) ->
  (forall k d, node_depth nodes k d -> d <= 26) ->
  admissible o d tmin O D m -> (0 < k)%R -> admissible o d' tmin O (rv_scale k D) m ->
  (vz D = 0%R -> forall i, i < length (ss_centers s) ->
     vz O <> (vz (C i) - rad i)%R /\ vz O <> (vz (C i) + rad i)%R) ->
  same_answer
    (@traverse _ (Xnum big tiny eps) _ _ (@sphere_isector _ (Xnum big tiny eps) s) nodes
       (@make_ray _ (Xnum big tiny eps) o d tmin tmax false) rh)
    (@traverse _ (Xnum big tiny eps) _ _ (@sphere_isector _ (Xnum big tiny eps) s) nodes
       (@make_ray _ (Xnum big tiny eps) o d' tmin tmax false) rh).
Proof. exact sphere_scaling. Qed.
Print Assumptions C15_scaling_partial.
(** Halving the direction turns a hit into a miss (binary64). *)
Theorem C15_scaling_refuted : exists s nodes st rh1 rh2,
  scale_spheres = Ok s /\
  @build _ F64 _ libstdcxx_partition [] (sphere_coll s) default_options = Ok (nodes, st) /\
  @traverse _ F64 _ _ (@sphere_isector _ F64 s) nodes (scale_ray scale_d) (@new_rayhit _ F64) = Ok (true, rh1) /\
  @traverse _ F64 _ _ (@sphere_isector _ F64 s) nodes
    (scale_ray (@vscale _ F64 (f64 1 (-1)) scale_d)) (@new_rayhit _ F64) = Ok (false, rh2).
Proof. exact scale_refutes. Qed.
Print Assumptions C15_scaling_refuted.
