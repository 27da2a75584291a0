(** C35-C41: scenes, over all histories of calls. *)

From Coq Require Import Reals ZArith List Bool Floats.SpecFloat.
From Verif Require Import Num NumX NumF Vec Ray Bvh Traverse Scene SpecReal SpecScene SpecCombine PfPart.
From Verif Require Import PfScene PfScene2 PfScene4 PfScene5 PfCombine CaseNode CaseSphere CaseCyl2 CaseScene CaseScene2 CaseScene3.
Import ListNotations.

(** C35.  Calls on a new scene, in any arithmetic: the history's replies satisfy
    [ids_in_order]. *)
Theorem C35_ids_in_order : forall T (N : num T) part opt cs s l,
  @run T N part (new_scene opt) cs = Ok (s, l) -> ids_in_order cs l.
Proof. exact (fun T N part opt cs s l H => proj1 (run_inv part opt cs s l H)). Qed.
Print Assumptions C35_ids_in_order.
Example C35_case :
  mapr snd (@run _ F64 libstdcxx_partition (new_scene (Options 1 26 64)) ball_history) =
  Ok [Id (Some 0); Id None; Done; Id None; Answer true ball_hit; Answer false used; Done; Done; Answer true ball_hit].
Proof. exact ball_replies. Qed.

(** C36.  A refused call leaves the scene as it was, so whatever follows runs as without it. *)
Theorem C36_refused_unchanged : forall T (N : num T) part s c s',
  @step T N part s c = Ok (s', Id None) -> s' = s.
Proof. exact @refused_same. Qed.
Print Assumptions C36_refused_unchanged.
Theorem C36_refused_history : forall T (N : num T) part s cs c s1 l1,
  @run T N part s (cs ++ [c]) = Ok (s1, l1 ++ [Id None]) ->
  @run T N part s cs = Ok (s1, l1) /\
  forall more,
    @run T N part s (cs ++ c :: more) = (do (s2, l2) <- @run T N part s1 more; Ok (s2, l1 ++ Id None :: l2)) /\
    @run T N part s (cs ++ more) = (do (s2, l2) <- @run T N part s1 more; Ok (s2, l1 ++ l2)).
Proof. exact @refused_history. Qed.
Print Assumptions C36_refused_history.

(** C37.  In any arithmetic whose [<] is an order (reals, IEEE numbers): a query on a
    committed scene combines what the geometries answer alone.  It is true exactly if one
    of them reports a hit; the record is then that of a geometry with the least distance,
    with the id that its add call returned.  What they answer alone: C17-C34.  [rh] is
    fresh or at least not below the ray's interval. *)
Theorem C37_combines : forall T (N : num T) part, partition_ok part -> forall opt0 cs s l,
  run part (new_scene opt0) cs = Ok (s, l) -> In Commit cs -> ordered T N -> forall r rh,
  (forall t, nltb t (max_hit_distance r) = true -> nltb t (h_distance rh) = true) ->
  exists la, answers_of part opt0 cs l r la /\
    ((forall g a, In (g, a) la -> exists b rec, a = Ok (b, rec)) -> combined la rh (intersect1 s r rh)).
Proof. exact @history_combines. Qed.
Print Assumptions C37_combines.
Theorem C37_ordered_float : forall prec emax, ordered spec_float (Fnum prec emax).
Proof. exact ordered_F. Qed.
Print Assumptions C37_ordered_float.
Theorem C37_ordered_real : forall big tiny eps, ordered xr (Xnum big tiny eps).
Proof. exact ordered_X. Qed.
Print Assumptions C37_ordered_real.
(** A sphere at 14 between two cylinders, which alone report 19. *)
Example C37_combines_case :
  mapr snd (@run _ F64 libstdcxx_partition (new_scene default_options)
    (between ++ [Query (ray64 (f64 0 0) (f64 100 0)) (@new_rayhit _ F64)])) =
  Ok [Id (Some 0); Id (Some 1); Done; Answer true (tube_hit (f64 14 0) 0 1)].
Proof. exact between_query. Qed.
(** Over the reals: the nearest hit over all primitives, with cylinders under the conditions
    of C31_one_cylinder_partial.  Missing: other scenes with cylinders, whose routine
    ignores the best distance so far. *)
Theorem C37_scene_nearest_partial : forall big tiny eps, (0 <= eps)%R -> (0 <= tiny)%R ->
  forall part, partition_ok part -> forall o d tmin tmax any O D m, admissible o d tmin O D m ->
  forall opt0 cs s l, @run _ (Xnum big tiny eps) part (new_scene opt0) cs = Ok (s, l) -> In Commit cs ->
  all_shallow opt0 cs l ->
  (forall g c, geometry_of cs l g c -> call_fine big tiny O D m c) ->
  forall rh, (forall t, xltb (Fin t) tmax = true -> xltb (Fin t) (h_distance rh) = true) ->
  history_answer (4 * eps) cs l O (unit_of D) m tmax any rh
    (@intersect1 _ (Xnum big tiny eps) s (@make_ray _ (Xnum big tiny eps) o d tmin tmax any) rh).
Proof. exact scene_query. Qed.
Print Assumptions C37_scene_nearest_partial.
(** A sphere behind two cylinders, one of which is met. *)
Example C37_nearest_case : exists s rh,
  @run _ (Xnum 1000 0 0) libstdcxx_partition (new_scene five_opt) tubes_mixed = Ok (s, tubes_replies) /\
  @intersect1 _ (Xnum 1000 0 0) s
    (@make_ray _ (Xnum 1000 0 0) (vfin (V 0 0 0)%R) (vfin (V 1 0 0)%R) (Fin 0) (Fin 1000) false)
    (@new_rayhit _ (Xnum 1000 0 0)) = Ok (true, rh) /\
  h_geom rh = Some 1 /\ h_prim rh = Some 1 /\ isR (h_distance rh) 9.
Proof. exact tubes_query. Qed.
(** With any number of cylinders that are first met before max_hit_distance: whether
    something is hit, and a record that fits.  Missing: that it is the nearest. *)
Theorem C37_scene_hit_partial : forall big tiny eps, (0 <= eps)%R -> (0 <= tiny)%R ->
  forall part, partition_ok part -> forall o d tmin tmax any O D m, admissible o d tmin O D m ->
  forall opt0 cs s l, @run _ (Xnum big tiny eps) part (new_scene opt0) cs = Ok (s, l) -> In Commit cs ->
  all_shallow opt0 cs l ->
  (forall g c, geometry_of cs l g c -> call_seen big tiny O D m tmax c) ->
  forall rh, (forall t, xltb (Fin t) tmax = true -> xltb (Fin t) (h_distance rh) = true) ->
  history_answer (4 * eps) cs l O (unit_of D) m tmax true rh
    (@intersect1 _ (Xnum big tiny eps) s (@make_ray _ (Xnum big tiny eps) o d tmin tmax any) rh).
Proof. exact scene_hit. Qed.
Print Assumptions C37_scene_hit_partial.
(** Two cylinders behind each other. *)
Example C37_hit_case : forall any, exists s rh t,
  @run _ (Xnum 1000 0 0) libstdcxx_partition (new_scene five_opt) row_scene = Ok (s, row_replies) /\
  @intersect1 _ (Xnum 1000 0 0) s
    (@make_ray _ (Xnum 1000 0 0) (vfin (V 0 0 0)%R) (vfin (V 1 0 0)%R) (Fin 0) (Fin 1000) any)
    (@new_rayhit _ (Xnum 1000 0 0)) = Ok (true, rh) /\
  h_geom rh = Some 0 /\ isR (h_distance rh) t /\ (9 <= t <= 21)%R.
Proof. exact row_query. Qed.
(** False with two cylinders in a row (doubles): the one at 9 is hidden by the one at 19. *)
Theorem C37_two_cylinders_refuted : exists xs ys i j t u,
  incl xs ys /\ @nltb _ F64 t u = true /\
  tubes_answer xs = Ok [Id (Some 0); Done; Answer true (tube_hit t i 0)] /\
  tubes_answer ys = Ok [Id (Some 0); Done; Answer true (tube_hit u j 0)].
Proof. exact tubes_refute. Qed.
Print Assumptions C37_two_cylinders_refuted.
(** Without tolerance and cylinders: true exactly if something is hit, and then the nearest. *)
Theorem C37_scene_exact_partial : forall big tiny part o d tmin tmax any O D m opt0 cs s l rh,
  (0 <= tiny)%R -> partition_ok part -> admissible o d tmin O D m ->
  @run _ (Xnum big tiny 0) part (new_scene opt0) cs = Ok (s, l) -> In Commit cs ->
  all_shallow opt0 cs l ->
  (forall g c, geometry_of cs l g c -> call_ok big tiny O D c) ->
  (forall t, xltb (Fin t) tmax = true -> xltb (Fin t) (h_distance rh) = true) ->
  exact_answer cs l O (unit_of D) m tmax any rh
    (@intersect1 _ (Xnum big tiny 0) s (@make_ray _ (Xnum big tiny 0) o d tmin tmax any) rh).
Proof. exact scene_exact. Qed.
Print Assumptions C37_scene_exact_partial.
(** Such histories run. *)
Theorem C37_scene_defined : forall big tiny eps, (0 <= tiny)%R -> forall part, partition_ok part -> forall O D m opt cs,
  bins_ok opt ->
  (forall c, In c cs -> is_query c = false /\ (adds c <> None -> call_plain big tiny O D m c /\ call_lengths c)) ->
  (forall opt, In (SetOptions opt) cs -> bins_ok opt) ->
  exists s l, @run _ (Xnum big tiny eps) part (new_scene opt) cs = Ok (s, l).
Proof. exact history_defined. Qed.
Print Assumptions C37_scene_defined.
(** A mesh, spheres, planes and a refused mesh. *)
Example C37_case : exists s rh,
  @run _ (Xnum 1000 0 0) libstdcxx_partition (new_scene five_opt) mixed = Ok (s, mixed_replies) /\
  @intersect1 _ (Xnum 1000 0 0) s
    (@make_ray _ (Xnum 1000 0 0) (vfin (V 0 0 0)%R) (vfin (V 1 0 0)%R) (Fin 0) (Fin 1000) false)
    (@new_rayhit _ (Xnum 1000 0 0)) = Ok (true, rh) /\
  h_geom rh = Some 1 /\ h_prim rh = Some 1 /\ isR (h_distance rh) 9 /\ visR (h_normal rh) (V (-1) 0 0)%R.
Proof. exact mixed_query. Qed.

(** C38. *)
Theorem C38_empty_scene_misses : forall T (N : num T) part opt cs s l r rh,
  @run T N part (new_scene opt) cs = Ok (s, l) -> (forall a, In a l -> ~ accepted a) ->
  @intersect1 T N s r rh = Ok (false, rh).
Proof. exact @empty_query. Qed.
Print Assumptions C38_empty_scene_misses.

(** C39.  Another commit, also with other build options: the same answers, now and later. *)
Theorem C39_commit_again : forall T (N : num T) part, partition_ok part -> forall opt cs s l s',
  @run T N part (new_scene opt) cs = Ok (s, l) -> In Commit cs -> commit part s = Ok s' ->
  (forall r rh, intersect1 s' r rh = intersect1 s r rh) /\
  (forall more, mapr snd (run part s' more) = mapr snd (run part s more)).
Proof. exact @recommit. Qed.
Print Assumptions C39_commit_again.
(** Any number of further commits with the same options: they succeed. *)
Theorem C39_commits : forall T (N : num T) part, partition_ok part -> forall n opt cs s l,
  @run T N part (new_scene opt) (cs ++ [Commit]) = Ok (s, l) ->
  exists s' l', run part (new_scene opt) (cs ++ Commit :: repeat Commit n) = Ok (s', l') /\
    (forall r rh, intersect1 s' r rh = intersect1 s r rh) /\
    (forall more, mapr snd (run part s' more) = mapr snd (run part s more)).
Proof. exact @recommits. Qed.
Print Assumptions C39_commits.

(** C40 is false: a record that holds a small distance hides a sphere (doubles; C35_case
    shows the two answers). *)
Theorem C40_used_record_refuted : exists part opt cs s l r rh rh', partition_ok part /\
  @run _ F64 part (new_scene opt) cs = Ok (s, l) /\ In Commit cs /\
  ~ same_reply (@intersect1 _ F64 s r rh) (@intersect1 _ F64 s r rh').
Proof. exact used_refutes. Qed.
Print Assumptions C40_used_record_refuted.
(** Only the record's distance matters. *)
Theorem C40_used_record_partial : forall T (N : num T) s r rh rh', h_distance rh = h_distance rh' ->
  same_reply (@intersect1 T N s r rh) (@intersect1 T N s r rh').
Proof. exact @used_record. Qed.
Print Assumptions C40_used_record_partial.
(** On scenes of a mesh alone nothing of the record matters. *)
Theorem C40_mesh_record_partial : forall T (N : num T) s r rh rh',
  sc_spheres s = None -> sc_planes s = None -> sc_cylinders s = None ->
  same_reply (@intersect1 T N s r rh) (@intersect1 T N s r rh').
Proof. exact @mesh_record. Qed.
Print Assumptions C40_mesh_record_partial.

(** C41. *)
Theorem C41_committed : forall T (N : num T) part, partition_ok part -> forall opt cs s l,
  @run T N part (new_scene opt) cs = Ok (s, l) -> In Commit cs ->
  node_arrays s /\ forall r rh, intersect1 s r rh <> UB UBnode.
Proof. exact @committed_query. Qed.
Print Assumptions C41_committed.
Theorem C41_uncommitted : forall T (N : num T) part, partition_ok part -> forall opt cs s l,
  @run T N part (new_scene opt) cs = Ok (s, l) -> ~ In Commit cs -> (exists a, In a l /\ accepted a) ->
  forall r rh, intersect1 s r rh = UB UBnode.
Proof. exact @uncommitted_query. Qed.
Print Assumptions C41_uncommitted.
Example C41_case : exists s l, @run _ F64 libstdcxx_partition (new_scene (Options 1 26 64)) [ball] = Ok (s, l) /\
  @intersect1 _ F64 s ball_ray (@new_rayhit _ F64) = UB UBnode.
Proof. exact early_query. Qed.
