(** Scenes: repeated commits, queries before and after commit. *)

From Coq Require Import ZArith List Bool Arith Lia.
From Verif Require Import Num Vec Datatypes Ray Bvh Traverse Sphere Plane Trimesh Cylinder Scene.
From Verif Require Import SpecBvh SpecTrav SpecScene PfBuild PfTree PfBuild2 PfStack PfTrav PfTrav2 PfScene.
Import ListNotations.
Local Arguments Nat.ltb : simpl never.
Local Arguments Nat.leb : simpl never.

(** ** Traversing a tree with more nodes behind it *)
Section Ext.
Context {T P I : Type} {N : num T}.
Variable isx : isector T P I.
Variable r : ray T.
Variables nodes more : list (node T P).

Lemma at_app u k n : at_ u nodes k = Ok n -> at_ u (nodes ++ more) k = Ok n.
Proof.
  unfold at_. destruct (nth_error nodes k) eqn:E; [|discriminate]. intros H.
  rewrite nth_error_app1, E by (apply nth_error_Some; congruence). exact H.
Qed.

Lemma loop_more : forall fuel stk hd i res, traverse_loop fuel isx nodes r stk hd i = res ->
  res <> NoFuel -> res <> UB UBnode ->
  forall fuel', fuel <= fuel' -> traverse_loop fuel' isx (nodes ++ more) r stk hd i = res.
Proof.
  induction fuel as [|fuel IH]; intros stk hd i res H HN HU fuel' Hf; cbn [traverse_loop] in H; [congruence|].
  destruct fuel' as [|fuel']; [lia|]. cbn [traverse_loop].
  destruct (0 <? ss stk); [|exact H].
  destruct (back stk) as [top|w|]; [|exact H..]. cbn [bind] in *.
  destruct top as [k|]; [|exact H].
  destruct (at_ UBnode nodes k) as [nd|w|] eqn:E.
  - rewrite (at_app _ _ _ E). cbn [bind] in *.
    destruct (pop_back (Some 0) stk) as [stk1|w|]; [|exact H..]. cbn [bind] in *.
    destruct (intersect_node _ _ nd r); [|apply (IH _ _ _ _ H HN HU); lia].
    destruct (negb (nd_leaf nd)).
    + destruct (match nd_axis nd with Some a => _ | None => _ end) as [nr|w|]; [|exact H..]. cbn [bind] in *.
      destruct (push_back stk1 _) as [stk2|w|]; [|exact H..]. cbn [bind] in *.
      destruct (push_back stk2 _) as [stk3|w|]; [|exact H..]. cbn [bind] in *.
      apply (IH _ _ _ _ H HN HU); lia.
    + destruct (intersect_leaf isx nd r i) as [hit i']. destruct hit; [|apply (IH _ _ _ _ H HN HU); lia].
      destruct (any_hit r); [exact H|]. apply (IH _ _ _ _ H HN HU); lia.
  - exfalso. unfold at_ in E. destruct (nth_error nodes k); [discriminate|]. injection E as <-. cbn in H. congruence.
  - exfalso. unfold at_ in E. destruct (nth_error nodes k); discriminate.
Qed.
End Ext.

Section Tree.
Context {T P I : Type} {N : num T}.
Definition axes (t : tree T P) : Prop := forall d mn mx ax l rt p, sub t 0 d (TBranch mn mx ax l rt) p -> ax < 3.

Lemma traverse_more (isx : isector T P I) t more r rh : axes t ->
  traverse isx (flatten t 0 ++ more) r rh = traverse isx (flatten t 0) r rh.
Proof.
  intros Hax. unfold traverse.
  pose proof (rep_push BLAZERT_MAX_TREE_DEPTH _ _ (Some 0) (rep_new BLAZERT_MAX_TREE_DEPTH)) as H.
  cbn [length] in H. change (0 <? BLAZERT_MAX_TREE_DEPTH) with true in H. cbn iota in H.
  destruct H as (s & -> & Hr). cbn [bind].
  destruct (loop_visit isx r t Hax (S (length (flatten t 0))) [(t, 0)] s (max_hit_distance r) (is_prepare isx r) BLAZERT_MAX_TREE_DEPTH) with (3 := Hr) as [_ B].
  - constructor; [|constructor]. exists 0. constructor.
  - unfold sizes. cbn. rewrite flatten_length. lia.
  - rewrite (loop_more isx r (flatten t 0) more (S (length (flatten t 0))) s _ _ _ eq_refl);
      [reflexivity|destruct B as [B|B]; rewrite B; discriminate..|rewrite app_length; lia].
Qed.

Lemma traverse_empty (isx : isector T P I) r rh : traverse isx [] r rh = UB UBnode.
Proof. reflexivity. Qed.

Lemma traverse_not_node (isx : isector T P I) t more r rh : axes t ->
  (forall i rh w, is_post isx i rh = UB w -> w = UBprim) ->
  traverse isx (flatten t 0 ++ more) r rh <> UB UBnode.
Proof.
  intros Hax Hp. rewrite traverse_more by exact Hax.
  destruct (traverse_visit isx r t Hax rh) as [_ [->| ->]]; [discriminate|].
  unfold finish. destruct (nltb _ _); [|discriminate].
  destruct (is_post isx _ rh) eqn:E; cbn; [discriminate| |discriminate].
  apply Hp in E. intros [= ->]. discriminate.
Qed.
End Tree.

(** ** A build does not depend on the nodes already there *)

Lemma list_set_length {A} (l : list A) k x : length (list_set l k x) = length l.
Proof. revert k. induction l as [|a l IH]; intros [|k]; cbn; auto. Qed.

Section Prefix.
Context {T P : Type} {N : num T}.
Variable part : (nat -> bool) -> list nat -> list nat * list nat.
Hypothesis Hpart : partition_ok part.
Variable c : coll T P.
Variable opt : options.

Lemma at_lt {A} u (l : list A) k : k < length l -> exists x, at_ u l k = Ok x.
Proof. unfold at_. intros H. destruct (nth_error l k) eqn:E; [eauto|]. apply nth_error_None in E. lia. Qed.

Lemma build_recursive_prefix : forall fuel ids depth st n1 n2,
  mapr (fun x => snd (fst x)) (build_recursive part fuel n1 c ids depth st opt) =
  mapr (fun x => snd (fst x)) (build_recursive part fuel n2 c ids depth st opt).
Proof.
  induction fuel as [|fuel IH]; intros ids depth st n1 n2; cbn [build_recursive]; [reflexivity|].
  destruct (compute_bounding_box c ids) as [[mn mx]| |]; [|reflexivity..]. cbn [bind].
  destruct ((length ids <=? min_leaf_primitives opt) || (max_tree_depth opt <=? depth)).
  - destruct (create_leaf c ids mn mx); reflexivity.
  - destruct (create_branch part c ids mn mx (stat_depth depth st) opt) as [[[[b l] rt] st1]| |]; [|reflexivity..]. cbn [bind].
    pose proof (IH l (depth + 1) (stat_branch st1) (n1 ++ [b]) (n2 ++ [b])) as H1.
    destruct (build_recursive part fuel (n1 ++ [b]) c l (depth + 1) (stat_branch st1) opt) as [[[m1 st2] k1]| |] eqn:E1;
    destruct (build_recursive part fuel (n2 ++ [b]) c l (depth + 1) (stat_branch st1) opt) as [[[m2 st2'] k2]| |] eqn:E2;
      try discriminate H1; cbn in H1; try (cbn; congruence). injection H1 as <-. cbn [bind].
    apply (build_recursive_tree _ _ _ Hpart) in E1 as (t1 & _ & _ & -> & _).
    apply (build_recursive_tree _ _ _ Hpart) in E2 as (t2 & _ & _ & -> & _).
    set (m1 := (n1 ++ [b]) ++ _). set (m2 := (n2 ++ [b]) ++ _).
    destruct (at_lt UBnode m1 (length n1)) as (x1 & ->). { unfold m1. rewrite !app_length. cbn. lia. }
    destruct (at_lt UBnode m2 (length n2)) as (x2 & ->). { unfold m2. rewrite !app_length. cbn. lia. }
    cbn [bind].
    match goal with |- mapr _ (bind (build_recursive _ _ ?a _ _ _ _ _) _) = mapr _ (bind (build_recursive _ _ ?a' _ _ _ _ _) _) =>
      set (p1 := a); set (p2 := a') end.
    pose proof (IH rt (depth + 1) st2 p1 p2) as H2.
    destruct (build_recursive part fuel p1 c rt (depth + 1) st2 opt) as [[[q1 st3] j1]| |] eqn:E1;
    destruct (build_recursive part fuel p2 c rt (depth + 1) st2 opt) as [[[q2 st3'] j2]| |] eqn:E2;
      try discriminate H2; cbn in H2; try (cbn; congruence). injection H2 as <-. cbn [bind].
    apply (build_recursive_tree _ _ _ Hpart) in E1 as (t3 & _ & _ & -> & _).
    apply (build_recursive_tree _ _ _ Hpart) in E2 as (t4 & _ & _ & -> & _).
    set (q1 := p1 ++ _). set (q2 := p2 ++ _).
    destruct (at_lt UBnode q1 (length n1)) as (y1 & ->).
    { unfold q1, p1. rewrite app_length, list_set_length. unfold m1. rewrite !app_length. cbn. lia. }
    destruct (at_lt UBnode q2 (length n2)) as (y2 & ->).
    { unfold q2, p2. rewrite app_length, list_set_length. unfold m2. rewrite !app_length. cbn. lia. }
    reflexivity.
Qed.

Lemma build_prefix n1 n2 : mapr snd (build part n1 c opt) = mapr snd (build part n2 c opt).
Proof.
  unfold build. pose proof (build_recursive_prefix (S (max_tree_depth opt)) (seq 0 (c_size c)) 0 stats0 n1 n2) as H.
  destruct (build_recursive part _ n1 c _ 0 stats0 opt) as [[[? ?] ?]| |];
  destruct (build_recursive part _ n2 c _ 0 stats0 opt) as [[[? ?] ?]| |]; cbn in *; congruence.
Qed.

Lemma build_appends n n' st : build part n c opt = Ok (n', st) -> exists x, n' = n ++ x.
Proof. intros H. apply (build_tree _ _ _ Hpart) in H as (t & _ & -> & _). eauto. Qed.

Lemma build_axes n' st : build part [] c opt = Ok (n', st) -> exists t, n' = flatten t 0 /\ axes t.
Proof. intros H. destruct (built_tree part Hpart c opt _ _ H) as (t & _ & E & Hax). eauto. Qed.
End Prefix.

Section S.
Context {T : Type} {N : num T}.
Variable part : (nat -> bool) -> list nat -> list nat * list nat.
Hypothesis Hpart : partition_ok part.
Notation step := (@step T N part).
Notation run := (@run T N part).

(** ** Scenes with the same trees *)
Section Geo.
Context {C P : Type}.
Variable f : C -> coll T P.

(** The node array before or after commits; [os] the options in force at the first. *)
Definition nodes_ok (os : options -> Prop) (cmt : bool) (g : geometry C T P) : Prop :=
  (cmt = false -> g_nodes g = []) /\
  (cmt = true -> exists opt n st x, os opt /\ build part [] (f (g_coll g)) opt = Ok (n, st) /\ g_nodes g = n ++ x).
Definition geo_ok (os : options -> Prop) (cmt : bool) (g : option (geometry C T P)) : Prop :=
  forall x, g = Some x -> nodes_ok os cmt x.

Definition like (g g' : option (geometry C T P)) : Prop :=
  match g, g' with
  | None, None => True
  | Some x, Some y => g_coll x = g_coll y /\ g_id x = g_id y /\
      ((g_nodes x = [] /\ g_nodes y = []) \/
       exists t a b, axes t /\ g_nodes x = flatten t 0 ++ a /\ g_nodes y = flatten t 0 ++ b)
  | _, _ => False
  end.

Lemma geo_commit (os : options -> Prop) cmt opt g g' : os opt -> geo_ok os cmt g -> build_geometry part f opt g = Ok g' ->
  geo_ok os true g' /\ (cmt = true -> like g g').
Proof.
  intros Ho Hg H. apply build_geometry_some in H. destruct g as [x|]; [|subst; split; [discriminate|intros _; exact I]].
  destruct H as (n & st & E & ->). destruct (Hg x eq_refl) as [H0 H1]. split.
  - intros y [= <-]. split; [discriminate|]. intros _. cbn [g_coll g_nodes]. destruct cmt.
    + destruct (H1 eq_refl) as (opt0 & n0 & st0 & z & Ho0 & B & En). rewrite En in E.
      apply (build_appends _ Hpart) in E as (w & ->). exists opt0, n0, st0, (z ++ w).
      split; [exact Ho0|]. split; [exact B|]. symmetry. apply app_assoc.
    + rewrite (H0 eq_refl) in E. exists opt, n, st, []. rewrite app_nil_r. auto.
  - intros ->. destruct (H1 eq_refl) as (opt0 & n0 & st0 & z & Ho0 & B & En).
    cbn. split; [reflexivity|]. split; [reflexivity|]. right.
    apply (build_axes _ Hpart) in B as (t & -> & Hax). rewrite En in E |- *.
    apply (build_appends _ Hpart) in E as (w & ->). exists t, z, (z ++ w). rewrite app_assoc. auto.
Qed.

Lemma like_commit opt g g' : like g g' ->
  mapr (fun _ => tt) (build_geometry part f opt g) = mapr (fun _ => tt) (build_geometry part f opt g') /\
  forall x y, build_geometry part f opt g = Ok x -> build_geometry part f opt g' = Ok y -> like x y.
Proof.
  destruct g as [x|], g' as [y|]; cbn [like]; try tauto.
  - intros (E1 & E2 & H). cbn [build_geometry]. rewrite <- E1.
    pose proof (build_prefix part Hpart (f (g_coll x)) opt (g_nodes x) (g_nodes y)) as B.
    destruct (build part (g_nodes x) (f (g_coll x)) opt) as [[n1 st1]| |] eqn:B1;
    destruct (build part (g_nodes y) (f (g_coll x)) opt) as [[n2 st2]| |] eqn:B2;
      cbn in *; try discriminate B; (split; [congruence|]); try discriminate.
    intros ? ? [= <-] [= <-]. cbn. split; [reflexivity|]. split; [exact E2|]. right.
    destruct H as [[H1 H2]|(t & a & b & Hax & H1 & H2)]; rewrite ?H1, ?H2 in *.
    + assert (n1 = n2) as <- by congruence. destruct (build_axes _ Hpart _ _ _ _ B1) as (t & -> & Hax).
      exists t, [], []. rewrite app_nil_r. auto.
    + apply (build_appends _ Hpart) in B1 as (w & ->). apply (build_appends _ Hpart) in B2 as (w' & ->).
      exists t, (a ++ w), (b ++ w'). rewrite !app_assoc. auto.
  - intros _. cbn. split; [reflexivity|]. intros ? ? [= <-] [= <-]. exact I.
Qed.

Lemma like_query {I} always (isx : C -> isector T P I) g g' r st : like g g' ->
  query_block always isx g r st = query_block always isx g' r st.
Proof.
  destruct g as [x|], g' as [y|]; cbn [like]; try tauto. intros (E1 & E2 & H). cbn [query_block].
  rewrite <- E1, <- E2. destruct st as [[hit rh] tmp].
  replace (traverse (isx (g_coll x)) (g_nodes y) r tmp) with (traverse (isx (g_coll x)) (g_nodes x) r tmp); [reflexivity|].
  destruct H as [[H1 H2]|(t & a & b & Hax & H1 & H2)]; rewrite H1, H2; [reflexivity|].
  rewrite !traverse_more by exact Hax. reflexivity.
Qed.
End Geo.

Definition alike (s s' : scene T) : Prop :=
  sc_options s = sc_options s' /\ sc_committed s = sc_committed s' /\ sc_count s = sc_count s' /\
  like (sc_mesh s) (sc_mesh s') /\ like (sc_spheres s) (sc_spheres s') /\
  like (sc_planes s) (sc_planes s') /\ like (sc_cylinders s) (sc_cylinders s').

Lemma alike_query s s' r rh : alike s s' -> intersect1 s r rh = intersect1 s' r rh.
Proof.
  intros (_ & _ & _ & H1 & H2 & H3 & H4). unfold intersect1.
  rewrite (like_query _ _ _ _ _ _ H1). destruct (query_block true tri_isector _ r _) as [st1| |]; [|reflexivity..].
  cbn [bind]. rewrite (like_query _ _ _ _ _ _ H2). destruct (query_block false sphere_isector _ r _) as [st2| |]; [|reflexivity..].
  cbn [bind]. rewrite (like_query _ _ _ _ _ _ H3). destruct (query_block false (fun _ => plane_isector) _ r _) as [st3| |]; [|reflexivity..].
  cbn [bind]. rewrite (like_query _ _ _ _ _ _ H4). reflexivity.
Qed.

Definition both {A} (x y : res (scene T * A)) : Prop :=
  mapr snd x = mapr snd y /\ forall s a s' b, x = Ok (s, a) -> y = Ok (s', b) -> alike s s'.

Lemma alike_commit s s' : alike s s' ->
  mapr (fun _ => tt) (commit part s) = mapr (fun _ => tt) (commit part s') /\
  forall x y, commit part s = Ok x -> commit part s' = Ok y -> alike x y.
Proof.
  intros (E1 & E2 & E3 & H1 & H2 & H3 & H4). unfold commit. rewrite <- E1, <- E3.
  destruct (like_commit mesh_coll (sc_options s) _ _ H1) as [A1 B1].
  destruct (like_commit sphere_coll (sc_options s) _ _ H2) as [A2 B2].
  destruct (like_commit plane_coll (sc_options s) _ _ H3) as [A3 B3].
  destruct (like_commit cylinder_coll (sc_options s) _ _ H4) as [A4 B4].
  destruct (build_geometry part mesh_coll (sc_options s) (sc_mesh s)) as [m| |];
  destruct (build_geometry part mesh_coll (sc_options s) (sc_mesh s')) as [m'| |];
    try discriminate A1; cbn [bind]; try (split; [cbn in *; congruence|discriminate]).
  destruct (build_geometry part sphere_coll (sc_options s) (sc_spheres s)) as [sp| |];
  destruct (build_geometry part sphere_coll (sc_options s) (sc_spheres s')) as [sp'| |];
    try discriminate A2; cbn [bind]; try (split; [cbn in *; congruence|discriminate]).
  destruct (build_geometry part plane_coll (sc_options s) (sc_planes s)) as [pl| |];
  destruct (build_geometry part plane_coll (sc_options s) (sc_planes s')) as [pl'| |];
    try discriminate A3; cbn [bind]; try (split; [cbn in *; congruence|discriminate]).
  destruct (build_geometry part cylinder_coll (sc_options s) (sc_cylinders s)) as [cy| |];
  destruct (build_geometry part cylinder_coll (sc_options s) (sc_cylinders s')) as [cy'| |];
    try discriminate A4; cbn [bind]; try (split; [cbn in *; congruence|discriminate]).
  split; [reflexivity|]. intros ? ? [= <-] [= <-]. repeat split; cbn; auto.
Qed.

Lemma like_shape {C P} (g g' : option (geometry C T P)) : like g g' -> match g with None => g' = None | Some _ => exists y, g' = Some y end.
Proof. destruct g, g'; cbn; intros; try tauto; eauto. Qed.
Lemma like_new {C P} (x : C) (i : nat) : like (Some (Geometry x (@nil (node T P)) i)) (Some (Geometry x [] i)).
Proof. cbn. auto. Qed.

Lemma alike_step s s' c : alike s s' -> both (step s c) (step s' c).
Proof.
  intros A. pose proof A as (E1 & E2 & E3 & H1 & H2 & H3 & H4). destruct c; cbn [SpecScene.step].
  - unfold add_mesh. rewrite <- E1, <- E2, <- E3. pose proof (like_shape _ _ H1) as L. destruct (sc_mesh s) eqn:Em.
    + destruct L as (y & Ey). rewrite Ey. split; [reflexivity|]. cbn. intros ? ? ? ? [= <- <-] [= <- <-]. exact A.
    + rewrite L. destruct (sc_committed s) eqn:Ec; [split; [reflexivity|]; cbn; intros ? ? ? ? [= <- <-] [= <- <-]; exact A|].
      destruct (make_mesh vertices faces) as [m| |]; cbn [bind]; [|split; [reflexivity|discriminate]..].
      split; [reflexivity|]. intros ? ? ? ? [= <- <-] [= <- <-]. repeat split; cbn [sc_mesh sc_spheres sc_planes sc_cylinders]; auto.
  - unfold add_spheres. rewrite <- E1, <- E2, <- E3. pose proof (like_shape _ _ H2) as L. destruct (sc_spheres s) eqn:Em.
    + destruct L as (y & Ey). rewrite Ey. split; [reflexivity|]. cbn. intros ? ? ? ? [= <- <-] [= <- <-]. exact A.
    + rewrite L. destruct (sc_committed s) eqn:Ec; [split; [reflexivity|]; cbn; intros ? ? ? ? [= <- <-] [= <- <-]; exact A|].
      destruct (make_spheres centers radii) as [m| |]; cbn [bind]; [|split; [reflexivity|discriminate]..].
      split; [reflexivity|]. intros ? ? ? ? [= <- <-] [= <- <-]. repeat split; cbn [sc_mesh sc_spheres sc_planes sc_cylinders]; auto.
  - unfold add_planes. rewrite <- E1, <- E2, <- E3. pose proof (like_shape _ _ H3) as L. destruct (sc_planes s) eqn:Em.
    + destruct L as (y & Ey). rewrite Ey. split; [reflexivity|]. cbn. intros ? ? ? ? [= <- <-] [= <- <-]. exact A.
    + rewrite L. destruct (sc_committed s) eqn:Ec; [split; [reflexivity|]; cbn; intros ? ? ? ? [= <- <-] [= <- <-]; exact A|].
      destruct (make_planes centers dxs dys rots) as [m| |]; cbn [bind]; [|split; [reflexivity|discriminate]..].
      split; [reflexivity|]. intros ? ? ? ? [= <- <-] [= <- <-]. repeat split; cbn [sc_mesh sc_spheres sc_planes sc_cylinders]; auto.
  - unfold add_cylinders. rewrite <- E1, <- E2, <- E3. pose proof (like_shape _ _ H4) as L. destruct (sc_cylinders s) eqn:Em.
    + destruct L as (y & Ey). rewrite Ey. split; [reflexivity|]. cbn. intros ? ? ? ? [= <- <-] [= <- <-]. exact A.
    + rewrite L. destruct (sc_committed s) eqn:Ec; [split; [reflexivity|]; cbn; intros ? ? ? ? [= <- <-] [= <- <-]; exact A|].
      destruct (make_cylinders centers sa sb hs rots) as [m| |]; cbn [bind]; [|split; [reflexivity|discriminate]..].
      split; [reflexivity|]. intros ? ? ? ? [= <- <-] [= <- <-]. repeat split; cbn [sc_mesh sc_spheres sc_planes sc_cylinders]; auto.
  - split; [reflexivity|]. intros ? ? ? ? [= <- <-] [= <- <-]. repeat split; cbn; auto.
  - destruct (alike_commit _ _ A) as [X Y]. destruct (commit part s) as [x| |], (commit part s') as [y| |]; try discriminate X;
      cbn [bind]; try (split; [cbn in *; congruence|discriminate]).
    split; [reflexivity|]. intros ? ? ? ? [= <- <-] [= <- <-]. apply Y; reflexivity.
  - rewrite <- (alike_query _ _ _ _ A). destruct (intersect1 s r rh) as [[b rh']| |]; cbn [bind]; [|split; [reflexivity|discriminate]..].
    split; [reflexivity|]. intros ? ? ? ? [= <- <-] [= <- <-]. exact A.
Qed.

Lemma alike_run cs : forall s s', alike s s' -> both (run s cs) (run s' cs).
Proof.
  induction cs as [|c cs IH]; intros s s' A; cbn [SpecScene.run].
  - split; [reflexivity|]. intros ? ? ? ? [= <- <-] [= <- <-]. exact A.
  - destruct (alike_step s s' c A) as [X Y]. destruct (step s c) as [[s1 a1]| |], (step s' c) as [[s2 a2]| |]; try discriminate X;
      cbn [bind]; try (split; [cbn in *; congruence|discriminate]).
    cbn in X. injection X as <-. specialize (Y _ _ _ _ eq_refl eq_refl). destruct (IH _ _ Y) as [X2 Y2].
    destruct (run s1 cs) as [[s3 l3]| |], (run s2 cs) as [[s4 l4]| |]; try discriminate X2;
      cbn [bind]; try (split; [cbn in *; congruence|discriminate]).
    cbn in X2. injection X2 as <-. split; [reflexivity|]. intros ? ? ? ? [= <- <-] [= <- <-]. eapply Y2; reflexivity.
Qed.

(** ** What a history leaves in the node arrays *)
Definition good (os : options -> Prop) (s : scene T) : Prop :=
  os (sc_options s) /\
  geo_ok mesh_coll os (sc_committed s) (sc_mesh s) /\ geo_ok sphere_coll os (sc_committed s) (sc_spheres s) /\
  geo_ok plane_coll os (sc_committed s) (sc_planes s) /\ geo_ok cylinder_coll os (sc_committed s) (sc_cylinders s).

(** The options of a history are all among [os]. *)
Definition options_in (os : options -> Prop) (opt : options) (cs : list (call T)) : Prop :=
  os opt /\ forall o, In (SetOptions o) cs -> os o.

Lemma geo_new {C P} (f : C -> coll T P) os x i : geo_ok f os false (Some (Geometry x [] i)).
Proof. intros y [= <-]. split; [reflexivity|discriminate]. Qed.

Lemma good_commit os s s' : good os s -> commit part s = Ok s' -> good os s' /\ (sc_committed s = true -> alike s s').
Proof.
  intros (Ho & H1 & H2 & H3 & H4) E. apply commit_inv in E as (E1 & E2 & E3 & B1 & B2 & B3 & B4).
  destruct (geo_commit _ _ _ _ _ _ Ho H1 B1) as [A1 L1]. destruct (geo_commit _ _ _ _ _ _ Ho H2 B2) as [A2 L2].
  destruct (geo_commit _ _ _ _ _ _ Ho H3 B3) as [A3 L3]. destruct (geo_commit _ _ _ _ _ _ Ho H4 B4) as [A4 L4].
  split.
  - unfold good. rewrite E1, E2. auto 6.
  - intros Hc. unfold alike. rewrite E1, E2, E3, Hc. auto 10.
Qed.

Lemma good_step os s c s' a : good os s -> (forall o, c = SetOptions o -> os o) -> step s c = Ok (s', a) -> good os s'.
Proof.
  intros G Hs E. pose proof G as (Ho & H1 & H2 & H3 & H4). destruct c; cbn [SpecScene.step] in E.
  - apply bind_ok in E as ([s1 id] & E & E2). injection E2 as <- <-. unfold add_mesh in E.
    destruct (sc_mesh s) eqn:Em; [injection E as <- <-; exact G|].
    destruct (sc_committed s) eqn:Ec; [injection E as <- <-; exact G|].
    apply bind_ok in E as (m & _ & E). injection E as <- <-.
    split; [exact Ho|]. cbn [sc_committed sc_mesh sc_spheres sc_planes sc_cylinders]. auto using geo_new.
  - apply bind_ok in E as ([s1 id] & E & E2). injection E2 as <- <-. unfold add_spheres in E.
    destruct (sc_spheres s) eqn:Em; [injection E as <- <-; exact G|].
    destruct (sc_committed s) eqn:Ec; [injection E as <- <-; exact G|].
    apply bind_ok in E as (m & _ & E). injection E as <- <-.
    split; [exact Ho|]. cbn [sc_committed sc_mesh sc_spheres sc_planes sc_cylinders]. auto using geo_new.
  - apply bind_ok in E as ([s1 id] & E & E2). injection E2 as <- <-. unfold add_planes in E.
    destruct (sc_planes s) eqn:Em; [injection E as <- <-; exact G|].
    destruct (sc_committed s) eqn:Ec; [injection E as <- <-; exact G|].
    apply bind_ok in E as (m & _ & E). injection E as <- <-.
    split; [exact Ho|]. cbn [sc_committed sc_mesh sc_spheres sc_planes sc_cylinders]. auto using geo_new.
  - apply bind_ok in E as ([s1 id] & E & E2). injection E2 as <- <-. unfold add_cylinders in E.
    destruct (sc_cylinders s) eqn:Em; [injection E as <- <-; exact G|].
    destruct (sc_committed s) eqn:Ec; [injection E as <- <-; exact G|].
    apply bind_ok in E as (m & _ & E). injection E as <- <-.
    split; [exact Ho|]. cbn [sc_committed sc_mesh sc_spheres sc_planes sc_cylinders]. auto 6 using geo_new.
  - injection E as <- <-. split; [apply Hs; reflexivity|]. cbn. auto.
  - apply bind_ok in E as (s1 & E & E2). injection E2 as <- <-. apply (good_commit _ _ _ G E).
  - apply bind_ok in E as ([b rh'] & E & E2). injection E2 as <- <-. exact G.
Qed.

Lemma good_run os cs : forall s s' l, good os s -> (forall o, In (SetOptions o) cs -> os o) -> run s cs = Ok (s', l) -> good os s'.
Proof.
  induction cs as [|c cs IH]; cbn; intros s s' l G Hs H; [injection H as <- <-; exact G|].
  apply bind_ok in H as ([s1 a] & E1 & H). apply bind_ok in H as ([s2 l2] & E2 & H). injection H as <- <-.
  eapply IH; [|intros; apply Hs; right; assumption|exact E2]. eapply good_step; [exact G| |exact E1]. intros o ->. apply Hs. left; reflexivity.
Qed.
Lemma good_history os opt cs s l : options_in os opt cs -> run (new_scene opt) cs = Ok (s, l) -> good os s.
Proof.
  intros [Ho Hs] H. eapply good_run; [|exact Hs|exact H]. split; [exact Ho|]. repeat split; discriminate.
Qed.
Lemma good_any opt cs s l : run (new_scene opt) cs = Ok (s, l) -> good (fun _ => True) s.
Proof. apply good_history. split; auto. Qed.

Lemma committed_in opt cs s l : run (new_scene opt) cs = Ok (s, l) -> (sc_committed s = true <-> In Commit cs).
Proof.
  intros H. destruct (run_inv _ _ _ _ _ H) as (_ & _ & -> & _). split.
  - intros (j & Hj). eapply nth_error_In, Hj.
  - intros Hc. apply In_nth_error in Hc. exact Hc.
Qed.

(** ** Commit again *)
Lemma recommit opt cs s l s' : run (new_scene opt) cs = Ok (s, l) -> In Commit cs -> commit part s = Ok s' ->
  (forall r rh, intersect1 s' r rh = intersect1 s r rh) /\
  (forall more, mapr snd (run s' more) = mapr snd (run s more)).
Proof.
  intros H Hc E. apply (committed_in _ _ _ _ H) in Hc.
  destruct (good_commit _ _ _ (good_any _ _ _ _ H) E) as [_ A]. specialize (A Hc). split.
  - intros r rh. symmetry. apply alike_query, A.
  - intros more. symmetry. apply (alike_run more _ _ A).
Qed.

Lemma geo_again {C P} (f : C -> coll T P) opt g g' : build_geometry part f opt g = Ok g' ->
  exists g2, build_geometry part f opt g' = Ok g2.
Proof.
  intros H. apply build_geometry_some in H. destruct g as [x|]; [|subst; cbn; eauto].
  destruct H as (n & st & E & ->). cbn [build_geometry g_coll g_nodes].
  pose proof (build_prefix part Hpart (f (g_coll x)) opt (g_nodes x) n) as B. rewrite E in B. cbn in B.
  destruct (build part n (f (g_coll x)) opt) as [[n2 st2]| |]; try discriminate B. cbn. eauto.
Qed.
Lemma commit_again s s' : commit part s = Ok s' -> exists s2, commit part s' = Ok s2.
Proof.
  intros E. apply commit_inv in E as (E1 & E2 & E3 & B1 & B2 & B3 & B4). unfold commit. rewrite E1.
  apply geo_again in B1 as (? & ->). apply geo_again in B2 as (? & ->). apply geo_again in B3 as (? & ->). apply geo_again in B4 as (? & ->).
  cbn. eauto.
Qed.

(** Any number of further commits. *)
Lemma recommits n opt cs s l : run (new_scene opt) (cs ++ [Commit]) = Ok (s, l) ->
  exists s' l', run (new_scene opt) (cs ++ Commit :: repeat Commit n) = Ok (s', l') /\
  (forall r rh, intersect1 s' r rh = intersect1 s r rh) /\
  (forall more, mapr snd (run s' more) = mapr snd (run s more)).
Proof.
  intros H.
  assert (X : exists s' l', run (new_scene opt) (cs ++ Commit :: repeat Commit n) = Ok (s', l') /\
    ((forall r rh, intersect1 s' r rh = intersect1 s r rh) /\
     (forall more, mapr snd (run s' more) = mapr snd (run s more))) /\ exists s0, commit part s0 = Ok s').
  { induction n as [|n (s1 & l1 & E1 & [A B] & s0 & E0)].
    - exists s, l. split; [exact H|]. split; [split; reflexivity|].
      apply run_snoc in H as (s0 & l0 & a & H0 & H1 & _).
      cbn in H1. apply bind_ok in H1 as (s2 & H1 & E). injection E as <- <-. eauto.
    - destruct (commit_again _ _ E0) as (s2 & E2).
      exists s2, (l1 ++ [Done]). split; [|split; [|eauto]].
      + replace (cs ++ Commit :: repeat Commit (S n)) with ((cs ++ Commit :: repeat Commit n) ++ [Commit]).
        * rewrite run_app, E1. cbn. rewrite E2. reflexivity.
        * rewrite <- app_assoc. cbn. do 2 f_equal. clear. induction n; cbn; congruence.
      + assert (Hin : In Commit (cs ++ Commit :: repeat Commit n)) by (apply in_or_app; right; left; reflexivity).
        destruct (recommit _ _ _ _ _ E1 Hin E2) as [A2 B2]. split; intros.
        * rewrite A2. apply A.
        * rewrite B2. apply B. }
  destruct X as (s' & l' & E & A & _). eauto.
Qed.

(** ** Queries before and after commit *)
Lemma tri_post_prim m i (rh : rayhit T) w : is_post (tri_isector m) i rh = UB w -> w = UBprim.
Proof.
  cbn. unfold tri_post, at_. intros H.
  repeat (match goal with H : context [match ?x with _ => _ end] |- _ => destruct x; cbn [bind] in H end); congruence.
Qed.
Lemma sphere_post_prim m i (rh : rayhit T) w : is_post (sphere_isector m) i rh = UB w -> w = UBprim.
Proof.
  cbn. unfold sphere_post, at_. intros H.
  repeat (match goal with H : context [match ?x with _ => _ end] |- _ => destruct x; cbn [bind] in H end); congruence.
Qed.
Lemma plane_post_prim i (rh : rayhit T) w : is_post plane_isector i rh = UB w -> w = UBprim.
Proof. cbn. unfold plane_post. intros H. discriminate. Qed.
Lemma cylinder_post_prim i (rh : rayhit T) w : is_post cylinder_isector i rh = UB w -> w = UBprim.
Proof. cbn. unfold cylinder_post. intros H. discriminate. Qed.

Section Block.
Context {C P I : Type}.
Variable f : C -> coll T P.
Variable isx : C -> isector T P I.
Hypothesis Hpost : forall x i rh w, is_post (isx x) i rh = UB w -> w = UBprim.

Lemma block_committed os always g r st : geo_ok f os true g ->
  (forall x, g = Some x -> g_nodes x <> []) /\ query_block always isx g r st <> UB UBnode.
Proof.
  intros H. destruct g as [x|]; [|split; [discriminate|destruct st as [[? ?] ?]; discriminate]].
  destruct (H x eq_refl) as [_ H1]. destruct (H1 eq_refl) as (opt & n & s & z & _ & B & En).
  apply (build_axes _ Hpart) in B as (t & -> & Hax). split.
  - intros y [= <-]. rewrite En. pose proof (nodes_nonempty t) as Q. destruct (flatten t 0); [congruence|discriminate].
  - cbn [query_block]. destruct st as [[hit rh] tmp]. rewrite En.
    pose proof (traverse_not_node (isx (g_coll x)) t z r tmp Hax (Hpost _)) as Q.
    destruct (traverse (isx (g_coll x)) (flatten t 0 ++ z) r tmp) as [[h tmp']| |]; cbn [bind]; [|congruence..].
    destruct (h && _); discriminate.
Qed.
Lemma block_uncommitted os always x r st : geo_ok f os false (Some x) -> query_block always isx (Some x) r st = UB UBnode.
Proof.
  intros H. destruct (H x eq_refl) as [H1 _]. cbn [query_block]. destruct st as [[hit rh] tmp]. rewrite (H1 eq_refl). reflexivity.
Qed.
End Block.

Lemma committed_query opt cs s l : run (new_scene opt) cs = Ok (s, l) -> In Commit cs ->
  node_arrays s /\ forall r rh, intersect1 s r rh <> UB UBnode.
Proof.
  intros H Hc. apply (committed_in _ _ _ _ H) in Hc. destruct (good_any _ _ _ _ H) as (_ & H1 & H2 & H3 & H4).
  rewrite Hc in *. pose (r0 := Ray (V n0 n0 n0) (V n0 n0 n0) (V n0 n0 n0) (V false false false) n0 n0 false : ray T).
  pose (st0 := (false, new_rayhit, new_rayhit) : bool * rayhit T * rayhit T).
  split.
  - split; [|split; [|split]].
    + apply (block_committed _ _ tri_post_prim _ true _ r0 st0 H1).
    + apply (block_committed _ _ sphere_post_prim _ true _ r0 st0 H2).
    + apply (block_committed _ _ (fun _ => plane_post_prim) _ true _ r0 st0 H3).
    + apply (block_committed _ _ (fun _ => cylinder_post_prim) _ true _ r0 st0 H4).
  - intros r rh. unfold intersect1.
    destruct (block_committed _ _ tri_post_prim _ true _ r (false, rh, new_rayhit) H1) as [_ Q].
    destruct (query_block true tri_isector (sc_mesh s) r (false, rh, new_rayhit)) as [st1| |]; cbn [bind]; [|congruence..].
    destruct (block_committed _ _ sphere_post_prim _ false _ r st1 H2) as [_ Q2].
    destruct (query_block false sphere_isector (sc_spheres s) r st1) as [st2| |]; cbn [bind]; [|congruence..].
    destruct (block_committed _ _ (fun _ => plane_post_prim) _ false _ r st2 H3) as [_ Q3].
    destruct (query_block false (fun _ => plane_isector) (sc_planes s) r st2) as [st3| |]; cbn [bind]; [|congruence..].
    destruct (block_committed _ _ (fun _ => cylinder_post_prim) _ false _ r st3 H4) as [_ Q4].
    destruct (query_block false (fun _ => cylinder_isector) (sc_cylinders s) r st3) as [[[b rh2] tmp]| |]; cbn [bind]; congruence.
Qed.

Lemma uncommitted_query opt cs s l : run (new_scene opt) cs = Ok (s, l) -> ~ In Commit cs -> (exists a, In a l /\ accepted a) ->
  forall r rh, intersect1 s r rh = UB UBnode.
Proof.
  intros H Hc (a & Ha & Hacc) r rh.
  assert (Hcm : sc_committed s = false).
  { destruct (sc_committed s) eqn:E; [|reflexivity]. apply (committed_in _ _ _ _ H) in E. contradiction. }
  destruct (good_any _ _ _ _ H) as (_ & H1 & H2 & H3 & H4). rewrite Hcm in *.
  assert (Hk : exists k, has s k = true).
  { destruct (run_inv _ _ _ _ _ H) as (_ & _ & _ & Hh).
    apply In_nth_error in Ha as (j & Hj).
    assert (Hl : length l = length cs) by (eapply run_length, H).
    destruct (nth_error cs j) as [c|] eqn:Ec; [|apply nth_error_None in Ec; assert (j < length l) by (apply nth_error_Some; congruence); lia].
    destruct (adds c) as [k|] eqn:Ek.
    - exists k. apply Hh. exists j, a. split; [|exact Hacc]. split; [eauto|exact Hj].
    - exfalso. (* only adds reply with an id *)
      clear -H Hj Ec Ek Hacc. revert s l H j Hj Ec.
      generalize (new_scene opt : scene T). induction cs as [|c0 cs IH]; intros s0 s l H j Hj Ec; [destruct j; discriminate|].
      cbn in H. apply bind_ok in H as ([s1 a1] & E1 & H). apply bind_ok in H as ([s2 l2] & E2 & H). injection H as <- <-.
      destruct j as [|j]; cbn in Hj, Ec; [|eapply IH; eauto].
      injection Hj as ->. injection Ec as ->. destruct (step_other _ _ _ _ _ Ek E1) as (_ & Q & _). destruct Hacc as (n & ->). destruct (Q _ eq_refl). }
  unfold intersect1.
  destruct (sc_mesh s) as [g1|] eqn:G1.
  { rewrite (block_uncommitted _ _ _ _ _ _ _ H1). reflexivity. }
  cbn [query_block bind]. destruct (sc_spheres s) as [g2|] eqn:G2.
  { rewrite (block_uncommitted _ _ _ _ _ _ _ H2). reflexivity. }
  cbn [query_block bind]. destruct (sc_planes s) as [g3|] eqn:G3.
  { rewrite (block_uncommitted _ _ _ _ _ _ _ H3). reflexivity. }
  cbn [query_block bind]. destruct (sc_cylinders s) as [g4|] eqn:G4.
  { rewrite (block_uncommitted _ _ _ _ _ _ _ H4). reflexivity. }
  destruct Hk as ([] & Hk); cbn in Hk; rewrite ?G1, ?G2, ?G3, ?G4 in Hk; discriminate.
Qed.

Lemma bind_assoc {A B C} (x : res A) (g : A -> res B) (h : B -> res C) : bind (bind x g) h = bind x (fun a => bind (g a) h).
Proof. destruct x; reflexivity. Qed.

(** ** Used records *)
(** Two states of the query that differ only in what the caller's record held. *)
Definition near_st (d : T) (x y : res (bool * rayhit T * rayhit T)) : Prop :=
  match x, y with
  | Ok (h, a, t), Ok (h', b, t') => h = h' /\ t = t' /\ (if h then a = b else h_distance a = d /\ h_distance b = d)
  | UB u, UB w => u = w
  | NoFuel, NoFuel => True
  | _, _ => False
  end.

Lemma block_near {C P I} d always (isx : C -> isector T P I) g r x y : near_st d x y ->
  near_st d (bind x (query_block always isx g r)) (bind y (query_block always isx g r)).
Proof.
  destruct x as [[[h a] t]|u|], y as [[[h' b] t']|w|]; cbn [near_st bind]; try tauto.
  intros (<- & <- & H). destruct g as [g|]; cbn [query_block]; [|cbn; auto].
  destruct (traverse (isx (g_coll g)) (g_nodes g) r t) as [[b' t2]| |]; cbn [bind near_st]; auto.
  assert (E : h_distance a = h_distance b) by (destruct h; [congruence|destruct H; congruence]).
  rewrite <- E. destruct (b' && (always || nltb (h_distance t2) (h_distance a))); cbn; auto.
Qed.

Lemma used_record s r rh rh' : h_distance rh = h_distance rh' -> same_reply (intersect1 s r rh) (intersect1 s r rh').
Proof.
  intros E. unfold intersect1.
  assert (H0 : near_st (h_distance rh) (Ok (false, rh, new_rayhit)) (Ok (false, rh', new_rayhit))) by (cbn; auto).
  apply (block_near _ true tri_isector (sc_mesh s) r) in H0. cbn [bind] in H0.
  apply (block_near _ false sphere_isector (sc_spheres s) r) in H0.
  apply (block_near _ false (fun _ => plane_isector) (sc_planes s) r) in H0.
  apply (block_near _ false (fun _ => cylinder_isector) (sc_cylinders s) r) in H0.
  rewrite <- !bind_assoc.
  match type of H0 with near_st _ ?x ?y => destruct x as [[[b a] t]| |], y as [[[b' a'] t']| |] end; cbn in H0 |- *; try tauto.
  destruct H0 as (<- & _ & H0). destruct b; auto.
Qed.

(** With meshes only, nothing of the record matters. *)
Lemma mesh_record s r rh rh' : sc_spheres s = None -> sc_planes s = None -> sc_cylinders s = None ->
  same_reply (intersect1 s r rh) (intersect1 s r rh').
Proof.
  intros E1 E2 E3. unfold intersect1. rewrite E1, E2, E3. destruct (sc_mesh s) as [g|]; [|cbn; auto].
  cbn [query_block]. destruct (traverse (tri_isector (g_coll g)) (g_nodes g) r new_rayhit) as [[h t]| |]; cbn [bind]; [|cbn; auto..].
  destruct h; cbn; auto.
Qed.
End S.
