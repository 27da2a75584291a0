(** Structure of the built tree: proofs about the builder that use no law of
    arithmetic. *)

From Coq Require Import ZArith List Bool Arith Lia Permutation.
From Verif Require Import Num Vec Datatypes Bvh SpecBvh.
Import ListNotations.

Local Arguments Nat.ltb : simpl never.
Local Arguments Nat.leb : simpl never.

Lemma bind_ok {A B} (x : res A) (f : A -> res B) b :
  bind x f = Ok b -> exists a, x = Ok a /\ f a = Ok b.
Proof. destruct x; cbn; intros H; try discriminate; eauto. Qed.

Ltac bind_inv :=
  repeat match goal with
  | H : bind _ _ = Ok _ |- _ =>
      let a := fresh "a" in let E := fresh "E" in
      apply bind_ok in H; destruct H as (a & E & H)
  | H : (let (_, _) := ?a in _) = Ok _ |- _ => destruct a
  end.

Lemma mapM_length {A B} (f : A -> res B) l bs : mapM f l = Ok bs -> length bs = length l.
Proof.
  revert bs; induction l as [|a l IH]; intros bs H; cbn in H.
  - injection H as <-; reflexivity.
  - apply bind_ok in H as (b & Eb & H). apply bind_ok in H as (bs' & Ebs & H).
    injection H as <-. cbn. f_equal. apply IH, Ebs.
Qed.

Lemma mapM_app {A B} (f : A -> res B) l1 l2 b1 b2 :
  mapM f l1 = Ok b1 -> mapM f l2 = Ok b2 -> mapM f (l1 ++ l2) = Ok (b1 ++ b2).
Proof.
  revert b1; induction l1 as [|a l1 IH]; intros b1 H1 H2; cbn in *.
  - injection H1 as <-; exact H2.
  - apply bind_ok in H1 as (b & Eb & H1). apply bind_ok in H1 as (bs & Ebs & H1).
    injection H1 as <-. rewrite Eb, (IH _ Ebs H2). reflexivity.
Qed.

Lemma mapM_ok {A B} (f : A -> res B) l :
  (forall a, In a l -> exists b, f a = Ok b) -> exists bs, mapM f l = Ok bs.
Proof.
  induction l as [|a l IH]; intros H; cbn; [eauto|].
  destruct (H a (or_introl eq_refl)) as (b & Eb).
  destruct IH as (bs & Ebs); [intros; apply H; right; assumption|].
  rewrite Eb, Ebs; cbn; eauto.
Qed.

Lemma mapM_in {A B} (f : A -> res B) l bs a :
  mapM f l = Ok bs -> In a l -> exists b, f a = Ok b /\ In b bs.
Proof.
  revert bs; induction l as [|x l IH]; intros bs H Hin; cbn in *; [contradiction|].
  apply bind_ok in H as (b & Eb & H). apply bind_ok in H as (bs' & Ebs & H).
  injection H as <-. destruct Hin as [->|Hin]; [exists b; split; [assumption|left; reflexivity]|].
  destruct (IH _ Ebs Hin) as (b' & ? & ?). exists b'; split; [assumption|right; assumption].
Qed.

Lemma mapM_in_inv {A B} (f : A -> res B) l bs b :
  mapM f l = Ok bs -> In b bs -> exists a, f a = Ok b /\ In a l.
Proof.
  revert bs; induction l as [|x l IH]; intros bs H Hin; cbn in *.
  - injection H as <-; contradiction.
  - apply bind_ok in H as (b0 & Eb & H). apply bind_ok in H as (bs' & Ebs & H).
    injection H as <-. destruct Hin as [->|Hin]; [exists x; split; [assumption|left; reflexivity]|].
    destruct (IH _ Ebs Hin) as (a & ? & ?). exists a; split; [assumption|right; assumption].
Qed.

Lemma list_set_app_r {A} (l1 l2 : list A) x y :
  list_set (l1 ++ x :: l2) (length l1) y = l1 ++ y :: l2.
Proof. induction l1 as [|a l1 IH]; cbn; [reflexivity|rewrite IH; reflexivity]. Qed.

Lemma nth_error_mid {A} (l1 l2 : list A) x : nth_error (l1 ++ x :: l2) (length l1) = Some x.
Proof. induction l1; cbn; auto. Qed.

Lemma list_set_length {A} (l : list A) i a : length (list_set l i a) = length l.
Proof. revert i; induction l as [|x l IH]; intros [|i]; cbn; auto. Qed.

Lemma nth_error_list_set {A} (l : list A) i j a :
  nth_error (list_set l i a) j =
  if (i =? j)%nat then (if (j <? length l)%nat then Some a else None) else nth_error l j.
Proof.
  revert i j; induction l as [|x l IH]; intros i j.
  - cbn. destruct (i =? j)%nat eqn:E; [|reflexivity]. destruct j; reflexivity.
  - destruct i as [|i], j as [|j]; cbn; try reflexivity. apply IH.
Qed.

Section Tree.
Context {T P : Type}.

(** The tree a node array encodes. *)
Inductive tree :=
| TLeaf (mn mx : vec T) (ids : list nat) (ps : list P)
| TBranch (mn mx : vec T) (ax : nat) (l r : tree).

Fixpoint tsize (t : tree) : nat :=
  match t with TLeaf _ _ _ _ => 1 | TBranch _ _ _ l r => S (tsize l + tsize r) end.

Definition branch_node (off : nat) mn mx ax (l : tree) : node T P :=
  Node mn mx false (Some ax) (Some (S off)) (Some (S off + tsize l)) [].

Fixpoint flatten (t : tree) (off : nat) : list (node T P) :=
  match t with
  | TLeaf mn mx _ ps => [Node mn mx true None None None ps]
  | TBranch mn mx ax l r =>
      branch_node off mn mx ax l :: flatten l (S off) ++ flatten r (S off + tsize l)
  end.

Fixpoint tids (t : tree) : list nat :=
  match t with TLeaf _ _ ids _ => ids | TBranch _ _ _ l r => tids l ++ tids r end.

Fixpoint tleaves (t : tree) : nat :=
  match t with TLeaf _ _ _ _ => 1 | TBranch _ _ _ l r => tleaves l + tleaves r end.
Fixpoint tbranches (t : tree) : nat :=
  match t with TLeaf _ _ _ _ => 0 | TBranch _ _ _ l r => S (tbranches l + tbranches r) end.
Fixpoint theight (t : tree) : nat :=
  match t with TLeaf _ _ _ _ => 0 | TBranch _ _ _ l r => S (Nat.max (theight l) (theight r)) end.
Fixpoint tmaxp (t : tree) : nat :=
  match t with TLeaf _ _ _ ps => length ps | TBranch _ _ _ l r => Nat.max (tmaxp l) (tmaxp r) end.
Fixpoint tminp (t : tree) : nat :=
  match t with TLeaf _ _ _ ps => length ps | TBranch _ _ _ l r => Nat.min (tminp l) (tminp r) end.
Definition tmin (t : tree) : vec T :=
  match t with TLeaf mn _ _ _ => mn | TBranch mn _ _ _ _ => mn end.
Definition tmax (t : tree) : vec T :=
  match t with TLeaf _ mx _ _ => mx | TBranch _ mx _ _ _ => mx end.

Lemma flatten_length t : forall off, length (flatten t off) = tsize t.
Proof.
  induction t as [mn mx ids ps|mn mx ax l IHl r IHr]; intros off; cbn; [reflexivity|].
  rewrite app_length, IHl, IHr. lia.
Qed.

Lemma tsize_pos t : 0 < tsize t.
Proof. destruct t; cbn; lia. Qed.

Context {N : num T}.
Variable part : (nat -> bool) -> list nat -> list nat * list nat.
Variable c : coll T P.
Variable opt : options.

(** A tree that the builder may produce from the index range [ids] at [depth]. *)
Inductive wf : nat -> list nat -> tree -> Prop :=
| wf_leaf depth ids mn mx ps :
    compute_bounding_box c ids = Ok (mn, mx) ->
    mapM (c_prim c) ids = Ok ps ->
    (length ids <= min_leaf_primitives opt \/ max_tree_depth opt <= depth) ->
    wf depth ids (TLeaf mn mx ids ps)
| wf_branch depth ids mn mx ax lids rids l r :
    compute_bounding_box c ids = Ok (mn, mx) ->
    min_leaf_primitives opt < length ids ->
    depth < max_tree_depth opt ->
    ax < 3 ->
    Permutation (lids ++ rids) ids ->
    (2 <= length ids -> lids <> [] /\ rids <> []) ->
    wf (S depth) lids l ->
    wf (S depth) rids r ->
    wf depth ids (TBranch mn mx ax l r).

Lemma part_perm p l l1 l2 :
  partition_ok part -> part p l = (l1, l2) -> Permutation (l1 ++ l2) l.
Proof.
  intros Hp E. specialize (Hp p l). rewrite E in Hp. destruct Hp as (Hc & _ & _).
  apply (Permutation_count_occ Nat.eq_dec). exact Hc.
Qed.

Lemma split_loop_ok : partition_ok part -> forall tries ax cut l r bad ax' l' r' bad',
  split_loop part c tries ax cut l r bad = (ax', l', r', bad') ->
  Permutation (l' ++ r') (l ++ r) /\ (ax < 3 -> ax' < 3) /\
  (2 <= length (l ++ r) -> (l <> [] /\ r <> []) \/ tries <> 0 -> l' <> [] /\ r' <> []).
Proof.
  intros Hp. induction tries as [|t IH]; intros ax cut l r bad ax' l' r' bad' H; cbn [split_loop] in H.
  - injection H as <- <- <- <-. split; [reflexivity|]. split; [auto|]. intros _ [H|H]; [exact H|congruence].
  - destruct (part (left_of c ax cut) (l ++ r)) as [l1 r1] eqn:E.
    pose proof (part_perm _ _ _ _ Hp E) as Hperm.
    destruct ((length l1 =? 0) || (length r1 =? 0)) eqn:Eb.
    + apply IH in H. destruct H as (H1 & H2 & H3).
      rewrite firstn_skipn in H1, H3.
      split; [etransitivity; eassumption|]. split.
      * intros _. apply H2. apply Nat.mod_upper_bound. discriminate.
      * intros Hlen _. rewrite <- (Permutation_length Hperm) in Hlen.
        apply H3; [exact Hlen|]. left.
        pose proof (Nat.div2_odd (length (l1 ++ r1))) as Hd.
        split; intros Hnil; apply (f_equal (@length nat)) in Hnil;
          rewrite ?firstn_length, ?skipn_length in Hnil; cbn [length] in Hnil;
          destruct (Nat.odd (length (l1 ++ r1))); cbn [Nat.b2n] in Hd; lia.
    + injection H as <- <- <- <-. apply orb_false_iff in Eb as [E1 E2].
      apply Nat.eqb_neq in E1, E2.
      split; [exact Hperm|]. split; [auto|]. intros _ _.
      split; intros ->; cbn in *; congruence.
Qed.

Lemma find_best_axis (idxs : list nat) mn mx (o : options) ax cut :
  find_best_split_binned c idxs mn mx o = Ok (ax, cut) -> ax < 3.
Proof.
  unfold find_best_split_binned. intros H.
  apply bind_ok in H as (b & _ & H).
  apply bind_ok in H as ([[x0 y0] b0] & _ & H).
  apply bind_ok in H as ([[x1 y1] b1] & _ & H).
  apply bind_ok in H as ([[x2 y2] b2] & _ & H).
  destruct (nltb x1 x0); destruct (nltb x2 _); injection H as <- _; lia.
Qed.

Lemma split_ok : partition_ok part -> forall idxs mn mx st ax l r st',
  split part c idxs mn mx st opt = Ok (ax, l, r, st') ->
  ax < 3 /\ Permutation (l ++ r) idxs /\ (2 <= length idxs -> l <> [] /\ r <> []) /\
  st_depth st' = st_depth st /\ st_leaves st' = st_leaves st /\
  st_max_prims st' = st_max_prims st /\ st_min_prims st' = st_min_prims st /\
  st_branches st' = st_branches st.
Proof.
  intros Hp idxs mn mx st ax l r st' H. unfold split in H.
  apply bind_ok in H as ([a0 cut] & E & H).
  apply bind_ok in H as (cs & Ec & H).
  destruct (split_loop part c 3 a0 cut idxs [] (st_bad st)) as [[[a1 l1] r1] bad] eqn:Es.
  injection H as <- <- <- <-.
  destruct (split_loop_ok Hp _ _ _ _ _ _ _ _ _ _ Es) as (H1 & H2 & H3).
  rewrite app_nil_r in H1, H3.
  split; [apply H2, (find_best_axis _ _ _ _ _ _ E)|].
  split; [exact H1|]. split; [intros Hl; apply H3; [exact Hl|right; discriminate]|].
  repeat split.
Qed.

(** Effect of building a tree at [depth] on the statistics. *)
Definition stats_of (t : tree) (depth : nat) (st st' : stats) : Prop :=
  st_leaves st' = st_leaves st + tleaves t /\
  st_branches st' = st_branches st + tbranches t /\
  st_depth st' = Nat.max (st_depth st) (depth + theight t) /\
  st_max_prims st' = Nat.max (st_max_prims st) (tmaxp t) /\
  st_min_prims st' = Some (match st_min_prims st with
                           | None => tminp t | Some m => Nat.min m (tminp t) end).

Lemma stat_depth_max d st : st_depth (stat_depth d st) = Nat.max (st_depth st) d.
Proof. unfold stat_depth; cbn. destruct (Nat.ltb_spec (st_depth st) d); lia. Qed.

Lemma build_recursive_tree : partition_ok part ->
  forall fuel nodes ids depth st nodes' st' off,
  build_recursive part fuel nodes c ids depth st opt = Ok (nodes', st', off) ->
  exists t, wf depth ids t /\ off = length nodes /\
            nodes' = nodes ++ flatten t (length nodes) /\ stats_of t depth st st'.
Proof.
  intros Hp. induction fuel as [|fuel IH]; intros nodes ids depth st nodes' st' off H; cbn [build_recursive] in H;
    [discriminate|].
  apply bind_ok in H as ([mn mx] & Ebb & H).
  destruct ((length ids <=? min_leaf_primitives opt) || (max_tree_depth opt <=? depth)) eqn:Elf.
  - apply bind_ok in H as (lf & Elfc & H). injection H as <- <- <-.
    unfold create_leaf in Elfc. apply bind_ok in Elfc as (ps & Eps & Elfc). injection Elfc as <-.
    exists (TLeaf mn mx ids ps). split; [|split; [reflexivity|split; [reflexivity|]]].
    + constructor; auto. apply orb_true_iff in Elf as [E|E].
      * left; apply Nat.leb_le, E.
      * right; apply Nat.leb_le, E.
    + unfold stats_of. cbn. rewrite (mapM_length _ _ _ Eps).
      repeat split; try lia.
      * destruct (Nat.ltb_spec (st_depth st) depth); lia.
      * destruct (st_min_prims st); f_equal; lia.
  - apply orb_false_iff in Elf as [El1 El2]. apply Nat.leb_gt in El1, El2.
    apply bind_ok in H as ([[[br l] r] st1] & Ebr & H).
    unfold create_branch in Ebr. apply bind_ok in Ebr as ([[[ax l0] r0] st0] & Esp & Ebr).
    injection Ebr as <- <- <- <-.
    destruct (split_ok Hp _ _ _ _ _ _ _ _ Esp) as (Hax & Hperm & Hne & S1 & S2 & S3 & S4 & S5).
    apply bind_ok in H as ([[nodes1 st2] k0] & E0 & H).
    apply bind_ok in H as (nd0 & End0 & H).
    apply bind_ok in H as ([[nodes2 st3] k1] & E1 & H).
    apply bind_ok in H as (nd1 & End1 & H).
    injection H as <- <- <-.
    apply IH in E0 as (tl & Hwl & -> & -> & Hsl).
    replace (length (nodes ++ [Node mn mx false (Some ax) None None []])) with (S (length nodes)) in *
      by (rewrite app_length; cbn; lia).
    rewrite <- app_assoc in *. cbn [app] in *.
    unfold at_ in End0. rewrite nth_error_mid in End0. injection End0 as <-.
    rewrite list_set_app_r in E1.
    apply IH in E1 as (tr & Hwr & -> & -> & Hsr).
    rewrite <- app_assoc in *. cbn [app] in *.
    unfold at_ in End1. rewrite nth_error_mid in End1. injection End1 as <-.
    rewrite list_set_app_r.
    replace (depth + 1) with (S depth) in * by lia.
    exists (TBranch mn mx ax tl tr).
    assert (Hlen : length (nodes ++ set_child0 (Node mn mx false (Some ax) None None []) (S (length nodes))
                     :: flatten tl (S (length nodes))) = S (length nodes) + tsize tl).
    { rewrite app_length. cbn. rewrite flatten_length. lia. }
    split; [econstructor; eassumption|]. split; [reflexivity|]. split.
    + cbn [flatten]. unfold branch_node. rewrite Hlen. reflexivity.
    + destruct Hsl as (A1 & A2 & A3 & A4 & A5). destruct Hsr as (B1 & B2 & B3 & B4 & B5).
      rewrite A5 in B5. unfold stats_of. cbn [tleaves tbranches theight tmaxp tminp].
      cbn in A1, A2, A3, A4, A5. rewrite S1, S2, S3, S4, S5 in *.
      fold (stat_depth depth st) in *. cbn in A1, A2, A3, A4, A5.
      repeat split; try lia.
      * destruct (st_depth st <? depth) eqn:E; [apply Nat.ltb_lt in E|apply Nat.ltb_ge in E]; lia.
      * rewrite B5. unfold stat_branch; cbn [st_min_prims]. rewrite S4. cbn [stat_depth st_min_prims].
        f_equal. destruct (st_min_prims st); lia.
Qed.

Lemma build_tree : partition_ok part -> forall nodes nodes' st,
  build part nodes c opt = Ok (nodes', st) ->
  exists t, wf 0 (seq 0 (c_size c)) t /\ nodes' = nodes ++ flatten t (length nodes) /\
            stats_of t 0 stats0 st.
Proof.
  intros Hp nodes nodes' st H. unfold build in H.
  apply bind_ok in H as ([[n' st'] off] & E & H). injection H as <- <-.
  apply build_recursive_tree in E as (t & H1 & H2 & H3 & H4); [|exact Hp].
  exists t; auto.
Qed.

(** Facts about well-formed trees. *)
Lemma wf_tids depth ids t : wf depth ids t -> Permutation (tids t) ids.
Proof.
  induction 1 as [|depth ids mn mx ax lids rids l r Hbb Hn Hd Hax Hperm Hne Hl IHl Hr IHr]; cbn.
  - reflexivity.
  - etransitivity; [|exact Hperm]. apply Permutation_app; assumption.
Qed.

Lemma wf_stored depth ids t : wf depth ids t -> forall off,
  mapM (c_prim c) (tids t) = Ok (stored (flatten t off)).
Proof.
  unfold stored.
  induction 1 as [|depth ids mn mx ax lids rids l r Hbb Hn Hd Hax Hperm Hne Hl IHl Hr IHr]; intros off; cbn.
  - rewrite app_nil_r. assumption.
  - rewrite map_app, concat_app. apply mapM_app; auto.
Qed.

Lemma wf_height depth ids t : wf depth ids t -> depth + theight t <= Nat.max depth (max_tree_depth opt).
Proof.
  induction 1 as [|depth ids mn mx ax lids rids l r Hbb Hn Hd Hax Hperm Hne Hl IHl Hr IHr]; cbn; lia.
Qed.
End Tree.

Arguments tree : clear implicits.
