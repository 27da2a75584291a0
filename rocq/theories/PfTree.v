(** From the encoded tree to statements about the raw node array. *)

From Coq Require Import ZArith List Bool Arith Lia Permutation.
From Verif Require Import Num Vec Bvh SpecBvh PfBuild.
Import ListNotations.

Section Raw.
Context {T P : Type}.
Notation tree := (tree T P).
Implicit Types (t : tree).

(** The node stored for the root of [t] at index [k]. *)
Definition root_node t (k : nat) : node T P :=
  match t with
  | TLeaf mn mx _ ps => Node mn mx true None None None ps
  | TBranch mn mx ax l r => branch_node k mn mx ax l
  end.

(** [t'] occurs in [t] (placed at [k]) at index [k'], [d] levels down. *)
Inductive sub : tree -> nat -> nat -> tree -> nat -> Prop :=
| sub_here t k : sub t k 0 t k
| sub_l mn mx ax l r k d t' k' :
    sub l (S k) d t' k' -> sub (TBranch mn mx ax l r) k (S d) t' k'
| sub_r mn mx ax l r k d t' k' :
    sub r (S k + tsize l) d t' k' -> sub (TBranch mn mx ax l r) k (S d) t' k'.

Lemma sub_range t k d t' k' : sub t k d t' k' -> k <= k' /\ k' + tsize t' <= k + tsize t.
Proof. induction 1; cbn in *; lia. Qed.

Lemma sub_index t : forall k k', k <= k' -> k' < k + tsize t -> exists d t', sub t k d t' k'.
Proof.
  induction t as [mn mx ids ps|mn mx ax l IHl r IHr]; intros k k' H1 H2; cbn in H2.
  - exists 0; eexists. replace k' with k by lia. constructor.
  - destruct (Nat.eq_dec k k') as [->|Hne]; [exists 0; eexists; constructor|].
    destruct (Nat.lt_ge_cases k' (S k + tsize l)) as [Hlt|Hge].
    + destruct (IHl (S k) k') as (d & t' & Hs); [lia|lia|].
      exists (S d), t'. apply sub_l, Hs.
    + destruct (IHr (S k + tsize l) k') as (d & t' & Hs); [lia|lia|].
      exists (S d), t'. apply sub_r, Hs.
Qed.

Lemma sub_fun t : forall k d1 t1 d2 t2 k',
  sub t k d1 t1 k' -> sub t k d2 t2 k' -> d1 = d2 /\ t1 = t2.
Proof.
  induction t as [mn mx ids ps|mn mx ax l IHl r IHr]; intros k d1 t1 d2 t2 k' H1 H2.
  - inversion H1; inversion H2; subst; auto.
  - inversion H1 as [|? ? ? ? ? ? ? ? ? H1'|? ? ? ? ? ? ? ? ? H1']; subst;
    inversion H2 as [|? ? ? ? ? ? ? ? ? H2'|? ? ? ? ? ? ? ? ? H2']; subst;
    try (destruct (sub_range _ _ _ _ _ H1')); try (destruct (sub_range _ _ _ _ _ H2'));
    try pose proof (tsize_pos t1); try pose proof (tsize_pos t2);
    try (exfalso; lia); auto.
    + destruct (IHl _ _ _ _ _ _ H1' H2'); subst; auto.
    + destruct (IHr _ _ _ _ _ _ H1' H2'); subst; auto.
Qed.

Lemma sub_disjoint t : forall k d t1 p1 t2 p2 x,
  sub t k d t1 p1 -> sub t k d t2 p2 ->
  p1 <= x < p1 + tsize t1 -> p2 <= x < p2 + tsize t2 -> p1 = p2.
Proof.
  induction t as [mn mx ids ps|mn mx ax l IHl r IHr]; intros k d t1 p1 t2 p2 x H1 H2 Hx1 Hx2.
  - inversion H1; subst; inversion H2; subst; auto.
  - inversion H1 as [|? ? ? ? ? ? ? ? ? H1'|? ? ? ? ? ? ? ? ? H1']; subst;
    inversion H2 as [|? ? ? ? ? ? ? ? ? H2'|? ? ? ? ? ? ? ? ? H2']; subst;
    try (destruct (sub_range _ _ _ _ _ H1')); try (destruct (sub_range _ _ _ _ _ H2'));
    try (exfalso; lia); auto.
    + eapply IHl; eassumption.
    + eapply IHr; eassumption.
Qed.

Lemma sub_trans t k d t' k' d' t'' k'' :
  sub t k d t' k' -> sub t' k' d' t'' k'' -> sub t k (d + d') t'' k''.
Proof. induction 1; intros H2; cbn; [exact H2|apply sub_l; auto|apply sub_r; auto]. Qed.

Lemma sub_parent t k d t' k' : sub t k (S d) t' k' ->
  exists p mn mx ax l r, sub t k d (TBranch mn mx ax l r) p /\
    ((t' = l /\ k' = S p) \/ (t' = r /\ k' = S p + tsize l)).
Proof.
  revert t k t' k'; induction d as [|d IH]; intros t k t' k' H.
  - inversion H as [|mn mx ax l r ? ? ? ? H'|mn mx ax l r ? ? ? ? H']; subst; inversion H'; subst;
      do 6 eexists; (split; [constructor|]); auto.
  - inversion H as [|mn mx ax l r ? ? ? ? H'|mn mx ax l r ? ? ? ? H']; subst;
      apply IH in H' as (p & mn' & mx' & ax' & l' & r' & Hs & Hc);
      exists p, mn', mx', ax', l', r'; (split; [|exact Hc]).
    + apply sub_l, Hs.
    + apply sub_r, Hs.
Qed.

Lemma sub_child_l t k d mn mx ax l r p :
  sub t k d (TBranch mn mx ax l r) p -> sub t k (S d) l (S p).
Proof.
  intros H. replace (S d) with (d + 1) by lia. eapply sub_trans; [exact H|].
  apply sub_l. constructor.
Qed.

Lemma sub_child_r t k d mn mx ax l r p :
  sub t k d (TBranch mn mx ax l r) p -> sub t k (S d) r (S p + tsize l).
Proof.
  intros H. replace (S d) with (d + 1) by lia. eapply sub_trans; [exact H|].
  apply sub_r. constructor.
Qed.

Lemma flatten_root t k : nth_error (flatten t k) 0 = Some (root_node t k).
Proof. destruct t; reflexivity. Qed.

Lemma sub_nth t k d t' k' : sub t k d t' k' ->
  nth_error (flatten t k) (k' - k) = Some (root_node t' k').
Proof.
  induction 1 as [t k|mn mx ax l r k d t' k' H IH|mn mx ax l r k d t' k' H IH].
  - rewrite Nat.sub_diag. apply flatten_root.
  - destruct (sub_range _ _ _ _ _ H) as [H1 H2]. pose proof (tsize_pos t').
    replace (k' - k) with (S (k' - S k)) by lia. cbn [flatten nth_error].
    rewrite nth_error_app1; [exact IH|rewrite flatten_length; lia].
  - destruct (sub_range _ _ _ _ _ H) as [H1 H2]. pose proof (tsize_pos t').
    replace (k' - k) with (S (k' - S k)) by lia. cbn [flatten nth_error].
    rewrite nth_error_app2; rewrite flatten_length; [|lia].
    replace (k' - S k - tsize l) with (k' - (S k + tsize l)) by lia. exact IH.
Qed.

(** From here on the tree is stored at index 0. *)
Variable t0 : tree.
Notation nodes := (flatten t0 0).

Lemma nodes_nonempty : nodes <> [].
Proof. intros E. pose proof (flatten_length t0 0) as H. rewrite E in H. pose proof (tsize_pos t0). cbn in H; lia. Qed.

Lemma nth_sub k nd : nth_error nodes k = Some nd ->
  exists d t', sub t0 0 d t' k /\ nd = root_node t' k.
Proof.
  intros H. assert (Hk : k < length nodes) by (apply nth_error_Some; congruence).
  rewrite flatten_length in Hk. destruct (sub_index t0 0 k) as (d & t' & Hs); [lia|lia|].
  exists d, t'; split; [exact Hs|]. apply sub_nth in Hs. rewrite Nat.sub_0_r in Hs. congruence.
Qed.

Lemma sub_nth0 d t' k : sub t0 0 d t' k -> nth_error nodes k = Some (root_node t' k).
Proof. intros H. apply sub_nth in H. rewrite Nat.sub_0_r in H. exact H. Qed.

Lemma is_child_sub p k : is_child nodes p k <->
  exists d mn mx ax l r, sub t0 0 d (TBranch mn mx ax l r) p /\ (k = S p \/ k = S p + tsize l).
Proof.
  split.
  - intros (nd & Hn & Hl & Hc). apply nth_sub in Hn as (d & t' & Hs & ->).
    destruct t' as [mn mx ids ps|mn mx ax l r]; [discriminate|].
    exists d, mn, mx, ax, l, r. split; [exact Hs|]. cbn in Hc.
    destruct Hc as [Hc|Hc]; injection Hc as <-; auto.
  - intros (d & mn & mx & ax & l & r & Hs & Hc).
    exists (branch_node p mn mx ax l). split; [apply (sub_nth0 _ _ _ Hs)|].
    split; [reflexivity|]. cbn. destruct Hc as [->| ->]; auto.
Qed.

Lemma child_sub p k d t' : sub t0 0 d t' p -> is_child nodes p k ->
  exists t'', sub t0 0 (S d) t'' k /\ p < k /\ k + tsize t'' <= p + tsize t'.
Proof.
  intros Hs Hc. apply is_child_sub in Hc as (d' & mn & mx & ax & l & r & Hs' & Hk).
  destruct (sub_fun _ _ _ _ _ _ _ Hs Hs') as [-> ->].
  destruct Hk as [-> | ->].
  - exists l. split; [apply sub_child_l with (1 := Hs')|]. cbn. pose proof (tsize_pos r). lia.
  - exists r. split; [apply sub_child_r with (1 := Hs')|]. cbn. lia.
Qed.

Lemma node_depth_sub k d : node_depth nodes k d <-> exists t', sub t0 0 d t' k.
Proof.
  split.
  - induction 1 as [H|p k d Hd (t' & Hs) Hc].
    + eexists; constructor.
    + destruct (child_sub _ _ _ _ Hs Hc) as (t'' & Hs' & _). eauto.
  - revert k; induction d as [|d IH]; intros k (t' & Hs).
    + assert (k = 0) as -> by (inversion Hs; reflexivity). constructor. apply nodes_nonempty.
    + apply sub_parent in Hs as (p & mn & mx & ax & l & r & Hs & Hc).
      econstructor; [apply IH; eauto|].
      apply is_child_sub. do 6 eexists. split; [exact Hs|]. destruct Hc as [[_ ->]|[_ ->]]; auto.
Qed.

Lemma below_sub k j : below nodes k j ->
  forall d t', sub t0 0 d t' k -> exists d' t'', sub t' k d' t'' j.
Proof.
  induction 1 as [k Hk|k p j Hb IH Hc]; intros d t' Hs.
  - do 2 eexists; constructor.
  - destruct (IH _ _ Hs) as (d' & t'' & Hs').
    pose proof (sub_trans _ _ _ _ _ _ _ _ Hs Hs') as Hs2.
    apply is_child_sub in Hc as (d2 & mn & mx & ax & l & r & Hs3 & Hk).
    destruct (sub_fun _ _ _ _ _ _ _ Hs2 Hs3) as [_ ->].
    destruct Hk as [-> | ->]; do 2 eexists.
    + apply sub_child_l with (1 := Hs').
    + apply sub_child_r with (1 := Hs').
Qed.

Lemma tree_layout : (forall d mn mx ax l r p, sub t0 0 d (TBranch mn mx ax l r) p -> ax < 3) ->
  is_tree nodes.
Proof.
  intros Hax. split; [apply nodes_nonempty|]. split; [|split; [|split; [|split]]].
  - intros p nd Hn Hl. apply nth_sub in Hn as (d & t' & Hs & ->).
    destruct t' as [mn mx ids ps|mn mx ax l r]; [discriminate|].
    exists ax, (S p + tsize l). cbn. repeat (split; [reflexivity || (eapply Hax; eassumption) |]).
    pose proof (tsize_pos l). pose proof (tsize_pos r).
    destruct (sub_range _ _ _ _ _ Hs) as [_ H2]. cbn in H2. rewrite flatten_length.
    split; [lia|]. split; [lia|reflexivity].
  - intros p nd Hn Hl. apply nth_sub in Hn as (d & t' & Hs & ->).
    destruct t' as [mn mx ids ps|mn mx ax l r]; [|discriminate]. cbn; auto.
  - intros k Hk1 Hk2. rewrite flatten_length in Hk2.
    destruct (sub_index t0 0 k) as (d & t' & Hs); [lia|lia|].
    destruct d as [|d]; [assert (k = 0) by (inversion Hs; reflexivity); lia|].
    pose proof (sub_parent _ _ _ _ _ Hs) as (p & mn & mx & ax & l & r & Hp & Hc).
    exists p. split.
    + apply is_child_sub. do 6 eexists. split; [exact Hp|]. destruct Hc as [[_ ->]|[_ ->]]; auto.
    + intros p' Hp'. pose proof Hp' as Hc'. apply is_child_sub in Hc'.
      destruct Hc' as (d' & mn' & mx' & ax' & l' & r' & Hs' & Hk').
      destruct (child_sub _ _ _ _ Hs' Hp') as (t'' & Hs'' & Hlt & Hle).
      destruct (sub_fun _ _ _ _ _ _ _ Hs Hs'') as [E ->]. injection E as <-.
      pose proof (tsize_pos t'').
      apply (sub_disjoint t0 0 d _ _ _ _ k Hp Hs').
      * destruct Hc as [[-> ->]|[-> ->]]; cbn; pose proof (tsize_pos r); pose proof (tsize_pos l); lia.
      * lia.
  - intros p Hc. apply is_child_sub in Hc as (d & mn & mx & ax & l & r & Hs & [E|E]); lia.
  - intros k Hk. rewrite flatten_length in Hk.
    destruct (sub_index t0 0 k) as (d & t' & Hs); [lia|lia|].
    exists d. apply node_depth_sub. eauto.
Qed.
End Raw.

Section Counts.
Context {T P : Type}.
Notation tree := (tree T P).
Implicit Types (t : tree).

Lemma leaves_count t k : length (leaves (flatten t k)) = tleaves t.
Proof.
  unfold leaves. revert k; induction t as [mn mx ids ps|mn mx ax l IHl r IHr]; intros k; cbn; [reflexivity|].
  rewrite filter_app, app_length, IHl, IHr. reflexivity.
Qed.

Lemma branches_count t k : length (branches (flatten t k)) = tbranches t.
Proof.
  unfold branches. revert k; induction t as [mn mx ids ps|mn mx ax l IHl r IHr]; intros k; cbn; [reflexivity|].
  rewrite filter_app, app_length, IHl, IHr. reflexivity.
Qed.

Lemma tleaves_tbranches t : tleaves t = S (tbranches t).
Proof. induction t; cbn in *; lia. Qed.

Lemma maxp_leaf t k : exists nd, In nd (leaves (flatten t k)) /\ length (nd_prims nd) = tmaxp t.
Proof.
  unfold leaves. revert k; induction t as [mn mx ids ps|mn mx ax l IHl r IHr]; intros k; cbn.
  - eexists; split; [left; reflexivity|reflexivity].
  - rewrite filter_app. destruct (Nat.max_spec (tmaxp l) (tmaxp r)) as [[_ ->]|[_ ->]].
    + destruct (IHr (S (k + tsize l))) as (nd & H1 & H2). exists nd. split; [apply in_or_app; right; exact H1|exact H2].
    + destruct (IHl (S k)) as (nd & H1 & H2). exists nd. split; [apply in_or_app; left; exact H1|exact H2].
Qed.

Lemma minp_leaf t k : exists nd, In nd (leaves (flatten t k)) /\ length (nd_prims nd) = tminp t.
Proof.
  unfold leaves. revert k; induction t as [mn mx ids ps|mn mx ax l IHl r IHr]; intros k; cbn.
  - eexists; split; [left; reflexivity|reflexivity].
  - rewrite filter_app. destruct (Nat.min_spec (tminp l) (tminp r)) as [[_ ->]|[_ ->]].
    + destruct (IHl (S k)) as (nd & H1 & H2). exists nd. split; [apply in_or_app; left; exact H1|exact H2].
    + destruct (IHr (S (k + tsize l))) as (nd & H1 & H2). exists nd. split; [apply in_or_app; right; exact H1|exact H2].
Qed.

Lemma prims_bounds t k : forall nd, In nd (leaves (flatten t k)) ->
  tminp t <= length (nd_prims nd) <= tmaxp t.
Proof.
  unfold leaves. revert k; induction t as [mn mx ids ps|mn mx ax l IHl r IHr]; intros k nd H; cbn in H.
  - destruct H as [<-|[]]. cbn. lia.
  - rewrite filter_app in H. apply in_app_or in H as [H|H].
    + apply IHl in H. cbn. lia.
    + apply IHr in H. cbn. lia.
Qed.

Lemma height_reached t k : exists t' k', sub t k (theight t) t' k'.
Proof.
  revert k; induction t as [mn mx ids ps|mn mx ax l IHl r IHr]; intros k; cbn.
  - do 2 eexists; constructor.
  - destruct (Nat.max_spec (theight l) (theight r)) as [[_ ->]|[_ ->]].
    + destruct (IHr (S k + tsize l)) as (t' & k' & H). do 2 eexists. apply sub_r, H.
    + destruct (IHl (S k)) as (t' & k' & H). do 2 eexists. apply sub_l, H.
Qed.

Lemma height_bound t k d t' k' : sub t k d t' k' -> d <= theight t.
Proof. induction 1; cbn; lia. Qed.

Lemma stats_raw t st : stats_of t 0 stats0 st -> stats_describe (flatten t 0) st.
Proof.
  intros (H1 & H2 & H3 & H4 & H5). cbn in *. unfold stats_describe.
  rewrite leaves_count, branches_count.
  split; [exact H1|]. split; [exact H2|]. split; [rewrite H1, H2; apply tleaves_tbranches|].
  rewrite H3, H4, H5. split; [|split; [|split; [|split]]].
  - destruct (height_reached t 0) as (t' & k' & H). exists k'. apply node_depth_sub. eauto.
  - intros k d H. apply node_depth_sub in H as (t' & H). apply height_bound in H. exact H.
  - apply maxp_leaf.
  - intros nd H. apply prims_bounds in H. lia.
  - exists (tminp t). split; [reflexivity|]. split; [apply minp_leaf|].
    intros nd H. apply prims_bounds in H. lia.
Qed.
End Counts.
