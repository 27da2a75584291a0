(** Properties of the built BVH in terms of the raw node array: C01-C04, C06. *)

From Coq Require Import ZArith List Bool Arith Lia Permutation.
From Verif Require Import Num Vec Datatypes Bvh SpecBvh PfBuild PfTree.
Import ListNotations.

Local Arguments Nat.ltb : simpl never.
Local Arguments Nat.leb : simpl never.

Section Pf.
Context {T P : Type} {N : num T}.
Variable part : (nat -> bool) -> list nat -> list nat * list nat.
Hypothesis Hpart : partition_ok part.
Variable c : coll T P.
Variable opt : options.

Lemma wf_sub depth ids t k d t' k' :
  wf c opt depth ids t -> sub t k d t' k' ->
  exists ids', wf c opt (depth + d) ids' t' /\ incl ids' ids.
Proof.
  intros Hw Hs. revert depth ids Hw.
  induction Hs as [t k|mn mx ax l r k d t' k' H IH|mn mx ax l r k d t' k' H IH]; intros depth ids Hw.
  - exists ids. rewrite Nat.add_0_r. split; [exact Hw|apply incl_refl].
  - inversion Hw as [|? ? ? ? ? lids rids ? ? Hbb Hn Hd Hax Hperm Hne Hl Hr]; subst.
    destruct (IH _ _ Hl) as (ids' & H1 & H2). exists ids'.
    rewrite Nat.add_succ_r. split; [exact H1|].
    intros x Hx. apply (Permutation_in _ Hperm). apply in_or_app; left; apply H2, Hx.
  - inversion Hw as [|? ? ? ? ? lids rids ? ? Hbb Hn Hd Hax Hperm Hne Hl Hr]; subst.
    destruct (IH _ _ Hr) as (ids' & H1 & H2). exists ids'.
    rewrite Nat.add_succ_r. split; [exact H1|].
    intros x Hx. apply (Permutation_in _ Hperm). apply in_or_app; right; apply H2, Hx.
Qed.

Lemma build_fresh nodes st : build part [] c opt = Ok (nodes, st) ->
  exists t, wf c opt 0 (seq 0 (c_size c)) t /\ nodes = flatten t 0 /\ stats_of t 0 stats0 st.
Proof. intros H. apply (build_tree _ _ _ Hpart) in H. exact H. Qed.

Lemma mapM_numbered pid : numbered c pid -> forall ids ps,
  mapM (c_prim c) ids = Ok ps -> map pid ps = ids /\ forall p, In p ps -> c_prim c (pid p) = Ok p.
Proof.
  intros Hn. induction ids as [|i ids IH]; intros ps H; cbn in H.
  - injection H as <-. split; [reflexivity|intros p []].
  - apply bind_ok in H as (p & Ep & H). apply bind_ok in H as (ps' & Eps & H). injection H as <-.
    destruct (IH _ Eps) as [H1 H2]. cbn. rewrite (Hn _ _ Ep), H1. split; [reflexivity|].
    intros q [<-|Hq]; [rewrite (Hn _ _ Ep); exact Ep|apply H2, Hq].
Qed.

Theorem build_stores nodes st pid :
  numbered c pid -> build part [] c opt = Ok (nodes, st) -> stores_each_once c pid nodes.
Proof.
  intros Hn H. apply build_fresh in H as (t & Hw & -> & _).
  destruct (mapM_numbered pid Hn _ _ (wf_stored _ _ _ _ _ Hw 0)) as [H1 H2].
  split; [|exact H2]. rewrite H1. apply (wf_tids _ _ _ _ _ Hw).
Qed.

Theorem build_is_tree nodes st : build part [] c opt = Ok (nodes, st) -> is_tree nodes.
Proof.
  intros H. apply build_fresh in H as (t & Hw & -> & _).
  apply tree_layout. intros d mn mx ax l r p Hs.
  destruct (wf_sub _ _ _ _ _ _ _ Hw Hs) as (ids' & H1 & _). inversion H1; subst; assumption.
Qed.

Theorem build_stats nodes st : build part [] c opt = Ok (nodes, st) -> stats_describe nodes st.
Proof.
  intros H. apply build_fresh in H as (t & Hw & -> & Hs). apply stats_raw, Hs.
Qed.

(** Stored primitives of a subtree, as (node, slot) pairs. *)
Fixpoint tslots {T P} (t : tree T P) (k : nat) : list (nat * nat) :=
  match t with
  | TLeaf _ _ _ ps => map (fun i => (k, i)) (seq 0 (length ps))
  | TBranch _ _ _ l r => tslots l (S k) ++ tslots r (S k + tsize l)
  end.

Lemma tslots_range {T' P'} (t : tree T' P') : forall k j i, In (j, i) (tslots t k) -> k <= j < k + tsize t.
Proof.
  induction t as [mn mx ids ps|mn mx ax l IHl r IHr]; intros k j i H; cbn in H.
  - apply in_map_iff in H as (x & E & _). injection E as <- <-. cbn; lia.
  - apply in_app_or in H as [H|H]; [apply IHl in H|apply IHr in H]; cbn; lia.
Qed.

Lemma tslots_NoDup {T' P'} (t : tree T' P') : forall k, NoDup (tslots t k).
Proof.
  induction t as [mn mx ids ps|mn mx ax l IHl r IHr]; intros k; cbn.
  - apply FinFun.Injective_map_NoDup; [intros x y E; congruence|apply seq_NoDup].
  - assert (Hd : forall x, In x (tslots l (S k)) -> ~ In x (tslots r (S (k + tsize l)))).
    { intros [j i] H1 H2. apply tslots_range in H1, H2. lia. }
    revert Hd. generalize (IHl (S k)) (IHr (S (k + tsize l))).
    generalize (tslots l (S k)) (tslots r (S (k + tsize l))). intros l1 l2 N1 N2 Hd.
    induction N1 as [|x l1 Hx N1 IH]; cbn; [exact N2|].
    constructor.
    + intros Hin. apply in_app_or in Hin as [Hin|Hin]; [contradiction|].
      apply (Hd x (or_introl eq_refl) Hin).
    + apply IH. intros y Hy. apply Hd. right; exact Hy.
Qed.

Lemma tslots_sub {T' P'} (t : tree T' P') : forall k j i, In (j, i) (tslots t k) ->
  exists d mn mx ids ps p, sub t k d (TLeaf mn mx ids ps) j /\ nth_error ps i = Some p.
Proof.
  induction t as [mn mx ids ps|mn mx ax l IHl r IHr]; intros k j i H; cbn in H.
  - apply in_map_iff in H as (x & E & Hx). injection E as <- <-. apply in_seq in Hx.
    destruct (nth_error ps x) as [p|] eqn:Ep.
    + do 6 eexists. split; [constructor|exact Ep].
    + apply nth_error_None in Ep. lia.
  - apply in_app_or in H as [H|H]; [apply IHl in H|apply IHr in H];
      destruct H as (d & mn' & mx' & ids & ps & p & Hs & Hp); exists (S d), mn', mx', ids, ps, p;
      (split; [|exact Hp]).
    + apply sub_l, Hs.
    + apply sub_r, Hs.
Qed.

Lemma wf_tslots depth ids t k : wf c opt depth ids t -> length (tslots t k) = length ids.
Proof.
  intros H; revert k;
  induction H as [depth ids mn mx ps Hbb Hps Hl|depth ids mn mx ax lids rids l r Hbb Hn Hd Hax Hperm Hne Hl IHl Hr IHr]; intros k; cbn.
  - rewrite map_length, seq_length. apply (mapM_length _ _ _ Hps).
  - rewrite app_length, IHl, IHr, <- app_length. apply Permutation_length, Hperm.
Qed.

Lemma sub_below (t0 : tree T P) d t' k : sub t0 0 d t' k ->
  forall d' t'' j, sub t' k d' t'' j -> below (flatten t0 0) k j.
Proof.
  intros Hs. induction d' as [|d' IH]; intros t'' j Hj.
  - assert (j = k) as -> by (inversion Hj; reflexivity). constructor.
    destruct (sub_range _ _ _ _ _ Hs) as [_ Hr]. rewrite flatten_length.
    pose proof (tsize_pos t'). lia.
  - apply sub_parent in Hj as (p & mn & mx & ax & l & r & Hp & Hc).
    apply below_step with p; [apply IH with (1 := Hp)|].
    apply is_child_sub. pose proof (sub_trans _ _ _ _ _ _ _ _ Hs Hp) as Hs2.
    do 6 eexists. split; [exact Hs2|]. destruct Hc as [[_ ->]|[_ ->]]; auto.
Qed.

Lemma wf_nonempty depth ids t : 1 <= min_leaf_primitives opt -> wf c opt depth ids t ->
  ids <> [] -> tsize t <= 2 * length ids - 1 /\
  forall k d mn mx ids' ps k', sub t k d (TLeaf mn mx ids' ps) k' -> ps <> [].
Proof.
  intros Hm Hw. induction Hw as [depth ids mn mx ps Hbb Hps Hl|depth ids mn mx ax lids rids l r Hbb Hn Hd Hax Hperm Hne Hl IHl Hr IHr]; intros Hids.
  - split; [cbn; destruct ids; cbn; [congruence|lia]|].
    intros k d mn' mx' ids' ps' k' Hs. inversion Hs; subst.
    intros ->. apply mapM_length in Hps. destruct ids'; cbn in *; congruence.
  - destruct (Hne ltac:(lia)) as [N1 N2]. destruct (IHl N1) as [A1 A2]. destruct (IHr N2) as [B1 B2].
    split.
    + apply Permutation_length in Hperm. rewrite app_length in Hperm. cbn.
      destruct lids as [|x xs]; [congruence|]. destruct rids as [|y ys]; [congruence|].
      cbn [length] in *. lia.
    + intros k d mn' mx' ids' ps' k' Hs. inversion Hs; subst; eauto.
Qed.

(** Each split takes something away, so few primitives make a low tree. *)
Lemma wf_low depth ids t : 1 <= min_leaf_primitives opt -> wf c opt depth ids t -> ids <> [] ->
  theight t <= length ids - min_leaf_primitives opt.
Proof.
  intros Hm Hw. induction Hw as [depth ids mn mx ps Hbb Hps Hl|depth ids mn mx ax lids rids l r Hbb Hn Hd Hax Hperm Hne Hl IHl Hr IHr]; intros Hids; cbn [theight]; [lia|].
  destruct (Hne ltac:(lia)) as [N1 N2]. specialize (IHl N1). specialize (IHr N2).
  apply Permutation_length in Hperm. rewrite app_length in Hperm.
  destruct lids as [|x xs]; [congruence|]. destruct rids as [|y ys]; [congruence|]. cbn [length] in *. lia.
Qed.
Theorem build_low nodes st : build part [] c opt = Ok (nodes, st) -> 1 <= min_leaf_primitives opt ->
  forall k d, node_depth nodes k d -> d <= c_size c - min_leaf_primitives opt.
Proof.
  intros H Hm k d Hd. apply build_fresh in H as (t & Hw & -> & _).
  apply node_depth_sub in Hd as (t' & Hs). apply height_bound in Hs.
  destruct (c_size c) as [|n] eqn:E.
  - cbn [seq] in Hw. inversion Hw; subst; [cbn [theight] in Hs; lia|cbn in *; lia].
  - apply wf_low in Hw; [|exact Hm|discriminate]. rewrite seq_length in Hw. lia.
Qed.

Theorem build_respects nodes st : build part [] c opt = Ok (nodes, st) ->
  respects opt (c_size c) nodes.
Proof.
  intros H. apply build_fresh in H as (t & Hw & -> & _). split; [|split; [|split]].
  - intros k d Hd. apply node_depth_sub in Hd as (t' & Hs). apply height_bound in Hs.
    apply wf_height in Hw. lia.
  - intros k d nd Hd Hn Hl Hlt. apply node_depth_sub in Hd as (t' & Hs).
    pose proof (sub_nth0 _ _ _ _ Hs) as Hn'. rewrite Hn in Hn'. injection Hn' as ->.
    destruct (wf_sub _ _ _ _ _ _ _ Hw Hs) as (ids' & Hw' & _).
    destruct t' as [mn mx ids ps|mn mx ax l r]; [|discriminate]. cbn.
    inversion Hw' as [? ? ? ? ? Hbb Hps Hc|]; subst. rewrite (mapM_length _ _ _ Hps). lia.
  - intros k d nd Hd Hn Hl. apply node_depth_sub in Hd as (t' & Hs).
    pose proof (sub_nth0 _ _ _ _ Hs) as Hn'. rewrite Hn in Hn'. injection Hn' as ->.
    destruct (wf_sub _ _ _ _ _ _ _ Hw Hs) as (ids' & Hw' & _).
    pose proof (wf_tslots _ _ _ k Hw') as Hlen.
    assert (min_leaf_primitives opt < length ids' /\ d < max_tree_depth opt) as [Hgt Hdd].
    { destruct t' as [mn mx ids ps|mn mx ax l r]; [discriminate|]. inversion Hw'; subst. auto. }
    split; [exact Hdd|]. exists (tslots t' k). split; [lia|]. split; [apply tslots_NoDup|].
    intros j i Hin. apply tslots_sub in Hin as (d' & mn & mx & ids & ps & p & Hj & Hp).
    pose proof (sub_nth0 _ _ _ _ (sub_trans _ _ _ _ _ _ _ _ Hs Hj)) as Hnj.
    do 2 eexists. split; [apply (sub_below _ _ _ _ Hs _ _ _ Hj)|]. split; [exact Hnj|]. exact Hp.
  - intros Hm Hn1. destruct (wf_nonempty _ _ _ Hm Hw) as [H1 H2].
    { destruct (c_size c); [lia|discriminate]. }
    rewrite seq_length in H1. rewrite flatten_length. split; [|exact H1].
    intros nd Hin Hl. apply In_nth_error in Hin as (k & Hk). apply nth_sub in Hk as (d & t' & Hs & ->).
    destruct t' as [mn mx ids ps|mn mx ax l r]; [|discriminate]. cbn. eapply H2, Hs.
Qed.

(** Bounding boxes. *)
Variable ok : T -> Prop.
Hypothesis Hwo : weak_order ok.

Lemma smin_ok a b : ok a -> ok b -> ok (smin a b).
Proof. unfold smin; destruct (nltb b a); auto. Qed.
Lemma smax_ok a b : ok a -> ok b -> ok (smax a b).
Proof. unfold smax; destruct (nltb a b); auto. Qed.
Lemma smin_l a b : ok a -> ok b -> nltb a (smin a b) = false.
Proof. intros Ha Hb. unfold smin. destruct (nltb b a) eqn:E; [apply (wo_asym _ Hwo); auto|apply (wo_irrefl _ Hwo); auto]. Qed.
Lemma smin_r a b : ok a -> ok b -> nltb b (smin a b) = false.
Proof. intros Ha Hb. unfold smin. destruct (nltb b a) eqn:E; [apply (wo_irrefl _ Hwo); auto|exact E]. Qed.
Lemma smax_l a b : ok a -> ok b -> nltb (smax a b) a = false.
Proof. intros Ha Hb. unfold smax. destruct (nltb a b) eqn:E; [apply (wo_asym _ Hwo); auto|apply (wo_irrefl _ Hwo); auto]. Qed.
Lemma smax_r a b : ok a -> ok b -> nltb (smax a b) b = false.
Proof. intros Ha Hb. unfold smax. destruct (nltb a b) eqn:E; [apply (wo_irrefl _ Hwo); auto|exact E]. Qed.
Lemma smin_glb a b x : ok a -> ok b -> ok x -> nltb a x = false -> nltb b x = false -> nltb (smin a b) x = false.
Proof. intros; unfold smin; destruct (nltb b a); auto. Qed.
Lemma smax_lub a b x : ok a -> ok b -> ok x -> nltb x a = false -> nltb x b = false -> nltb x (smax a b) = false.
Proof. intros; unfold smax; destruct (nltb a b); auto. Qed.

Definition okbox (b : vec T * vec T) : Prop := vall ok (fst b) /\ vall ok (snd b).

Lemma vmap2_ok (f : T -> T -> T) u v : (forall a b, ok a -> ok b -> ok (f a b)) ->
  vall ok u -> vall ok v -> vall ok (vmap2 f u v).
Proof. intros Hf (A & B & C) (D & E & F). repeat split; cbn; auto. Qed.

Lemma unity_ok m M b : okbox (m, M) -> okbox b -> okbox (unity m M (fst b) (snd b)).
Proof.
  intros [H1 H2] [H3 H4]. split; cbn; apply vmap2_ok; auto using smin_ok, smax_ok.
Qed.

Lemma vnlt_trans u v w : vall ok u -> vall ok v -> vall ok w -> vnlt u v -> vnlt v w -> vnlt u w.
Proof.
  intros (A & B & C) (D & E & F) (G & H & I) (J & K & L) (M & O & Q).
  repeat split.
  - apply (wo_negtrans _ Hwo) with (vx v); auto.
  - apply (wo_negtrans _ Hwo) with (vy v); auto.
  - apply (wo_negtrans _ Hwo) with (vz v); auto.
Qed.

Lemma box_in_trans a b d : okbox a -> okbox b -> okbox d -> box_in a b -> box_in b d -> box_in a d.
Proof.
  intros [A1 A2] [B1 B2] [D1 D2] [H1 H2] [H3 H4].
  split; [apply vnlt_trans with (fst b)|apply vnlt_trans with (snd b)]; assumption.
Qed.

Lemma unity_in m M b : okbox (m, M) -> okbox b ->
  box_in (m, M) (unity m M (fst b) (snd b)) /\ box_in b (unity m M (fst b) (snd b)).
Proof.
  intros [(A & B & C) (D & E & F)] [(G & H & I) (J & K & L)]. cbn in *.
  repeat split; cbn; auto using smin_r, smin_l, smax_l, smax_r.
Qed.

Lemma unity_least m M b b' : okbox (m, M) -> okbox b -> okbox b' ->
  box_in (m, M) b' -> box_in b b' -> box_in (unity m M (fst b) (snd b)) b'.
Proof.
  intros [(A & B & C) (D & E & F)] [(G & H & I) (J & K & L)] [(A' & B' & C') (D' & E' & F')].
  cbn in *. intros [(P1 & P2 & P3) (P4 & P5 & P6)] [(Q1 & Q2 & Q3) (Q4 & Q5 & Q6)]. cbn in *.
  repeat split; cbn; auto using smin_glb, smax_lub.
Qed.

Lemma box_in_refl b : okbox b -> box_in b b.
Proof.
  intros [(A & B & C) (D & E & F)]. repeat split; apply (wo_irrefl _ Hwo); auto.
Qed.

Definition boxes_ok (ids : list nat) : Prop :=
  forall i, In i ids -> exists b, c_box c i = Ok b /\ okbox b.

Lemma bbox_loop_spec : forall ids m M b', boxes_ok ids -> okbox (m, M) ->
  bbox_loop c m M ids = Ok b' ->
  okbox b' /\ box_in (m, M) b' /\
  (forall i b, In i ids -> c_box c i = Ok b -> box_in b b') /\
  (forall b'', okbox b'' -> box_in (m, M) b'' ->
     (forall i b, In i ids -> c_box c i = Ok b -> box_in b b'') -> box_in b' b'').
Proof.
  induction ids as [|i ids IH]; intros m M b' Hok Hm H; cbn in H.
  - injection H as <-. split; [exact Hm|]. split; [apply box_in_refl, Hm|].
    split; [intros i b []|auto].
  - destruct (Hok i (or_introl eq_refl)) as (b & Eb & Hb). rewrite Eb in H. cbn in H.
    destruct b as [bm bM]. pose proof (unity_ok m M (bm, bM) Hm Hb) as Hu.
    destruct (unity_in m M (bm, bM) Hm Hb) as [U1 U2].
    destruct (IH _ _ _ (fun j Hj => Hok j (or_intror Hj)) Hu H) as (R1 & R2 & R3 & R4).
    split; [exact R1|]. split; [|split].
    + eapply box_in_trans; [exact Hm|exact Hu|exact R1|exact U1|exact R2].
    + intros j b1 [<-|Hj] E1; [|apply R3 with (1 := Hj) (2 := E1)].
      rewrite Eb in E1. injection E1 as <-.
      eapply box_in_trans; [exact Hb|exact Hu|exact R1|exact U2|exact R2].
    + intros b'' Hok'' Hin Hall. apply R4; [exact Hok''| |].
      * apply (unity_least m M (bm, bM)); auto. apply Hall with i; [left; reflexivity|exact Eb].
      * intros j b1 Hj Ej. apply Hall with j; [right; exact Hj|exact Ej].
Qed.

Hypothesis Hmax : ok nmaxv.
Hypothesis Hmin : ok (nopp nmaxv).

Definition empty_box : vec T * vec T := (vconst nmaxv, vconst (nopp nmaxv)).
Lemma empty_ok : okbox empty_box.
Proof. repeat split; assumption. Qed.

Lemma compute_spec ids b' : boxes_ok ids -> compute_bounding_box c ids = Ok b' ->
  okbox b' /\ box_in empty_box b' /\
  (forall i b, In i ids -> c_box c i = Ok b -> box_in b b') /\
  (forall b'', okbox b'' -> box_in empty_box b'' ->
     (forall i b, In i ids -> c_box c i = Ok b -> box_in b b'') -> box_in b' b'').
Proof. intros H1 H2. exact (bbox_loop_spec _ _ _ _ H1 empty_ok H2). Qed.

Lemma wf_box depth ids (t : tree T P) : wf c opt depth ids t -> compute_bounding_box c ids = Ok (tmin t, tmax t).
Proof. destruct 1; assumption. Qed.

Lemma root_box (t : tree T P) k : nbox (root_node t k) = (tmin t, tmax t).
Proof. destruct t; reflexivity. Qed.

Theorem build_boxes nodes st pid :
  numbered c pid ->
  boxes_ok (seq 0 (c_size c)) ->
  build part [] c opt = Ok (nodes, st) -> boxes_enclose ok c pid nodes.
Proof.
  intros Hn Hb H. apply build_fresh in H as (t & Hw & -> & _).
  assert (Hstored : forall k d t' ids', sub t 0 d t' k -> wf c opt d ids' t' ->
            forall i, In i ids' <-> exists p, stored_below (flatten t 0) k p /\ pid p = i).
  { intros k d t' ids' Hs Hw' i. split.
    - intros Hi. apply (Permutation_in _ (Permutation_sym (wf_tids _ _ _ _ _ Hw'))) in Hi.
      assert (Hex : exists d' mn mx ids ps j p, sub t' k d' (TLeaf mn mx ids ps) j /\ In p ps /\ pid p = i).
      { clear Hs. revert k i Hi. induction Hw' as [depth ids mn mx ps Hbb Hps Hl|depth ids mn mx ax lids rids l r Hbb Hn' Hd Hax Hperm Hne Hl IHl Hr IHr]; intros k i Hi; cbn in Hi.
        - destruct (mapM_in _ _ _ _ Hps Hi) as (p & Ep & Hp).
          do 7 eexists. split; [constructor|]. split; [exact Hp|apply Hn, Ep].
        - apply in_app_or in Hi as [Hi|Hi].
          + destruct (IHl (S k) i Hi) as (d' & mn' & mx' & ids' & ps & j & p & A & B & C).
            exists (S d'), mn', mx', ids', ps, j, p. split; [apply sub_l, A|auto].
          + destruct (IHr (S k + tsize l) i Hi) as (d' & mn' & mx' & ids' & ps & j & p & A & B & C).
            exists (S d'), mn', mx', ids', ps, j, p. split; [apply sub_r, A|auto]. }
      destruct Hex as (d' & mn & mx & ids & ps & j & p & Hj & Hp & Hpi).
      exists p. split; [|exact Hpi]. exists j. eexists. split; [apply (sub_below _ _ _ _ Hs _ _ _ Hj)|].
      split; [apply (sub_nth0 _ _ _ _ (sub_trans _ _ _ _ _ _ _ _ Hs Hj))|exact Hp].
    - intros (p & (j & nd & Hbl & Hnd & Hp) & <-).
      destruct (below_sub _ _ _ Hbl _ _ Hs) as (d' & t'' & Hj).
      pose proof (sub_nth0 _ _ _ _ (sub_trans _ _ _ _ _ _ _ _ Hs Hj)) as Hnj.
      rewrite Hnd in Hnj. injection Hnj as ->.
      destruct (wf_sub _ _ _ _ _ _ _ Hw' Hj) as (ids'' & Hw'' & Hincl).
      destruct t'' as [mn mx ids ps|mn mx ax l r]; [|destruct Hp].
      inversion Hw'' as [? ? ? ? ? Hbb Hps Hc|]; subst. apply Hincl.
      destruct (mapM_in_inv _ _ _ _ Hps Hp) as (i & Ei & Hi). rewrite (Hn _ _ Ei). exact Hi. }
  assert (Hnode : forall k nd, nth_error (flatten t 0) k = Some nd ->
            exists d t' ids', sub t 0 d t' k /\ wf c opt d ids' t' /\ nbox nd = (tmin t', tmax t') /\
              boxes_ok ids' /\ compute_bounding_box c ids' = Ok (nbox nd)).
  { intros k nd Hk. apply nth_sub in Hk as (d & t' & Hs & ->).
    destruct (wf_sub _ _ _ _ _ _ _ Hw Hs) as (ids' & Hw' & Hincl).
    exists d, t', ids'. split; [exact Hs|]. split; [exact Hw'|]. split; [apply root_box|].
    split; [intros i Hi; apply Hb, Hincl, Hi|]. rewrite root_box. apply (wf_box _ _ _ Hw'). }
  split; [|split].
  - intros k nd p b Hk Hp Eb. destruct (Hnode _ _ Hk) as (d & t' & ids' & Hs & Hw' & _ & Hok & Hbb).
    destruct (compute_spec _ _ Hok Hbb) as (_ & _ & R & _). apply R with (2 := Eb).
    apply (Hstored _ _ _ _ Hs Hw'). exists p; auto.
  - intros k j nd nd' Hc Hk Hj. destruct (Hnode _ _ Hk) as (d & t' & ids' & Hs & Hw' & _ & Hok & Hbb).
    destruct (Hnode _ _ Hj) as (d2 & t2 & ids2 & Hs2 & Hw2 & _ & Hok2 & Hbb2).
    destruct (compute_spec _ _ Hok Hbb) as (O1 & E1 & R1 & _).
    destruct (compute_spec _ _ Hok2 Hbb2) as (_ & _ & _ & R2).
    apply R2; [exact O1|exact E1|]. intros i b Hi Eb. apply R1 with (2 := Eb).
    apply (Hstored _ _ _ _ Hs2 Hw2) in Hi as (p & (j' & ndj & Hbl & Hnj & Hp) & <-).
    apply (Hstored _ _ _ _ Hs Hw'). exists p. split; [|reflexivity]. exists j', ndj.
    split; [|auto]. clear - Hbl Hc Hk.
    induction Hbl as [j Hjl|j q j' Hbl IH Hc'].
    + eapply below_step; [|exact Hc]. constructor. apply nth_error_Some; congruence.
    + eapply below_step; [apply IH, Hc|exact Hc'].
  - intros k nd b' Hk H1 H2 H3 H4 Hall. destruct (Hnode _ _ Hk) as (d & t' & ids' & Hs & Hw' & _ & Hok & Hbb).
    destruct (compute_spec _ _ Hok Hbb) as (_ & _ & _ & R). apply R; [split; assumption|split; assumption|].
    intros i b Hi Eb. apply (Hstored _ _ _ _ Hs Hw') in Hi as (p & Hp & <-). eapply Hall; eassumption.
Qed.
End Pf.

Lemma build_boxes' {T P : Type} {N : num T} part c opt (ok : T -> Prop) (nodes : list (node T P)) st pid :
  partition_ok part -> numbered c pid -> weak_order ok -> ok nmaxv -> ok (nopp nmaxv) ->
  (forall i, i < c_size c -> exists b, c_box c i = Ok b /\ vall ok (fst b) /\ vall ok (snd b)) ->
  build part [] c opt = Ok (nodes, st) -> boxes_enclose ok c pid nodes.
Proof.
  intros Hp Hn Hw H1 H2 Hb H. apply (build_boxes part Hp c opt ok Hw H1 H2 nodes st); auto.
  intros i Hi. apply in_seq in Hi. apply Hb. lia.
Qed.
