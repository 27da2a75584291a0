(** A query on a built tree, in any arithmetic: no primitive is passed over whose boxes pass
    the node test. *)

From Coq Require Import ZArith List Bool Arith Lia Permutation.
From Verif Require Import Num Vec Datatypes Ray Bvh Traverse SpecBvh SpecAny.
From Verif Require Import PfBuild PfTree PfStack PfBuild2 PfTrav PfTrav2.
Import ListNotations.

Section Visit.
Context {T P I : Type} {N : num T}.
Variable isx : isector T P I.
Variable r : ray T.
Hypothesis Hrej : rejecting isx r.
Variable sure : P -> Prop.
Notation i0 := (is_prepare isx r).

Definition quiet (S : P -> Prop) (ps : list P) : Prop :=
  forall q, In q ps -> S q -> fst (is_prim isx i0 q r) = false.
Definition accepted (ps : list P) (i : I) : Prop :=
  exists p j, In p ps /\ is_prim isx j p r = (true, i) /\ (any_hit r = true -> j = i0).
Notation all := (fun _ : P => True).

Lemma accepted_in ps qs i : (forall p, In p ps -> In p qs) -> accepted ps i -> accepted qs i.
Proof. intros H (p & j & Hp & E & Hj). exists p, j. auto. Qed.

(** Scanning a leaf from an accepted state keeps an accepted state. *)
Lemma leaf_more : forall ps h i, any_hit r = false ->
  exists h', leaf_loop isx ps r h i = (h', i) \/ exists i', leaf_loop isx ps r h i = (h', i') /\ accepted ps i'.
Proof.
  induction ps as [|p ps IH]; intros h i Ha; cbn [leaf_loop]; [exists h; left; reflexivity|].
  destruct (is_prim isx i p r) as [[|] i1] eqn:E; rewrite Ha, andb_false_r.
  - destruct (IH (h || true) i1 Ha) as (h' & [E'|(i' & E' & Hacc)]); exists h'; right; rewrite E'.
    + exists i1. split; [reflexivity|]. exists p, i. split; [left; reflexivity|]. split; [exact E|congruence].
    + exists i'. split; [reflexivity|]. eapply accepted_in; [|exact Hacc]. intros; right; assumption.
  - rewrite (Hrej _ _ _ E). destruct (IH (h || false) i Ha) as (h' & [E'|(i' & E' & Hacc)]); exists h'; [left; exact E'|right].
    rewrite E'. exists i'. split; [reflexivity|]. eapply accepted_in; [|exact Hacc]. intros; right; assumption.
Qed.
Lemma leaf_first : forall ps,
  (leaf_loop isx ps r false i0 = (false, i0) /\ quiet all ps) \/
  (exists h i', leaf_loop isx ps r false i0 = (h, i') /\ (any_hit r = true -> h = true) /\ accepted ps i').
Proof.
  induction ps as [|p ps IH]; cbn [leaf_loop]; [left; split; [reflexivity|]; intros q []|].
  destruct (is_prim isx i0 p r) as [[|] i1] eqn:E.
  - right. cbn [orb andb]. assert (Hp : accepted (p :: ps) i1).
    { exists p, i0. split; [left; reflexivity|]. auto. }
    destruct (any_hit r) eqn:Ha; [exists true, i1; auto|].
    destruct (leaf_more ps true i1 Ha) as (h' & [E'|(i' & E' & Hacc)]); rewrite E'; exists h'; [exists i1|exists i']; (split; [reflexivity|]); (split; [congruence|]); [exact Hp|].
    eapply accepted_in; [|exact Hacc]. intros; right; assumption.
  - rewrite (Hrej _ _ _ E). cbn [orb andb].
    destruct IH as [[E' Hq]|(h & i' & E' & Hh & Hacc)].
    + left. split; [exact E'|]. intros q [<-|Hin] Hs; [rewrite E; reflexivity|auto].
    + right. exists h, i'. split; [exact E'|]. split; [exact Hh|]. eapply accepted_in; [|exact Hacc]. intros; right; assumption.
Qed.

Fixpoint tprims (t : tree T P) : list P :=
  match t with TLeaf _ _ _ ps => ps | TBranch _ _ _ l r => tprims l ++ tprims r end.

Lemma stored_tprims t : forall k, stored (flatten t k) = tprims t.
Proof.
  unfold stored. induction t as [mn mx ids ps|mn mx ax l IHl rt IHr]; intros k; cbn.
  - apply app_nil_r.
  - rewrite map_app, concat_app, IHl, IHr. reflexivity.
Qed.

Definition passes (t : tree T P) : Prop :=
  forall q, In q (tprims t) -> sure q -> test r t (max_hit_distance r) = true.
Fixpoint covers (t : tree T P) : Prop :=
  passes t /\ match t with TLeaf _ _ _ _ => True | TBranch _ _ _ l rt => covers l /\ covers rt end.

Lemma covers_sub t : forall k, (forall d t' k', sub t k d t' k' -> passes t') -> covers t.
Proof.
  induction t as [mn mx ids ps|mn mx ax l IHl rt IHr]; intros k H; cbn;
    (split; [apply (H 0 _ k); constructor|]); [exact Logic.I|].
  split.
  - apply (IHl (S k)). intros d t' k' Hs. apply (H (S d) t' k'). apply sub_l, Hs.
  - apply (IHr (S k + tsize l)). intros d t' k' Hs. apply (H (S d) t' k'). apply sub_r, Hs.
Qed.

(** From any state, a closest-hit visit keeps the state or ends in an accepted one. *)
Lemma visit_more : any_hit r = false -> forall t hd i,
  exists hd' i', visit isx r t hd i = (false, hd', i') /\ (i' = i \/ accepted (tprims t) i').
Proof.
  intros Ha. induction t as [mn mx ids ps|mn mx ax l IHl rt IHr]; intros hd i; cbn [visit tprims].
  - destruct (test _ _ _); [|eauto 6]. destruct (leaf_more ps false i Ha) as (h' & [E'|(i' & E' & Hacc)]); rewrite E', Ha; destruct h'; eauto 6.
  - destruct (test _ _ _); [|eauto 6].
    assert (Hgen : forall A B, (forall hd i, exists hd' i', visit isx r A hd i = (false, hd', i') /\ (i' = i \/ accepted (tprims A) i')) ->
      (forall hd i, exists hd' i', visit isx r B hd i = (false, hd', i') /\ (i' = i \/ accepted (tprims B) i')) ->
      (forall p, In p (tprims A) \/ In p (tprims B) -> In p (tprims l ++ tprims rt)) ->
      exists hd' i', (let '(stop, hd1, i1) := visit isx r A hd i in
           if stop then (true, hd1, i1) else visit isx r B hd1 i1) = (false, hd', i') /\ (i' = i \/ accepted (tprims l ++ tprims rt) i')).
    { intros A B HA HB Hin. destruct (HA hd i) as (hd1 & i1 & -> & H1). destruct (HB hd1 i1) as (hd2 & i2 & -> & H2).
      exists hd2, i2. split; [reflexivity|]. destruct H2 as [->|H2].
      - destruct H1 as [->|H1]; [left; reflexivity|right]. eapply accepted_in; [|exact H1]. auto.
      - right. eapply accepted_in; [|exact H2]. auto. }
    destruct (near_first r ax); [apply (Hgen rt l)|apply (Hgen l rt)]; auto; intros p Hp; apply in_or_app; tauto.
Qed.

Notation hd0 := (max_hit_distance r).
Definition outcome (v : bool * T * I) (ps : list P) : Prop :=
  (v = (false, hd0, i0) /\ quiet sure ps) \/
  (exists stop hd i', v = (stop, hd, i') /\ (any_hit r = true -> stop = true) /\ accepted ps i').

Lemma visit_scan : forall t, covers t -> outcome (visit isx r t hd0 i0) (tprims t).
Proof.
  assert (Hskip : forall t, passes t -> test r t hd0 = false -> quiet sure (tprims t)).
  { intros t Hp Et q Hq Hs. rewrite (Hp q Hq Hs) in Et. discriminate. }
  induction t as [mn mx ids ps|mn mx ax l IHl rt IHr]; intros [Hp Hcov]; cbn [visit].
  - destruct (test r (TLeaf mn mx ids ps) hd0) eqn:Et.
    + destruct (leaf_first ps) as [[-> Hq]|(h & i' & -> & Hh & Hacc)].
      * left. split; [reflexivity|]. intros q Hin _. apply (Hq q Hin Logic.I).
      * right. destruct (any_hit r) eqn:Ha.
        -- rewrite (Hh eq_refl). exists true, hd0, i'. auto.
        -- exists false, (if h then is_hd isx i' else hd0), i'. split; [destruct h; reflexivity|]. split; [congruence|exact Hacc].
    + left. split; [reflexivity|]. apply (Hskip _ Hp Et).
  - destruct (test r (TBranch mn mx ax l rt) hd0) eqn:Et.
    2: { left. split; [reflexivity|]. apply (Hskip _ Hp Et). }
    destruct Hcov as [Cl Cr]. cbn [tprims].
    assert (Hgen : forall A B, outcome (visit isx r A hd0 i0) (tprims A) -> outcome (visit isx r B hd0 i0) (tprims B) ->
      (forall p, In p (tprims l ++ tprims rt) <-> In p (tprims A) \/ In p (tprims B)) ->
      outcome (let '(stop, hd1, i1) := visit isx r A hd0 i0 in
           if stop then (true, hd1, i1) else visit isx r B hd1 i1) (tprims l ++ tprims rt)).
    { intros A B HA HB Hin. destruct HA as [[-> QA]|(stop & hd & i' & -> & Hs & HA)].
      - destruct HB as [[-> QB]|(stop & hd & i' & -> & Hs & HB)].
        + left. split; [reflexivity|]. intros q Hq. apply Hin in Hq as [Hq|Hq]; auto.
        + right. exists stop, hd, i'. split; [reflexivity|]. split; [exact Hs|]. eapply accepted_in; [|exact HB]. intros; apply Hin; auto.
      - right. assert (HA' : accepted (tprims l ++ tprims rt) i') by (eapply accepted_in; [|exact HA]; intros; apply Hin; auto).
        destruct stop; [exists true, hd, i'; auto|].
        assert (Ha : any_hit r = false) by (destruct (any_hit r); [discriminate (Hs eq_refl)|reflexivity]).
        destruct (visit_more Ha B hd i') as (hd2 & i2 & -> & H2). exists false, hd2, i2. split; [reflexivity|].
        split; [congruence|]. destruct H2 as [->|H2]; [exact HA'|]. eapply accepted_in; [|exact H2]. intros; apply Hin; auto. }
    destruct (near_first r ax); [apply (Hgen rt l)|apply (Hgen l rt)]; auto; intros p; rewrite in_app_iff; tauto.
Qed.

Lemma tree_scanned t rh : covers t ->
  (forall d mn mx ax l rt p, sub t 0 d (TBranch mn mx ax l rt) p -> ax < 3) ->
  theight t <= 26 ->
  scanned isx sure (tprims t) r rh (traverse isx (flatten t 0) r rh).
Proof.
  intros Hcov Hax Hh. destruct (traverse_visit isx r t Hax rh) as [E _]. rewrite (E Hh). clear E.
  unfold final, finish. destruct (visit_scan t Hcov) as [[-> Hq]|(stop & hd & i' & -> & _ & p & j & H1 & H2 & H3)]; cbn [snd].
  - left. split; [reflexivity|exact Hq].
  - right. exists p, j, i'. auto.
Qed.
End Visit.

Section Built.
Context {T P I : Type} {N : num T}.
Variable c : coll T P.
Variable part : (nat -> bool) -> list nat -> list nat * list nat.
Hypothesis Hpart : partition_ok part.
Variable opt : options.
Variables (nodes : list (node T P)) (st : stats).
Hypothesis Hbuild : build part [] c opt = Ok (nodes, st).
Hypothesis Hdepth : forall k d, node_depth nodes k d -> (d <= 26)%nat.
Variable isx : isector T P I.
Variable r : ray T.
Hypothesis Hrej : rejecting isx r.
Variable sure : P -> Prop.
(** The node test passes on the box of every group holding a sure primitive. *)
Hypothesis Hpass : forall ids mn mx i q, (forall j, In j ids -> (j < c_size c)%nat) ->
  compute_bounding_box c ids = Ok (mn, mx) -> In i ids -> c_prim c i = Ok q -> sure q ->
  forall nd : node T P, nd_min nd = mn -> nd_max nd = mx ->
  intersect_node (min_hit_distance r) (max_hit_distance r) nd r = true.

Lemma built_scanned rh : scanned isx sure (stored nodes) r rh (traverse isx nodes r rh).
Proof.
  destruct (built_tree part Hpart c opt nodes st Hbuild) as (t & Hw & E & Hax). rewrite E in *.
  rewrite stored_tprims. apply (tree_scanned isx r Hrej sure).
  - apply (covers_sub r sure t 0). intros dd t' k' Hs q Hq Hsure.
    destruct (wf_sub _ _ _ _ _ _ _ _ _ Hw Hs) as (ids' & Hw' & Hincl).
    pose proof (wf_stored _ _ _ _ _ Hw' 0) as Hst. rewrite stored_tprims in Hst.
    destruct (mapM_in_inv _ _ _ _ Hst Hq) as (i & Ei & Hi).
    apply (Permutation_in _ (wf_tids _ _ _ _ _ Hw')) in Hi.
    unfold test. apply (Hpass ids' (PfBuild.tmin t') (PfBuild.tmax t') i q); auto; try (destruct t'; reflexivity).
    + intros j Hj. apply Hincl in Hj. apply in_seq in Hj. lia.
    + exact (wf_box _ _ _ _ _ Hw').
  - exact Hax.
  - destruct (height_reached t 0) as (t' & k' & Hs). apply (Hdepth k'). apply node_depth_sub. eauto.
Qed.
End Built.
