(** A closest-hit query on a built tree, in any arithmetic: the final distance is bounded by
    any primitive that no test passes over. *)

From Coq Require Import ZArith List Bool Arith Lia Permutation.
From Verif Require Import Num Vec Datatypes Ray Bvh Traverse SpecBvh SpecAny.
From Verif Require Import PfBuild PfTree PfStack PfBuild2 PfTrav PfTrav2 PfAny.
Import ListNotations.

Section Visit.
Context {T P I : Type} {N : num T}.
Variable isx : isector T P I.
Variable r : ray T.
Hypothesis Hrej : rejecting isx r.
Hypothesis Hclosest : any_hit r = false.
Variables (good : P -> Prop) (Inv : I -> Prop) (B : nat -> T -> Prop) (q : P).
Hypothesis Hstep : forall i p i', good p -> Inv i -> is_prim isx i p r = (true, i') ->
  Inv i' /\ forall n, B n (is_hd isx i) -> B (S n) (is_hd isx i').
Hypothesis Hq : forall i h i', Inv i -> is_prim isx i q r = (h, i') -> B 0 (is_hd isx i').
Hypothesis Hmono : forall n x, B n x -> B (S n) x.

Lemma mono_le m : forall n x, n <= m -> B n x -> B m x.
Proof. induction m as [|m IH]; intros n x H Hb; [replace n with 0 in Hb by lia; exact Hb|]. destruct (Nat.eq_dec n (S m)) as [->|]; [exact Hb|]. apply Hmono, (IH n); [lia|exact Hb]. Qed.

Lemma leaf_late : forall ps h i, (forall p, In p ps -> good p) -> Inv i ->
  exists h' i', leaf_loop isx ps r h i = (h', i') /\ Inv i' /\ (h' = false -> i' = i) /\ (h = true -> h' = true) /\
    (forall n, B n (is_hd isx i) -> B (n + length ps) (is_hd isx i')) /\ (In q ps -> B (length ps) (is_hd isx i')).
Proof.
  induction ps as [|p ps IH]; intros h i Hg Hi; cbn [leaf_loop].
  - exists h, i. split; [reflexivity|]. split; [exact Hi|]. split; [auto|]. split; [auto|].
    split; [intros n; rewrite Nat.add_0_r; auto|intros []].
  - assert (Hgs : forall p, In p ps -> good p) by (intros; apply Hg; right; assumption).
    destruct (is_prim isx i p r) as [[|] i1] eqn:E; rewrite Hclosest, andb_false_r.
    + destruct (Hstep i p i1 (Hg p (or_introl eq_refl)) Hi E) as [Hi1 Hb].
      destruct (IH (h || true) i1 Hgs Hi1) as (h' & i' & E' & I' & X1 & X2 & X3 & X4). exists h', i'.
      rewrite orb_true_r in *. split; [exact E'|]. split; [exact I'|]. split; [rewrite (X2 eq_refl); discriminate|].
      split; [auto|]. split.
      * intros n Hn. cbn [length]. replace (n + S (length ps)) with (S n + length ps) by lia. apply X3, Hb, Hn.
      * cbn [length]. intros [->|Hin]; [|apply Hmono, X4, Hin]. apply Hmono. change (length ps) with (0 + length ps).
        apply X3, (Hq i true i1 Hi E).
    + pose proof (Hrej _ _ _ E). subst i1.
      destruct (IH (h || false) i Hgs Hi) as (h' & i' & E' & I' & X1 & X2 & X3 & X4). exists h', i'.
      rewrite orb_false_r in *. split; [exact E'|]. split; [exact I'|]. split; [exact X1|]. split; [auto|]. split.
      * intros n Hn. cbn [length]. apply (mono_le _ (n + length ps)); [lia|]. apply X3, Hn.
      * cbn [length]. intros [->|Hin]; [|apply Hmono, X4, Hin]. apply Hmono. change (length ps) with (0 + length ps).
        apply X3, (Hq i false i Hi E).
Qed.

Definition skips (t : tree T P) : Prop :=
  forall i, In q (tprims t) -> Inv i -> test r t (is_hd isx i) = false -> B 0 (is_hd isx i).
Fixpoint all_skips (t : tree T P) : Prop :=
  skips t /\ match t with TLeaf _ _ _ _ => True | TBranch _ _ _ l rt => all_skips l /\ all_skips rt end.
Lemma skips_sub t : forall k, (forall d t' k', sub t k d t' k' -> skips t') -> all_skips t.
Proof.
  induction t as [mn mx ids ps|mn mx ax l IHl rt IHr]; intros k H; cbn;
    (split; [apply (H 0 _ k); constructor|]); [exact Logic.I|].
  split.
  - apply (IHl (S k)). intros d t' k' Hs. apply (H (S d) t' k'). apply sub_l, Hs.
  - apply (IHr (S k + tsize l)). intros d t' k' Hs. apply (H (S d) t' k'). apply sub_r, Hs.
Qed.

Definition kept (i : I) (v : bool * T * I) (ps : list P) : Prop :=
  exists i', v = (false, is_hd isx i', i') /\ Inv i' /\
    (forall n, B n (is_hd isx i) -> B (n + length ps) (is_hd isx i')) /\ (In q ps -> B (length ps) (is_hd isx i')).
Lemma visit_late : forall t, all_skips t -> (forall p, In p (tprims t) -> good p) -> forall i, Inv i ->
  kept i (visit isx r t (is_hd isx i) i) (tprims t).
Proof.
  assert (Hno : forall t i, skips t -> Inv i -> test r t (is_hd isx i) = false -> kept i (false, is_hd isx i, i) (tprims t)).
  { intros t i Hs Hi Et. exists i. split; [reflexivity|]. split; [exact Hi|]. split.
    - intros n Hn. apply (mono_le _ n); [lia|exact Hn].
    - intros Hin. apply (mono_le _ 0); [lia|]. apply Hs; assumption. }
  induction t as [mn mx ids ps|mn mx ax l IHl rt IHr]; intros [Hs Hc] Hg i Hi; cbn [visit].
  - destruct (test r (TLeaf mn mx ids ps) (is_hd isx i)) eqn:Et; [|apply Hno; assumption].
    destruct (leaf_late ps false i Hg Hi) as (h' & i' & E & I' & X1 & _ & X3 & X4). rewrite E, Hclosest.
    exists i'. split; [|auto]. destruct h'; [reflexivity|]. rewrite (X1 eq_refl). reflexivity.
  - destruct (test r (TBranch mn mx ax l rt) (is_hd isx i)) eqn:Et; [|apply Hno; assumption].
    destruct Hc as [Cl Cr]. cbn [tprims] in *.
    assert (Gl : forall p, In p (tprims l) -> good p) by (intros p Hp; apply Hg, in_or_app; auto).
    assert (Gr : forall p, In p (tprims rt) -> good p) by (intros p Hp; apply Hg, in_or_app; auto).
    assert (Hgen : forall a b, (forall i, Inv i -> kept i (visit isx r a (is_hd isx i) i) (tprims a)) ->
      (forall i, Inv i -> kept i (visit isx r b (is_hd isx i) i) (tprims b)) ->
      (forall p, In p (tprims l ++ tprims rt) -> In p (tprims a) \/ In p (tprims b)) ->
      length (tprims l ++ tprims rt) = length (tprims a) + length (tprims b) ->
      kept i (let '(stop, hd1, i1) := visit isx r a (is_hd isx i) i in
           if stop then (true, hd1, i1) else visit isx r b hd1 i1) (tprims l ++ tprims rt)).
    { intros a b Ha Hb Hin Hlen. destruct (Ha i Hi) as (i1 & -> & I1 & X1 & X2).
      destruct (Hb i1 I1) as (i2 & -> & I2 & Y1 & Y2). exists i2. split; [reflexivity|]. split; [exact I2|]. rewrite Hlen. split.
      - intros n Hn. rewrite Nat.add_assoc. apply Y1, X1, Hn.
      - intros Hp. destruct (Hin q Hp) as [Hp'|Hp']; [apply Y1, X2, Hp'|]. apply (mono_le _ (length (tprims b))); [lia|]. apply Y2, Hp'. }
    destruct (near_first r ax); [apply (Hgen rt l)|apply (Hgen l rt)]; auto; try (intros p Hp; apply in_app_or in Hp; tauto);
      rewrite app_length; lia.
Qed.

Hypothesis Hstart : Inv (is_prepare isx r).
Hypothesis Hhd : is_hd isx (is_prepare isx r) = max_hit_distance r.
Lemma final_late t : all_skips t -> (forall p, In p (tprims t) -> good p) -> In q (tprims t) ->
  Inv (final isx r t) /\ B (length (tprims t)) (is_hd isx (final isx r t)).
Proof.
  intros Hs Hg Hin. unfold final. destruct (visit_late t Hs Hg _ Hstart) as (i' & E & I' & _ & X).
  rewrite Hhd in E. rewrite E. cbn [snd]. auto.
Qed.
End Visit.

(** What every test of a primitive keeps, the whole visit keeps. *)
Section Keep.
Context {T P I : Type} {N : num T}.
Variable isx : isector T P I.
Variable r : ray T.
Variable Inv : I -> Prop.
Hypothesis Hstep : forall i p h i', Inv i -> is_prim isx i p r = (h, i') -> Inv i'.
Lemma leaf_keeps : forall ps h i, Inv i -> Inv (snd (leaf_loop isx ps r h i)).
Proof.
  induction ps as [|p ps IH]; intros h i Hi; cbn [leaf_loop]; [exact Hi|].
  destruct (is_prim isx i p r) as [h' i'] eqn:E. pose proof (Hstep _ _ _ _ Hi E). destruct (_ && _); [assumption|]. apply IH. assumption.
Qed.
Lemma visit_keeps : forall t hd i, Inv i -> Inv (snd (visit isx r t hd i)).
Proof.
  induction t as [mn mx ids ps|mn mx ax l IHl rt IHr]; intros hd i Hi; cbn [visit]; destruct (test _ _ _); try exact Hi.
  - pose proof (leaf_keeps ps false i Hi). destruct (leaf_loop _ _ _ _ _) as [[|] i']; [destruct (any_hit r)|]; assumption.
  - destruct (near_first r ax).
    + specialize (IHr hd i Hi). destruct (visit isx r rt hd i) as [[[|] hd1] i1]; [exact IHr|]. apply IHl, IHr.
    + specialize (IHl hd i Hi). destruct (visit isx r l hd i) as [[[|] hd1] i1]; [exact IHl|]. apply IHr, IHl.
Qed.
End Keep.

Section Built.
Context {T P I : Type} {N : num T}.
Variable c : coll T P.
Variable part : (nat -> bool) -> list nat -> list nat * list nat.
Hypothesis Hpart : partition_ok part.
Variable opt : options.
Variables (nodes : list (node T P)) (st : stats).
Hypothesis Hbuild : build part [] c opt = Ok (nodes, st).
Hypothesis Hdepth : forall k d, node_depth nodes k d -> (d <= 26)%nat.
Variable isx : isector T P I.
Variable r : ray T.
Hypothesis Hrej : rejecting isx r.

(** One final state answers the query; it is as [PfAny.built_scanned] says, and as above. *)
Lemma built_final (sure : P -> Prop) rh :
  (forall ids mn mx i q, (forall j, In j ids -> (j < c_size c)%nat) ->
     compute_bounding_box c ids = Ok (mn, mx) -> In i ids -> c_prim c i = Ok q -> sure q ->
     forall nd : node T P, nd_min nd = mn -> nd_max nd = mx ->
     intersect_node (min_hit_distance r) (max_hit_distance r) nd r = true) ->
  exists i, traverse isx nodes r rh = verdict isx r rh i /\
    ((i = is_prepare isx r /\ quiet isx r sure (stored nodes)) \/ accepted isx r (stored nodes) i) /\
    (forall Inv : I -> Prop, (forall i p h i', Inv i -> is_prim isx i p r = (h, i') -> Inv i') -> Inv (is_prepare isx r) -> Inv i) /\
    forall (good : P -> Prop) (Inv : I -> Prop) (B : nat -> T -> Prop) (q : P) (k : nat),
    any_hit r = false ->
    (forall i p i', good p -> Inv i -> is_prim isx i p r = (true, i') ->
       Inv i' /\ forall n, B n (is_hd isx i) -> B (S n) (is_hd isx i')) ->
    (forall i h i', Inv i -> is_prim isx i q r = (h, i') -> B 0 (is_hd isx i')) ->
    (forall n x, B n x -> B (S n) x) ->
    Inv (is_prepare isx r) -> is_hd isx (is_prepare isx r) = max_hit_distance r ->
    (forall p, In p (stored nodes) -> good p) -> (k < c_size c)%nat -> c_prim c k = Ok q ->
    (forall ids mn mx j i, (forall j, In j ids -> (j < c_size c)%nat) ->
       compute_bounding_box c ids = Ok (mn, mx) -> In j ids -> c_prim c j = Ok q -> Inv i ->
       forall nd : node T P, nd_min nd = mn -> nd_max nd = mx ->
       intersect_node (min_hit_distance r) (is_hd isx i) nd r = false -> B 0 (is_hd isx i)) ->
    B (c_size c) (is_hd isx i).
Proof.
  intros Hpass.
  destruct (built_tree part Hpart c opt nodes st Hbuild) as (t & Hw & E & Hax).
  assert (Hh : theight t <= 26).
  { destruct (height_reached t 0) as (t' & k' & Hs). apply (Hdepth k'). rewrite E. apply node_depth_sub. eauto. }
  assert (Hgroup : forall dd t' k', sub t 0 dd t' k' -> forall q, In q (tprims t') -> exists ids i,
    (forall j, In j ids -> (j < c_size c)%nat) /\ compute_bounding_box c ids = Ok (PfBuild.tmin t', PfBuild.tmax t') /\
    In i ids /\ c_prim c i = Ok q).
  { intros dd t' k' Hs q Hq. destruct (wf_sub _ _ _ _ _ _ _ _ _ Hw Hs) as (ids' & Hw' & Hincl).
    pose proof (wf_stored _ _ _ _ _ Hw' 0) as Hst. rewrite stored_tprims in Hst.
    destruct (mapM_in_inv _ _ _ _ Hst Hq) as (i & Ei & Hi).
    apply (Permutation_in _ (wf_tids _ _ _ _ _ Hw')) in Hi. exists ids', i.
    split; [intros j Hj; apply Hincl in Hj; apply in_seq in Hj; lia|]. split; [exact (wf_box _ _ _ _ _ Hw')|]. auto. }
  destruct (traverse_visit isx r t Hax rh) as [Ef _]. rewrite <- E in Ef. exists (final isx r t).
  split; [exact (Ef Hh)|]. rewrite E, stored_tprims. split.
  - assert (Hcov : covers r sure t).
    { apply (covers_sub r sure t 0). intros dd t' k' Hs q Hq Hsure. destruct (Hgroup dd t' k' Hs q Hq) as (ids & i & G1 & G2 & G3 & G4).
      unfold test. apply (Hpass ids (PfBuild.tmin t') (PfBuild.tmax t') i q); auto; destruct t'; reflexivity. }
    unfold final. destruct (visit_scan isx r Hrej sure t Hcov) as [[-> Hq]|(stop & hd & i' & -> & _ & Hacc)]; cbn [snd]; auto.
  - split; [intros Inv Hs Hi; unfold final; apply visit_keeps; assumption|]. intros good Inv B q k Hany Hstep Hq Hmono Hstart Hhd Hgood Hk Ek Hskip.
    pose proof (wf_stored _ _ _ _ _ Hw 0) as Hst. rewrite stored_tprims in Hst.
    assert (Hlen : length (tprims t) = c_size c).
    { rewrite (mapM_length _ _ _ Hst), (Permutation_length (wf_tids _ _ _ _ _ Hw)), seq_length. reflexivity. }
    rewrite <- Hlen. apply (final_late isx r Hrej Hany good Inv B q Hstep Hq Hmono Hstart Hhd).
    + apply (skips_sub isx r Inv B q t 0). intros dd t' k' Hs i Hin Hi Et.
      destruct (Hgroup dd t' k' Hs q Hin) as (ids & j & G1 & G2 & G3 & G4).
      apply (Hskip ids _ _ j i G1 G2 G3 G4 Hi (root_node t' 0)); [destruct t'; reflexivity..|exact Et].
    + exact Hgood.
    + destruct (mapM_in _ _ _ k Hst) as (q' & Eq & Hin).
      * apply (Permutation_in _ (Permutation_sym (wf_tids _ _ _ _ _ Hw))). apply in_seq. lia.
      * rewrite Ek in Eq. injection Eq as <-. exact Hin.
Qed.
End Built.
