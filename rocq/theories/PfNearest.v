(** Traversal of a built tree finds the nearest hit (ideal arithmetic). *)

From Coq Require Import Reals ZArith List Bool Arith Lra Lia Permutation.
From Verif Require Import Num NumR NumX Vec Datatypes Ray Bvh Traverse SpecBvh SpecReal SpecNearest.
From Verif Require Import PfBuild PfTree PfStack PfBuild2 PfTrav PfTrav2 PfX PfSlab.
Import ListNotations.

Section Visit.
Variables big tiny eps : R.
Notation XN := (Xnum big tiny eps).
Context {P I : Type}.
Variable isx : isector xr P I.
Variable r : ray xr.
Variables (good : P -> Prop) (best : P -> option R) (inv : I -> Prop) (won : P -> I -> Prop).
Hypothesis Hc : contract isx r good best inv won.
Variable sure : P -> Prop.

Definition lt_hd (u : R) (x : xr) : bool := xltb (Fin u) x.

Lemma lt_hd_trans u x t : isR x t -> lt_hd u x = true -> (u < t)%R.
Proof. intros H. unfold lt_hd. rewrite (isR_ltb _ _ _ _ (isR_fin u) H). apply Rltb_spec. Qed.
Lemma lt_hd_not u x t : isR x t -> lt_hd u x = false -> (t <= u)%R.
Proof. intros H. unfold lt_hd. rewrite (isR_ltb _ _ _ _ (isR_fin u) H). apply Rltb_false. Qed.
Lemma lt_hd_le u t x : (u <= t)%R -> lt_hd t x = true -> lt_hd u x = true.
Proof.
  unfold lt_hd. destruct x as [|[]|s a]; cbn; auto. intros H H'. apply Rltb_spec in H'. apply Rltb_spec. lra.
Qed.

(** Outcome of scanning a list of primitives or a subtree from state [i]. *)
Definition nothing (S : P -> Prop) (ps : list P) (i : I) : Prop :=
  forall q u, In q ps -> S q -> best q = Some u -> lt_hd u (is_hd isx i) = false.
Definition found (S : P -> Prop) (ps : list P) (i i' : I) : Prop :=
  exists p t, In p ps /\ best p = Some t /\ lt_hd t (is_hd isx i) = true /\ won p i' /\ inv i' /\
    isR (is_hd isx i') t /\
    (any_hit r = false -> forall q u, In q ps -> S q -> best q = Some u -> (t <= u)%R).

Lemma leaf_scan : forall ps i, inv i -> (forall p, In p ps -> good p) ->
  (leaf_loop isx ps r false i = (false, i) /\ nothing (fun _ => True) ps i) \/
  (exists i', leaf_loop isx ps r false i = (true, i') /\ found (fun _ => True) ps i i').
Proof.
  assert (Htrue : forall ps i, inv i -> any_hit r = false -> (forall p, In p ps -> good p) ->
    (leaf_loop isx ps r true i = (true, i) /\ nothing (fun _ => True) ps i) \/
    (exists i', leaf_loop isx ps r true i = (true, i') /\ found (fun _ => True) ps i i')).
  { induction ps as [|p ps IH]; intros i Hi Ha Hg.
    - left. split; [reflexivity|]. intros q u [].
    - cbn. pose proof (ct_step _ _ _ _ _ _ Hc i p (Hg p (or_introl eq_refl)) Hi) as Hst.
      assert (Hg' : forall q, In q ps -> good q) by (intros; apply Hg; right; assumption).
      destruct (best p) as [t|] eqn:Eb; [destruct (xltb (Fin t) (is_hd isx i)) eqn:El|].
      + destruct Hst as (i' & -> & Hi' & Ht & Hw). rewrite Ha. cbn. right.
        destruct (IH i' Hi' Ha Hg') as [[E Hn]|(i'' & E & p' & t' & F1 & F2 & F3 & F4 & F5 & F6 & F7)].
        * exists i'. split; [exact E|]. exists p, t. repeat split; auto; [left; reflexivity|].
          intros _ q u [<-|Hq] _ Eu; [rewrite Eb in Eu; injection Eu as <-; lra|].
          apply (lt_hd_not _ _ _ Ht). apply (Hn q u Hq Logic.I Eu).
        * exists i''. split; [exact E|]. exists p', t'. pose proof (lt_hd_trans _ _ _ Ht F3) as Hlt.
          repeat split; auto; [right; exact F1|eapply lt_hd_le; [|exact El]; lra|].
          intros _ q u [<-|Hq] _ Eu; [rewrite Eb in Eu; injection Eu as <-; lra|].
          apply (F7 Ha q u Hq Logic.I Eu).
      + rewrite Hst, Ha. cbn.
        destruct (IH i Hi Ha Hg') as [[E Hn]|(i'' & E & p' & t' & F1 & F2 & F3 & F4 & F5 & F6 & F7)].
        * left. split; [exact E|]. intros q u [<-|Hq] Hs Eu; [rewrite Eb in Eu; injection Eu as <-; exact El|].
          apply (Hn q u Hq Hs Eu).
        * right. exists i''. split; [exact E|]. exists p', t'. repeat split; auto; [right; exact F1|].
          intros _ q u [<-|Hq] Hs Eu.
          -- rewrite Eb in Eu. injection Eu as <-. destruct (Rle_lt_dec t' t) as [|Hlt]; [assumption|].
             exfalso. assert (lt_hd t (is_hd isx i) = true) by (eapply lt_hd_le; [|exact F3]; lra). unfold lt_hd in *. congruence.
          -- apply (F7 Ha q u Hq Hs Eu).
      + rewrite Hst, Ha. cbn.
        destruct (IH i Hi Ha Hg') as [[E Hn]|(i'' & E & p' & t' & F1 & F2 & F3 & F4 & F5 & F6 & F7)].
        * left. split; [exact E|]. intros q u [<-|Hq] Hs Eu; [congruence|].
          apply (Hn q u Hq Hs Eu).
        * right. exists i''. split; [exact E|]. exists p', t'. repeat split; auto; [right; exact F1|].
          intros _ q u [<-|Hq] Hs Eu; [congruence|]. apply (F7 Ha q u Hq Hs Eu). }
  induction ps as [|p ps IH]; intros i Hi Hg.
  - left. split; [reflexivity|]. intros q u [].
  - cbn. pose proof (ct_step _ _ _ _ _ _ Hc i p (Hg p (or_introl eq_refl)) Hi) as Hst.
    assert (Hg' : forall q, In q ps -> good q) by (intros; apply Hg; right; assumption).
    destruct (best p) as [t|] eqn:Eb; [destruct (xltb (Fin t) (is_hd isx i)) eqn:El|].
    + destruct Hst as (i' & -> & Hi' & Ht & Hw). cbn. right. destruct (any_hit r) eqn:Ha.
      * exists i'. split; [reflexivity|]. exists p, t. repeat split; auto; [left; reflexivity|congruence].
      * destruct (Htrue ps i' Hi' eq_refl Hg') as [[E Hn]|(i'' & E & p' & t' & F1 & F2 & F3 & F4 & F5 & F6 & F7)].
        -- exists i'. split; [exact E|]. exists p, t. repeat split; auto; [left; reflexivity|].
           intros _ q u [<-|Hq] _ Eu; [rewrite Eb in Eu; injection Eu as <-; lra|].
           apply (lt_hd_not _ _ _ Ht). apply (Hn q u Hq Logic.I Eu).
        -- exists i''. split; [exact E|]. exists p', t'. pose proof (lt_hd_trans _ _ _ Ht F3) as Hlt.
           repeat split; auto; [right; exact F1|eapply lt_hd_le; [|exact El]; lra|].
           intros Ha' q u [<-|Hq] _ Eu; [rewrite Eb in Eu; injection Eu as <-; lra|].
           apply (F7 Ha' q u Hq Logic.I Eu).
    + rewrite Hst. cbn.
      destruct (IH i Hi Hg') as [[E Hn]|(i'' & E & p' & t' & F1 & F2 & F3 & F4 & F5 & F6 & F7)].
      * left. split; [exact E|]. intros q u [<-|Hq] Hs Eu; [rewrite Eb in Eu; injection Eu as <-; exact El|].
        apply (Hn q u Hq Hs Eu).
      * right. exists i''. split; [exact E|]. exists p', t'. repeat split; auto; [right; exact F1|].
        intros Ha q u [<-|Hq] Hs Eu.
        -- rewrite Eb in Eu. injection Eu as <-. destruct (Rle_lt_dec t' t) as [|Hlt]; [assumption|].
           exfalso. assert (lt_hd t (is_hd isx i) = true) by (eapply lt_hd_le; [|exact F3]; lra). unfold lt_hd in *. congruence.
        -- apply (F7 Ha q u Hq Hs Eu).
    + rewrite Hst. cbn.
      destruct (IH i Hi Hg') as [[E Hn]|(i'' & E & p' & t' & F1 & F2 & F3 & F4 & F5 & F6 & F7)].
      * left. split; [exact E|]. intros q u [<-|Hq] Hs Eu; [congruence|].
        apply (Hn q u Hq Hs Eu).
      * right. exists i''. split; [exact E|]. exists p', t'. repeat split; auto; [right; exact F1|].
        intros Ha q u [<-|Hq] Hs Eu; [congruence|]. apply (F7 Ha q u Hq Hs Eu).
Qed.

Fixpoint tprims (t : tree xr P) : list P :=
  match t with TLeaf _ _ _ ps => ps | TBranch _ _ _ l r => tprims l ++ tprims r end.

Lemma stored_tprims t : forall k, stored (flatten t k) = tprims t.
Proof.
  unfold stored. induction t as [mn mx ids ps|mn mx ax l IHl rt IHr]; intros k; cbn.
  - apply app_nil_r.
  - rewrite map_app, concat_app, IHl, IHr. reflexivity.
Qed.

(** The node test passes on every subtree holding a sure hit below [hd]. *)
Definition passes (t : tree xr P) : Prop :=
  forall q u hd, In q (tprims t) -> sure q -> best q = Some u ->
    lt_hd u hd = true -> @test _ _ XN r t hd = true.
Fixpoint covers (t : tree xr P) : Prop :=
  passes t /\ match t with TLeaf _ _ _ _ => True | TBranch _ _ _ l rt => covers l /\ covers rt end.

Lemma covers_sub t : forall k, (forall d t' k', sub t k d t' k' -> passes t') -> covers t.
Proof.
  induction t as [mn mx ids ps|mn mx ax l IHl rt IHr]; intros k H; cbn;
    (split; [apply (H 0 _ k); constructor|]); [exact Logic.I|].
  split.
  - apply (IHl (S k)). intros d t' k' Hs. apply (H (S d) t' k'). apply sub_l, Hs.
  - apply (IHr (S k + tsize l)). intros d t' k' Hs. apply (H (S d) t' k'). apply sub_r, Hs.
Qed.

Lemma visit_scan : forall t i, covers t -> inv i -> (forall p, In p (tprims t) -> good p) ->
  (@visit _ _ _ XN isx r t (is_hd isx i) i = (false, is_hd isx i, i) /\ nothing sure (tprims t) i) \/
  (exists i', found sure (tprims t) i i' /\
     (any_hit r = true /\ @visit _ _ _ XN isx r t (is_hd isx i) i = (true, is_hd isx i, i') \/
      any_hit r = false /\ @visit _ _ _ XN isx r t (is_hd isx i) i = (false, is_hd isx i', i'))).
Proof.
  induction t as [mn mx ids ps|mn mx ax l IHl rt IHr]; intros i [Hp Hcov] Hi Hg; cbn [visit].
  - destruct (test r (TLeaf mn mx ids ps) (is_hd isx i)) eqn:Et.
    + destruct (leaf_scan ps i Hi Hg) as [[-> Hn]|(i' & -> & p & t & F1 & F2 & F3 & F4 & F5 & F6 & F7)].
      * left. split; [reflexivity|]. intros q u Hq _ Eu. apply (Hn q u Hq Logic.I Eu).
      * right. exists i'. split.
        { exists p, t. repeat split; auto. intros Ha q u Hq _ Eu. apply (F7 Ha q u Hq Logic.I Eu). }
        destruct (any_hit r); auto.
    + left. split; [reflexivity|]. intros q u Hq Hs Eu.
      destruct (lt_hd u (is_hd isx i)) eqn:El; [|reflexivity].
      rewrite (Hp q u _ Hq Hs Eu El) in Et. discriminate.
  - destruct (test r (TBranch mn mx ax l rt) (is_hd isx i)) eqn:Et.
    2:{ left. split; [reflexivity|]. intros q u Hq Hs Eu.
        destruct (lt_hd u (is_hd isx i)) eqn:El; [|reflexivity].
        rewrite (Hp q u _ Hq Hs Eu El) in Et. discriminate. }
    destruct Hcov as [Cl Cr]. cbn [tprims].
    assert (Gl : forall p, In p (tprims l) -> good p) by (intros; apply Hg; cbn; apply in_or_app; auto).
    assert (Gr : forall p, In p (tprims rt) -> good p) by (intros; apply Hg; cbn; apply in_or_app; auto).
    assert (Hgen : forall A B : tree xr P,
      (forall i, inv i -> (@visit _ _ _ XN isx r A (is_hd isx i) i = (false, is_hd isx i, i) /\ nothing sure (tprims A) i) \/
        (exists i', found sure (tprims A) i i' /\
          (any_hit r = true /\ @visit _ _ _ XN isx r A (is_hd isx i) i = (true, is_hd isx i, i') \/
           any_hit r = false /\ @visit _ _ _ XN isx r A (is_hd isx i) i = (false, is_hd isx i', i')))) ->
      (forall i, inv i -> (@visit _ _ _ XN isx r B (is_hd isx i) i = (false, is_hd isx i, i) /\ nothing sure (tprims B) i) \/
        (exists i', found sure (tprims B) i i' /\
          (any_hit r = true /\ @visit _ _ _ XN isx r B (is_hd isx i) i = (true, is_hd isx i, i') \/
           any_hit r = false /\ @visit _ _ _ XN isx r B (is_hd isx i) i = (false, is_hd isx i', i')))) ->
      (forall p, In p (tprims A ++ tprims B) <-> In p (tprims l ++ tprims rt)) ->
      let v := let '(stop, hd1, i1) := @visit _ _ _ XN isx r A (is_hd isx i) i in
               if stop then (true, hd1, i1) else @visit _ _ _ XN isx r B hd1 i1 in
      (v = (false, is_hd isx i, i) /\ nothing sure (tprims l ++ tprims rt) i) \/
      (exists i', found sure (tprims l ++ tprims rt) i i' /\
        (any_hit r = true /\ v = (true, is_hd isx i, i') \/
         any_hit r = false /\ v = (false, is_hd isx i', i')))).
    { intros A B HA HB Hin v.
      destruct (HA i Hi) as [[EA NA]|(i1 & (p & t & F1 & F2 & F3 & F4 & F5 & F6 & F7) & EA)].
      - unfold v. rewrite EA.
        destruct (HB i Hi) as [[EB NB]|(i2 & (p & t & F1 & F2 & F3 & F4 & F5 & F6 & F7) & EB)].
        + left. split; [exact EB|]. intros q u Hq Hs Eu. apply Hin in Hq. apply in_app_or in Hq as [Hq|Hq].
          * apply (NA q u Hq Hs Eu).
          * apply (NB q u Hq Hs Eu).
        + right. exists i2. split; [|exact EB]. exists p, t. repeat split; auto.
          * apply Hin, in_or_app; auto.
          * intros Ha q u Hq Hs Eu. apply Hin in Hq. apply in_app_or in Hq as [Hq|Hq]; [|apply (F7 Ha q u Hq Hs Eu)].
            destruct (Rle_lt_dec t u) as [|Hlt]; [assumption|]. exfalso.
            pose proof (NA q u Hq Hs Eu) as Hf. rewrite (lt_hd_le u t) in Hf; [discriminate|lra|exact F3].
      - destruct EA as [[Ha EA]|[Ha EA]]; unfold v; rewrite EA.
        + right. exists i1. split; [|left; auto]. exists p, t. repeat split; auto.
          * apply Hin, in_or_app; auto.
          * congruence.
        + destruct (HB i1 F5) as [[EB NB]|(i2 & (p' & t' & G1 & G2 & G3 & G4 & G5 & G6 & G7) & EB)].
          * right. exists i1. split; [|right; auto]. exists p, t. repeat split; auto.
            -- apply Hin, in_or_app; auto.
            -- intros _ q u Hq Hs Eu. apply Hin in Hq. apply in_app_or in Hq as [Hq|Hq]; [apply (F7 Ha q u Hq Hs Eu)|].
               apply (lt_hd_not _ _ _ F6). apply (NB q u Hq Hs Eu).
          * destruct EB as [[Ha' EB]|[_ EB]]; [congruence|].
            right. exists i2. split; [|right; auto]. pose proof (lt_hd_trans _ _ _ F6 G3) as Hlt.
            exists p', t'. repeat split; auto.
            -- apply Hin, in_or_app; auto.
            -- eapply lt_hd_le; [|exact F3]; lra.
            -- intros _ q u Hq Hs Eu. apply Hin in Hq. apply in_app_or in Hq as [Hq|Hq]; [|apply (G7 Ha q u Hq Hs Eu)].
               pose proof (F7 Ha q u Hq Hs Eu). lra. }
    destruct (near_first r ax).
    + apply (Hgen rt l); [intros j Hj; apply IHr; auto|intros j Hj; apply IHl; auto|].
      intros p. rewrite !in_app_iff. tauto.
    + apply (Hgen l rt); [intros j Hj; apply IHl; auto|intros j Hj; apply IHr; auto|]. tauto.
Qed.

(** The whole query on a tree of height at most 26. *)
Lemma tree_answers t rh : covers t -> (forall p, In p (tprims t) -> good p) ->
  (forall d mn mx ax l rt p, sub t 0 d (TBranch mn mx ax l rt) p -> ax < 3) ->
  theight t <= 26 ->
  answers isx best won sure (tprims t) (max_hit_distance r) (any_hit r) rh
    (@traverse _ XN _ _ isx (flatten t 0) r rh).
Proof.
  intros Hcov Hg Hax Hh.
  destruct (@traverse_visit _ _ _ XN isx r t Hax rh) as [E _]. rewrite (E Hh). clear E.
  unfold final, finish. cbn [nltb XN Xnum].
  pose proof (ct_start _ _ _ _ _ _ Hc) as Hi. pose proof (ct_max _ _ _ _ _ _ Hc) as Hm.
  rewrite <- Hm.
  destruct (visit_scan t (is_prepare isx r) Hcov Hi Hg) as [[Ev Hn]|(i' & (p & u & F1 & F2 & F3 & F4 & F5 & F6 & F7) & Ev)].
  - rewrite Ev. cbn [snd]. left. split; [|exact Hn].
    destruct (is_hd isx (is_prepare isx r)) as [|[]|s a]; cbn; auto.
    destruct (Rltb a a) eqn:Ea; [apply Rltb_spec in Ea; lra|reflexivity].
  - right. exists p, u, i'. repeat split; auto.
    assert (Es : snd (@visit _ _ _ XN isx r t (is_hd isx (is_prepare isx r)) (is_prepare isx r)) = i')
      by (destruct Ev as [[_ Ev]|[_ Ev]]; rewrite Ev; reflexivity).
    rewrite Es.
    assert (El : xltb (is_hd isx i') (is_hd isx (is_prepare isx r)) = true).
    { destruct (isR_ex _ _ F6) as (s & ->). unfold lt_hd in F3.
      destruct (is_hd isx (is_prepare isx r)); cbn in *; auto. }
    rewrite El. reflexivity.
Qed.
End Visit.
