(** Safety, termination and single visits. *)

From Coq Require Import ZArith List Bool Arith Lia.
From Verif Require Import Num Vec Datatypes Ray Bvh Traverse SpecBvh SpecStack SpecTrav.
From Verif Require Import PfBuild PfTree PfStack PfBuild2 PfTrav.
Import ListNotations.

Local Arguments Nat.ltb : simpl never.
Local Arguments Nat.leb : simpl never.

Section Pf.
Context {T P I : Type} {N : num T}.
Variable isx : isector T P I.
Variable r : ray T.

Lemma trace_erase nodes : forall fuel stk hd i seen,
  (do (i', _) <- trace_loop fuel isx nodes r stk hd i seen; Ok i') =
  traverse_loop fuel isx nodes r stk hd i.
Proof.
  induction fuel as [|fuel IH]; intros stk hd i seen; [reflexivity|].
  cbn [trace_loop traverse_loop]. destruct (0 <? ss stk); [|reflexivity].
  destruct (back stk) as [top| |]; [|reflexivity..]. cbn [bind].
  destruct top as [k|]; [|reflexivity]. destruct (at_ UBnode nodes k) as [nd| |]; [|reflexivity..].
  cbn [bind]. destruct (pop_back (Some 0) stk) as [s| |]; [|reflexivity..]. cbn [bind].
  destruct (intersect_node _ hd nd r); [|apply IH].
  destruct (negb (nd_leaf nd)).
  - destruct (nd_axis nd) as [a|]; [|reflexivity]. destruct (vget (direction_sign r) a) as [s'|]; [|reflexivity].
    cbn [bind]. destruct (push_back s _) as [s1| |]; [|reflexivity..]. cbn [bind].
    destruct (push_back s1 _) as [s2| |]; [|reflexivity..]. cbn [bind]. apply IH.
  - destruct (intersect_leaf isx nd r i) as [hit i']. destruct hit; [destruct (any_hit r)|]; [reflexivity|apply IH|apply IH].
Qed.

Lemma trace_traverse nodes rh : conclude isx r rh (trace isx nodes r) = traverse isx nodes r rh.
Proof.
  unfold traverse, trace, conclude. destruct (push_back _ (Some 0)) as [s| |]; [|reflexivity..].
  cbn [bind]. rewrite <- (trace_erase nodes _ s (max_hit_distance r) (is_prepare isx r) []).
  destruct (trace_loop _ _ _ _ _ _ _ _) as [[i sn]| |]; reflexivity.
Qed.

Variable t0 : tree T P.
Notation nodes := (flatten t0 0).
Hypothesis Hax : forall d mn mx ax l rt p, sub t0 0 d (TBranch mn mx ax l rt) p -> ax < 3.

Definition in_range (x : nat) (e : tree T P * nat) : Prop := snd e <= x < snd e + tsize (fst e).
Definition apart (e e' : tree T P * nat) : Prop := forall x, in_range x e -> in_range x e' -> False.

Lemma trace_nodup : forall fuel L stk hd i seen cap i' seen',
  Forall (entry t0) L -> rep cap stk (tops L) ->
  ForallOrdPairs apart L -> NoDup seen -> (forall x, In x seen -> x < length nodes) ->
  (forall x e, In x seen -> In e L -> ~ in_range x e) ->
  trace_loop fuel isx nodes r stk hd i seen = Ok (i', seen') ->
  NoDup seen' /\ forall x, In x seen' -> x < length nodes.
Proof.
  induction fuel as [|fuel IH]; intros L stk hd i seen cap i' seen' HL Hr Hpair Hnd Hlt Hap H; [discriminate|].
  cbn [trace_loop] in H. pose proof Hr as (_ & Hss & _ & _). rewrite Hss in H.
  assert (Hl1 : length (tops L) = length L) by apply map_length. rewrite Hl1 in H.
  destruct L as [|[t k] L].
  { cbn in H. injection H as <- <-. auto. }
  cbn [length] in H. change (0 <? S (length L)) with true in H. cbn iota in H.
  rewrite (rep_back _ _ _ Hr) in H. cbn [tops map bind snd] in H.
  inversion HL as [|? ? [d Hd] HL']; subst. cbn [fst snd] in Hd.
  unfold at_ in H. rewrite (sub_nth0 _ _ _ _ Hd) in H. cbn [bind] in H.
  pose proof (rep_pop _ (Some 0) _ _ Hr) as Hp. cbn [tops map] in Hp. fold (tops L) in Hp.
  destruct (length _ <? cap) in Hp; [|rewrite Hp in H; discriminate].
  destruct Hp as (s' & Es & Hr'). rewrite Es in H. cbn [bind] in H.
  inversion Hpair as [|? ? Hpe Hpair']; subst.
  pose proof (sub_range _ _ _ _ _ Hd) as Hrg. rewrite Nat.add_0_l in Hrg.
  assert (Hk : in_range k (t, k)) by (unfold in_range; cbn; pose proof (tsize_pos t); lia).
  assert (Hnd' : NoDup (k :: seen)).
  { constructor; [|exact Hnd]. intros Hin. apply (Hap k (t, k) Hin); [left; reflexivity|exact Hk]. }
  assert (Hlt' : forall x, In x (k :: seen) -> x < length nodes).
  { intros x [<-|Hx]; [|auto]. rewrite flatten_length. pose proof (tsize_pos t). lia. }
  assert (Hap' : forall x e, In x (k :: seen) -> In e L -> ~ in_range x e).
  { intros x e [<-|Hx] He Hin; [|eapply Hap; [exact Hx|right; exact He|exact Hin]].
    rewrite Forall_forall in Hpe. apply (Hpe _ He k Hk Hin). }
  assert (Hskip : forall hd1 i1, trace_loop fuel isx nodes r s' hd1 i1 (k :: seen) = Ok (i', seen') ->
    NoDup seen' /\ (forall x, In x seen' -> x < length nodes)).
  { intros hd1 i1 H1. exact (IH _ _ _ _ _ _ _ _ HL' Hr' Hpair' Hnd' Hlt' Hap' H1). }
  destruct (intersect_node _ hd _ r); [|apply (Hskip _ _ H)].
  destruct t as [mn mx ids ps|mn mx ax l rt]; cbn [root_node nd_leaf negb branch_node] in H.
  - destruct (intersect_leaf isx _ r i) as [hit i1] in H.
    destruct hit; [destruct (any_hit r)|].
    + injection H as <- <-. auto.
    + apply (Hskip _ _ H).
    + apply (Hskip _ _ H).
  - unfold branch_node in H. cbn [nd_leaf negb nd_axis nd_child0 nd_child1] in H.
    destruct (vget (direction_sign r) ax) as [s|] in H; [|discriminate]. cbn [bind] in H.
    set (e0 := (l, S k)). set (e1 := (rt, S k + tsize l)).
    assert (E0 : entry t0 e0) by (exists (S d); eapply sub_child_l; exact Hd).
    assert (E1 : entry t0 e1) by (exists (S d); eapply sub_child_r; exact Hd).
    assert (R0 : forall x, in_range x e0 -> in_range x (TBranch mn mx ax l rt, k) /\ k < x)
      by (unfold in_range, e0; cbn; intros; lia).
    assert (R1 : forall x, in_range x e1 -> in_range x (TBranch mn mx ax l rt, k) /\ k < x)
      by (unfold in_range, e1; cbn; intros; lia).
    assert (R01 : forall x, in_range x e0 -> in_range x e1 -> False)
      by (unfold in_range, e0, e1; cbn; intros; lia).
    assert (Hgen : forall near far, entry t0 near -> entry t0 far -> apart near far ->
      (forall x, in_range x near -> in_range x (TBranch mn mx ax l rt, k) /\ k < x) ->
      (forall x, in_range x far -> in_range x (TBranch mn mx ax l rt, k) /\ k < x) ->
      (do stk <- push_back s' (Some (snd far));
       do stk <- push_back stk (Some (snd near));
       trace_loop fuel isx nodes r stk hd i (k :: seen)) = Ok (i', seen') ->
      NoDup seen' /\ (forall x, In x seen' -> x < length nodes)).
    { intros near far Hn Hf Hnf Rn Rf H1.
      pose proof (rep_push _ _ _ (Some (snd far)) Hr') as P1.
      destruct (length (tops L) <? cap) in P1; [|rewrite P1 in H1; discriminate].
      destruct P1 as (s1 & E & Hr1). rewrite E in H1. cbn [bind] in H1.
      pose proof (rep_push _ _ _ (Some (snd near)) Hr1) as P2.
      destruct (length _ <? cap) in P2; [|rewrite P2 in H1; discriminate].
      destruct P2 as (s2 & E2 & Hr2). rewrite E2 in H1. cbn [bind] in H1.
      rewrite Forall_forall in Hpe.
      refine (IH (near :: far :: L) s2 _ _ _ _ _ _ _ Hr2 _ Hnd' Hlt' _ H1).
      - repeat constructor; assumption.
      - constructor; [|constructor; [|exact Hpair']].
        + constructor; [exact Hnf|]. apply Forall_forall. intros e He x Hx Hxe.
          apply (Hpe _ He x); [apply Rn, Hx|exact Hxe].
        + apply Forall_forall. intros e He x Hx Hxe. apply (Hpe _ He x); [apply Rf, Hx|exact Hxe].
      - intros x e Hx [<-|[<-|He]] Hin.
        + destruct (Rn _ Hin) as [Ra Rb]. destruct Hx as [<-|Hx]; [lia|].
          eapply (Hap x (TBranch mn mx ax l rt, k)); [exact Hx|left; reflexivity|exact Ra].
        + destruct (Rf _ Hin) as [Ra Rb]. destruct Hx as [<-|Hx]; [lia|].
          eapply (Hap x (TBranch mn mx ax l rt, k)); [exact Hx|left; reflexivity|exact Ra].
        + eapply Hap'; eassumption. }
    destruct s.
    + apply (Hgen e1 e0 E1 E0); [intros x A B; apply (R01 x B A)|exact R1|exact R0|exact H].
    + apply (Hgen e0 e1 E0 E1); [exact R01|exact R0|exact R1|exact H].
Qed.

Lemma trace_once i seen : trace isx nodes r = Ok (i, seen) ->
  NoDup seen /\ forall x, In x seen -> x < length nodes.
Proof.
  unfold trace.
  pose proof (rep_push BLAZERT_MAX_TREE_DEPTH _ _ (Some 0) (rep_new BLAZERT_MAX_TREE_DEPTH)) as H.
  cbn [length] in H. change (0 <? BLAZERT_MAX_TREE_DEPTH) with true in H. cbn iota in H.
  destruct H as (s & -> & Hr). cbn [bind]. intros H.
  refine (trace_nodup _ [(t0, 0)] _ _ _ _ _ _ _ _ Hr _ _ _ _ H).
  - constructor; [|constructor]. exists 0. constructor.
  - constructor; [constructor|constructor].
  - constructor.
  - intros x [].
  - intros x e [].
Qed.
End Pf.

Section Built.
Context {T P I : Type} {N : num T}.
Variable part : (nat -> bool) -> list nat -> list nat * list nat.
Hypothesis Hpart : partition_ok part.
Variable c : coll T P.
Variable opt : options.
Variables (nodes : list (node T P)) (st : stats).
Hypothesis Hbuild : build part [] c opt = Ok (nodes, st).

Lemma built_tree : exists t, wf c opt 0 (seq 0 (c_size c)) t /\ nodes = flatten t 0 /\
  (forall d mn mx ax l rt p, sub t 0 d (TBranch mn mx ax l rt) p -> ax < 3).
Proof.
  destruct (build_fresh _ Hpart _ _ _ _ Hbuild) as (t & Hw & -> & _).
  exists t. split; [exact Hw|]. split; [reflexivity|].
  intros d mn mx ax l rt p Hs. destruct (wf_sub _ _ _ _ _ _ _ _ _ Hw Hs) as (ids' & H1 & _).
  inversion H1; subst; assumption.
Qed.

Lemma finish_finished (isx : isector T P I) r i rh : finished isx rh (finish isx r i rh).
Proof. unfold finish, finished. destruct (nltb _ _); eauto. Qed.

Lemma built_safe (isx : isector T P I) r rh :
  (forall k d, node_depth nodes k d -> d <= 26) -> finished isx rh (traverse isx nodes r rh).
Proof.
  intros Hd. destruct built_tree as (t & _ & E & Hax). rewrite E in *.
  destruct (traverse_visit isx r t Hax rh) as [A _]. rewrite A; [apply finish_finished|].
  destruct (height_reached t 0) as (t' & k' & Hs).
  apply (Hd k'). apply node_depth_sub. eauto.
Qed.

Lemma built_terminates (isx : isector T P I) r rh :
  traverse isx nodes r rh = UB UBstack \/ finished isx rh (traverse isx nodes r rh).
Proof.
  destruct built_tree as (t & _ & E & Hax). rewrite E in *.
  destruct (traverse_visit isx r t Hax rh) as [_ [A|A]]; [left; exact A|].
  right. rewrite A. apply finish_finished.
Qed.

Lemma built_trace (isx : isector T P I) r i seen : trace isx nodes r = Ok (i, seen) ->
  NoDup seen /\ forall x, In x seen -> x < length nodes.
Proof.
  destruct built_tree as (t & _ & E & Hax). rewrite E in *. apply trace_once.
Qed.

Lemma opt_depth : max_tree_depth opt <= 26 -> forall k d, node_depth nodes k d -> d <= 26.
Proof.
  intros Hm k d Hd. destruct (build_respects part Hpart c opt nodes st Hbuild) as (H & _).
  apply H in Hd. lia.
Qed.
Lemma shallow_depth : shallow opt (c_size c) -> forall k d, node_depth nodes k d -> d <= 26.
Proof.
  intros [Hm|[Hm Hn]]; [apply opt_depth, Hm|]. intros k d Hd.
  pose proof (build_low part Hpart c opt nodes st Hbuild Hm k d Hd). lia.
Qed.
End Built.

Lemma miss_keeps {T P I : Type} {N : num T} (isx : isector T P I) nodes r rh rh' :
  traverse isx nodes r rh = Ok (false, rh') -> rh' = rh.
Proof.
  unfold traverse. intros H. apply bind_ok in H as (s & _ & H). apply bind_ok in H as (i & _ & H).
  destruct (nltb _ _).
  - apply bind_ok in H as (rh2 & _ & H). discriminate.
  - injection H as <-. reflexivity.
Qed.
