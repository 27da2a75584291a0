(** The fixed-size stack behaves as a list. *)

From Coq Require Import List Arith Bool Lia.
From Verif Require Import Num Datatypes SpecStack PfBuild.
Import ListNotations.

Local Arguments Nat.ltb : simpl never.
Section S.
Context {A : Type}.

(** Representation: the slots below [ss] hold the list, bottom first. *)
Definition rep (cap : nat) (s : stack A) (l : list A) : Prop :=
  length (slots s) = cap /\ ss s = length l /\ length l <= cap /\
  forall i, i < length l -> nth_error (slots s) i = Some (nth_error l (length l - 1 - i)).

Lemma rep_new cap : rep cap (stack_new cap) [].
Proof.
  repeat split; cbn; [apply repeat_length|lia|intros i Hi; lia].
Qed.

Lemma rep_push cap s l a : rep cap s l ->
  if length l <? cap then exists s', push_back s a = Ok s' /\ rep cap s' (a :: l)
  else push_back s a = UB UBstack.
Proof.
  intros (H1 & H2 & H3 & H4). unfold push_back. rewrite H2, H1.
  destruct (Nat.ltb_spec (length l) cap) as [Hl|Hl]; [|reflexivity].
  eexists; split; [reflexivity|]. split; [cbn; rewrite list_set_length; exact H1|].
  split; [reflexivity|]. split; [cbn; lia|]. cbn [slots length]. intros i Hi.
  rewrite nth_error_list_set. destruct (Nat.eqb_spec (length l) i) as [<-|Hne].
  - rewrite H1. destruct (Nat.ltb_spec (length l) cap); [|lia].
    replace (S (length l) - 1 - length l) with 0 by lia. reflexivity.
  - rewrite H4 by lia. f_equal.
    replace (S (length l) - 1 - i) with (S (length l - 1 - i)) by lia. reflexivity.
Qed.

Lemma rep_pop cap z s l : rep cap s l ->
  match l with
  | [] => pop_back z s = UB UBstack
  | a :: l' =>
      if length l <? cap then exists s', pop_back z s = Ok s' /\ rep cap s' l'
      else pop_back z s = UB UBstack
  end.
Proof.
  intros (H1 & H2 & H3 & H4). unfold pop_back. rewrite H2, H1.
  destruct l as [|a l].
  - cbn [length]. destruct (0 <? cap); reflexivity.
  - destruct (Nat.ltb_spec (length (a :: l)) cap) as [Hl|Hl]; [|reflexivity].
    cbn [length] in *. eexists; split; [reflexivity|].
    split; [cbn; rewrite list_set_length; exact H1|].
    split; [reflexivity|]. split; [lia|]. cbn [slots]. intros i Hi.
    rewrite nth_error_list_set. destruct (Nat.eqb_spec (S (length l)) i) as [<-|Hne]; [lia|].
    rewrite H4 by lia. f_equal. replace (S (length l) - 1 - i) with (S (length l - 1 - i)) by lia.
    reflexivity.
Qed.

Lemma rep_back cap s l : rep cap s l ->
  back s = match l with a :: _ => Ok a | [] => UB UBstack end.
Proof.
  intros (H1 & H2 & H3 & H4). unfold back. rewrite H2. destruct l as [|a l]; [reflexivity|].
  cbn [length]. rewrite H4 by (cbn; lia).
  replace (length (a :: l) - 1 - length l) with 0 by (cbn; lia). reflexivity.
Qed.

Lemma run_rep cap (z : A) (ops : list (op A)) : forall s l, rep cap s l ->
  match run_list cap ops l with
  | Some l' => exists s', run_stack z ops s = Ok s' /\ rep cap s' l'
  | None => run_stack z ops s = UB UBstack
  end.
Proof.
  induction ops as [|[a|] ops IH]; intros s l Hr; cbn.
  - eauto.
  - pose proof (rep_push _ _ _ a Hr) as H. destruct (length l <? cap).
    + destruct H as (s' & -> & H). apply IH, H.
    + rewrite H. reflexivity.
  - pose proof (rep_pop _ z _ _ Hr) as H. destruct l as [|b l].
    + rewrite H. reflexivity.
    + destruct (length (b :: l) <? cap).
      * destruct H as (s' & -> & H). apply IH, H.
      * rewrite H. reflexivity.
Qed.

Lemma stack_is_list cap (z : A) (ops : list (op A)) :
  match run_list cap ops [] with
  | Some l => exists s, run_stack z ops (stack_new cap) = Ok s /\ looks_like s l
  | None => run_stack z ops (stack_new cap) = UB UBstack
  end.
Proof.
  pose proof (run_rep cap z ops _ _ (rep_new cap)) as H. destruct (run_list cap ops []); [|exact H].
  destruct H as (s & E & H). exists s. split; [exact E|]. split; [apply H|].
  eapply rep_back, H.
Qed.

Lemma careful_runs cap (ops : list (op A)) : forall l, careful cap ops (length l) ->
  exists l', run_list cap ops l = Some l'.
Proof.
  induction ops as [|[a|] ops IH]; intros l [Hl Hc]; cbn.
  - eauto.
  - destruct (Nat.ltb_spec (length l) cap); [|lia]. apply (IH (a :: l)), Hc.
  - destruct l as [|b l]; [destruct Hc|].
    destruct (Nat.ltb_spec (length (b :: l)) cap); [|lia]. apply IH, Hc.
Qed.
End S.

Lemma careful_stack {A} cap (z : A) ops : careful cap ops 0 ->
  exists l s, run_list cap ops [] = Some l /\ run_stack z ops (stack_new cap) = Ok s /\ looks_like s l.
Proof.
  intros H. destruct (careful_runs cap ops [] H) as (l & E). pose proof (stack_is_list cap z ops) as Hs.
  rewrite E in Hs. destruct Hs as (s & E1 & E2). eauto.
Qed.

(** A full stack cannot be popped. *)
Lemma full_pop (A : Type) (z a : A) : exists cap ops,
  0 < cap /\ length ops = S cap /\ (forall o, In o ops -> o = Push a \/ o = Pop) /\
  run_stack z ops (stack_new cap) = UB UBstack.
Proof.
  exists 2, [Push a; Push a; Pop]. split; [auto|]. split; [reflexivity|]. split; [|reflexivity].
  cbn. intuition.
Qed.
