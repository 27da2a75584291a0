(** Traversal of a flattened tree, reduced to structural recursion on the tree. *)

From Coq Require Import ZArith List Bool Arith Lia.
From Verif Require Import Num Vec Datatypes Ray Bvh Traverse SpecBvh SpecStack PfBuild PfTree PfStack.
Import ListNotations.

Local Arguments Nat.ltb : simpl never.
Local Arguments Nat.leb : simpl never.

Section Pf.
Context {T P I : Type} {N : num T}.
Variable isx : isector T P I.
Variable r : ray T.

(** Node test on a tree's root. *)
Definition test (t : tree T P) (hd : T) : bool :=
  intersect_node (min_hit_distance r) hd (root_node t 0) r.

Lemma test_any t hd k : intersect_node (min_hit_distance r) hd (root_node t k) r = test t hd.
Proof. destruct t; reflexivity. Qed.

Definition near_first (ax : nat) : bool :=
  match vget (direction_sign r) ax with Some s => s | None => false end.

(** The result of processing a subtree: stop flag, local hit distance, state. *)
Fixpoint visit (t : tree T P) (hd : T) (i : I) : bool * T * I :=
  if test t hd then
    match t with
    | TLeaf _ _ _ ps =>
        let (hit, i') := leaf_loop isx ps r false i in
        if hit then (any_hit r, if any_hit r then hd else is_hd isx i', i')
        else (false, hd, i')
    | TBranch _ _ ax l rt =>
        if near_first ax then
          let '(stop, hd1, i1) := visit rt hd i in
          if stop then (true, hd1, i1) else visit l hd1 i1
        else
          let '(stop, hd1, i1) := visit l hd i in
          if stop then (true, hd1, i1) else visit rt hd1 i1
    end
  else (false, hd, i).

Fixpoint visit_all (L : list (tree T P * nat)) (hd : T) (i : I) : I :=
  match L with
  | [] => i
  | (t, _) :: L' =>
      let '(stop, hd1, i1) := visit t hd i in
      if stop then i1 else visit_all L' hd1 i1
  end.

Variable t0 : tree T P.
Notation nodes := (flatten t0 0).
Hypothesis Hax : forall d mn mx ax l rt p, sub t0 0 d (TBranch mn mx ax l rt) p -> ax < 3.

(** Entries of the stack: subtrees of [t0]. *)
Definition entry (e : tree T P * nat) : Prop := exists d, sub t0 0 d (fst e) (snd e).

(** Enough room for each entry's subtree. *)
Fixpoint fits (cap : nat) (L : list (tree T P * nat)) : Prop :=
  match L with
  | [] => True
  | (t, _) :: L' => length L' + 1 + theight t < cap /\ fits cap L'
  end.

Definition sizes (L : list (tree T P * nat)) : nat := list_sum (map (fun e => tsize (fst e)) L).

Lemma sizes_cons e L : sizes (e :: L) = tsize (fst e) + sizes L.
Proof. reflexivity. Qed.

Definition tops (L : list (tree T P * nat)) : list (option nat) := map (fun e => Some (snd e)) L.

Lemma loop_visit : forall fuel L stk hd i cap,
  Forall entry L -> sizes L < fuel -> rep cap stk (tops L) ->
  (fits cap L -> traverse_loop fuel isx nodes r stk hd i = Ok (visit_all L hd i)) /\
  (traverse_loop fuel isx nodes r stk hd i = UB UBstack \/
   traverse_loop fuel isx nodes r stk hd i = Ok (visit_all L hd i)).
Proof.
  induction fuel as [|fuel IH]; intros L stk hd i cap HL Hf Hr; [lia|].
  cbn [traverse_loop]. pose proof Hr as (_ & Hss & _ & _). rewrite Hss.
  unfold tops in Hss |- *. rewrite map_length.
  destruct L as [|[t k] L].
  { cbn [length]. change (0 <? 0) with false. cbn. auto. }
  cbn [length]. change (0 <? S (length L)) with true. cbn iota.
  rewrite (rep_back _ _ _ Hr). cbn [tops map bind snd].
  inversion HL as [|? ? [d Hd] HL']; subst. cbn [fst snd] in Hd.
  unfold at_. rewrite (sub_nth0 _ _ _ _ Hd). cbn [bind].
  pose proof (rep_pop _ (Some 0) _ _ Hr) as Hp. cbn [tops map] in Hp. fold (tops L) in Hp.
  assert (Hlen : length (Some (snd (t, k)) :: tops L) = S (length L))
    by (cbn; unfold tops; rewrite map_length; reflexivity).
  rewrite Hlen in Hp.
  rewrite sizes_cons in Hf. cbn [fst] in Hf.
  destruct (Nat.ltb_spec (S (length L)) cap) as [Hc|Hc].
  2:{ rewrite Hp. cbn [bind]. split; [cbn [fits]; intros []; lia|left; reflexivity]. }
  destruct Hp as (s' & -> & Hr'). cbn [bind]. rewrite test_any.
  cbn [visit_all fits].
  assert (Hskip : forall hd' i', (fits cap L ->
      traverse_loop fuel isx nodes r s' hd' i' = Ok (visit_all L hd' i')) /\
      (traverse_loop fuel isx nodes r s' hd' i' = UB UBstack \/
       traverse_loop fuel isx nodes r s' hd' i' = Ok (visit_all L hd' i'))).
  { intros hd' i'. eapply IH; [exact HL'| |exact Hr']. pose proof (tsize_pos t). lia. }
  destruct t as [mn mx ids ps|mn mx ax l rt]; cbn [visit root_node nd_leaf negb].
  - destruct (test (TLeaf mn mx ids ps) hd).
    + unfold intersect_leaf, branch_node. cbn [nd_prims nd_leaf negb].
      destruct (leaf_loop isx ps r false i) as [hit i'].
      destruct hit; [destruct (any_hit r)|].
      * split; auto.
      * destruct (Hskip (is_hd isx i') i') as [A B]. split; [intros [_ F]; auto|exact B].
      * destruct (Hskip hd i') as [A B]. split; [intros [_ F]; auto|exact B].
    + destruct (Hskip hd i) as [A B]. split; [intros [_ F]; auto|exact B].
  - destruct (test (TBranch mn mx ax l rt) hd); [|destruct (Hskip hd i) as [A B]; split; [intros [_ F]; auto|exact B]].
    unfold branch_node at 1. cbn [nd_leaf negb nd_axis branch_node].
    pose proof (Hax _ _ _ _ _ _ _ Hd) as Ha. unfold near_first.
    assert (Hs : exists s, vget (direction_sign r) ax = Some s)
      by (destruct ax as [|[|[|]]]; [eexists; reflexivity..|lia]).
    destruct Hs as [s Es]. rewrite Es. cbn [bind nd_child0 nd_child1 branch_node].
    set (e0 := (l, S k)). set (e1 := (rt, S k + tsize l)).
    assert (E0 : entry e0) by (exists (S d); eapply sub_child_l; exact Hd).
    assert (E1 : entry e1) by (exists (S d); eapply sub_child_r; exact Hd).
    assert (Hgen : forall near far, entry near -> entry far ->
      tsize (fst near) + tsize (fst far) = tsize l + tsize rt ->
      Nat.max (theight (fst near)) (theight (fst far)) = Nat.max (theight l) (theight rt) ->
      let res := do stk <- push_back s' (Some (snd far));
                 do stk <- push_back stk (Some (snd near));
                 traverse_loop fuel isx nodes r stk hd i in
      (length L + 1 + theight (TBranch mn mx ax l rt) < cap /\ fits cap L ->
         res = Ok (visit_all (near :: far :: L) hd i)) /\
      (res = UB UBstack \/ res = Ok (visit_all (near :: far :: L) hd i))).
    { intros near far Hn Hfar Hsz Hht res. unfold res.
      pose proof (rep_push _ _ _ (Some (snd far)) Hr') as P1.
      assert (Hl1 : length (tops L) = length L) by apply map_length. rewrite Hl1 in P1.
      destruct (Nat.ltb_spec (length L) cap) as [|]; [|lia].
      destruct P1 as (s1 & -> & Hr1). cbn [bind].
      pose proof (rep_push _ _ _ (Some (snd near)) Hr1) as P2. cbn [length] in P2. rewrite Hl1 in P2.
      destruct (Nat.ltb_spec (S (length L)) cap) as [|]; [|lia].
      destruct P2 as (s2 & -> & Hr2). cbn [bind].
      assert (IHn : sizes (near :: far :: L) < fuel).
      { rewrite !sizes_cons. cbn [tsize] in Hf. lia. }
      destruct (IH (near :: far :: L) s2 hd i cap) as [A B]; [repeat constructor; assumption|exact IHn|exact Hr2|].
      split; [|exact B]. intros [F1 F2]. apply A. destruct near, far. cbn [fits length fst snd theight] in *.
      repeat split; [lia|lia|exact F2]. }
    destruct s.
    + destruct (Hgen e1 e0 E1 E0) as [A B]; [cbn; lia|cbn; lia|].
      assert (Ev : visit_all (e1 :: e0 :: L) hd i =
        (let '(stop, hd1, i1) := let '(stop, hd1, i1) := visit rt hd i in
           if stop then (true, hd1, i1) else visit l hd1 i1 in
         if stop then i1 else visit_all L hd1 i1)).
      { cbn [visit_all]. unfold e0, e1. destruct (visit rt hd i) as [[[] ?] ?]; reflexivity. }
      rewrite <- Ev. split; [exact A|exact B].
    + destruct (Hgen e0 e1 E0 E1) as [A B]; [cbn; lia|cbn; lia|].
      assert (Ev : visit_all (e0 :: e1 :: L) hd i =
        (let '(stop, hd1, i1) := let '(stop, hd1, i1) := visit l hd i in
           if stop then (true, hd1, i1) else visit rt hd1 i1 in
         if stop then i1 else visit_all L hd1 i1)).
      { cbn [visit_all]. unfold e0, e1. destruct (visit l hd i) as [[[] ?] ?]; reflexivity. }
      rewrite <- Ev. split; [exact A|exact B].
Qed.

(** The state after the whole traversal. *)
Definition final : I := snd (visit t0 (max_hit_distance r) (is_prepare isx r)).

(** What the code does with the final state (accel.h:115-119). *)
Definition finish (i : I) (rh : rayhit T) : res (bool * rayhit T) :=
  if nltb (is_hd isx i) (max_hit_distance r)
  then do rh' <- is_post isx i rh; Ok (true, rh') else Ok (false, rh).

Lemma traverse_visit rh :
  (theight t0 <= 26 -> traverse isx nodes r rh = finish final rh) /\
  (traverse isx nodes r rh = UB UBstack \/ traverse isx nodes r rh = finish final rh).
Proof.
  unfold traverse.
  pose proof (rep_push BLAZERT_MAX_TREE_DEPTH _ _ (Some 0) (rep_new BLAZERT_MAX_TREE_DEPTH)) as H.
  cbn [length] in H. change (0 <? BLAZERT_MAX_TREE_DEPTH) with true in H. cbn iota in H.
  destruct H as (s & -> & Hr). cbn [bind].
  destruct (loop_visit (S (length nodes)) [(t0, 0)] s (max_hit_distance r) (is_prepare isx r) BLAZERT_MAX_TREE_DEPTH) with (3 := Hr) as [A B].
  - constructor; [|constructor]. exists 0. constructor.
  - unfold sizes. cbn. rewrite flatten_length. lia.
  - assert (Ev : visit_all [(t0, 0)] (max_hit_distance r) (is_prepare isx r) = final).
    { cbn. unfold final. destruct (visit t0 (max_hit_distance r) (is_prepare isx r)) as [[[] ?] ?]; reflexivity. }
    rewrite Ev in A, B. split.
    + intros Hh. rewrite A; [reflexivity|]. cbn [fits length]. unfold BLAZERT_MAX_TREE_DEPTH. split; [lia|exact Logic.I].
    + destruct B as [B|B]; rewrite B; [left; reflexivity|right; reflexivity].
Qed.
End Pf.
