(** Queries in which the ray meets at most one cylinder. *)

From Coq Require Import Reals ZArith List Bool Arith Lra Lia.
From Verif Require Import Num NumR NumX Vec Datatypes Ray Bvh Traverse Cylinder SpecBvh SpecTrav SpecReal SpecNearest SpecPlane SpecCyl.
From Verif Require Import PfBuild PfNumbered PfX PfPlane PfClosest PfNearest2 PfNearest3 PfSphere2 PfTrav2 PfCyl PfCyl2 PfCyl3 PfCyl4.
Import ListNotations.
Local Open Scope R_scope.

(** The intersector made strict: hits that are not nearer are dropped. *)
Definition strict {T P I} {N : num T} (isx : isector T P I) : isector T P I := {|
  is_prepare := is_prepare isx;
  is_hd := is_hd isx;
  is_prim := fun i p r => let (h, i') := is_prim isx i p r in
    if h && nltb (is_hd isx i') (is_hd isx i) then (true, i') else (false, i);
  is_post := is_post isx |}.

Section One.
Context {T P I : Type} {N : num T}.
Variable isx : isector T P I.
Variable nodes : list (node T P).
Variable r : ray T.
Variable i1 : I.
Notation i0 := (is_prepare isx r).
(** Every primitive is missed, or hit with the same outcome [i1]. *)
Hypothesis Hone : forall p, In p (stored nodes) ->
  (is_prim isx i0 p r = (false, i0) /\ is_prim isx i1 p r = (false, i1)) \/
  (is_prim isx i0 p r = (true, i1) /\ is_prim isx i1 p r = (true, i1)).

Lemma leaf_two ps : (forall p, In p ps -> In p (stored nodes)) -> forall hit i, i = i0 \/ i = i1 ->
  snd (leaf_loop isx ps r hit i) = i0 \/ snd (leaf_loop isx ps r hit i) = i1.
Proof.
  induction ps as [|p ps IH]; intros Hin hit i Hi; cbn [leaf_loop].
  - exact Hi.
  - assert (Hp : exists h i', is_prim isx i p r = (h, i') /\ (i' = i0 \/ i' = i1)).
    { destruct (Hone p (Hin p (or_introl eq_refl))) as [[E0 E1]|[E0 E1]], Hi as [-> | ->]; eauto. }
    destruct Hp as (h & i' & -> & Hi'). destruct ((hit || h) && any_hit r); [exact Hi'|].
    apply IH; [|exact Hi']. intros q Hq. apply Hin. right; exact Hq.
Qed.
Lemma node_stored k nd p : nth_error nodes k = Some nd -> In p (nd_prims nd) -> In p (stored nodes).
Proof.
  intros H Hp. unfold stored. apply in_concat. exists (nd_prims nd). split; [|exact Hp].
  apply in_map. eapply nth_error_In; eassumption.
Qed.
Lemma loop_two : forall fuel stk hd i i', i = i0 \/ i = i1 ->
  traverse_loop fuel isx nodes r stk hd i = Ok i' -> i' = i0 \/ i' = i1.
Proof.
  induction fuel as [|fuel IH]; intros stk hd i i' Hi E; [discriminate|]. cbn [traverse_loop] in E.
  destruct (0 <? ss stk)%nat; [|injection E as <-; exact Hi].
  destruct (back stk) as [[k|]| |]; cbn [bind] in E; try discriminate E.
  destruct (at_ UBnode nodes k) as [nd| |] eqn:En; cbn [bind] in E; try discriminate E. apply at_inv in En.
  destruct (pop_back (Some 0%nat) stk) as [stk'| |]; cbn [bind] in E; try discriminate E.
  destruct (intersect_node _ _ _ _); [|eapply IH; eassumption].
  destruct (negb (nd_leaf nd)).
  - destruct (match nd_axis nd with Some _ => _ | None => _ end) as [near| |]; cbn [bind] in E; try discriminate E.
    destruct (push_back stk' _) as [s1| |]; cbn [bind] in E; try discriminate E.
    destruct (push_back s1 _) as [s2| |]; cbn [bind] in E; try discriminate E. eapply IH; eassumption.
  - unfold intersect_leaf in E.
    pose proof (leaf_two (nd_prims nd) (fun p => node_stored k nd p En) false i Hi) as Hl.
    destruct (leaf_loop isx (nd_prims nd) r false i) as [h i2]. cbn [snd] in Hl.
    destruct h; [destruct (any_hit r); [injection E as <-; exact Hl|]|]; eapply IH; eassumption.
Qed.

Section Below.
Hypothesis Hlt : nltb (is_hd isx i1) (is_hd isx i0) = true.
Hypothesis Hirr : nltb (is_hd isx i1) (is_hd isx i1) = false.
Lemma strict_zero p : In p (stored nodes) -> is_prim (strict isx) i0 p r = is_prim isx i0 p r.
Proof.
  intros H. cbn [is_prim strict is_hd]. destruct (Hone p H) as [[-> _]|[-> _]]; cbn [andb]; [reflexivity|].
  rewrite Hlt. reflexivity.
Qed.
Lemma strict_one p : In p (stored nodes) -> is_prim (strict isx) i1 p r = (false, i1).
Proof.
  intros H. cbn [is_prim strict is_hd]. destruct (Hone p H) as [[_ ->]|[_ ->]]; cbn [andb]; [reflexivity|].
  rewrite Hirr. reflexivity.
Qed.
(** After a hit nothing changes. *)
Lemma leaf_one ps : (forall p, In p ps -> In p (stored nodes)) -> forall hit, any_hit r = false ->
  snd (leaf_loop isx ps r hit i1) = i1 /\ leaf_loop (strict isx) ps r hit i1 = (hit, i1).
Proof.
  induction ps as [|p ps IH]; intros Hin hit Ha; cbn [leaf_loop]; [auto|].
  assert (Hp := Hin p (or_introl eq_refl)).
  rewrite (strict_one p Hp). rewrite orb_false_r, Ha, !andb_false_r.
  assert (Hin' : forall q, In q ps -> In q (stored nodes)) by (intros q Hq; apply Hin; right; exact Hq).
  destruct (Hone p Hp) as [[_ ->]|[_ ->]].
  - rewrite orb_false_r, andb_false_r. apply IH; assumption.
  - rewrite andb_false_r. split; [|apply IH; assumption]. apply IH; assumption.
Qed.
Lemma leaf_hit ps : (forall p, In p ps -> In p (stored nodes)) -> any_hit r = false ->
  leaf_loop isx ps r true i1 = (true, i1).
Proof.
  induction ps as [|p ps IH]; intros Hin Ha; cbn [leaf_loop]; [auto|].
  assert (Hin' : forall q, In q ps -> In q (stored nodes)) by (intros q Hq; apply Hin; right; exact Hq).
  destruct (Hone p (Hin p (or_introl eq_refl))) as [[_ ->]|[_ ->]]; rewrite Ha, andb_false_r; apply IH; auto.
Qed.
Lemma leaf_zero ps : (forall p, In p ps -> In p (stored nodes)) ->
  leaf_loop (strict isx) ps r false i0 = leaf_loop isx ps r false i0 /\
  (leaf_loop isx ps r false i0 = (false, i0) \/ leaf_loop isx ps r false i0 = (true, i1)).
Proof.
  induction ps as [|p ps IH]; intros Hin; cbn [leaf_loop]; [auto|].
  assert (Hp := Hin p (or_introl eq_refl)).
  assert (Hin' : forall q, In q ps -> In q (stored nodes)) by (intros q Hq; apply Hin; right; exact Hq).
  rewrite (strict_zero p Hp).
  destruct (Hone p Hp) as [[-> _]|[-> _]]; cbn [orb andb]; [apply IH, Hin'|].
  destruct (any_hit r) eqn:Ea; [auto|].
  rewrite (leaf_hit ps Hin' Ea). rewrite (proj2 (leaf_one ps Hin' true Ea)). auto.
Qed.
Lemma loop_one : forall fuel stk, any_hit r = false ->
  traverse_loop fuel isx nodes r stk (is_hd isx i1) i1 =
  traverse_loop fuel (strict isx) nodes r stk (is_hd isx i1) i1.
Proof.
  induction fuel as [|fuel IH]; intros stk Ha; [reflexivity|]. cbn [traverse_loop].
  destruct (0 <? ss stk)%nat; [|reflexivity].
  destruct (back stk) as [[k|]| |]; cbn [bind]; try reflexivity.
  destruct (at_ UBnode nodes k) as [nd| |] eqn:En; cbn [bind]; try reflexivity. apply at_inv in En.
  destruct (pop_back (Some 0%nat) stk) as [stk'| |]; cbn [bind]; try reflexivity.
  destruct (intersect_node _ _ _ _); [|apply IH, Ha].
  destruct (negb (nd_leaf nd)).
  - destruct (match nd_axis nd with Some _ => _ | None => _ end) as [near| |]; cbn [bind]; try reflexivity.
    destruct (push_back stk' _) as [s1| |]; cbn [bind]; try reflexivity.
    destruct (push_back s1 _) as [s2| |]; cbn [bind]; try reflexivity. apply IH, Ha.
  - unfold intersect_leaf.
    destruct (leaf_one (nd_prims nd) (fun p => node_stored k nd p En) false Ha) as [L1 L2]. rewrite L2.
    destruct (leaf_loop isx (nd_prims nd) r false i1) as [h i2]. cbn [snd] in L1. subst i2.
    rewrite Ha. destruct h; apply IH, Ha.
Qed.
Lemma loop_zero : forall fuel stk,
  traverse_loop fuel isx nodes r stk (max_hit_distance r) i0 =
  traverse_loop fuel (strict isx) nodes r stk (max_hit_distance r) i0.
Proof.
  induction fuel as [|fuel IH]; intros stk; [reflexivity|]. cbn [traverse_loop].
  destruct (0 <? ss stk)%nat; [|reflexivity].
  destruct (back stk) as [[k|]| |]; cbn [bind]; try reflexivity.
  destruct (at_ UBnode nodes k) as [nd| |] eqn:En; cbn [bind]; try reflexivity. apply at_inv in En.
  destruct (pop_back (Some 0%nat) stk) as [stk'| |]; cbn [bind]; try reflexivity.
  destruct (intersect_node _ _ _ _); [|apply IH].
  destruct (negb (nd_leaf nd)).
  - destruct (match nd_axis nd with Some _ => _ | None => _ end) as [near| |]; cbn [bind]; try reflexivity.
    destruct (push_back stk' _) as [s1| |]; cbn [bind]; try reflexivity.
    destruct (push_back s1 _) as [s2| |]; cbn [bind]; try reflexivity. apply IH.
  - unfold intersect_leaf.
    destruct (leaf_zero (nd_prims nd) (fun p => node_stored k nd p En)) as [L1 L2]. rewrite L1.
    destruct L2 as [-> | ->].
    + apply IH.
    + destruct (any_hit r) eqn:Ea; [reflexivity|]. cbn [is_hd strict]. apply loop_one, Ea.
Qed.
Lemma traverse_strict rh : traverse isx nodes r rh = traverse (strict isx) nodes r rh.
Proof.
  unfold traverse. destruct (push_back _ _) as [stk| |]; cbn [bind]; try reflexivity.
  cbn [is_prepare strict is_hd is_post]. rewrite (loop_zero (S (length nodes)) stk). reflexivity.
Qed.
End Below.

(** A hit beyond the ray's end is no hit. *)
Lemma traverse_beyond rh : is_hd isx i0 = max_hit_distance r ->
  nltb (max_hit_distance r) (max_hit_distance r) = false -> nltb (is_hd isx i1) (max_hit_distance r) = false ->
  (forall i rh, exists rh', is_post isx i rh = Ok rh') ->
  finished isx rh (traverse isx nodes r rh) -> traverse isx nodes r rh = Ok (false, rh).
Proof.
  intros H0 Hirr Hge Hpost Hf. unfold finished in Hf. revert Hf. unfold traverse.
  destruct (push_back _ _) as [stk| |]; cbn [bind].
  2,3: intros [|(i & E)]; [discriminate|]; destruct (Hpost i rh) as (rh' & E'); rewrite E' in E; discriminate E.
  destruct (traverse_loop _ _ _ _ _ _ _) as [i| |] eqn:El; cbn [bind].
  2,3: intros [|(i & E)]; [discriminate|]; destruct (Hpost i rh) as (rh' & E'); rewrite E' in E; discriminate E.
  intros _. destruct (loop_two _ _ _ _ _ (or_introl eq_refl) El) as [-> | ->].
  - rewrite H0, Hirr. reflexivity.
  - rewrite Hge. reflexivity.
Qed.
End One.
