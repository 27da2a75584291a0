(** Cylinder queries: any number of cylinders, all met within the ray's interval. *)

From Coq Require Import Reals ZArith List Bool Arith Lra Lia.
From Verif Require Import Num NumR NumX Vec Datatypes Ray Bvh Traverse Cylinder SpecBvh SpecTrav SpecReal SpecNearest SpecPlane SpecCyl.
From Verif Require Import PfBuild PfNumbered PfX PfPlane PfClosest PfNearest PfNearest2 PfNearest3 PfSphere2 PfTrav2 PfCyl PfCyl2 PfCyl3 PfCyl4 PfCyl5 PfCyl6 PfDefined2.
Import ListNotations.
Local Open Scope R_scope.

Section Many.
Context {T P I : Type} {N : num T}.
Variable isx : isector T P I.
Variable nodes : list (node T P).
Variable r : ray T.
Notation i0 := (is_prepare isx r).
Definition won (i : I) : Prop := exists p, In p (stored nodes) /\ is_prim isx i0 p r = (true, i).
(** The routine's answer does not depend on its earlier hits. *)
Hypothesis Hsame : forall i p, i = i0 \/ won i -> In p (stored nodes) -> is_prim isx i p r =
  match is_prim isx i0 p r with (true, i') => (true, i') | (false, _) => (false, i) end.
Hypothesis Hlt : forall i, won i -> nltb (is_hd isx i) (is_hd isx i0) = true.

Lemma leaf_won ps : (forall p, In p ps -> In p (stored nodes)) -> forall hit i, won i -> won (snd (leaf_loop isx ps r hit i)).
Proof.
  induction ps as [|p ps IH]; intros Hin hit i Hi; cbn [leaf_loop]; [exact Hi|].
  assert (Hp := Hin p (or_introl eq_refl)). rewrite (Hsame i p (or_intror Hi) Hp).
  assert (Hin' : forall q, In q ps -> In q (stored nodes)) by (intros q Hq; apply Hin; right; exact Hq).
  destruct (is_prim isx i0 p r) as [[] i'] eqn:E.
  - assert (Hw : won i') by (exists p; auto). destruct ((hit || true) && any_hit r); [exact Hw|apply IH; assumption].
  - destruct ((hit || false) && any_hit r); [exact Hi|apply IH; assumption].
Qed.
Lemma loop_won : forall fuel stk hd i i', won i -> traverse_loop fuel isx nodes r stk hd i = Ok i' -> won i'.
Proof.
  induction fuel as [|fuel IH]; intros stk hd i i' Hi E; [discriminate|]. cbn [traverse_loop] in E.
  destruct (0 <? ss stk)%nat; [|injection E as <-; exact Hi].
  destruct (back stk) as [[k|]| |]; cbn [bind] in E; try discriminate E.
  destruct (at_ UBnode nodes k) as [nd| |] eqn:En; cbn [bind] in E; try discriminate E. apply at_inv in En.
  destruct (pop_back (Some 0%nat) stk) as [stk'| |]; cbn [bind] in E; try discriminate E.
  destruct (intersect_node _ _ _ _); [|eapply IH; eassumption].
  destruct (negb (nd_leaf nd)).
  - destruct (match nd_axis nd with Some _ => _ | None => _ end) as [near| |]; cbn [bind] in E; try discriminate E.
    destruct (push_back stk' _) as [s1| |]; cbn [bind] in E; try discriminate E.
    destruct (push_back s1 _) as [s2| |]; cbn [bind] in E; try discriminate E. eapply IH; eassumption.
  - unfold intersect_leaf in E.
    pose proof (leaf_won (nd_prims nd) (fun p => node_stored nodes k nd p En) false i Hi) as Hl.
    destruct (leaf_loop isx (nd_prims nd) r false i) as [h i2]. cbn [snd] in Hl.
    destruct h; [destruct (any_hit r); [injection E as <-; exact Hl|]|]; eapply IH; eassumption.
Qed.
(** The query's state is untouched or a primitive's. *)
Lemma leaf_some ps : (forall p, In p ps -> In p (stored nodes)) -> forall hit,
  snd (leaf_loop isx ps r hit i0) = i0 \/ won (snd (leaf_loop isx ps r hit i0)).
Proof.
  induction ps as [|p ps IH]; intros Hin hit; cbn [leaf_loop]; [left; reflexivity|].
  assert (Hp := Hin p (or_introl eq_refl)).
  assert (Hin' : forall q, In q ps -> In q (stored nodes)) by (intros q Hq; apply Hin; right; exact Hq).
  pose proof (Hsame i0 p (or_introl eq_refl) Hp) as E'.
  destruct (is_prim isx i0 p r) as [[] i'] eqn:E.
  - assert (Hw : won i') by (exists p; auto). right.
    destruct ((hit || true) && any_hit r); [exact Hw|apply leaf_won; assumption].
  - injection E' as ->. destruct ((hit || false) && any_hit r); [left; reflexivity|apply IH; assumption].
Qed.
Lemma loop_some : forall fuel stk hd i', traverse_loop fuel isx nodes r stk hd i0 = Ok i' -> i' = i0 \/ won i'.
Proof.
  induction fuel as [|fuel IH]; intros stk hd i' E; [discriminate|]. cbn [traverse_loop] in E.
  destruct (0 <? ss stk)%nat; [|injection E as <-; auto].
  destruct (back stk) as [[k|]| |]; cbn [bind] in E; try discriminate E.
  destruct (at_ UBnode nodes k) as [nd| |] eqn:En; cbn [bind] in E; try discriminate E. apply at_inv in En.
  destruct (pop_back (Some 0%nat) stk) as [stk'| |]; cbn [bind] in E; try discriminate E.
  destruct (intersect_node _ _ _ _); [|eapply IH; eassumption].
  destruct (negb (nd_leaf nd)).
  - destruct (match nd_axis nd with Some _ => _ | None => _ end) as [near| |]; cbn [bind] in E; try discriminate E.
    destruct (push_back stk' _) as [s1| |]; cbn [bind] in E; try discriminate E.
    destruct (push_back s1 _) as [s2| |]; cbn [bind] in E; try discriminate E. eapply IH; eassumption.
  - unfold intersect_leaf in E.
    pose proof (leaf_some (nd_prims nd) (fun p => node_stored nodes k nd p En) false) as Hl.
    destruct (leaf_loop isx (nd_prims nd) r false i0) as [h i2]. cbn [snd] in Hl.
    destruct Hl as [-> |Hl].
    + destruct h; [destruct (any_hit r); [injection E as <-; auto|]|]; eapply IH; eassumption.
    + right. destruct h; [destruct (any_hit r); [injection E as <-; exact Hl|]|]; eapply loop_won; eassumption.
Qed.
Lemma traverse_some rh b1 rh1 : is_hd isx i0 = max_hit_distance r -> nltb (max_hit_distance r) (max_hit_distance r) = false ->
  traverse isx nodes r rh = Ok (b1, rh1) ->
  (b1 = false -> rh1 = rh) /\
  (b1 = true -> exists p i, In p (stored nodes) /\ is_prim isx i0 p r = (true, i) /\ is_post isx i rh = Ok rh1 /\
     nltb (is_hd isx i) (max_hit_distance r) = true).
Proof.
  intros Hm Hir. unfold traverse. destruct (push_back _ _) as [stk| |]; cbn [bind]; try discriminate. intros E1.
  destruct (traverse_loop _ isx _ _ _ _ _) as [i| |] eqn:L1; cbn [bind] in E1; try discriminate E1.
  destruct (nltb (is_hd isx i) (max_hit_distance r)) eqn:El.
  - destruct (is_post isx i rh) as [x| |] eqn:P1; cbn [bind] in E1; try discriminate E1. injection E1 as <- <-.
    split; [discriminate|]. intros _. destruct (loop_some _ _ _ _ L1) as [-> |(p & Hp & Ep)].
    + rewrite Hm, Hir in El. discriminate.
    + exists p, i. auto.
  - injection E1 as <- <-. split; [reflexivity|discriminate].
Qed.
(** The strict routine accepts some of the hits. *)
Lemma strict_won i p : won i -> In p (stored nodes) -> forall h i', is_prim (strict isx) i p r = (h, i') -> won i'.
Proof.
  intros Hi Hp h i'. cbn [is_prim strict is_hd]. rewrite (Hsame i p (or_intror Hi) Hp).
  destruct (is_prim isx i0 p r) as [[] i2] eqn:E; cbn [andb].
  - destruct (nltb _ _); intros [= <- <-]; [exists p; auto|exact Hi].
  - intros [= <- <-]. exact Hi.
Qed.
Lemma strict_leaf_won ps : (forall p, In p ps -> In p (stored nodes)) -> forall hit i, won i -> won (snd (leaf_loop (strict isx) ps r hit i)).
Proof.
  induction ps as [|p ps IH]; intros Hin hit i Hi; cbn [leaf_loop]; [exact Hi|].
  assert (Hp := Hin p (or_introl eq_refl)).
  assert (Hin' : forall q, In q ps -> In q (stored nodes)) by (intros q Hq; apply Hin; right; exact Hq).
  destruct (is_prim (strict isx) i p r) as [h i'] eqn:E. pose proof (strict_won i p Hi Hp _ _ E) as Hw.
  destruct ((hit || h) && any_hit r); [exact Hw|apply IH; assumption].
Qed.
Lemma strict_loop_won : forall fuel stk hd i i', won i -> traverse_loop fuel (strict isx) nodes r stk hd i = Ok i' -> won i'.
Proof.
  induction fuel as [|fuel IH]; intros stk hd i i' Hi E; [discriminate|]. cbn [traverse_loop] in E.
  destruct (0 <? ss stk)%nat; [|injection E as <-; exact Hi].
  destruct (back stk) as [[k|]| |]; cbn [bind] in E; try discriminate E.
  destruct (at_ UBnode nodes k) as [nd| |] eqn:En; cbn [bind] in E; try discriminate E. apply at_inv in En.
  destruct (pop_back (Some 0%nat) stk) as [stk'| |]; cbn [bind] in E; try discriminate E.
  destruct (intersect_node _ _ _ _); [|eapply IH; eassumption].
  destruct (negb (nd_leaf nd)).
  - destruct (match nd_axis nd with Some _ => _ | None => _ end) as [near| |]; cbn [bind] in E; try discriminate E.
    destruct (push_back stk' _) as [s1| |]; cbn [bind] in E; try discriminate E.
    destruct (push_back s1 _) as [s2| |]; cbn [bind] in E; try discriminate E. eapply IH; eassumption.
  - unfold intersect_leaf in E.
    pose proof (strict_leaf_won (nd_prims nd) (fun p => node_stored nodes k nd p En) false i Hi) as Hl.
    destruct (leaf_loop (strict isx) (nd_prims nd) r false i) as [h i2]. cbn [snd] in Hl.
    destruct h; [destruct (any_hit r); [injection E as <-; exact Hl|]|]; eapply IH; eassumption.
Qed.
(** Once hit, a leaf stays hit. *)
Lemma leaf_keeps (jsx : isector T P I) ps : forall i, fst (leaf_loop jsx ps r true i) = true.
Proof.
  induction ps as [|p ps IH]; intros i; cbn [leaf_loop]; [reflexivity|].
  destruct (is_prim jsx i p r) as [h i']. cbn [orb]. destruct (true && any_hit r); [reflexivity|apply IH].
Qed.
Lemma leaf_both ps : (forall p, In p ps -> In p (stored nodes)) ->
  (leaf_loop isx ps r false i0 = (false, i0) /\ leaf_loop (strict isx) ps r false i0 = (false, i0)) \/
  (exists i j, leaf_loop isx ps r false i0 = (true, i) /\ leaf_loop (strict isx) ps r false i0 = (true, j) /\ won i /\ won j).
Proof.
  induction ps as [|p ps IH]; intros Hin; cbn [leaf_loop]; [left; auto|].
  assert (Hp := Hin p (or_introl eq_refl)).
  assert (Hin' : forall q, In q ps -> In q (stored nodes)) by (intros q Hq; apply Hin; right; exact Hq).
  cbn [is_prim strict is_hd].
  destruct (is_prim isx i0 p r) as [[] i'] eqn:E.
  - assert (Hw : won i') by (exists p; auto). rewrite (Hlt i' Hw). cbn [andb orb].
    destruct (any_hit r); [right; exists i', i'; auto|]. right.
    pose proof (leaf_keeps isx ps i') as K1. pose proof (leaf_keeps (strict isx) ps i') as K2.
    pose proof (leaf_won ps Hin' true i' Hw) as W1. pose proof (strict_leaf_won ps Hin' true i' Hw) as W2.
    destruct (leaf_loop isx ps r true i') as [h1 j1], (leaf_loop (strict isx) ps r true i') as [h2 j2].
    cbn [fst snd] in *. subst. exists j1, j2. auto.
  - pose proof (Hsame i0 p (or_introl eq_refl) Hp) as E'. rewrite E in E'. injection E' as ->. cbn [andb orb]. apply IH, Hin'.
Qed.
Lemma loop_both : forall fuel stk i j,
  traverse_loop fuel isx nodes r stk (max_hit_distance r) i0 = Ok i ->
  traverse_loop fuel (strict isx) nodes r stk (max_hit_distance r) i0 = Ok j ->
  (i = i0 /\ j = i0) \/ (won i /\ won j).
Proof.
  induction fuel as [|fuel IH]; intros stk i j E1 E2; [discriminate|]. cbn [traverse_loop] in E1, E2.
  destruct (0 <? ss stk)%nat; [|injection E1 as <-; injection E2 as <-; auto].
  destruct (back stk) as [[k|]| |]; cbn [bind] in E1, E2; try discriminate E1.
  destruct (at_ UBnode nodes k) as [nd| |] eqn:En; cbn [bind] in E1, E2; try discriminate E1. apply at_inv in En.
  destruct (pop_back (Some 0%nat) stk) as [stk'| |]; cbn [bind] in E1, E2; try discriminate E1.
  destruct (intersect_node _ _ _ _); [|eapply IH; eassumption].
  destruct (negb (nd_leaf nd)).
  - destruct (match nd_axis nd with Some _ => _ | None => _ end) as [near| |]; cbn [bind] in E1, E2; try discriminate E1.
    destruct (push_back stk' _) as [s1| |]; cbn [bind] in E1, E2; try discriminate E1.
    destruct (push_back s1 _) as [s2| |]; cbn [bind] in E1, E2; try discriminate E1. eapply IH; eassumption.
  - unfold intersect_leaf in E1, E2.
    destruct (leaf_both (nd_prims nd) (fun p => node_stored nodes k nd p En)) as [[L1 L2]|(i1 & i2 & L1 & L2 & W1 & W2)];
      rewrite L1 in E1; rewrite L2 in E2.
    + eapply IH; eassumption.
    + right. destruct (any_hit r).
      * injection E1 as <-. injection E2 as <-. auto.
      * split; [exact (loop_won _ _ _ _ _ W1 E1)|exact (strict_loop_won _ _ _ _ _ W2 E2)].
Qed.

Hypothesis Hmax : is_hd isx i0 = max_hit_distance r.
Hypothesis Hirr : nltb (max_hit_distance r) (max_hit_distance r) = false.
(** The query and the strict query agree on whether something is hit; the record is a
    primitive's. *)
Lemma traverse_both rh b1 rh1 b2 rh2 :
  traverse isx nodes r rh = Ok (b1, rh1) -> traverse (strict isx) nodes r rh = Ok (b2, rh2) ->
  b1 = b2 /\ (b1 = false -> rh1 = rh) /\
  (b1 = true -> exists p i, In p (stored nodes) /\ is_prim isx i0 p r = (true, i) /\ is_post isx i rh = Ok rh1).
Proof.
  unfold traverse. destruct (push_back _ _) as [stk| |]; cbn [bind]; try discriminate.
  cbn [is_prepare strict is_hd is_post]. intros E1 E2.
  destruct (traverse_loop _ isx _ _ _ _ _) as [i| |] eqn:L1; cbn [bind] in E1; try discriminate E1.
  destruct (traverse_loop _ (strict isx) _ _ _ _ _) as [j| |] eqn:L2; cbn [bind] in E2; try discriminate E2.
  destruct (loop_both _ _ _ _ L1 L2) as [[-> ->]|[W1 W2]].
  - rewrite Hmax, Hirr in E1, E2. injection E1 as <- <-. injection E2 as <- <-. split; [reflexivity|]. split; [reflexivity|discriminate].
  - rewrite <- Hmax, (Hlt _ W1) in E1. rewrite <- Hmax, (Hlt _ W2) in E2.
    destruct (is_post isx i rh) as [x| |] eqn:P1; cbn [bind] in E1; try discriminate E1. injection E1 as <- <-.
    destruct (is_post isx j rh) as [y| |]; cbn [bind] in E2; try discriminate E2. injection E2 as <- <-.
    split; [reflexivity|]. split; [discriminate|]. intros _. destruct W1 as (p & Hp & Ep). eauto.
Qed.
End Many.

Section S.
Variables big tiny eps : R.
Notation XN := (Xnum big tiny eps).
Hypothesis Heps : 0 <= eps.
Variables (centers : list (vec xr)) (sa sb hs : list xr) (rots : list (mat xr)) (s : cylinders xr).
Hypothesis Hmake : @make_cylinders _ XN centers sa sb hs rots = Ok s.
Variables (C : nat -> vec R) (a b h : nat -> R) (Rm : nat -> mat R).
Hypothesis Hdata : cylinders_are s C a b h Rm.
Notation n := (length (cs_centers s)).
Hypothesis Hpos : forall i, (i < n)%nat -> 0 < a i /\ 0 < b i /\ 0 < h i /\ orthogonal (Rm i).
Notation lo i := (cyl_lower (C i) (a i) (b i) (h i) (Rm i)).
Notation hi i := (cyl_upper (C i) (a i) (b i) (h i) (Rm i)).
Hypothesis Hbd : forall i, (i < n)%nat -> in_bounds big (lo i) /\ in_bounds big (hi i).
Variable part : (nat -> bool) -> list nat -> list nat * list nat.
Hypothesis Hpart : partition_ok part.
Variable opt : options.
Variables (nodes : list (node xr (cylinder xr))) (st : stats).
Hypothesis Hbuild : @build _ XN _ part [] (cylinder_coll s) opt = Ok (nodes, st).
Hypothesis Hdepth : forall k d, node_depth nodes k d -> (d <= 26)%nat.
Variables (o d : vec xr) (tmin tmax : xr) (any : bool) (O D : vec R).
Hypothesis Had : admissible o d tmin O D 0.
Hypothesis Hz : vz D = 0 -> forall i, (i < n)%nat -> vz O <> vz (lo i) /\ vz O <> vz (hi i).
Notation r := (@make_ray _ XN o d tmin tmax any).
Notation U := (unit_of D).
Hypothesis Hoff : forall i, (i < n)%nat -> ~ world (on_surface (a i) (b i) (h i)) (C i) (Rm i) O.
Notation seen i := (seen_from (C i) (a i) (b i) (h i) (Rm i) O).
Notation isx := (@cylinder_isector _ XN).
Notation i0 := (@cylinder_prepare xr XN r).
Notation good p := (exists i, (i < c_size (cylinder_coll s))%nat /\ c_prim (cylinder_coll s) i = Ok p).

(** A reported hit is a cylinder's first surface point, within the interval, with a record
    that fits. *)
Lemma cylinders_genuine rh : exists b1 rh1, @traverse _ XN _ _ isx nodes r rh = Ok (b1, rh1) /\
  (b1 = false -> rh1 = rh) /\
  (b1 = true -> exists i t, (i < n)%nat /\ (seen i /\ first_met (C i) (a i) (b i) (h i) (Rm i) O U t) /\ xltb (Fin t) tmax = true /\
     h_prim rh1 = Some i /\ isR (h_distance rh1) t /\ h_geom rh1 = h_geom rh /\ cylinder_about C a b h Rm O U i t rh1).
Proof.
  assert (Hgood : forall p, In p (stored nodes) <-> good p).
  { intros p. apply (stored_iff big tiny eps (cylinder_coll s) part Hpart opt nodes st Hbuild cy_id (cylinders_numbered s)). }
  assert (Hans : forall p hit i', good p -> is_prim isx i0 p r = (hit, i') -> _) by
    (intros p hit i' Hp E; exact (prim_answer big tiny eps s C a b h Rm Hdata Hpos o d tmin tmax any O D Had Hoff p hit i' Hp E)).
  assert (Hid : forall p, good p -> (cy_id p < n)%nat) by (intros p Hp; apply (good_id s C a b h Rm Hdata p Hp)).
  assert (Hsame : forall i p, i = is_prepare isx r \/ won isx nodes r i -> In p (stored nodes) -> is_prim isx i p r =
    match is_prim isx (is_prepare isx r) p r with (true, i') => (true, i') | (false, _) => (false, i) end).
  { intros i p Hi Hp. cbn [is_prepare cylinder_isector] in *. apply intersect_same.
    all: destruct Hi as [-> |(q & Hq & E)]; [reflexivity|];
      destruct (intersect_keeps _ _ _ _ E) as (K1 & K2 & K3 & K4); assumption. }
  assert (Hfin : finished isx rh (@traverse _ XN _ _ isx nodes r rh)).
  { apply (built_safe part Hpart (cylinder_coll s) opt nodes st Hbuild isx r rh Hdepth). }
  assert (Hok : exists b1 rh1, @traverse _ XN _ _ isx nodes r rh = Ok (b1, rh1)).
  { destruct Hfin as [H|(i & H)]; rewrite H; [eauto|]. cbn [is_post cylinder_isector]. unfold cylinder_post. cbn. eauto. }
  destruct Hok as (b1 & rh1 & E1). exists b1, rh1. split; [exact E1|].
  destruct (@traverse_some _ _ _ XN isx nodes r Hsame rh b1 rh1 eq_refl (xltb_irr tmax) E1) as [B1 B2]. split; [exact B1|].
  intros Eb. destruct (B2 Eb) as (p & i & Hp & E & Epost & Hl). apply Hgood in Hp.
  pose proof (Hans p true i Hp E) as A. cbv beta iota in A. destruct A as (t & T1 & T2 & T3 & T4 & T5).
  destruct (T5 rh) as (rh' & E' & R1 & R2 & R3 & R4). rewrite E' in Epost. injection Epost as <-.
  exists (cy_id p), t. split; [apply Hid, Hp|]. split; [exact T2|].
  split; [rewrite <- (xltb_isR _ _ _ T1); exact Hl|]. auto.
Qed.

Hypothesis Hax : forall i, (i < n)%nat -> axis_aligned (Rm i).
Hypothesis Hin : forall i t, (i < n)%nat -> seen i -> first_met (C i) (a i) (b i) (h i) (Rm i) O U t -> xltb (Fin t) tmax = true.
Lemma cylinders_hit rh :
  loose_answer (fun i t => (i < n)%nat /\ (seen i /\ pierces (C i) (a i) (b i) (h i) (Rm i) O U t) /\ xltb (Fin t) tmax = true)
    (fun i t => (i < n)%nat /\ (seen i /\ first_met (C i) (a i) (b i) (h i) (Rm i) O U t) /\ xltb (Fin t) tmax = true)
    (cylinder_about C a b h Rm O U) true rh (@traverse _ XN _ _ isx nodes r rh).
Proof.
  assert (Hgood : forall p, In p (stored nodes) <-> good p).
  { intros p. apply (stored_iff big tiny eps (cylinder_coll s) part Hpart opt nodes st Hbuild cy_id (cylinders_numbered s)). }
  assert (Hans : forall p hit i', good p -> is_prim isx i0 p r = (hit, i') -> _) by
    (intros p hit i' Hp E; exact (prim_answer big tiny eps s C a b h Rm Hdata Hpos o d tmin tmax any O D Had Hoff p hit i' Hp E)).
  assert (Hid : forall p, good p -> (cy_id p < n)%nat) by (intros p Hp; apply (good_id s C a b h Rm Hdata p Hp)).
  assert (Hw : forall i, won isx nodes r i -> exists p t, good p /\ is_prim isx i0 p r = (true, i) /\ isR (ci_hd i) t /\
    seen (cy_id p) /\ first_met (C (cy_id p)) (a (cy_id p)) (b (cy_id p)) (h (cy_id p)) (Rm (cy_id p)) O U t).
  { intros i (p & Hp & E). apply Hgood in Hp. pose proof (Hans p true i Hp E) as A. cbv iota in A.
    destruct A as (t & T1 & T2 & _). exists p, t. auto. }
  assert (Hlt : forall i, won isx nodes r i -> @nltb _ XN (is_hd isx i) (is_hd isx (is_prepare isx r)) = true).
  { intros i Hi. destruct (Hw i Hi) as (p & t & Hp & E & T1 & T2). change (xltb (ci_hd i) tmax = true).
    rewrite (xltb_isR _ _ _ T1). eapply Hin; [apply Hid, Hp|apply T2|apply T2]. }
  assert (Hsame : forall i p, i = is_prepare isx r \/ won isx nodes r i -> In p (stored nodes) -> is_prim isx i p r =
    match is_prim isx (is_prepare isx r) p r with (true, i') => (true, i') | (false, _) => (false, i) end).
  { intros i p Hi Hp. cbn [is_prepare cylinder_isector] in *. apply intersect_same.
    all: destruct Hi as [-> |Hi]; [reflexivity|]; destruct (Hw i Hi) as (q & t & Hq & E & _);
      destruct (intersect_keeps _ _ _ _ E) as (K1 & K2 & K3 & K4); assumption. }
  assert (Hfin : finished isx rh (@traverse _ XN _ _ isx nodes r rh)).
  { apply (built_safe part Hpart (cylinder_coll s) opt nodes st Hbuild isx r rh Hdepth). }
  pose proof (strict_query big tiny eps Heps centers sa sb hs rots s Hmake C a b h Rm Hdata Hpos Hbd part Hpart opt nodes st Hbuild Hax Hdepth
    o d tmin tmax any O D Had Hz Hoff rh) as (bq & rhq & Eq & Q1 & Q2 & Q3).
  assert (Hok : exists b1 rh1, @traverse _ XN _ _ isx nodes r rh = Ok (b1, rh1)).
  { destruct Hfin as [H|(i & H)]; rewrite H; [eauto|]. cbn [is_post cylinder_isector]. unfold cylinder_post. cbn. eauto. }
  destruct Hok as (b1 & rh1 & E1).
  destruct (traverse_both isx nodes r Hsame Hlt eq_refl (xltb_irr tmax) rh b1 rh1 bq rhq E1 Eq) as (-> & B1 & B2).
  exists bq, rh1. split; [exact E1|]. split.
  - intros Eb. split; [apply B1, Eb|]. intros j u (Hj & Hp & Hu).
    destruct (cylinder_prims s C a b h Rm Hdata j Hj) as (p & Ep & _ & _ & _ & _ & _ & P6).
    assert (Hgp : good p) by (exists j; auto).
    destruct (is_prim isx i0 p r) as [hit i'] eqn:E. pose proof (Hans p hit i' Hgp E) as A. cbv beta in A. rewrite P6 in A.
    destruct hit; [|destruct A as [_ A]; destruct (A u (proj1 Hp) (proj2 Hp))].
    destruct A as (t & T1 & [T0 T2] & _).
    assert (Ex : bq = true); [|congruence]. apply Q1. exists j, t. split; [exact Hj|]. split; [|eapply Hin; eassumption].
    exists p. split; [exact Ep|]. rewrite E. apply isR_ex in T1 as (sg & ->). reflexivity.
  - intros Eb. destruct (B2 Eb) as (p & i & Hp & E & Epost). apply Hgood in Hp.
    pose proof (Hans p true i Hp E) as A. cbv beta iota in A. destruct A as (t & T1 & T2 & T3 & T4 & T5).
    destruct (T5 rh) as (rh' & E' & R1 & R2 & R3 & R4). rewrite E' in Epost. injection Epost as <-.
    exists (cy_id p), t. split; [split; [apply Hid, Hp|split; [exact T2|eapply Hin; [apply Hid, Hp|apply T2|apply T2]]]|].
    split; [exact R1|]. split; [exact R2|]. split; [exact R3|]. split; [exact R4|]. discriminate.
Qed.
End S.
