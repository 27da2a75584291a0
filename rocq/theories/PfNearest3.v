(** The nearest-hit theorem in terms of geometry. *)

From Coq Require Import Reals ZArith List Bool Arith Lra Lia.
From Verif Require Import Num NumR NumX Vec Ray Bvh Traverse SpecBvh SpecReal SpecNearest.
From Verif Require Import PfBuild PfX PfNearest PfNearest2.
Import ListNotations.
Local Open Scope R_scope.

Lemma hit_answers_agree hit about1 about2 rh1 rh2 r1 r2 :
  hit_answer hit about1 false rh1 r1 -> hit_answer hit about2 false rh2 r2 -> same_answer r1 r2.
Proof.
  intros (b1 & g1 & E1 & A1 & _ & C1) (b2 & g2 & E2 & A2 & _ & C2).
  assert (Eb : b1 = b2).
  { destruct b1, b2; auto; [symmetry; apply A2, A1; auto|apply A1, A2; auto]. }
  subst b2. exists b1, g1, g2. split; [exact E1|]. split; [exact E2|].
  intros ->. destruct (C1 eq_refl) as (i & t & H1 & _ & D1 & _ & _ & M1).
  destruct (C2 eq_refl) as (j & u & H2 & _ & D2 & _ & _ & M2).
  specialize (M1 eq_refl j u H2). specialize (M2 eq_refl i t H1).
  assert (t = u) by lra. subst u. eauto.
Qed.

Lemma admissible_wide o d tmin O D m : admissible o d tmin O D m -> wide o d tmin O D m.
Proof.
  intros H. constructor; try apply H. destruct (ad_len _ _ _ _ _ _ H) as [Hl|[Hl _]]; lra.
Qed.

Lemma admissible_far o d tmin O D m t : admissible o d tmin O D m -> m <= t -> m * rv_norm D <= t.
Proof.
  intros H Ht. destruct (ad_len _ _ _ _ _ _ H) as [Hl|[_ Hl]]; rewrite Hl; lra.
Qed.

Section Hit.
Context {P I : Type}.
Variables big tiny eps : R.
Notation XN := (Xnum big tiny eps).
Hypothesis Heps : 0 <= eps.
Variable c : coll xr P.
Variables bmin bmax : nat -> vec R.
Hypothesis Hboxes : boxes_are c bmin bmax.
Hypothesis Hbd : forall i, (i < c_size c)%nat -> in_bounds big (bmin i) /\ in_bounds big (bmax i).
Variable part : (nat -> bool) -> list nat -> list nat * list nat.
Hypothesis Hpart : partition_ok part.
Variable opt : options.
Variables (nodes : list (node xr P)) (st : stats).
Hypothesis Hbuild : @build _ XN _ part [] c opt = Ok (nodes, st).
Hypothesis Hdepth : forall k d, node_depth nodes k d -> (d <= 26)%nat.
Variable pid : P -> nat.
Hypothesis Hnum : numbered c pid.
Variables (o d : vec xr) (tmin tmax : xr) (any : bool) (O D : vec R) (m : R).
Hypothesis Had : admissible o d tmin O D m.
Notation r := (@make_ray _ XN o d tmin tmax any).
Hypothesis Hz : vz D = 0 -> forall i, (i < c_size c)%nat ->
  vz O <> vz (bmin i) /\ vz O <> vz (bmax i).
Variable isx : isector xr P I.
Variables (best : P -> option R) (inv : I -> Prop) (won : P -> I -> Prop).
Notation good p := (exists i, (i < c_size c)%nat /\ c_prim c i = Ok p).
Hypothesis Hc : contract isx r (fun p => good p) best inv won.
Variable hit : nat -> R -> Prop.
Variable about : nat -> R -> rayhit xr -> Prop.
Hypothesis Hsome : forall p t, good p -> best p = Some t ->
  hit (pid p) t /\ (forall u, hit (pid p) u -> t <= u).
Hypothesis Hnone : forall p u, good p -> best p = None -> ~ hit (pid p) u.
Hypothesis Hprims : forall i, (i < c_size c)%nat -> exists p, c_prim c i = Ok p.
Hypothesis Hinbox : forall i t, (i < c_size c)%nat -> hit i t ->
  m <= t /\ in_box (bmin i) (bmax i) (at_t O (unit_of D) t).
Hypothesis Hpost : forall p i t rh, good p -> best p = Some t -> won p i -> isR (is_hd isx i) t ->
  exists rh', is_post isx i rh = Ok rh' /\ h_prim rh' = Some (pid p) /\ isR (h_distance rh') t /\
    h_geom rh' = h_geom rh /\ about (pid p) t rh'.

Lemma hit_theorem rh :
  hit_answer (fun i t => (i < c_size c)%nat /\ hit i t /\ xltb (Fin t) tmax = true) about any rh
    (@traverse _ XN _ _ isx nodes r rh).
Proof.
  assert (Hgood : forall p, In p (stored nodes) <-> good p).
  { intros p. apply (stored_iff big tiny eps c part Hpart opt nodes st Hbuild pid Hnum). }
  assert (Hidx : forall p, good p -> (pid p < c_size c)%nat).
  { intros p (i & Hi & Ei). apply Hnum in Ei. subst i. exact Hi. }
  assert (Hbox : forall q, good q -> boxed bmin bmax pid O D m best q).
  { intros q Hq u Eu. destruct (Hinbox (pid q) u) as [I1 I2]; [apply Hidx, Hq|apply (Hsome q u Hq Eu)|].
    split; [exact (admissible_far _ _ _ _ _ _ _ Had I1)|exact I2]. }
  assert (Hmono : forall t u, t <= u -> xltb (Fin u) tmax = true -> xltb (Fin t) tmax = true).
  { intros t u Htu. destruct tmax as [|[]|sg a]; cbn; auto. intros Hu.
    apply Rltb_spec in Hu. apply Rltb_spec. lra. }
  assert (Hex : forall j u, (j < c_size c)%nat -> hit j u ->
    exists q t, good q /\ pid q = j /\ best q = Some t /\ t <= u).
  { intros j u Hj Hu. destruct (Hprims j Hj) as (q & Eq). pose proof (Hnum _ _ Eq) as Ej. subst j.
    assert (Hq : good q) by eauto. exists q.
    destruct (best q) as [t|] eqn:Eb; [|destruct (Hnone q u Hq Eb Hu)].
    exists t. repeat split; auto. apply (Hsome q t Hq Eb), Hu. }
  assert (Hans := built_answers big tiny eps Heps c bmin bmax Hboxes Hbd part Hpart opt nodes st
    Hbuild Hdepth pid Hnum o d tmin tmax any O D m (admissible_wide _ _ _ _ _ _ Had) Hz isx best inv won Hc rh).
  destruct Hans as [[E Hmiss]|(p & t & i & Hp & Eb & Hlt & Hwon & Hhd & E & Hmin)].
  - exists false, rh. split; [exact E|]. split; [|split; [reflexivity|discriminate]].
    split; [discriminate|]. intros (j & u & Hj & Hu & Hlt).
    destruct (Hex j u Hj Hu) as (q & t & Hq & _ & Eb & Htu).
    pose proof (Hmono t u Htu Hlt) as Ht.
    rewrite (Hmiss q t (proj2 (Hgood q) Hq) (Hbox q Hq) Eb) in Ht. discriminate.
  - apply Hgood in Hp. destruct (Hpost p i t rh Hp Eb Hwon Hhd) as (rh' & E' & Q1 & Q2 & Q3 & Q4).
    rewrite E' in E. cbn [bind] in E. exists true, rh'. split; [exact E|].
    assert (Hh : (pid p < c_size c)%nat /\ hit (pid p) t /\ xltb (Fin t) tmax = true).
    { split; [apply Hidx, Hp|]. split; [apply (Hsome p t Hp Eb)|exact Hlt]. }
    split; [split; [eauto|reflexivity]|]. split; [discriminate|].
    intros _. exists (pid p), t. repeat split; try apply Hh; auto.
    intros Ha j u (Hj & Hu & _). destruct (Hex j u Hj Hu) as (q & t' & Hq & _ & Eb' & Htu).
    pose proof (Hmin Ha q t' (proj2 (Hgood q) Hq) (Hbox q Hq) Eb'). lra.
Qed.
End Hit.

Section Loose.
Context {P I : Type}.
Variables big tiny eps : R.
Notation XN := (Xnum big tiny eps).
Hypothesis Heps : 0 <= eps.
Variable c : coll xr P.
Variables bmin bmax : nat -> vec R.
Hypothesis Hboxes : boxes_are c bmin bmax.
Hypothesis Hbd : forall i, (i < c_size c)%nat -> in_bounds big (bmin i) /\ in_bounds big (bmax i).
Variable part : (nat -> bool) -> list nat -> list nat * list nat.
Hypothesis Hpart : partition_ok part.
Variable opt : options.
Variables (nodes : list (node xr P)) (st : stats).
Hypothesis Hbuild : @build _ XN _ part [] c opt = Ok (nodes, st).
Hypothesis Hdepth : forall k d, node_depth nodes k d -> (d <= 26)%nat.
Variable pid : P -> nat.
Hypothesis Hnum : numbered c pid.
Variables (o d : vec xr) (tmin tmax : xr) (any : bool) (O D : vec R) (m : R).
Hypothesis Had : wide o d tmin O D m.
Notation r := (@make_ray _ XN o d tmin tmax any).
Hypothesis Hz : vz D = 0 -> forall i, (i < c_size c)%nat ->
  vz O <> vz (bmin i) /\ vz O <> vz (bmax i).
Variable isx : isector xr P I.
Variables (best : P -> option R) (inv : I -> Prop) (won : P -> I -> Prop).
Notation good p := (exists i, (i < c_size c)%nat /\ c_prim c i = Ok p).
Hypothesis Hc : contract isx r (fun p => good p) best inv won.
Variables firm hit : nat -> R -> Prop.
Variable about : nat -> R -> rayhit xr -> Prop.
Hypothesis Hsome : forall p t, good p -> best p = Some t -> hit (pid p) t.
Hypothesis Hfirm : forall p u, good p -> firm (pid p) u -> best p = Some u.
Hypothesis Hprims : forall i, (i < c_size c)%nat -> exists p, c_prim c i = Ok p.
Hypothesis Hinbox : forall i t, (i < c_size c)%nat -> firm i t ->
  m * rv_norm D <= t /\ in_box (bmin i) (bmax i) (at_t O (unit_of D) t).
Hypothesis Hpost : forall p i t rh, good p -> best p = Some t -> won p i -> isR (is_hd isx i) t ->
  exists rh', is_post isx i rh = Ok rh' /\ h_prim rh' = Some (pid p) /\ isR (h_distance rh') t /\
    h_geom rh' = h_geom rh /\ about (pid p) t rh'.

Lemma loose_theorem rh :
  loose_answer (fun i t => (i < c_size c)%nat /\ firm i t /\ xltb (Fin t) tmax = true)
    (fun i t => (i < c_size c)%nat /\ hit i t /\ xltb (Fin t) tmax = true) about any rh
    (@traverse _ XN _ _ isx nodes r rh).
Proof.
  assert (Hgood : forall p, In p (stored nodes) <-> good p).
  { intros p. apply (stored_iff big tiny eps c part Hpart opt nodes st Hbuild pid Hnum). }
  assert (Hidx : forall p, good p -> (pid p < c_size c)%nat).
  { intros p (i & Hi & Ei). apply Hnum in Ei. subst i. exact Hi. }
  assert (Hex : forall j u, (j < c_size c)%nat -> firm j u ->
    exists q, good q /\ best q = Some u /\ boxed bmin bmax pid O D m best q).
  { intros j u Hj Hu. destruct (Hprims j Hj) as (q & Eq). pose proof (Hnum _ _ Eq) as Ej. subst j.
    assert (Hq : good q) by eauto. exists q. pose proof (Hfirm q u Hq Hu) as Eb.
    split; [exact Hq|]. split; [exact Eb|]. intros w Hw. rewrite Eb in Hw. injection Hw as <-. apply Hinbox; auto. }
  assert (Hans := built_answers big tiny eps Heps c bmin bmax Hboxes Hbd part Hpart opt nodes st
    Hbuild Hdepth pid Hnum o d tmin tmax any O D m Had Hz isx best inv won Hc rh).
  destruct Hans as [[E Hmiss]|(p & t & i & Hp & Eb & Hlt & Hwon & Hhd & E & Hmin)].
  - exists false, rh. split; [exact E|]. split; [|discriminate]. intros _. split; [reflexivity|].
    intros j u (Hj & Hu & Hlt). destruct (Hex j u Hj Hu) as (q & Hq & Eb & Hb).
    rewrite (Hmiss q u (proj2 (Hgood q) Hq) Hb Eb) in Hlt. discriminate.
  - apply Hgood in Hp. destruct (Hpost p i t rh Hp Eb Hwon Hhd) as (rh' & E' & Q1 & Q2 & Q3 & Q4).
    rewrite E' in E. cbn [bind] in E. exists true, rh'. split; [exact E|]. split; [discriminate|].
    intros _. exists (pid p), t. split; [auto|]. repeat (split; [assumption|]).
    intros Ha j u (Hj & Hu & _). destruct (Hex j u Hj Hu) as (q & Hq & Eb' & Hb).
    exact (Hmin Ha q u (proj2 (Hgood q) Hq) Hb Eb').
Qed.
End Loose.

(** Without tolerance the two kinds of answer are the same. *)
Lemma loose_hit firm hit about any rh res : (forall i t, firm i t <-> hit i t) ->
  loose_answer firm hit about any rh res -> hit_answer hit about any rh res.
Proof.
  intros H (b & rh' & E & H0 & H1). exists b, rh'. split; [exact E|]. split; [|split].
  - split.
    + intros ->. destruct (H1 eq_refl) as (i & t & Hi & _). eauto.
    + intros (i & t & Hi). destruct b; [reflexivity|]. destruct (H0 eq_refl) as [_ Hn].
      destruct (Hn i t). apply H, Hi.
  - intros Eb. apply H0, Eb.
  - intros Eb. destruct (H1 Eb) as (i & t & A1 & A2 & A3 & A4 & A5 & A6). exists i, t.
    repeat (split; [assumption|]). intros Ha j u Hj. apply (A6 Ha j), H, Hj.
Qed.
