(** Cylinder queries: a ray that meets at most one cylinder. *)

From Coq Require Import Reals ZArith List Bool Arith Lra Lia.
From Verif Require Import Num NumR NumX Vec Datatypes Ray Bvh Traverse Cylinder SpecBvh SpecTrav SpecReal SpecNearest SpecPlane SpecCyl.
From Verif Require Import PfBuild PfNumbered PfX PfPlane PfClosest PfNearest PfNearest2 PfNearest3 PfSphere2 PfTrav2 PfCyl PfCyl2 PfCyl3 PfCyl4 PfCyl5 PfDefined2.
Import ListNotations.
Local Open Scope R_scope.

Lemma intersect_keeps {T} {N : num T} (i i' : cyl_isect T) c r :
  cylinder_intersect i c r = (true, i') ->
  ci_org i' = ci_org i /\ ci_dir i' = ci_dir i /\ ci_min i' = ci_min i /\ ci_uv i' = ci_uv i.
Proof.
  unfold cylinder_intersect. cbv zeta. destruct (cyl_local _ _ _ _ _ _) as [[nn tt]|]; [|discriminate].
  intros E. injection E as <-. repeat split.
Qed.
Lemma intersect_same {T} {N : num T} (i j : cyl_isect T) c r :
  ci_org i = ci_org j -> ci_dir i = ci_dir j -> ci_min i = ci_min j -> ci_uv i = ci_uv j ->
  cylinder_intersect i c r = match cylinder_intersect j c r with (true, i') => (true, i') | (false, _) => (false, i) end.
Proof.
  intros H1 H2 H3 H4. unfold cylinder_intersect. cbv zeta. rewrite H1, H2, H3, H4.
  destruct (cyl_local _ _ _ _ _ _) as [[nn tt]|]; reflexivity.
Qed.
Lemma intersect_ignores {T} {N : num T} (i j : cyl_isect T) c r :
  ci_org i = ci_org j -> ci_dir i = ci_dir j -> ci_uv i = ci_uv j ->
  fst (cylinder_intersect i c r) = fst (cylinder_intersect j c r) /\
  (fst (cylinder_intersect i c r) = true ->
   ci_hd (snd (cylinder_intersect i c r)) = ci_hd (snd (cylinder_intersect j c r))).
Proof.
  intros H1 H2 H3. unfold cylinder_intersect. cbv zeta. rewrite H1, H2, H3.
  destruct (cyl_local _ _ _ _ _ _) as [[nn tt]|]; split; try reflexivity. discriminate.
Qed.
Lemma post_prim {T} {N : num T} (i : cyl_isect T) rh rh' : cylinder_post i rh = Ok rh' ->
  h_prim rh' = ci_prim i /\ h_distance rh' = ci_hd i /\ h_geom rh' = h_geom rh.
Proof. unfold cylinder_post. intros E. injection E as <-. repeat split. Qed.

Lemma xltb_mono tm t u : t <= u -> xltb (Fin u) tm = true -> xltb (Fin t) tm = true.
Proof. intros Htu. destruct tm as [|[]|sg x]; cbn; auto. intros Hu. apply Rltb_spec in Hu. apply Rltb_spec. lra. Qed.
Lemma xltb_isR x t y : isR x t -> xltb x y = xltb (Fin t) y.
Proof. intros T. apply isR_ex in T as (sg & ->). destruct y; reflexivity. Qed.

Section S.
Variables big tiny eps : R.
Notation XN := (Xnum big tiny eps).
Hypothesis Heps : 0 <= eps.
Variables (centers : list (vec xr)) (sa sb hs : list xr) (rots : list (mat xr)) (s : cylinders xr).
Hypothesis Hmake : @make_cylinders _ XN centers sa sb hs rots = Ok s.
Variables (C : nat -> vec R) (a b h : nat -> R) (Rm : nat -> mat R).
Hypothesis Hdata : cylinders_are s C a b h Rm.
Notation n := (length (cs_centers s)).
Hypothesis Hpos : forall i, (i < n)%nat -> 0 < a i /\ 0 < b i /\ 0 < h i /\ orthogonal (Rm i).
Notation lo i := (cyl_lower (C i) (a i) (b i) (h i) (Rm i)).
Notation hi i := (cyl_upper (C i) (a i) (b i) (h i) (Rm i)).
Hypothesis Hbd : forall i, (i < n)%nat -> in_bounds big (lo i) /\ in_bounds big (hi i).

Lemma cylinder_boxes : boxes_are (cylinder_coll s) (fun i => lo i) (fun i => hi i).
Proof.
  unfold make_cylinders in Hmake. unbind Hmake. rename a0 into box. injection Hmake as Es.
  intros i Hi. cbn [c_size cylinder_coll] in Hi. cbn [c_box cylinder_coll].
  destruct (Hdata i Hi) as [(x1 & E1 & V1) [(x2 & E2 & V2) [(x3 & E3 & V3) [(x4 & E4 & V4) (x5 & E5 & V5)]]]].
  rewrite <- Es in Hi, E1, E2, E3, E4, E5 |- *. cbn [cs_centers cs_as cs_bs cs_hs cs_rots cs_box] in *.
  destruct (mapM_nth _ _ _ E i i (nth_error_seq0 _ _ Hi)) as (bx & Eb & Ef).
  rewrite (at_ok _ _ _ _ E1) in Ef. cbn [bind] in Ef. rewrite (at_ok _ _ _ _ E2) in Ef. cbn [bind] in Ef.
  rewrite (at_ok _ _ _ _ E3) in Ef. cbn [bind] in Ef. rewrite (at_ok _ _ _ _ E4) in Ef. cbn [bind] in Ef.
  rewrite (at_ok _ _ _ _ E5) in Ef. cbn [bind] in Ef.
  injection Ef as <-. eexists. split; [apply at_ok, Eb|].
  apply cylinder_box_is; assumption.
Qed.
Lemma cylinder_prims i : (i < n)%nat ->
  exists p, cylinder_prim s i = Ok p /\ visR (cy_center p) (C i) /\ isR (cy_a p) (a i) /\ isR (cy_b p) (b i) /\
    isR (cy_h p) (h i) /\ misR (cy_rot p) (Rm i) /\ cy_id p = i.
Proof.
  intros Hi. destruct (Hdata i Hi) as [(x1 & E1 & V1) [(x2 & E2 & V2) [(x3 & E3 & V3) [(x4 & E4 & V4) (x5 & E5 & V5)]]]].
  unfold cylinder_prim. rewrite (at_ok _ _ _ _ E1). cbn [bind]. rewrite (at_ok _ _ _ _ E2). cbn [bind].
  rewrite (at_ok _ _ _ _ E3). cbn [bind]. rewrite (at_ok _ _ _ _ E4). cbn [bind]. rewrite (at_ok _ _ _ _ E5). cbn [bind].
  eexists. split; [reflexivity|]. cbn [cy_center cy_a cy_b cy_h cy_rot cy_id]. auto 8.
Qed.

Variable part : (nat -> bool) -> list nat -> list nat * list nat.
Hypothesis Hpart : partition_ok part.
Variable opt : options.
Variables (nodes : list (node xr (cylinder xr))) (st : stats).
Hypothesis Hbuild : @build _ XN _ part [] (cylinder_coll s) opt = Ok (nodes, st).
Hypothesis Hax : forall i, (i < n)%nat -> axis_aligned (Rm i).
Hypothesis Hdepth : forall k d, node_depth nodes k d -> (d <= 26)%nat.
Variables (o d : vec xr) (tmin tmax : xr) (any : bool) (O D : vec R).
Hypothesis Had : admissible o d tmin O D 0.
Hypothesis Hz : vz D = 0 -> forall i, (i < n)%nat -> vz O <> vz (lo i) /\ vz O <> vz (hi i).
Notation r := (@make_ray _ XN o d tmin tmax any).
Notation U := (unit_of D).
Notation surf i := (world (on_surface (a i) (b i) (h i)) (C i) (Rm i)).
Hypothesis Hoff : forall i, (i < n)%nat -> ~ surf i O.
Notation seen i := (seen_from (C i) (a i) (b i) (h i) (Rm i) O).
Hypothesis Hsingle : forall i j t u, (i < n)%nat -> (j < n)%nat -> seen i -> seen j ->
  meets (C i) (a i) (b i) (h i) (Rm i) O U t -> meets (C j) (a j) (b j) (h j) (Rm j) O U u -> i = j.
Notation isx := (@cylinder_isector _ XN).
Notation i0 := (@cylinder_prepare xr XN r).
Notation good p := (exists i, (i < c_size (cylinder_coll s))%nat /\ c_prim (cylinder_coll s) i = Ok p).

Let inv (i : cyl_isect xr) : Prop :=
  ci_org i = o /\ ci_dir i = direction r /\ ci_min i = tmin /\ ci_uv i = ci_uv i0.
(** The routine's answer does not depend on the best hit so far. *)
Lemma prim_same i p : inv i -> is_prim isx i p r =
  match is_prim isx i0 p r with (true, i') => (true, i') | (false, _) => (false, i) end.
Proof.
  intros (H1 & H2 & H3 & H4). cbn [is_prim cylinder_isector]. apply intersect_same; assumption.
Qed.

Lemma dir_unit : visR (direction r) U /\ rv_dot U U = 1.
Proof. exact (unit_visR big tiny eps o d tmin tmax any O D 0 Had). Qed.
Lemma good_id p : good p -> (cy_id p < n)%nat /\ visR (cy_center p) (C (cy_id p)) /\ isR (cy_a p) (a (cy_id p)) /\
  isR (cy_b p) (b (cy_id p)) /\ isR (cy_h p) (h (cy_id p)) /\ misR (cy_rot p) (Rm (cy_id p)).
Proof.
  intros (k & Hk & Ek). cbn [c_size c_prim cylinder_coll] in Hk, Ek.
  destruct (cylinder_prims k Hk) as (p' & Ep & P1 & P2 & P3 & P4 & P5 & P6). rewrite Ek in Ep. injection Ep as <-.
  rewrite P6. auto 8.
Qed.
(** What the routine says of each primitive. *)
Lemma prim_answer p hit i' : good p -> is_prim isx i0 p r = (hit, i') ->
  if hit then exists t, isR (ci_hd i') t /\ (seen (cy_id p) /\ first_met (C (cy_id p)) (a (cy_id p)) (b (cy_id p)) (h (cy_id p)) (Rm (cy_id p)) O U t) /\
    ci_prim i' = Some (cy_id p) /\ inv i' /\
    forall rh, exists rh', is_post isx i' rh = Ok rh' /\ h_prim rh' = Some (cy_id p) /\ isR (h_distance rh') t /\
      h_geom rh' = h_geom rh /\ cylinder_about C a b h Rm O U (cy_id p) t rh'
  else i' = i0 /\ forall t, seen (cy_id p) -> ~ pierces (C (cy_id p)) (a (cy_id p)) (b (cy_id p)) (h (cy_id p)) (Rm (cy_id p)) O U t.
Proof.
  intros Hp E. destruct (good_id p Hp) as (Hi & P1 & P2 & P3 & P4 & P5). destruct dir_unit as [HU HU1].
  destruct (Hpos _ Hi) as (Pa & Pb & Ph & Ho). pose proof (Hoff _ Hi) as Ho1.
  assert (HU0 : rv_norm U <> 0) by (rewrite rv_norm_unit by exact HU1; lra).
  pose proof (cylinder_first big tiny eps i0 p r O U _ _ _ _ _ hit i' (ad_o _ _ _ _ _ _ Had) HU P1 P2 P3 P4 P5 Pa Pb Ph Ho HU0 Ho1 E) as [F1 F2].
  rewrite (unit_of_one U HU1) in F1, F2.
  destruct hit.
  - destruct (F1 eq_refl) as (t & T1 & T2 & T3 & T4 & T5). exists t. split; [exact T1|].
    split; [split; [|split; [split; assumption|exact T5]]|]. 
    { intros Hb. cbn [is_prim cylinder_isector] in E.
      rewrite (cylinder_beside big tiny eps i0 p r O _ _ _ _ _ (ad_o _ _ _ _ _ _ Had) P1 P2 P3 P4 P5 Pa Pb Ph Ho Hb) in E. discriminate. }
    split; [exact T3|]. split.
    { exact (intersect_keeps _ _ _ _ E). }
    intros rh.
    destruct (cylinder_normal big tiny eps i0 p r O U _ _ _ _ _ i' rh (ad_o _ _ _ _ _ _ Had) HU P1 P2 P3 P4 P5 Pa Pb Ph Ho HU0 Ho1 E)
      as (t' & nn & rh' & N1 & N2 & N3 & N4 & N5 & N6).
    rewrite (unit_of_one U HU1) in N6. rewrite (isR_inj _ _ _ N1 T1) in *.
    exists rh'. split; [exact N2|]. destruct (post_prim _ _ _ N2) as (M1 & M2 & M3).
    split; [rewrite M1; exact T3|]. split; [rewrite M2; exact T1|]. split; [exact M3|].
    exists nn. auto.
  - destruct (F2 eq_refl) as [-> F3]. split; [reflexivity|]. intros t Hs [[T1 T2] T3]. apply T3. apply F3; assumption.
Qed.

Let best (p : cylinder xr) : option R :=
  match is_prim isx i0 p r with (true, i') => match ci_hd i' with Xf _ t => Some t | _ => None end | _ => None end.
Let won (p : cylinder xr) (i : cyl_isect xr) : Prop := is_prim isx i0 p r = (true, i).

Lemma strict_contract : contract (@strict _ _ _ XN isx) r (fun p => good p) best inv won.
Proof.
  constructor.
  - repeat split.
  - reflexivity.
  - intros i p Hp Hi. cbn [is_prim is_hd strict]. rewrite (prim_same i p Hi). unfold best.
    destruct (is_prim isx i0 p r) as [hit i'] eqn:E. pose proof (prim_answer p hit i' Hp E) as A.
    destruct hit; [|reflexivity].
    destruct A as (t & T1 & T2 & T3 & T4 & _). pose proof T1 as T1'. apply isR_ex in T1 as (sg & Eh). rewrite Eh.
    cbn [is_hd cylinder_isector]. rewrite Eh. cbn [andb]. change (@nltb _ XN) with xltb.
    replace (xltb (Xf sg t) (ci_hd i)) with (xltb (Fin t) (ci_hd i)) by (destruct (ci_hd i); reflexivity).
    destruct (xltb (Fin t) (ci_hd i)); [|reflexivity].
    exists i'. split; [reflexivity|]. split; [exact T4|]. split; [exact T1'|exact E].
Qed.

Lemma xltb_irr x : xltb x x = false.
Proof. destruct x as [|[]|sg t]; try reflexivity. cbn. apply Rltb_no. lra. Qed.

Definition hitb (i : nat) (t : R) : Prop := exists p, cylinder_prim s i = Ok p /\ best p = Some t.

Lemma strict_query rh :
  hit_answer (fun i t => (i < n)%nat /\ hitb i t /\ xltb (Fin t) tmax = true) (cylinder_about C a b h Rm O U) any rh
    (@traverse _ XN _ _ (@strict _ _ _ XN isx) nodes r rh).
Proof.
  assert (Hself : forall p, good p -> cylinder_prim s (cy_id p) = Ok p).
  { intros p (k & Hk & Ek). cbn [c_size c_prim cylinder_coll] in Hk, Ek.
    destruct (cylinder_prims k Hk) as (p' & Ep & _ & _ & _ & _ & _ & P6). rewrite Ek in Ep. injection Ep as <-. rewrite P6. exact Ek. }
  assert (Hbest : forall p t, good p -> best p = Some t -> exists i', is_prim isx i0 p r = (true, i') /\ isR (ci_hd i') t).
  { intros p t Hp Eb. unfold best in Eb. destruct (is_prim isx i0 p r) as [[] i']; [|discriminate].
    exists i'. split; [reflexivity|]. destruct (ci_hd i'); try discriminate. injection Eb as ->. reflexivity. }
  apply (hit_theorem big tiny eps Heps (cylinder_coll s) _ _ cylinder_boxes Hbd part Hpart opt nodes st Hbuild
    Hdepth cy_id (cylinders_numbered s) o d tmin tmax any O D 0 Had Hz (@strict _ _ _ XN isx)
    best inv won strict_contract hitb (cylinder_about C a b h Rm O U)).
  - intros p t Hp Eb. split; [exists p; auto|]. intros u (q & Eq & Ebq). rewrite (Hself p Hp) in Eq. injection Eq as <-.
    rewrite Eb in Ebq. injection Ebq as ->. lra.
  - intros p u Hp Eb (q & Eq & Ebq). rewrite (Hself p Hp) in Eq. injection Eq as <-. congruence.
  - intros i Hi. destruct (cylinder_prims i Hi) as (p & Ep & _). exists p. exact Ep.
  - intros i t Hi (p & Ep & Eb). assert (Hp : good p) by (exists i; auto).
    destruct (Hbest p t Hp Eb) as (i' & E & Hhd). pose proof (prim_answer p true i' Hp E) as A. cbv iota in A.
    destruct A as (t' & T1 & (_ & (T2 & T3) & _) & _). rewrite (isR_inj _ _ _ T1 Hhd) in *.
    assert (Ei : cy_id p = i).
    { destruct (cylinder_prims i Hi) as (p' & Ep' & _ & _ & _ & _ & _ & P6). rewrite Ep in Ep'. injection Ep' as <-. exact P6. }
    rewrite Ei in T3. split; [lra|]. destruct (Hpos i Hi) as (Pa & Pb & Ph & _). apply box_surface; auto.
  - intros p i t rh0 Hp Eb Hw Hhd. pose proof (prim_answer p true i Hp Hw) as A. cbv iota in A.
    destruct A as (t' & T1 & _ & _ & _ & T5). cbn [is_hd strict is_post cylinder_isector] in Hhd |- *.
    rewrite (isR_inj _ _ _ T1 Hhd) in T5. apply T5.
Qed.

(** The whole query. *)
Lemma cylinder_query rh :
  loose_answer (fun i t => (i < n)%nat /\ (seen i /\ pierces (C i) (a i) (b i) (h i) (Rm i) O U t) /\ xltb (Fin t) tmax = true)
    (fun i t => (i < n)%nat /\ (seen i /\ first_met (C i) (a i) (b i) (h i) (Rm i) O U t) /\ xltb (Fin t) tmax = true)
    (cylinder_about C a b h Rm O U) any rh (@traverse _ XN _ _ isx nodes r rh).
Proof.
  assert (Hgood : forall p, In p (stored nodes) <-> good p).
  { intros p. apply (stored_iff big tiny eps (cylinder_coll s) part Hpart opt nodes st Hbuild cy_id (cylinders_numbered s)). }
  assert (Hself : forall p, good p -> cylinder_prim s (cy_id p) = Ok p).
  { intros p (k & Hk & Ek). cbn [c_size c_prim cylinder_coll] in Hk, Ek.
    destruct (cylinder_prims k Hk) as (p' & Ep & _ & _ & _ & _ & _ & P6). rewrite Ek in Ep. injection Ep as <-. rewrite P6. exact Ek. }
  assert (Hfin : finished isx rh (@traverse _ XN _ _ isx nodes r rh)).
  { apply (built_safe part Hpart (cylinder_coll s) opt nodes st Hbuild isx r rh Hdepth). }
  assert (Hbest : forall p t i', is_prim isx i0 p r = (true, i') -> isR (ci_hd i') t -> best p = Some t).
  { intros p t i' E Ht. unfold best. rewrite E. apply isR_ex in Ht as (sg & ->). reflexivity. }
  (* a pierced cylinder is reported, no later than there *)
  assert (Hrep : forall j u, (j < n)%nat -> seen j /\ pierces (C j) (a j) (b j) (h j) (Rm j) O U u -> exists t, hitb j t /\ t <= u).
  { intros j u Hj [Hs Hu]. destruct (cylinder_prims j Hj) as (p & Ep & _ & _ & _ & _ & _ & P6).
    assert (Hp : good p) by (exists j; auto).
    destruct (is_prim isx i0 p r) as [hit i'] eqn:E. pose proof (prim_answer p hit i' Hp E) as A. rewrite P6 in A.
    destruct hit; [|destruct A as [_ A]; destruct (A u Hs Hu)].
    destruct A as (t & T1 & (_ & _ & T2) & _). exists t. split; [exists p; split; [exact Ep|eapply Hbest; eassumption]|].
    destruct (Rle_or_lt t u) as [|Hlt]; [assumption|]. destruct Hu as [[U1 U2] _]. destruct (T2 u); auto. }
  assert (Hmono : forall t u, t <= u -> xltb (Fin u) tmax = true -> xltb (Fin t) tmax = true).
  { intros t u. apply xltb_mono. }
  assert (Hstrict : @traverse _ XN _ _ isx nodes r rh = @traverse _ XN _ _ (@strict _ _ _ XN isx) nodes r rh).
  { pose proof (strict_query rh) as (bq & rhq & Eq & Q1 & Q2 & _).
    assert (Hpost : forall i rh, exists rh', is_post isx i rh = Ok rh') by (intros; eexists; reflexivity).
    assert (Hdec : (exists p i1, good p /\ is_prim isx i0 p r = (true, i1)) \/
                   (forall p i1, good p -> is_prim isx i0 p r <> (true, i1))).
    { destruct (existsb (fun p => fst (is_prim isx i0 p r)) (stored nodes)) eqn:Ex.
      - left. apply existsb_exists in Ex as (p & Hp & Ef). exists p, (snd (is_prim isx i0 p r)). split; [apply Hgood, Hp|].
        destruct (is_prim isx i0 p r) as [[] ?]; [reflexivity|discriminate].
      - right. intros p i1 Hp E. assert (Et : existsb (fun p => fst (is_prim isx i0 p r)) (stored nodes) = true).
        { apply existsb_exists. exists p. split; [apply Hgood, Hp|]. rewrite E. reflexivity. }
        congruence. }
    destruct Hdec as [(p0 & i1 & Hp0 & E0)|Hno].
    - (* one primitive is hit *)
      pose proof (prim_answer p0 true i1 Hp0 E0) as A. cbv iota in A.
      destruct A as (t & T1 & T2 & T3 & T4 & _).
      assert (Hone : forall p, In p (stored nodes) ->
        (is_prim isx i0 p r = (false, i0) /\ is_prim isx i1 p r = (false, i1)) \/
        (is_prim isx i0 p r = (true, i1) /\ is_prim isx i1 p r = (true, i1))).
      { intros p Hp. apply Hgood in Hp. rewrite (prim_same i1 p T4).
        destruct (is_prim isx i0 p r) as [hit i'] eqn:E. pose proof (prim_answer p hit i' Hp E) as A.
        destruct hit.
        - right. destruct A as (t' & _ & T2' & _).
          assert (Eid : cy_id p = cy_id p0).
          { apply (Hsingle _ _ t' t); [apply good_id, Hp|apply good_id, Hp0|apply T2'|apply T2|apply T2'|apply T2]. }
          pose proof (Hself p Hp) as S1. rewrite Eid, (Hself p0 Hp0) in S1. injection S1 as S1. rewrite <- S1 in E. rewrite E0 in E.
          injection E as <-. auto.
        - left. destruct A as [-> _]. auto. }
      destruct (xltb (Fin t) tmax) eqn:El.
      + apply (@traverse_strict _ _ _ XN isx nodes r i1 Hone).
        * change (xltb (ci_hd i1) tmax = true). rewrite (xltb_isR _ _ _ T1). exact El.
        * apply xltb_irr.
      + rewrite (@traverse_beyond _ _ _ XN isx nodes r i1 Hone rh eq_refl (xltb_irr tmax)); [|  |exact Hpost|exact Hfin].
        * rewrite Eq. destruct bq; [|rewrite Q2; reflexivity]. exfalso.
          destruct (proj1 Q1 eq_refl) as (j & u & Hj & (q & Eqq & Ebq) & Hu).
          assert (Hq : good q) by (exists j; auto).
          unfold best in Ebq. destruct (is_prim isx i0 q r) as [[] iq] eqn:Eiq; [|discriminate].
          pose proof (prim_answer q true iq Hq Eiq) as A. cbv iota in A. destruct A as (t' & T1' & T2' & _).
          assert (Eid : cy_id q = cy_id p0).
          { apply (Hsingle _ _ t' t); [apply good_id, Hq|apply good_id, Hp0|apply T2'|apply T2|apply T2'|apply T2]. }
          pose proof (Hself q Hq) as S1. rewrite Eid, (Hself p0 Hp0) in S1. injection S1 as S1. subst q.
          rewrite E0 in Eiq. injection Eiq as <-. apply isR_ex in T1 as (sg & Eh). rewrite Eh in Ebq. injection Ebq as <-. congruence.
        * change (xltb (ci_hd i1) tmax = false). rewrite (xltb_isR _ _ _ T1). exact El.
    - (* none is *)
      assert (Hone : forall p, In p (stored nodes) ->
        (is_prim isx i0 p r = (false, i0) /\ is_prim isx i0 p r = (false, i0)) \/
        (is_prim isx i0 p r = (true, i0) /\ is_prim isx i0 p r = (true, i0))).
      { intros p Hp. apply Hgood in Hp. left.
        destruct (is_prim isx i0 p r) as [hit i'] eqn:E. pose proof (prim_answer p hit i' Hp E) as A.
        destruct hit; [destruct (Hno p i' Hp E)|]. destruct A as [-> _]. auto. }
      rewrite (@traverse_beyond _ _ _ XN isx nodes r i0 Hone rh eq_refl (xltb_irr tmax) (xltb_irr tmax) Hpost Hfin).
      rewrite Eq. destruct bq; [|rewrite Q2; reflexivity]. exfalso.
      destruct (proj1 Q1 eq_refl) as (j & u & Hj & (q & Eqq & Ebq) & Hu).
      unfold best in Ebq. destruct (is_prim isx i0 q r) as [[] iq] eqn:Eiq; [|discriminate].
      destruct (Hno q iq); [exists j; auto|exact Eiq]. }
  rewrite Hstrict. destruct (strict_query rh) as (bq & rhq & Eq & Q1 & Q2 & Q3).
  exists bq, rhq. split; [exact Eq|]. split.
  - intros Eb. split; [apply Q2, Eb|]. intros j u (Hj & Hp & Hu). destruct (Hrep j u Hj Hp) as (t & Ht & Hle).
    assert (Ex : exists i t, (i < n)%nat /\ hitb i t /\ xltb (Fin t) tmax = true).
    { exists j, t. split; [exact Hj|]. split; [exact Ht|]. eapply Hmono; eassumption. }
    apply Q1 in Ex. congruence.
  - intros Eb. destruct (Q3 Eb) as (i & t & (Hi & Ht & Hm) & R1 & R2 & R3 & R4 & R5).
    exists i, t. split.
    + split; [exact Hi|]. split; [|exact Hm]. destruct Ht as (p & Ep & Ebp). assert (Hp : good p) by (exists i; auto).
      unfold best in Ebp. destruct (is_prim isx i0 p r) as [[] ip] eqn:Eip; [|discriminate].
      pose proof (prim_answer p true ip Hp Eip) as A. cbv iota in A. destruct A as (t' & T1 & T2 & _).
      apply isR_ex in T1 as (sg & Eh). rewrite Eh in Ebp. injection Ebp as ->.
      assert (Ei : cy_id p = i).
      { destruct (cylinder_prims i Hi) as (p' & Ep' & _ & _ & _ & _ & _ & P6). rewrite Ep in Ep'. injection Ep' as <-. exact P6. }
      rewrite Ei in T2. exact T2.
    + split; [exact R1|]. split; [exact R2|]. split; [exact R3|]. split; [exact R4|].
      intros Ha j u (Hj & Hp & Hu). destruct (Hrep j u Hj Hp) as (t' & Ht' & Hle).
      specialize (R5 Ha j t' (conj Hj (conj Ht' (Hmono _ _ Hle Hu)))). lra.
Qed.
End S.

Lemma cylinder_build_ok big tiny eps centers sa sb hs rots s C a b h Rm part opt :
  @make_cylinders _ (Xnum big tiny eps) centers sa sb hs rots = Ok s -> cylinders_are s C a b h Rm ->
  (forall i, (i < length (cs_centers s))%nat ->
     in_bounds big (cyl_lower (C i) (a i) (b i) (h i) (Rm i)) /\ in_bounds big (cyl_upper (C i) (a i) (b i) (h i) (Rm i))) ->
  partition_ok part -> (1 <= bin_size opt)%nat -> (3 * Z.of_nat (bin_size opt) < 4294967296)%Z ->
  exists nodes st, @build _ (Xnum big tiny eps) _ part [] (cylinder_coll s) opt = Ok (nodes, st).
Proof.
  intros Hm Hd Hb Hp H1 H2.
  apply (build_ok big tiny eps (cylinder_coll s) (fun i => cyl_lower (C i) (a i) (b i) (h i) (Rm i))
    (fun i => cyl_upper (C i) (a i) (b i) (h i) (Rm i)) C); auto.
  - eapply cylinder_boxes; eassumption.
  - intros i Hi. destruct (Hd i Hi) as [(c0 & Ec & Vc) _]. exists c0. cbn [c_center cylinder_coll].
    split; [apply at_ok, Ec|]. split; [exact Vc|]. apply box_center.
  - intros i Hi. destruct (cylinder_prims s C a b h Rm Hd i Hi) as (p & Ep & _). eauto.
Qed.
