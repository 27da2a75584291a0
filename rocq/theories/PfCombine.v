(** Scene queries combine the answers of the geometries. *)

From Coq Require Import Reals ZArith List Bool Lia Lra Floats.SpecFloat.
From Verif Require Import Num NumR NumX NumF Vec Ray Bvh Traverse Sphere Plane Trimesh Cylinder Scene SpecBvh SpecScene SpecCombine.
From Verif Require Import PfBuild PfScene PfScene2 PfScene3.
Import ListNotations.
Open Scope num_scope.

Lemma Rltb_true a b : Rltb a b = true <-> (a < b)%R.
Proof. unfold Rltb. destruct (Rlt_dec a b); split; intros; auto; try discriminate; contradiction. Qed.

Lemma ordered_R big tiny eps : ordered R (Rnum big tiny eps).
Proof.
  split; [|split].
  - intros a. change (Rltb a a = false). destruct (Rltb a a) eqn:E; [apply Rltb_true in E; lra|reflexivity].
  - intros a b c H1 H2. change (Rltb a b = true) in H1. change (Rltb b c = true) in H2. change (Rltb a c = true).
    apply Rltb_true in H1, H2. apply Rltb_true. lra.
  - intros a b c m H1 _. change (Rltb a b = true) in H1. change (Rltb a c = true \/ Rltb c b = true).
    apply Rltb_true in H1. destruct (Rlt_or_le a c); [left|right]; apply Rltb_true; lra.
Qed.

Lemma ordered_X big tiny eps : ordered xr (Xnum big tiny eps).
Proof.
  split; [|split].
  - intros a. change (xltb a a = false). destruct a as [|[]|s a]; try reflexivity. cbn.
    destruct (Rltb a a) eqn:E; [apply Rltb_true in E; lra|reflexivity].
  - intros a b c H1 H2. change (xltb a b = true) in H1. change (xltb b c = true) in H2. change (xltb a c = true).
    destruct a as [|[]|s1 a], b as [|[]|s2 b], c as [|[]|s3 c]; cbn in *; try discriminate; try reflexivity.
    apply Rltb_true in H1, H2. apply Rltb_true. lra.
  - intros a b c m H1 H2. change (xltb a b = true) in H1. change (xltb c m = true) in H2.
    change (xltb a c = true \/ xltb c b = true).
    destruct a as [|[]|s1 a], b as [|[]|s2 b], c as [|[]|s3 c], m as [|[]|s4 m]; cbn in *; try discriminate; auto;
      apply Rltb_true in H1; destruct (Rlt_or_le a c); [left|right|left|right]; apply Rltb_true; lra.
Qed.

(** The order of SpecFloat in cases. *)
Definition flt (a b : spec_float) : Prop :=
  match a, b with
  | S754_nan, _ | _, S754_nan => False
  | S754_infinity true, S754_infinity true => False
  | S754_infinity true, _ => True
  | S754_infinity false, _ => False
  | _, S754_infinity s => s = false
  | S754_finite true _ _, S754_zero _ => True
  | S754_finite false _ _, S754_zero _ => False
  | S754_zero _, S754_zero _ => False
  | S754_zero _, S754_finite s _ _ => s = false
  | S754_finite true m1 e1, S754_finite true m2 e2 => (e2 < e1 \/ (e1 = e2 /\ Zpos m2 < Zpos m1))%Z
  | S754_finite true _ _, S754_finite false _ _ => True
  | S754_finite false _ _, S754_finite true _ _ => False
  | S754_finite false m1 e1, S754_finite false m2 e2 => (e1 < e2 \/ (e1 = e2 /\ Zpos m1 < Zpos m2))%Z
  end.
Lemma flt_ok a b : SFltb a b = true <-> flt a b.
Proof.
  unfold SFltb, SFcompare, flt.
  destruct a as [[]|[]| |[] m1 e1], b as [[]|[]| |[] m2 e2]; try (split; intros; auto; try discriminate; try contradiction; fail).
  - destruct (Z.compare_spec e1 e2); cbn; [|split; intros; auto; try discriminate; lia..].
    change (Pos.compare_cont Eq m1 m2) with (m1 ?= m2)%positive.
    destruct (Pos.compare_spec m1 m2); cbn; split; intros; auto; try discriminate; lia.
  - destruct (Z.compare_spec e1 e2); cbn; [|split; intros; auto; try discriminate; lia..].
    change (Pos.compare_cont Eq m1 m2) with (m1 ?= m2)%positive.
    destruct (Pos.compare_spec m1 m2); cbn; split; intros; auto; try discriminate; lia.
Qed.

Lemma ordered_F prec emax : ordered spec_float (Fnum prec emax).
Proof.
  split; [|split].
  - intros a. change (SFltb a a = false). destruct (SFltb a a) eqn:E; [|reflexivity]. exfalso. apply flt_ok in E.
    destruct a as [[]|[]| |[] m e]; cbn in E; try contradiction; try discriminate; lia.
  - intros a b c H1 H2. change (SFltb a b = true) in H1. change (SFltb b c = true) in H2. change (SFltb a c = true).
    rewrite !flt_ok in *.
    destruct a as [[]|[]| |[] ma ea], b as [[]|[]| |[] mb eb]; cbn in H1; try contradiction; try discriminate;
      destruct c as [[]|[]| |[] mc ec]; cbn in *; try contradiction; try discriminate; auto; lia.
  - intros a b c m H1 H2. change (SFltb a b = true) in H1. change (SFltb c m = true) in H2.
    change (SFltb a c = true \/ SFltb c b = true). rewrite !flt_ok in *.
    assert (Hc : c <> S754_nan) by (intros ->; destruct m as [[]|[]| |[]]; exact H2). clear H2 m.
    destruct a as [[]|[]| |[] ma ea], b as [[]|[]| |[] mb eb]; cbn in H1; try contradiction; try discriminate;
      destruct c as [[]|[]| |[] mc ec]; cbn in *; try (destruct Hc; reflexivity); auto; lia.
Qed.

Section S.
Context {T : Type} {N : num T}.
Hypothesis Hord : ordered T N.

(** A geometry's answer and the record passed in. *)
Lemma traverse_record {P I} (isx : isector T P I) nodes r :
  (forall i rh rh', is_post isx i rh = Ok rh' ->
     h_distance rh' = is_hd isx i /\
     forall rk, is_post isx i rk = Ok (RayHit (h_normal rh') (h_uv rh') (h_distance rh') (h_prim rh') (h_geom rk))) ->
  forall rh b rec, traverse isx nodes r rh = Ok (b, rec) ->
  (b = true -> (h_distance rec <? max_hit_distance r) = true) /\
  forall rk, traverse isx nodes r rk =
    Ok (b, if b then RayHit (h_normal rec) (h_uv rec) (h_distance rec) (h_prim rec) (h_geom rk) else rk).
Proof.
  intros Hp rh b rec H. unfold traverse in *.
  apply bind_ok in H as (stk & Es & H). rewrite Es. cbn [bind] in H |- *.
  apply bind_ok in H as (i & Ei & H). rewrite Ei. cbn [bind].
  destruct (is_hd isx i <? max_hit_distance r) eqn:El.
  - apply bind_ok in H as (rh' & Er & H). injection H as <- <-. destruct (Hp _ _ _ Er) as [Hd Hk].
    split; [intros _; rewrite Hd; exact El|]. intros rk. rewrite (Hk rk). reflexivity.
  - injection H as <- <-. split; [discriminate|reflexivity].
Qed.

Lemma tri_records m i rh rh' : is_post (tri_isector m) i rh = Ok rh' ->
  h_distance rh' = is_hd (tri_isector m) i /\
  forall rk, is_post (tri_isector m) i rk = Ok (RayHit (h_normal rh') (h_uv rh') (h_distance rh') (h_prim rh') (h_geom rk)).
Proof.
  cbn [is_post is_hd tri_isector]. unfold tri_post. intros H.
  apply bind_ok in H as (k & -> & H). cbn [bind]. apply bind_ok in H as (f & -> & H). cbn [bind].
  apply bind_ok in H as (na & -> & H). cbn [bind]. apply bind_ok in H as (nb & -> & H). cbn [bind].
  apply bind_ok in H as (nc & -> & H). cbn [bind]. destruct (ti_uv i) as [u v]. injection H as <-. split; reflexivity.
Qed.
Lemma sphere_records s i rh rh' : is_post (sphere_isector s) i rh = Ok rh' ->
  h_distance rh' = is_hd (sphere_isector s) i /\
  forall rk, is_post (sphere_isector s) i rk = Ok (RayHit (h_normal rh') (h_uv rh') (h_distance rh') (h_prim rh') (h_geom rk)).
Proof.
  cbn [is_post is_hd sphere_isector]. unfold sphere_post. intros H.
  apply bind_ok in H as (k & -> & H). cbn [bind]. apply bind_ok in H as (f & -> & H). cbn [bind].
  injection H as <-. split; reflexivity.
Qed.
Lemma plane_records i rh rh' : is_post plane_isector i rh = Ok rh' ->
  h_distance rh' = is_hd plane_isector i /\
  forall rk, is_post plane_isector i rk = Ok (RayHit (h_normal rh') (h_uv rh') (h_distance rh') (h_prim rh') (h_geom rk)).
Proof. cbn [is_post is_hd plane_isector]. unfold plane_post. intros H. injection H as <-. split; reflexivity. Qed.
Lemma cylinder_records i rh rh' : is_post cylinder_isector i rh = Ok rh' ->
  h_distance rh' = is_hd cylinder_isector i /\
  forall rk, is_post cylinder_isector i rk = Ok (RayHit (h_normal rh') (h_uv rh') (h_distance rh') (h_prim rh') (h_geom rk)).
Proof. cbn [is_post is_hd cylinder_isector]. unfold cylinder_post. intros H. injection H as <-. split; reflexivity. Qed.

Variables (r : ray T) (rh : rayhit T).
Hypothesis Hmax : forall t, (t <? max_hit_distance r) = true -> (t <? h_distance rh) = true.

(** The state after the blocks with the answers [l]. *)
Definition so_far (l : list (nat * res (bool * rayhit T))) (x : res (bool * rayhit T * rayhit T)) : Prop :=
  combined l rh (do (h, rh, _) <- x; Ok (h, rh)) /\
  forall g rec, In (g, Ok (true, rec)) l -> (h_distance rec <? max_hit_distance r) = true.

Lemma block_combines {C P I} always (isx : C -> isector T P I) (g : option (geometry C T P)) l x :
  (forall c i rh rh', is_post (isx c) i rh = Ok rh' ->
     h_distance rh' = is_hd (isx c) i /\
     forall rk, is_post (isx c) i rk = Ok (RayHit (h_normal rh') (h_uv rh') (h_distance rh') (h_prim rh') (h_geom rk))) ->
  (always = true -> l = []) ->
  (forall k a, In (k, a) (asked isx g r) -> exists b rec, a = Ok (b, rec)) ->
  so_far l x -> so_far (l ++ asked isx g r) (bind x (query_block always isx g r)).
Proof.
  destruct Hord as (Hirr & Htr & Hco). intros Hp Hal Hdef ((b & rh1 & E & H1 & H2 & H3) & Hb).
  destruct x as [[[b0 rh0] tmp]| |]; try discriminate E. cbn [bind] in E. injection E as -> ->. cbn [bind].
  destruct g as [g|]; [|cbn [asked query_block]; rewrite app_nil_r; split; [exists b, rh1; auto|exact Hb]].
  cbn [query_block asked] in *. destruct (Hdef _ _ (or_introl eq_refl)) as (bg & rec & Eg).
  destruct (traverse_record (isx (g_coll g)) (g_nodes g) r (Hp (g_coll g)) _ _ _ Eg) as [Hd Hk].
  rewrite Eg, (Hk tmp). cbn [bind].
  assert (Hb' : forall k rc, In (k, Ok (true, rc)) (l ++ [(g_id g, Ok (bg, rec))]) -> (h_distance rc <? max_hit_distance r) = true).
  { intros k rc H. apply in_app_or in H as [H|[H|[]]]; [eauto|]. injection H as _ -> ->. auto. }
  split; [|exact Hb'].
  destruct bg; cbn [andb].
  - cbn [h_distance h_normal h_uv h_prim].
    destruct (always || (h_distance rec <? h_distance rh1)) eqn:Ec.
    + exists true, (RayHit (h_normal rec) (h_uv rec) (h_distance rec) (h_prim rec) (Some (g_id g))).
      split; [reflexivity|]. split; [|split; [discriminate|]].
      { split; [intros _|reflexivity]. exists (g_id g), rec. apply in_or_app. right; left; reflexivity. }
      intros _. exists l, (g_id g), rec, []. split; [reflexivity|]. split; [reflexivity|]. split; [|intros ? ? []].
      intros k rc Hin. apply orb_true_iff in Ec as [Ec|Ec]; [rewrite (Hal Ec) in Hin; destruct Hin|].
      destruct b; [|exfalso; assert (false = true) by (apply H1; eauto); discriminate].
      destruct (H3 eq_refl) as (l1 & k1 & rc1 & l2 & -> & -> & L1 & L2). cbn [h_distance] in Ec.
      apply in_app_or in Hin as [Hin|[Hin|Hin]].
      * eapply Htr; [exact Ec|eauto].
      * injection Hin as _ ->. exact Ec.
      * specialize (L2 _ _ Hin). destruct (Hco _ _ (h_distance rc) (max_hit_distance r) Ec) as [H|H]; [|exact H|congruence].
        apply (Hb k). apply in_or_app. right; right; exact Hin.
    + apply orb_false_iff in Ec as [_ Ec]. destruct b.
      * exists true, rh1. split; [reflexivity|]. split; [|split; [discriminate|]].
        { split; [intros _|reflexivity]. exists (g_id g), rec. apply in_or_app. right; left; reflexivity. }
        intros _. destruct (H3 eq_refl) as (l1 & k1 & rc1 & l2 & -> & -> & L1 & L2). cbn [h_distance] in Ec.
        exists l1, k1, rc1, (l2 ++ [(g_id g, Ok (true, rec))]). split; [rewrite <- app_assoc; reflexivity|].
        split; [reflexivity|]. split; [exact L1|]. intros k rc Hin. apply in_app_or in Hin as [Hin|[Hin|[]]]; [eauto|].
        injection Hin as _ <-. exact Ec.
      * exfalso. rewrite (H2 eq_refl), (Hmax _ (Hd eq_refl)) in Ec. discriminate.
  - exists b, rh1. split; [reflexivity|]. split; [|split; [exact H2|]].
    + rewrite H1. split; intros (k & rc & H); exists k, rc; [apply in_or_app; auto|].
      apply in_app_or in H as [H|[H|[]]]; [exact H|discriminate].
    + intros Eb. destruct (H3 Eb) as (l1 & k1 & rc1 & l2 & -> & -> & L1 & L2).
      exists l1, k1, rc1, (l2 ++ [(g_id g, Ok (false, rec))]). split; [rewrite <- app_assoc; reflexivity|].
      split; [reflexivity|]. split; [exact L1|]. intros k rc Hin. apply in_app_or in Hin as [Hin|[Hin|[]]]; [eauto|discriminate].
Qed.

Lemma query_combines s :
  (forall g a, In (g, a) (answers s r) -> exists b rec, a = Ok (b, rec)) ->
  combined (answers s r) rh (intersect1 s r rh).
Proof.
  intros Hdef. unfold answers in *.
  assert (S0 : so_far [] (Ok (false, rh, new_rayhit))).
  { split; [|intros ? ? []]. exists false, rh. split; [reflexivity|]. split; [|split; [reflexivity|discriminate]].
    split; [discriminate|intros (? & ? & [])]. }
  apply (block_combines true tri_isector (sc_mesh s)) in S0; [|exact tri_records|reflexivity|intros; eapply Hdef; apply in_or_app; eauto].
  apply (block_combines false sphere_isector (sc_spheres s)) in S0; [|exact sphere_records|discriminate|
    intros; eapply Hdef; apply in_or_app; right; apply in_or_app; eauto].
  apply (block_combines false (fun _ => plane_isector) (sc_planes s)) in S0; [|intros _; exact plane_records|discriminate|
    intros; eapply Hdef; apply in_or_app; right; apply in_or_app; right; apply in_or_app; eauto].
  apply (block_combines false (fun _ => cylinder_isector) (sc_cylinders s)) in S0; [|intros _; exact cylinder_records|discriminate|
    intros; eapply Hdef; apply in_or_app; right; apply in_or_app; right; apply in_or_app; eauto].
  destruct S0 as [S0 _]. rewrite !bind_assoc in S0. rewrite <- !app_assoc in S0. exact S0.
Qed.
End S.

Section H.
Context {T : Type} {N : num T}.
Variable part : (nat -> bool) -> list nat -> list nat * list nat.
Hypothesis Hpart : partition_ok part.
Variables (opt0 : options) (cs : list (call T)) (s : scene T) (l : list (reply T)).
Hypothesis Hrun : run part (new_scene opt0) cs = Ok (s, l).
Hypothesis Hcommit : In Commit cs.
Notation among := (fun opt : options => opt = opt0 \/ In (SetOptions opt) cs).

(** Traversing a geometry's nodes is traversing a fresh build. *)
Lemma fresh_answer {C P I} (f : C -> coll T P) (isx : isector T P I) g : geo_ok part f among true (Some g) ->
  exists opt n st, among opt /\ build part [] (f (g_coll g)) opt = Ok (n, st) /\
    forall q rh, traverse isx (g_nodes g) q rh = traverse isx n q rh.
Proof.
  intros H. destruct (H g eq_refl) as [_ H1]. destruct (H1 eq_refl) as (opt & n & st & x & Ho & B & En).
  exists opt, n, st. split; [exact Ho|]. split; [exact B|].
  intros q rh. rewrite En. destruct (build_axes _ Hpart _ _ _ _ B) as (t & -> & Hax). apply traverse_more, Hax.
Qed.

Lemma history_asked r : answers_of part opt0 cs l r (answers s r).
Proof.
  destruct (good_history part Hpart among opt0 cs s l) as (_ & G1 & G2 & G3 & G4); [split; auto|exact Hrun|].
  assert (Hc : sc_committed s = true) by (eapply committed_in; eauto). rewrite Hc in *.
  assert (A : forall g a, In (g, a) (answers s r) -> exists c k opt, geometry_of cs l g c /\ adds c = Some k /\ among opt /\ alone part opt c r a /\
    In (g, a) match k with KMesh => asked tri_isector (sc_mesh s) r | KSpheres => asked sphere_isector (sc_spheres s) r
              | KPlanes => asked (fun _ => plane_isector) (sc_planes s) r | KCylinders => asked (fun _ => cylinder_isector) (sc_cylinders s) r end).
  { intros g a H. unfold answers in H. apply in_app_or in H as [H|H]; [|apply in_app_or in H as [H|H]; [|apply in_app_or in H as [H|H]]].
    - destruct (sc_mesh s) as [y|] eqn:Ey; [|destruct H]. pose proof H as H0. destruct H as [[= <- <-]|[]].
      destruct (has_made _ _ _ _ _ KMesh Hrun) as (g & c & Gc & Kc & Mc); [cbn; rewrite Ey; reflexivity|].
      destruct c; try discriminate Kc. destruct Mc as (y' & Ey' & Eg & Em). rewrite Ey in Ey'. injection Ey' as <-. subst g.
      destruct (fresh_answer mesh_coll (tri_isector (g_coll y)) y G1) as (opt & n & st & Ho & B & Et).
      exists (AddMesh vertices faces), KMesh, opt. repeat (split; [assumption || reflexivity|]). rewrite Et. split; [|rewrite <- Et; exact H0]. cbn. eauto 6.
    - destruct (sc_spheres s) as [y|] eqn:Ey; [|destruct H]. pose proof H as H0. destruct H as [[= <- <-]|[]].
      destruct (has_made _ _ _ _ _ KSpheres Hrun) as (g & c & Gc & Kc & Mc); [cbn; rewrite Ey; reflexivity|].
      destruct c; try discriminate Kc. destruct Mc as (y' & Ey' & Eg & Em). rewrite Ey in Ey'. injection Ey' as <-. subst g.
      destruct (fresh_answer sphere_coll (sphere_isector (g_coll y)) y G2) as (opt & n & st & Ho & B & Et).
      exists (AddSpheres centers radii), KSpheres, opt. repeat (split; [assumption || reflexivity|]). rewrite Et. split; [|rewrite <- Et; exact H0]. cbn. eauto 6.
    - destruct (sc_planes s) as [y|] eqn:Ey; [|destruct H]. pose proof H as H0. destruct H as [[= <- <-]|[]].
      destruct (has_made _ _ _ _ _ KPlanes Hrun) as (g & c & Gc & Kc & Mc); [cbn; rewrite Ey; reflexivity|].
      destruct c; try discriminate Kc. destruct Mc as (y' & Ey' & Eg & Em). rewrite Ey in Ey'. injection Ey' as <-. subst g.
      destruct (fresh_answer plane_coll plane_isector y G3) as (opt & n & st & Ho & B & Et).
      exists (AddPlanes centers dxs dys rots), KPlanes, opt. repeat (split; [assumption || reflexivity|]). rewrite Et. split; [|rewrite <- Et; exact H0]. cbn. eauto 6.
    - destruct (sc_cylinders s) as [y|] eqn:Ey; [|destruct H]. pose proof H as H0. destruct H as [[= <- <-]|[]].
      destruct (has_made _ _ _ _ _ KCylinders Hrun) as (g & c & Gc & Kc & Mc); [cbn; rewrite Ey; reflexivity|].
      destruct c; try discriminate Kc. destruct Mc as (y' & Ey' & Eg & Em). rewrite Ey in Ey'. injection Ey' as <-. subst g.
      destruct (fresh_answer cylinder_coll cylinder_isector y G4) as (opt & n & st & Ho & B & Et).
      exists (AddCylinders centers sa sb hs rots), KCylinders, opt. repeat (split; [assumption || reflexivity|]). rewrite Et. split; [|rewrite <- Et; exact H0]. cbn. eauto 6. }
  split; [|split].
  - intros g a H. destruct (A g a H) as (c & k & opt & H1 & H2 & H3 & H4 & _). eauto.
  - intros g c Gc. pose proof Gc as (j & Hj & Hr).
    pose proof (made_run part opt0 cs s l Hrun g c Gc) as M. unfold answers. destruct c; cbn in M; try contradiction;
      destruct M as (y & Ey & Eg & _); rewrite Ey, <- Eg; eexists; rewrite !in_app_iff; cbn [asked In]; eauto 7.
  - assert (U : forall g c1 c2, geometry_of cs l g c1 -> geometry_of cs l g c2 -> adds c1 = adds c2).
    { intros g c1 c2 H1 H2. rewrite (geometry_unique _ _ _ _ _ _ _ _ Hrun H1 H2). reflexivity. }
    unfold answers. clear A.
    assert (B : forall k y, match k with KMesh => option_map g_id (sc_mesh s) | KSpheres => option_map g_id (sc_spheres s)
        | KPlanes => option_map g_id (sc_planes s) | KCylinders => option_map g_id (sc_cylinders s) end = Some y ->
        exists c, geometry_of cs l y c /\ adds c = Some k).
    { intros k y E. destruct (has_made _ _ _ _ _ k Hrun) as (g & c & Gc & Kc & Mc).
      - destruct k; cbn; [destruct (sc_mesh s)|destruct (sc_spheres s)|destruct (sc_planes s)|destruct (sc_cylinders s)]; try discriminate E; reflexivity.
      - exists c. split; [|exact Kc]. destruct c; cbn in Kc; try discriminate Kc; injection Kc as <-; destruct Mc as (z & Ez & Eg & _);
          rewrite Ez in E; cbn in E; injection E as <-; rewrite Eg; exact Gc. }
    assert (D : forall k1 k2 y, k1 <> k2 ->
      match k1 with KMesh => option_map g_id (sc_mesh s) | KSpheres => option_map g_id (sc_spheres s)
        | KPlanes => option_map g_id (sc_planes s) | KCylinders => option_map g_id (sc_cylinders s) end = Some y ->
      match k2 with KMesh => option_map g_id (sc_mesh s) | KSpheres => option_map g_id (sc_spheres s)
        | KPlanes => option_map g_id (sc_planes s) | KCylinders => option_map g_id (sc_cylinders s) end = Some y -> False).
    { intros k1 k2 y Hk E1 E2. destruct (B _ _ E1) as (c1 & C1 & K1), (B _ _ E2) as (c2 & C2 & K2). pose proof (U _ _ _ C1 C2). congruence. }
    clear B U. rewrite !map_app.
    pose proof (fun y => D KMesh KSpheres y ltac:(discriminate)) as D1. pose proof (fun y => D KMesh KPlanes y ltac:(discriminate)) as D2.
    pose proof (fun y => D KMesh KCylinders y ltac:(discriminate)) as D3. pose proof (fun y => D KSpheres KPlanes y ltac:(discriminate)) as D4.
    pose proof (fun y => D KSpheres KCylinders y ltac:(discriminate)) as D5. pose proof (fun y => D KPlanes KCylinders y ltac:(discriminate)) as D6.
    clear D. cbn iota in *.
    destruct (sc_mesh s) as [y1|], (sc_spheres s) as [y2|], (sc_planes s) as [y3|], (sc_cylinders s) as [y4|]; cbn in *;
      repeat (constructor; [cbn; intros HH; repeat (destruct HH as [HH|HH]); try contradiction;
        solve [eapply D1; [reflexivity|f_equal; exact HH] | eapply D2; [reflexivity|f_equal; exact HH] |
               eapply D3; [reflexivity|f_equal; exact HH] | eapply D4; [reflexivity|f_equal; exact HH] |
               eapply D5; [reflexivity|f_equal; exact HH] | eapply D6; [reflexivity|f_equal; exact HH]]|]); constructor.
Qed.

Lemma history_combines (Hord : ordered T N) r rh :
  (forall t, (t <? max_hit_distance r) = true -> (t <? h_distance rh) = true) ->
  exists la, answers_of part opt0 cs l r la /\
    ((forall g a, In (g, a) la -> exists b rec, a = Ok (b, rec)) -> combined la rh (intersect1 s r rh)).
Proof.
  intros Hmax. exists (answers s r). split; [apply history_asked|]. intros Hd. apply query_combines; auto.
Qed.
End H.
