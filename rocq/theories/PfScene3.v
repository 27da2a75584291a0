(** Scene queries: the nearest hit over the geometries. *)

From Coq Require Import Reals ZArith List Bool Arith Lia Lra.
From Verif Require Import Num NumR NumX Vec Datatypes Ray Bvh Traverse Sphere Plane Trimesh Cylinder Scene.
From Verif Require Import SpecReal SpecBvh SpecTrav SpecNearest SpecSphere SpecPlane SpecTri SpecScene.
From Verif Require Import PfBuild PfTree PfBuild2 PfStack PfTrav PfTrav2 PfX PfNearest PfNearest3 PfSphere2 PfPlane2 PfTri3 PfScene PfScene2.
Import ListNotations.

(** ** Where a scene's geometries come from *)
Section Made.
Context {T : Type} {N : num T}.
Variable part : (nat -> bool) -> list nat -> list nat * list nat.
Notation step := (@step T N part).
Notation run := (@run T N part).

(** The geometry that the accepted call [c] put into [s]. *)
Definition made (c : call T) (id : nat) (s : scene T) : Prop :=
  match c with
  | AddMesh v f => exists g, sc_mesh s = Some g /\ g_id g = id /\ make_mesh v f = Ok (g_coll g)
  | AddSpheres c r => exists g, sc_spheres s = Some g /\ g_id g = id /\ make_spheres c r = Ok (g_coll g)
  | AddPlanes c x y m => exists g, sc_planes s = Some g /\ g_id g = id /\ make_planes c x y m = Ok (g_coll g)
  | AddCylinders c a b h m => exists g, sc_cylinders s = Some g /\ g_id g = id /\ make_cylinders c a b h m = Ok (g_coll g)
  | _ => False
  end.

Lemma made_new s c s' id : step s c = Ok (s', Id (Some id)) -> made c id s'.
Proof.
  intros E. destruct c; cbn [SpecScene.step] in E.
  - apply bind_ok in E as ([s1 i] & E & E2). injection E2 as <- ->. unfold add_mesh in E.
    destruct (sc_mesh s); [discriminate|]. destruct (sc_committed s); [discriminate|].
    apply bind_ok in E as (m & Em & E). injection E as <- <-. cbn. eauto.
  - apply bind_ok in E as ([s1 i] & E & E2). injection E2 as <- ->. unfold add_spheres in E.
    destruct (sc_spheres s); [discriminate|]. destruct (sc_committed s); [discriminate|].
    apply bind_ok in E as (m & Em & E). injection E as <- <-. cbn. eauto.
  - apply bind_ok in E as ([s1 i] & E & E2). injection E2 as <- ->. unfold add_planes in E.
    destruct (sc_planes s); [discriminate|]. destruct (sc_committed s); [discriminate|].
    apply bind_ok in E as (m & Em & E). injection E as <- <-. cbn. eauto.
  - apply bind_ok in E as ([s1 i] & E & E2). injection E2 as <- ->. unfold add_cylinders in E.
    destruct (sc_cylinders s); [discriminate|]. destruct (sc_committed s); [discriminate|].
    apply bind_ok in E as (m & Em & E). injection E as <- <-. cbn. eauto.
  - discriminate.
  - apply bind_ok in E as (s1 & E & E2). discriminate.
  - apply bind_ok in E as ([b rh'] & E & E2). discriminate.
Qed.

(** Geometries stay, with their collection and id. *)
Definition keeps {C P} (g g' : option (geometry C T P)) : Prop :=
  forall x, g = Some x -> exists y, g' = Some y /\ g_id y = g_id x /\ g_coll y = g_coll x.
Lemma keeps_refl {C P} (g : option (geometry C T P)) : keeps g g.
Proof. intros x ->. eauto. Qed.
Lemma keeps_none {C P} (g : option (geometry C T P)) : keeps None g.
Proof. intros x. discriminate. Qed.
Lemma keeps_build {C P} (f : C -> coll T P) opt g g' : build_geometry part f opt g = Ok g' -> keeps g g'.
Proof. intros H x ->. apply build_geometry_some in H as (n & st & _ & ->). eauto. Qed.

Lemma step_keeps s c s' a : step s c = Ok (s', a) ->
  keeps (sc_mesh s) (sc_mesh s') /\ keeps (sc_spheres s) (sc_spheres s') /\
  keeps (sc_planes s) (sc_planes s') /\ keeps (sc_cylinders s) (sc_cylinders s').
Proof.
  intros E. destruct c; cbn [SpecScene.step] in E.
  - apply bind_ok in E as ([s1 i] & E & E2). injection E2 as <- <-. unfold add_mesh in E.
    destruct (sc_mesh s) eqn:Em; [injection E as <- <-; rewrite Em; auto 8 using @keeps_refl|].
    destruct (sc_committed s); [injection E as <- <-; rewrite Em; auto 8 using @keeps_refl|].
    apply bind_ok in E as (m & _ & E). injection E as <- <-. cbn. auto 8 using @keeps_refl, @keeps_none.
  - apply bind_ok in E as ([s1 i] & E & E2). injection E2 as <- <-. unfold add_spheres in E.
    destruct (sc_spheres s) eqn:Em; [injection E as <- <-; rewrite Em; auto 8 using @keeps_refl|].
    destruct (sc_committed s); [injection E as <- <-; rewrite Em; auto 8 using @keeps_refl|].
    apply bind_ok in E as (m & _ & E). injection E as <- <-. cbn. auto 8 using @keeps_refl, @keeps_none.
  - apply bind_ok in E as ([s1 i] & E & E2). injection E2 as <- <-. unfold add_planes in E.
    destruct (sc_planes s) eqn:Em; [injection E as <- <-; rewrite Em; auto 8 using @keeps_refl|].
    destruct (sc_committed s); [injection E as <- <-; rewrite Em; auto 8 using @keeps_refl|].
    apply bind_ok in E as (m & _ & E). injection E as <- <-. cbn. auto 8 using @keeps_refl, @keeps_none.
  - apply bind_ok in E as ([s1 i] & E & E2). injection E2 as <- <-. unfold add_cylinders in E.
    destruct (sc_cylinders s) eqn:Em; [injection E as <- <-; rewrite Em; auto 8 using @keeps_refl|].
    destruct (sc_committed s); [injection E as <- <-; rewrite Em; auto 8 using @keeps_refl|].
    apply bind_ok in E as (m & _ & E). injection E as <- <-. cbn. auto 8 using @keeps_refl, @keeps_none.
  - injection E as <- <-. cbn. auto 8 using @keeps_refl.
  - apply bind_ok in E as (s1 & E & E2). injection E2 as <- <-. apply commit_inv in E as (_ & _ & _ & H1 & H2 & H3 & H4).
    eauto 8 using @keeps_build.
  - apply bind_ok in E as ([b rh'] & E & E2). injection E2 as <- <-. auto 8 using @keeps_refl.
Qed.

Lemma made_keeps s c s' a c0 id : step s c = Ok (s', a) -> made c0 id s -> made c0 id s'.
Proof.
  intros E. apply step_keeps in E as (K1 & K2 & K3 & K4).
  destruct c0; cbn [made]; try tauto; intros (g & Eg & <- & Em);
    [apply K1 in Eg|apply K2 in Eg|apply K3 in Eg|apply K4 in Eg];
    destruct Eg as (y & Ey & H1 & H2); exists y; rewrite H1, H2; auto.
Qed.

Lemma made_run opt cs : forall s l, run (new_scene opt) cs = Ok (s, l) ->
  forall g c, geometry_of cs l g c -> made c g s.
Proof.
  induction cs as [|c cs IH] using rev_ind; intros s l H g c0 (j & Hj & Hl).
  - destruct j; discriminate.
  - apply run_snoc in H as (s1 & l1 & a & E1 & E2 & ->). pose proof (run_length _ _ _ _ _ E1) as Hlen.
    destruct (Nat.lt_ge_cases j (length cs)) as [Hlt|Hge].
    + rewrite nth_error_app1 in Hj, Hl by lia. eapply made_keeps; [exact E2|]. eapply IH; [exact E1|]. exists j. auto.
    + rewrite nth_error_app2 in Hj, Hl by lia. rewrite Hlen in Hl.
      destruct (j - length cs) as [|n]; [|destruct n; discriminate].
      injection Hj as <-. injection Hl as ->. eapply made_new, E2.
Qed.

Lemma ids_in (l : list (reply T)) j g : nth_error l j = Some (Id (Some g)) -> In g (ids l).
Proof.
  revert j. induction l as [|a l IH]; intros [|j] H; try discriminate; cbn in H.
  - injection H as ->. left; reflexivity.
  - apply IH in H. destruct a as [[n|]| |]; cbn; auto.
Qed.
Lemma ids_unique (l : list (reply T)) g : NoDup (ids l) -> forall j k,
  nth_error l j = Some (Id (Some g)) -> nth_error l k = Some (Id (Some g)) -> j = k.
Proof.
  induction l as [|a l IH]; intros Hn [|j] [|k] Hj Hk; try discriminate; cbn in Hj, Hk; auto.
  - injection Hj as ->. cbn in Hn. inversion Hn; subst. apply ids_in in Hk. contradiction.
  - injection Hk as ->. cbn in Hn. inversion Hn; subst. apply ids_in in Hj. contradiction.
  - f_equal. apply IH; auto. destruct a as [[n|]| |]; cbn in Hn; auto. inversion Hn; auto.
Qed.
Lemma geometry_unique opt cs s l g c c' : run (new_scene opt) cs = Ok (s, l) ->
  geometry_of cs l g c -> geometry_of cs l g c' -> c = c'.
Proof.
  intros H (j & H1 & H2) (k & H3 & H4). destruct (run_inv _ _ _ _ _ H) as ((_ & Hi & _) & _).
  assert (j = k) as <- by (apply (ids_unique l g); auto; rewrite Hi; apply seq_NoDup). congruence.
Qed.

(** Each geometry of the scene comes from a call. *)
Lemma has_made opt cs s l k : run (new_scene opt) cs = Ok (s, l) -> has s k = true ->
  exists g c, geometry_of cs l g c /\ adds c = Some k /\ made c g s.
Proof.
  intros H E. destruct (run_inv _ _ _ _ _ H) as (_ & _ & _ & Hh). apply Hh in E as (j & b & [(c & Hc & Hk) Hb] & g & ->).
  exists g, c. assert (G : geometry_of cs l g c) by (exists j; auto). split; [exact G|]. split; [exact Hk|]. eapply made_run; eauto.
Qed.
End Made.

(** ** Combining the blocks *)
Section Combine.
Variables big tiny eps : R.
Notation XN := (Xnum big tiny eps).
Variable r : ray xr.
Variable any : bool.
Variable rh0 : rayhit xr.

Definition blocks (firm hit : nat -> nat -> R -> Prop) (about : nat -> nat -> R -> rayhit xr -> Prop)
    (x : res (bool * rayhit xr * rayhit xr)) : Prop :=
  scene_answer firm hit about any rh0 (do (h, rh, _) <- x; Ok (h, rh)).

Definition with_geom (g : nat) (rh : rayhit xr) : rayhit xr :=
  RayHit (h_normal rh) (h_uv rh) (h_distance rh) (h_prim rh) (Some g).

Lemma block_step {C P I} always (isx : C -> isector xr P I) (g : geometry C xr P) firm hit about firm1 hit1 about1 x :
  blocks firm hit about x ->
  (always = true -> exists tmp, x = Ok (false, rh0, tmp)) ->
  (forall tmp, loose_answer firm1 hit1 about1 any tmp (@traverse _ XN _ _ (isx (g_coll g)) (g_nodes g) r tmp)) ->
  (forall i t rh k, about1 i t rh -> about1 i t (with_geom k rh)) ->
  (forall i t, hit1 i t -> xltb (Fin t) (h_distance rh0) = true) ->
  blocks (fun k i t => firm k i t \/ (k = g_id g /\ firm1 i t))
    (fun k i t => hit k i t \/ (k = g_id g /\ hit1 i t))
    (fun k i t rh => about k i t rh \/ (k = g_id g /\ about1 i t rh))
    (bind x (@query_block _ XN _ _ _ always isx (Some g) r)).
Proof.
  intros (b & rh & E & H0 & H1) Hal Hq Hgeom Hmax. destruct x as [[[h rh'] tmp]|w|]; try discriminate E.
  cbn in E. injection E as -> ->. cbn [bind query_block].
  destruct (Hq tmp) as (b1 & tmp1 & E1 & Q0 & Q1). rewrite E1. cbn [bind].
  destruct b1; cbn [andb].
  - clear Q0. destruct (Q1 eq_refl) as (i & t & A1 & A2 & A3 & A4 & A5 & A6).
    match goal with |- context [if ?c then _ else _] => destruct c eqn:Ec end.
    + unfold blocks. cbn [bind]. eexists true, _. split; [reflexivity|]. split; [discriminate|]. intros _.
      exists (g_id g), i, t. split; [right; auto|]. cbn [h_geom h_prim h_distance]. split; [reflexivity|]. split; [exact A2|].
      split; [exact A3|]. split; [right; split; [reflexivity|]; apply (Hgeom i t tmp1 (g_id g) A5)|].
      intros Ha k j u [Hu|[_ Hu]]; [|apply (A6 Ha _ _ Hu)].
      destruct b; [|destruct (H0 eq_refl) as [_ Hn]; destruct (Hn _ _ _ Hu)].
      destruct (H1 eq_refl) as (g0 & i0 & t0 & B1 & B2 & B3 & B4 & B5 & B6).
      destruct always; [destruct (Hal eq_refl) as (tmp0 & [= <- _])|].
      cbn [orb] in Ec. specialize (B6 Ha _ _ _ Hu).
      change (xltb (h_distance tmp1) (h_distance rh) = true) in Ec.
      rewrite (isR_ltb _ _ _ _ A3 B4), Rltb_spec in Ec. lra.
    + apply orb_false_iff in Ec as [_ Ec]. unfold blocks. cbn [bind].
      destruct b.
      * destruct (H1 eq_refl) as (g0 & i0 & t0 & B1 & B2 & B3 & B4 & B5 & B6).
        exists true, rh. split; [reflexivity|]. split; [discriminate|]. intros _. exists g0, i0, t0.
        split; [auto|]. split; [exact B2|]. split; [exact B3|]. split; [exact B4|]. split; [auto|].
        intros Ha k j u [Hu|[_ Hu]]; [apply (B6 Ha _ _ _ Hu)|]. specialize (A6 Ha _ _ Hu).
        change (xltb (h_distance tmp1) (h_distance rh) = false) in Ec.
        rewrite (isR_ltb _ _ _ _ A3 B4), Rltb_false in Ec. lra.
      * exfalso. destruct (H0 eq_refl) as [-> _]. specialize (Hmax _ _ A1).
        destruct (h_distance tmp1) as [| |s1 a1]; try contradiction. cbn in A3. subst a1.
        change (xltb (Xf s1 t) (h_distance rh0) = false) in Ec.
        destruct (h_distance rh0); cbn in Ec, Hmax; congruence.
  - destruct (Q0 eq_refl) as [-> Qn]. unfold blocks. cbn [bind]. exists b, rh. split; [reflexivity|]. split.
    + intros Eb. destruct (H0 Eb) as [E0 Hn]. split; [exact E0|]. intros k j u [Hu|[_ Hu]]; [exact (Hn _ _ _ Hu)|exact (Qn _ _ Hu)].
    + intros Eb. destruct (H1 Eb) as (g0 & i0 & t0 & B1 & B2 & B3 & B4 & B5 & B6). exists g0, i0, t0.
      split; [auto|]. split; [exact B2|]. split; [exact B3|]. split; [exact B4|]. split; [auto|].
      intros Ha k j u [Hu|[_ Hu]]; [apply (B6 Ha _ _ _ Hu)|destruct (Qn _ _ Hu)].
Qed.

Lemma blocks_none {C P I} always (isx : C -> isector xr P I) firm hit about x :
  blocks firm hit about x -> blocks firm hit about (bind x (@query_block _ XN _ _ _ always isx None r)).
Proof. destruct x; cbn; auto. Qed.

Lemma answer_mono (firm hit firm' hit' : nat -> nat -> R -> Prop) (about about' : nat -> nat -> R -> rayhit xr -> Prop) res :
  (forall g i t, firm' g i t -> firm g i t) -> (forall g i t, hit g i t -> hit' g i t) ->
  (forall g i t rh, about g i t rh -> about' g i t rh) ->
  scene_answer firm hit about any rh0 res -> scene_answer firm' hit' about' any rh0 res.
Proof.
  intros F H A (b & rh & E & H0 & H1). exists b, rh. split; [exact E|]. split.
  - intros Eb. destruct (H0 Eb) as [E0 Hn]. split; [exact E0|]. intros g j u Hu. apply (Hn g j u), F, Hu.
  - intros Eb. destruct (H1 Eb) as (g0 & i0 & t0 & B1 & B2 & B3 & B4 & B5 & B6). exists g0, i0, t0.
    split; [auto|]. split; [exact B2|]. split; [exact B3|]. split; [exact B4|]. split; [auto|].
    intros Ha k j u Hu. apply (B6 Ha k j), F, Hu.
Qed.
End Combine.
