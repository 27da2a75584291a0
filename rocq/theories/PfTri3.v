(** Mesh queries through a built tree. *)

From Coq Require Import Reals ZArith List Bool Arith Lra Lia.
From Verif Require Import Num NumR NumX Vec Datatypes Ray Bvh Traverse Trimesh SpecBvh SpecReal SpecNearest SpecTri.
From Verif Require Import PfBuild PfX PfNumbered PfPlane PfSphere2 PfDefined2 PfNearest3 PfTri PfTri2.
Import ListNotations.
Local Open Scope R_scope.

Section S.
Variables big tiny eps : R.
Notation XN := (Xnum big tiny eps).
Notation tol := (4 * eps).
Hypothesis Heps : 0 <= eps.
Variables (vertices : list (vec xr)) (faces : list (vec nat)) (P : nat -> vec R) (ms : mesh xr).
Hypothesis Hdata : mesh_are vertices faces P.
Hypothesis Hmake : @make_mesh _ XN vertices faces = Ok ms.
Notation bmin := (fun i => tri_lower (fa faces P i) (fb faces P i) (fc faces P i)).
Notation bmax := (fun i => tri_upper (fa faces P i) (fb faces P i) (fc faces P i)).
Hypothesis Hbd : forall i, (i < length faces)%nat -> in_bounds big (bmin i) /\ in_bounds big (bmax i).

Let Hv := proj1 Hdata.
Let Hf := proj2 Hdata.
Let facts := mesh_facts big tiny eps vertices P Hv faces Hf ms Hmake.

Lemma mesh_size : c_size (@mesh_coll _ XN ms) = length faces.
Proof. cbn. rewrite (proj1 (proj2 facts)). reflexivity. Qed.

Lemma mesh_boxes : boxes_are (@mesh_coll _ XN ms) bmin bmax.
Proof.
  destruct facts as (_ & M2 & _ & M4 & _). intros i Hi. rewrite mesh_size in Hi. cbn [c_box mesh_coll].
  destruct (M4 i (face faces i)) as (b & g & Eb & _ & V1 & V2 & _); [apply nth_error_nth', Hi|].
  exists b. split; [apply at_ok, Eb|]. split; assumption.
Qed.

Lemma mesh_prims i : (i < length faces)%nat ->
  exists a b c, @tri_prim _ XN ms i = Ok (@make_triangle _ XN a b c i) /\
    visR a (fa faces P i) /\ visR b (fb faces P i) /\ visR c (fc faces P i).
Proof.
  intros Hi. destruct facts as (M1 & M2 & _).
  assert (Ef : nth_error faces i = Some (face faces i)) by (apply nth_error_nth', Hi).
  destruct (face_vertices_ok vertices P Hv (face faces i)) as (a & b & c & E & Va & Vb & Vc).
  { apply Hf. eapply nth_error_In, Ef. }
  exists a, b, c. split; [|auto]. unfold tri_prim. rewrite M1, M2, (at_ok _ _ _ _ Ef). cbn [bind].
  rewrite E. reflexivity.
Qed.

Variable part : (nat -> bool) -> list nat -> list nat * list nat.
Hypothesis Hpart : partition_ok part.
Variable opt : options.
Variables (nodes : list (node xr (triangle xr))) (st : stats).
Hypothesis Hbuild : @build _ XN _ part [] (@mesh_coll _ XN ms) opt = Ok (nodes, st).
Hypothesis Hdepth : forall k d, node_depth nodes k d -> (d <= 26)%nat.
Variables (o d : vec xr) (tmin tmax : xr) (any : bool) (O D : vec R) (m : R).
Hypothesis Had : wide o d tmin O D m.
Hypothesis Hz : vz D = 0 -> forall i, (i < length faces)%nat ->
  vz O <> vz (bmin i) /\ vz O <> vz (bmax i).
Notation r := (@make_ray _ XN o d tmin tmax any).
Notation U := (unit_of D).

Let best (p : triangle xr) : option R :=
  let k := tr_id p in tri_best tol (fa faces P k) (fb faces P k) (fc faces P k) O U m.
Let inv (i : tri_isect xr) : Prop := ti_min i = tmin.
Let won (p : triangle xr) (i : tri_isect xr) : Prop :=
  ti_prim i = Some (tr_id p) /\
  forall t, best p = Some t -> exists u v, isR (fst (ti_uv i)) u /\ isR (snd (ti_uv i)) v /\
    at_t O U t = bary (fa faces P (tr_id p)) (fb faces P (tr_id p)) (fc faces P (tr_id p)) u v.

Lemma mesh_contract :
  contract (@tri_isector _ XN ms) r
    (fun p => exists i, (i < c_size (@mesh_coll _ XN ms))%nat /\ c_prim (@mesh_coll _ XN ms) i = Ok p) best inv won.
Proof.
  destruct (unit_visR_wide big tiny eps o d tmin tmax any O D m Had) as [HU HU1].
  constructor.
  - reflexivity.
  - reflexivity.
  - intros i p (k & Hk & Ek) I1. rewrite mesh_size in Hk. cbn [c_prim mesh_coll] in Ek.
    destruct (mesh_prims k Hk) as (a & b & c & Ep & P1 & P2 & P3). rewrite Ek in Ep. injection Ep as ->.
    cbn [is_prim is_hd tri_isector].
    pose proof (tri_step big tiny eps i a b c k r O U m (fa faces P k) (fb faces P k) (fc faces P k)) as Hs.
    unfold inv in I1. rewrite I1 in Hs.
    specialize (Hs (wd_o _ _ _ _ _ _ Had) HU (wd_min _ _ _ _ _ _ Had) P1 P2 P3).
    unfold won, best. cbv zeta. change (tr_id (@make_triangle _ XN a b c k)) with k.
    destruct (tri_best tol (fa faces P k) (fb faces P k) (fc faces P k) O U m) as [t|] eqn:Eb; [|exact Hs].
    destruct (xltb (Fin t) (ti_hd i)); [|exact Hs].
    destruct Hs as (hd & u & v & Hhd & Hu & Hv' & E). eexists. split; [exact E|].
    unfold inv. cbn [ti_min ti_hd ti_prim ti_uv fst snd].
    split; [reflexivity|]. split; [exact Hhd|]. split; [reflexivity|]. intros t' Et. injection Et as <-.
    do 2 eexists. split; [exact Hu|]. split; [exact Hv'|].
    unfold tri_best in Eb. destruct (Req_EM_T _ 0) as [|Hd]; [discriminate|].
    apply cramer; [exact Hd|]. repeat destruct (Rle_dec _ _); try discriminate. injection Eb as <-. auto.
Qed.

(** Crossings from [m] times the direction's length on are not missed. *)
Lemma mesh_query_wide rh :
  loose_answer (mesh_cross faces P O U (m * rv_norm D) tmax) (mesh_hit tol faces P O U m tmax) (mesh_about faces P O U) any rh
    (@traverse _ XN _ _ (@tri_isector _ XN ms) nodes r rh).
Proof.
  assert (Hgood : forall p, (exists i, (i < c_size (@mesh_coll _ XN ms))%nat /\ c_prim (@mesh_coll _ XN ms) i = Ok p) ->
    (tr_id p < length faces)%nat).
  { intros p (k & Hk & Ek). rewrite mesh_size in Hk. cbn [c_prim mesh_coll] in Ek.
    destruct (mesh_prims k Hk) as (a & b & c & Ep & _). rewrite Ek in Ep. injection Ep as ->. exact Hk. }
  assert (H4 : 0 <= tol) by lra.
  assert (Hbd' : forall i, (i < c_size (@mesh_coll _ XN ms))%nat -> in_bounds big (bmin i) /\ in_bounds big (bmax i)).
  { rewrite mesh_size. exact Hbd. }
  assert (Hz' : vz D = 0 -> forall i, (i < c_size (@mesh_coll _ XN ms))%nat -> vz O <> vz (bmin i) /\ vz O <> vz (bmax i)).
  { rewrite mesh_size. exact Hz. }
  pose proof (loose_theorem big tiny eps Heps (@mesh_coll _ XN ms) _ _ mesh_boxes Hbd' part Hpart opt nodes st Hbuild
    Hdepth tr_id (@mesh_numbered _ XN ms) o d tmin tmax any O D m Had Hz' (@tri_isector _ XN ms)
    best inv won mesh_contract
    (fun i t => tri_det (fa faces P i) (fb faces P i) (fc faces P i) U <> 0 /\
       on_tri (fa faces P i) (fb faces P i) (fc faces P i) (at_t O U t) /\ m * rv_norm D <= t)
    (fun i t => tri_meets tol (fa faces P i) (fb faces P i) (fc faces P i) O U m t) (mesh_about faces P O U)) as HL.
  rewrite mesh_size in HL. apply HL; clear HL.
  - intros p t Hp Eb. apply (tri_best_some _ _ _ _ _ _ _ _ Eb).
  - intros p u Hp (F1 & F2 & F3).
    assert (Hm : tri_meets tol (fa faces P (tr_id p)) (fb faces P (tr_id p)) (fc faces P (tr_id p)) O U m u).
    { split; [exact F1|]. split; [apply on_tri_near; assumption|].
      pose proof (wd_len _ _ _ _ _ _ Had). pose proof (wd_m _ _ _ _ _ _ Had). nra. }
    unfold best. cbv zeta. destruct (tri_best _ _ _ _ _ _ _) as [t|] eqn:Eb.
    + f_equal. symmetry. apply (tri_best_some _ _ _ _ _ _ _ _ Eb). exact Hm.
    + destruct (tri_best_none _ _ _ _ _ _ _ Eb u Hm).
  - intros i Hi. destruct (mesh_prims i Hi) as (a & b & c & Ep & _). eexists. exact Ep.
  - intros i t Hi (_ & Ht & Hm). split; [exact Hm|]. apply tri_in_box, Ht.
  - intros p i t rh0 Hp Eb [W1 W2] Hhd. destruct (W2 t Eb) as (u & v & Hu & Hv' & E).
    rewrite <- mesh_size in Hp.
    destruct (tri_post_ok big tiny eps vertices P Hv faces Hf ms i rh0 (tr_id p) u v Hmake W1 (Hgood p Hp) Hu Hv')
      as (rh' & E' & Q1 & Q2 & Q3 & Q4 & Q5).
    cbn [is_post is_hd tri_isector] in *. exists rh'. split; [exact E'|]. split; [exact Q1|].
    split; [rewrite Q2; exact Hhd|]. split; [exact Q4|].
    exists u, v. rewrite Q3. auto.
Qed.

End S.

Lemma mesh_query big tiny eps (Heps : 0 <= eps) vertices faces P ms :
  mesh_are vertices faces P -> @make_mesh _ (Xnum big tiny eps) vertices faces = Ok ms ->
  (forall i, (i < length faces)%nat ->
     in_bounds big (tri_lower (fa faces P i) (fb faces P i) (fc faces P i)) /\
     in_bounds big (tri_upper (fa faces P i) (fb faces P i) (fc faces P i))) ->
  forall part, partition_ok part -> forall opt nodes st,
  @build _ (Xnum big tiny eps) _ part [] (@mesh_coll _ (Xnum big tiny eps) ms) opt = Ok (nodes, st) ->
  (forall k d, node_depth nodes k d -> (d <= 26)%nat) ->
  forall o d tmin tmax any O D m, admissible o d tmin O D m ->
  (vz D = 0 -> forall i, (i < length faces)%nat ->
     vz O <> vz (tri_lower (fa faces P i) (fb faces P i) (fc faces P i)) /\
     vz O <> vz (tri_upper (fa faces P i) (fb faces P i) (fc faces P i))) ->
  forall rh,
  loose_answer (mesh_cross faces P O (unit_of D) m tmax) (mesh_hit (4 * eps) faces P O (unit_of D) m tmax)
    (mesh_about faces P O (unit_of D)) any rh
    (@traverse _ (Xnum big tiny eps) _ _ (@tri_isector _ (Xnum big tiny eps) ms) nodes
       (@make_ray _ (Xnum big tiny eps) o d tmin tmax any) rh).
Proof.
  intros H1 H2 H3 part H4 opt nodes st H5 H6 o d tmin tmax any O D m H7 H8 rh.
  pose proof (mesh_query_wide big tiny eps Heps vertices faces P ms H1 H2 H3 part H4 opt nodes st H5 H6
    o d tmin tmax any O D m (admissible_wide _ _ _ _ _ _ H7) H8 rh) as (b & rh' & E & Q0 & Q1).
  assert (Hfar : forall i t, mesh_cross faces P O (unit_of D) m tmax i t ->
    mesh_cross faces P O (unit_of D) (m * rv_norm D) tmax i t).
  { intros i t (F1 & (F2 & F3 & F4) & F5). split; [exact F1|]. split; [|exact F5]. split; [exact F2|]. split; [exact F3|].
    exact (admissible_far _ _ _ _ _ _ _ H7 F4). }
  exists b, rh'. split; [exact E|]. split.
  - intros Eb. destruct (Q0 Eb) as [A B]. split; [exact A|]. intros j u Hj. exact (B j u (Hfar _ _ Hj)).
  - intros Eb. destruct (Q1 Eb) as (i & t & A1 & A2 & A3 & A4 & A5 & A6). exists i, t.
    split; [exact A1|]. split; [exact A2|]. split; [exact A3|]. split; [exact A4|]. split; [exact A5|].
    intros Ha j u Hj. exact (A6 Ha j u (Hfar _ _ Hj)).
Qed.

(** With zero tolerance. *)
Lemma mesh_hit_cross faces P O U m tmax i t :
  mesh_cross faces P O U m tmax i t <-> mesh_hit (4 * 0) faces P O U m tmax i t.
Proof.
  unfold mesh_cross, mesh_hit. rewrite Rmult_0_r. split.
  - intros (H1 & (H2 & H3 & H4) & H5). repeat split; auto. apply on_tri_near; [lra|exact H3].
  - intros (H1 & (H2 & (u & v & H3) & H4) & H5). repeat split; auto. exact (near_on_tri _ _ _ _ _ _ _ H2 H3).
Qed.

Lemma mesh_exact_query big tiny vertices faces P ms part opt nodes st o d tmin tmax any O D m rh :
  mesh_are vertices faces P -> @make_mesh _ (Xnum big tiny 0) vertices faces = Ok ms ->
  (forall i, (i < length faces)%nat ->
     in_bounds big (tri_lower (fa faces P i) (fb faces P i) (fc faces P i)) /\
     in_bounds big (tri_upper (fa faces P i) (fb faces P i) (fc faces P i))) ->
  partition_ok part -> @build _ (Xnum big tiny 0) _ part [] (@mesh_coll _ (Xnum big tiny 0) ms) opt = Ok (nodes, st) ->
  (forall k d, node_depth nodes k d -> (d <= 26)%nat) -> admissible o d tmin O D m ->
  (vz D = 0 -> forall i, (i < length faces)%nat ->
     vz O <> vz (tri_lower (fa faces P i) (fb faces P i) (fc faces P i)) /\
     vz O <> vz (tri_upper (fa faces P i) (fb faces P i) (fc faces P i))) ->
  hit_answer (mesh_cross faces P O (unit_of D) m tmax) (mesh_about faces P O (unit_of D)) any rh
    (@traverse _ (Xnum big tiny 0) _ _ (@tri_isector _ (Xnum big tiny 0) ms) nodes
       (@make_ray _ (Xnum big tiny 0) o d tmin tmax any) rh).
Proof.
  intros H1 H2 H3 H4 H5 H6 H7 H8.
  pose proof (mesh_query big tiny 0 (Rle_refl 0) vertices faces P ms H1 H2 H3 part H4 opt nodes st H5 H6
    o d tmin tmax any O D m H7 H8 rh) as Q.
  apply (loose_hit (mesh_cross faces P O (unit_of D) m tmax) (mesh_cross faces P O (unit_of D) m tmax)); [reflexivity|].
  destruct Q as (b & rh' & E & Q0 & Q1). exists b, rh'. split; [exact E|]. split; [exact Q0|].
  intros Eb. destruct (Q1 Eb) as (i & t & A & Rest). exists i, t. split; [apply mesh_hit_cross, A|exact Rest].
Qed.

Lemma mesh_build_ok big tiny eps vertices faces P ms part opt :
  mesh_are vertices faces P -> @make_mesh _ (Xnum big tiny eps) vertices faces = Ok ms ->
  (forall i, (i < length faces)%nat ->
     in_bounds big (tri_lower (fa faces P i) (fb faces P i) (fc faces P i)) /\
     in_bounds big (tri_upper (fa faces P i) (fb faces P i) (fc faces P i))) ->
  partition_ok part -> (1 <= bin_size opt)%nat -> (3 * Z.of_nat (bin_size opt) < 4294967296)%Z ->
  exists nodes st, @build _ (Xnum big tiny eps) _ part [] (@mesh_coll _ (Xnum big tiny eps) ms) opt = Ok (nodes, st).
Proof.
  intros Hd Hm Hb Hp H1 H2.
  pose proof (mesh_size big tiny eps vertices faces P ms Hd Hm) as Hs.
  apply (build_ok big tiny eps (@mesh_coll _ (Xnum big tiny eps) ms) (fun i => tri_lower (fa faces P i) (fb faces P i) (fc faces P i))
    (fun i => tri_upper (fa faces P i) (fb faces P i) (fc faces P i))
    (fun i => tri_mid (fa faces P i) (fb faces P i) (fc faces P i))); auto; try (rewrite Hs).
  - apply (mesh_boxes big tiny eps vertices faces P ms Hd Hm).
  - exact Hb.
  - intros i Hi. destruct Hd as [Hv Hf].
    destruct (mesh_facts big tiny eps vertices P Hv faces Hf ms Hm) as (_ & M2 & _ & M4 & _).
    destruct (M4 i (face faces i)) as (b & g & _ & Eg & _ & _ & V3); [apply nth_error_nth', Hi|].
    exists g. cbn [c_center mesh_coll]. split; [apply at_ok, Eg|]. split; [exact V3|]. apply tri_in_box, tri_mid_on.
  - intros i Hi. destruct (mesh_prims big tiny eps vertices faces P ms Hd Hm i Hi) as (a & b & c & Ep & _). eauto.
Qed.

Lemma mesh_agree big tiny vertices faces P ms part1 part2 opt1 opt2 nodes1 nodes2 st1 st2 o d d' k tmin tmax O D m rh1 rh2 :
  mesh_are vertices faces P -> @make_mesh _ (Xnum big tiny 0) vertices faces = Ok ms ->
  (forall i, (i < length faces)%nat ->
     in_bounds big (tri_lower (fa faces P i) (fb faces P i) (fc faces P i)) /\
     in_bounds big (tri_upper (fa faces P i) (fb faces P i) (fc faces P i))) ->
  partition_ok part1 -> @build _ (Xnum big tiny 0) _ part1 [] (@mesh_coll _ (Xnum big tiny 0) ms) opt1 = Ok (nodes1, st1) ->
  partition_ok part2 -> @build _ (Xnum big tiny 0) _ part2 [] (@mesh_coll _ (Xnum big tiny 0) ms) opt2 = Ok (nodes2, st2) ->
  (forall k d, node_depth nodes1 k d -> (d <= 26)%nat) ->
  (forall k d, node_depth nodes2 k d -> (d <= 26)%nat) ->
  admissible o d tmin O D m -> 0 < k -> admissible o d' tmin O (rv_scale k D) m ->
  (vz D = 0 -> forall i, (i < length faces)%nat ->
     vz O <> vz (tri_lower (fa faces P i) (fb faces P i) (fc faces P i)) /\
     vz O <> vz (tri_upper (fa faces P i) (fb faces P i) (fc faces P i))) ->
  same_answer
    (@traverse _ (Xnum big tiny 0) _ _ (@tri_isector _ (Xnum big tiny 0) ms) nodes1
       (@make_ray _ (Xnum big tiny 0) o d tmin tmax false) rh1)
    (@traverse _ (Xnum big tiny 0) _ _ (@tri_isector _ (Xnum big tiny 0) ms) nodes2
       (@make_ray _ (Xnum big tiny 0) o d' tmin tmax false) rh2).
Proof.
  intros Hd Hm Hb Hp1 Eb1 Hp2 Eb2 Hd1 Hd2 Had Hk Had' Hz.
  assert (Hz' : vz (rv_scale k D) = 0 -> forall i, (i < length faces)%nat ->
     vz O <> vz (tri_lower (fa faces P i) (fb faces P i) (fc faces P i)) /\
     vz O <> vz (tri_upper (fa faces P i) (fb faces P i) (fc faces P i))).
  { intros H. apply Hz. cbn in H. apply Rmult_integral in H. destruct H; lra. }
  pose proof (mesh_exact_query big tiny vertices faces P ms part1 opt1 nodes1 st1 o d tmin tmax false O D m rh1
    Hd Hm Hb Hp1 Eb1 Hd1 Had Hz) as Q1.
  pose proof (mesh_exact_query big tiny vertices faces P ms part2 opt2 nodes2 st2 o d' tmin tmax false O _ m rh2
    Hd Hm Hb Hp2 Eb2 Hd2 Had' Hz') as Q2.
  rewrite unit_of_scale in Q2; [|exact Hk|destruct (ad_len _ _ _ _ _ _ Had); lra].
  exact (hit_answers_agree _ _ _ _ _ _ _ Q1 Q2).
Qed.

(** C24 without tolerance. *)
Lemma tri_exact_zero big tiny i a b c id r O U m A B C h i' :
  visR (origin r) O -> visR (direction r) U -> isR (ti_min i) m -> visR a A -> visR b B -> visR c C ->
  @tri_intersect _ (Xnum big tiny 0) i (@make_triangle _ (Xnum big tiny 0) a b c id) r = (h, i') ->
  (h = true <-> exists t, tri_det A B C U <> 0 /\ on_tri A B C (at_t O U t) /\ m <= t /\
     xltb (Fin t) (ti_hd i) = true).
Proof.
  intros H1 H2 H3 H4 H5 H6 E.
  destruct (tri_exact big tiny 0 i a b c id r O U m A B C h i' H1 H2 H3 H4 H5 H6 E) as (K & _).
  rewrite K. replace (4 * 0) with 0 by ring. split.
  - intros (t & u & v & D1 & D2 & D3). exists t. split; [exact D1|]. split; [|exact D3].
    exact (near_on_tri _ _ _ _ _ _ _ D1 D2).
  - intros (t & D1 & D2 & D3). destruct (on_tri_near 0 A B C U _ (Rle_refl 0) D2) as (u & v & N). exists t, u, v. auto.
Qed.

(** C27: the statements about normals without the rest of the mesh. *)
Lemma mesh_normals big tiny eps vertices faces P ms :
  mesh_are vertices faces P -> @make_mesh _ (Xnum big tiny eps) vertices faces = Ok ms -> proper P faces ->
  (forall i, (i < length faces)%nat -> exists n, nth_error (m_fnormals ms) i = Some n /\
     visR n (face_normal P (face faces i))) /\
  (forall j, (j < length vertices)%nat -> exists n, nth_error (m_vnormals ms) j = Some n /\
     visR n (vertex_normal P faces j)) /\
  length (m_vnormals ms) = length vertices.
Proof.
  intros Hd Hm Hp. destruct (mesh_facts big tiny eps vertices P (proj1 Hd) faces (proj2 Hd) ms Hm)
    as (_ & _ & M3 & _ & M5). destruct (M5 Hp) as [N1 N2].
  split; [|split; [exact N2|exact M3]]. intros i Hi. apply N1, nth_error_nth', Hi.
Qed.

(** C26 for the boxes and centers stored in a mesh. *)
Lemma mesh_box_ok big tiny eps vertices faces P ms i :
  mesh_are vertices faces P -> @make_mesh _ (Xnum big tiny eps) vertices faces = Ok ms -> (i < length faces)%nat ->
  exists b g m M c, nth_error (m_box ms) i = Some b /\ nth_error (m_centers ms) i = Some g /\
    visR (fst b) m /\ visR (snd b) M /\ visR g c /\
    (forall p, on_tri (fa faces P i) (fb faces P i) (fc faces P i) p -> in_box m M p) /\
    (forall m' M', (forall p, on_tri (fa faces P i) (fb faces P i) (fc faces P i) p -> in_box m' M' p) ->
       in_box m' M' m /\ in_box m' M' M) /\
    in_box m M c.
Proof.
  intros Hd Hm Hi. destruct (mesh_facts big tiny eps vertices P (proj1 Hd) faces (proj2 Hd) ms Hm)
    as (_ & _ & _ & M4 & _).
  destruct (M4 i (face faces i)) as (b & g & E1 & E2 & V1 & V2 & V3); [apply nth_error_nth', Hi|].
  do 5 eexists. split; [exact E1|]. split; [exact E2|]. split; [exact V1|]. split; [exact V2|].
  split; [exact V3|]. split; [intros p; apply tri_in_box|].
  split; [intros m' M'; apply tri_box_least|]. apply tri_in_box, tri_mid_on.
Qed.

(** C25. *)
Lemma tri_uv big tiny eps i a b c id r O U m A B C i' :
  visR (origin r) O -> visR (direction r) U -> isR (ti_min i) m -> visR a A -> visR b B -> visR c C ->
  @tri_intersect _ (Xnum big tiny eps) i (@make_triangle _ (Xnum big tiny eps) a b c id) r = (true, i') ->
  exists t u v, isR (ti_hd i') t /\ isR (fst (ti_uv i')) u /\ isR (snd (ti_uv i')) v /\
    rv_add (rv_add (rv_scale (1 - u - v) A) (rv_scale u B)) (rv_scale v C) = rv_add O (rv_scale t U).
Proof.
  intros H1 H2 H3 H4 H5 H6 E.
  destruct (tri_exact big tiny eps i a b c id r O U m A B C true i' H1 H2 H3 H4 H5 H6 E) as (_ & K & _).
  destruct (K eq_refl) as (t & u & v & K1 & K2 & K3 & _ & (K5 & _) & _). exists t, u, v.
  repeat (split; [assumption|]). symmetry. exact K5.
Qed.
