(** Meshes: boxes, centers and normals. *)

From Coq Require Import Reals ZArith List Bool Arith Lra Lia.
From Verif Require Import Num NumR NumX Vec Datatypes Ray Bvh Traverse Trimesh SpecBvh SpecReal SpecNearest SpecTri.
From Verif Require Import PfBuild PfX PfNumbered PfPlane PfSphere2 PfTri.
Import ListNotations.
Local Open Scope R_scope.

Lemma set_length {A} (l : list A) : forall i a, length (list_set l i a) = length l.
Proof. induction l as [|x l IH]; intros [|i] a; cbn; auto. Qed.
Lemma set_same {A} (l : list A) : forall i a, (i < length l)%nat -> nth_error (list_set l i a) i = Some a.
Proof. induction l as [|x l IH]; intros [|i] a H; cbn in *; try lia; auto. apply IH. lia. Qed.
Lemma set_other {A} (l : list A) : forall i j a, i <> j -> nth_error (list_set l i a) j = nth_error l j.
Proof. induction l as [|x l IH]; intros [|i] [|j] a H; cbn; auto; congruence. Qed.

Section Mesh.
Variables big tiny eps : R.
Notation XN := (Xnum big tiny eps).

(** The vertex normals [vns] are the vectors [W j]. *)
Definition normals_are (vns : list (vec xr)) (W : nat -> vec R) : Prop :=
  forall j, (j < length vns)%nat -> exists x, nth_error vns j = Some x /\ visR x (W j).

Lemma add_normal_ok fn vns v : (v < length vns)%nat ->
  exists vns', @add_normal _ XN fn vns v = Ok vns' /\ length vns' = length vns /\
    forall W n, visR fn n -> normals_are vns W ->
      normals_are vns' (fun j => rv_add (W j) (rv_scale ((if Nat.eq_dec v j then 1 else 0) / 3) n)).
Proof.
  intros Hv. unfold add_normal, at_. destruct (nth_error vns v) as [old|] eqn:E.
  2:{ apply nth_error_None in E. lia. }
  cbn [bind]. eexists. split; [reflexivity|]. split; [apply set_length|].
  intros W n Hn HW j Hj. rewrite set_length in Hj. destruct (HW j Hj) as (x & Ex & Vx).
  destruct (Nat.eq_dec v j) as [<-|Hne].
  - rewrite set_same by exact Hv. eexists. split; [reflexivity|]. rewrite E in Ex. injection Ex as <-.
    replace (1 / 3) with (/ 3) by field. apply visR_add; [exact Vx|].
    apply visR_divs; [apply isR_fin|lra|exact Hn].
  - rewrite set_other by exact Hne. exists x. split; [exact Ex|].
    replace (rv_add (W j) (rv_scale (0 / 3) n)) with (W j); [exact Vx|]. apply vec_eq; cbn; field.
Qed.

Lemma normals_ext vns W W' : (forall j, W j = W' j) -> normals_are vns W -> normals_are vns W'.
Proof. intros H HW j Hj. rewrite <- H. apply HW, Hj. Qed.

Definition face_in (n : nat) (f : vec nat) : Prop := (vx f < n /\ vy f < n /\ vz f < n)%nat.
Variables (vertices : list (vec xr)) (P : nat -> vec R).
Hypothesis Hverts : forall j, (j < length vertices)%nat -> exists x, nth_error vertices j = Some x /\ visR x (P j).

Lemma face_vertices_ok f : face_in (length vertices) f ->
  exists a b c, face_vertices vertices f = Ok (a, b, c) /\
    visR a (P (vx f)) /\ visR b (P (vy f)) /\ visR c (P (vz f)).
Proof.
  intros (H1 & H2 & H3). destruct (Hverts _ H1) as (a & Ea & Va). destruct (Hverts _ H2) as (b & Eb & Vb).
  destruct (Hverts _ H3) as (c & Ec & Vc). exists a, b, c. unfold face_vertices.
  rewrite (at_ok _ _ _ _ Ea). cbn [bind]. rewrite (at_ok _ _ _ _ Eb). cbn [bind].
  rewrite (at_ok _ _ _ _ Ec). cbn [bind]. auto.
Qed.

Lemma tri_normal_is a b c A B C : visR a A -> visR b B -> visR c C -> tri_cross A B C <> rv_zero ->
  visR (@tri_normal _ XN a b c) (unit_of (tri_cross A B C)).
Proof.
  intros HA HB HC Hn. unfold tri_normal. apply visR_normalize.
  - apply visR_cross; apply visR_sub; assumption.
  - intros E. apply rv_norm_zero in E. contradiction.
Qed.

Lemma mesh_loop_ok faces : forall vns,
  (forall f, In f faces -> face_in (length vertices) f) -> length vns = length vertices ->
  exists cs bs fns vns', @mesh_loop _ XN vertices faces vns = Ok (cs, bs, fns, vns') /\
    length vns' = length vertices /\
    (forall i f, nth_error faces i = Some f -> exists b g, nth_error bs i = Some b /\ nth_error cs i = Some g /\
       visR (fst b) (tri_lower (P (vx f)) (P (vy f)) (P (vz f))) /\
       visR (snd b) (tri_upper (P (vx f)) (P (vy f)) (P (vz f))) /\
       visR g (tri_mid (P (vx f)) (P (vy f)) (P (vz f)))) /\
    (proper P faces ->
     (forall i f, nth_error faces i = Some f -> exists n, nth_error fns i = Some n /\ visR n (face_normal P f)) /\
     forall W, normals_are vns W -> normals_are vns' (fun j => rv_add (W j) (vertex_normal P faces j))).
Proof.
  induction faces as [|f fs IH]; intros vns Hf Hl.
  - exists [], [], [], vns. split; [reflexivity|]. split; [exact Hl|].
    split; [intros [|i] f0 E; discriminate|]. intros _. split; [intros [|i] f0 E; discriminate|].
    intros W. apply normals_ext. intros j. apply vec_eq; cbn; ring.
  - assert (Hff : face_in (length vertices) f) by (apply Hf; left; reflexivity).
    destruct (face_vertices_ok f Hff) as (a & b & c & Ev & Va & Vb & Vc).
    destruct Hff as (F1 & F2 & F3). rewrite <- Hl in F1, F2, F3.
    cbn [mesh_loop]. rewrite Ev. cbn [bind]. set (fn := @tri_normal _ XN a b c).
    destruct (add_normal_ok fn vns (vx f) F1) as (v1 & E1 & L1 & G1). rewrite E1. cbn [bind].
    rewrite <- L1 in F2. destruct (add_normal_ok fn v1 (vy f) F2) as (v2 & E2 & L2 & G2). rewrite E2. cbn [bind].
    rewrite <- L1, <- L2 in F3. destruct (add_normal_ok fn v2 (vz f) F3) as (v3 & E3 & L3 & G3). rewrite E3. cbn [bind].
    destruct (IH v3) as (cs & bs & fns & vns' & E & L & B1 & B2).
    { intros g Hg. apply Hf. right. exact Hg. }
    { congruence. }
    rewrite E. cbn [bind]. do 4 eexists. split; [reflexivity|]. split; [exact L|]. split.
    + intros [|i] f0 E0; cbn in E0 |- *; [|apply B1, E0]. injection E0 as <-.
      do 2 eexists. split; [reflexivity|]. split; [reflexivity|].
      destruct (tri_box_is big tiny eps a b c _ _ _ Va Vb Vc) as [X1 X2].
      split; [exact X1|]. split; [exact X2|]. apply tri_center_is; assumption.
    + intros Hp. assert (Hp' : proper P fs) by (intros g Hg; apply Hp; right; exact Hg).
      destruct (B2 Hp') as [N1 N2].
      assert (Hfn : visR fn (face_normal P f)).
      { apply tri_normal_is; auto. apply Hp. left. reflexivity. }
      split.
      * intros [|i] f0 E0; cbn in E0 |- *; [|apply N1, E0]. injection E0 as <-. eauto.
      * intros W HW. pose proof (N2 _ (G3 _ _ Hfn (G2 _ _ Hfn (G1 _ _ Hfn HW)))) as HN.
        revert HN. apply normals_ext. intros j. cbn [vertex_normal]. unfold uses.
        apply vec_eq; cbn [vx vy vz rv_add rv_scale]; field.
Qed.

Variable faces : list (vec nat).
Hypothesis Hfaces : forall f, In f faces -> face_in (length vertices) f.

Lemma make_mesh_ok : exists ms, @make_mesh _ XN vertices faces = Ok ms.
Proof.
  destruct (mesh_loop_ok faces (repeat (vconst (@n0 _ XN)) (length vertices)) Hfaces (repeat_length _ _))
    as (cs & bs & fns & vns' & E & _).
  unfold make_mesh. rewrite E. cbn [bind]. eauto.
Qed.

Lemma mesh_facts ms : @make_mesh _ XN vertices faces = Ok ms ->
  m_vertices ms = vertices /\ m_faces ms = faces /\ length (m_vnormals ms) = length vertices /\
  (forall i f, nth_error faces i = Some f -> exists b g, nth_error (m_box ms) i = Some b /\
     nth_error (m_centers ms) i = Some g /\
     visR (fst b) (tri_lower (P (vx f)) (P (vy f)) (P (vz f))) /\
     visR (snd b) (tri_upper (P (vx f)) (P (vy f)) (P (vz f))) /\
     visR g (tri_mid (P (vx f)) (P (vy f)) (P (vz f)))) /\
  (proper P faces ->
   (forall i f, nth_error faces i = Some f ->
      exists n, nth_error (m_fnormals ms) i = Some n /\ visR n (face_normal P f)) /\
   (forall j, (j < length vertices)%nat ->
      exists n, nth_error (m_vnormals ms) j = Some n /\ visR n (vertex_normal P faces j))).
Proof.
  intros Hm. pose proof (repeat_length (vconst (@n0 _ XN)) (length vertices)) as Hlr.
  destruct (mesh_loop_ok faces (repeat (vconst (@n0 _ XN)) (length vertices)) Hfaces Hlr)
    as (cs & bs & fns & vns' & E & L & B1 & B2).
  unfold make_mesh in Hm. rewrite E in Hm. cbn [bind] in Hm. injection Hm as <-. cbn [m_vertices m_faces m_vnormals m_box m_centers m_fnormals].
  split; [reflexivity|]. split; [reflexivity|]. split; [exact L|]. split; [exact B1|].
  intros Hp. destruct (B2 Hp) as [N1 N2]. split; [exact N1|]. intros j Hj.
  assert (H0 : normals_are (repeat (vconst (@n0 _ XN)) (length vertices)) (fun _ => rv_zero)).
  { intros k Hk. rewrite repeat_length in Hk.
    exists (vconst (@n0 _ XN)). split; [|repeat split].
    rewrite (nth_error_nth' _ (vconst (@n0 _ XN))) by (rewrite repeat_length; exact Hk).
    rewrite nth_repeat. reflexivity. }
  specialize (N2 _ H0 j). rewrite L in N2. destruct (N2 Hj) as (x & Ex & Vx). exists x. split; [exact Ex|].
  replace (vertex_normal P faces j) with (rv_add rv_zero (vertex_normal P faces j)); [exact Vx|].
  apply vec_eq; cbn; ring.
Qed.

(** The record stored after a hit. *)
Lemma tri_post_ok ms i rh k u v : @make_mesh _ XN vertices faces = Ok ms ->
  ti_prim i = Some k -> (k < length faces)%nat -> isR (fst (ti_uv i)) u -> isR (snd (ti_uv i)) v ->
  exists rh', @tri_post _ XN ms i rh = Ok rh' /\ h_prim rh' = Some k /\ h_distance rh' = ti_hd i /\
    h_uv rh' = ti_uv i /\ h_geom rh' = h_geom rh /\
    (proper P faces -> mixed_normal P faces k u v <> rv_zero ->
     visR (h_normal rh') (unit_of (mixed_normal P faces k u v))).
Proof.
  intros Hm Hk Hlt Hu Hv. destruct (mesh_facts ms Hm) as (M1 & M2 & M3 & _ & M5).
  assert (Ef : nth_error faces k = Some (face faces k)) by (apply nth_error_nth', Hlt).
  assert (Hin : face_in (length vertices) (face faces k)) by (apply Hfaces; eapply nth_error_In, Ef).
  destruct Hin as (F1 & F2 & F3).
  assert (G : forall j, (j < length vertices)%nat -> exists n, nth_error (m_vnormals ms) j = Some n).
  { intros j Hj. destruct (nth_error (m_vnormals ms) j) eqn:E; [eauto|]. apply nth_error_None in E. lia. }
  destruct (G _ F1) as (na & Ea). destruct (G _ F2) as (nb & Eb). destruct (G _ F3) as (nc & Ec).
  unfold tri_post. rewrite Hk. cbn [bind]. rewrite M2. rewrite (at_ok _ _ _ _ Ef). cbn [bind].
  rewrite (at_ok _ _ _ _ Ea). cbn [bind]. rewrite (at_ok _ _ _ _ Eb). cbn [bind]. rewrite (at_ok _ _ _ _ Ec). cbn [bind].
  destruct (ti_uv i) as [xu xv] eqn:Euv. cbn [fst snd] in Hu, Hv.
  eexists. split; [reflexivity|]. cbn [h_prim h_distance h_uv h_geom h_normal].
  split; [reflexivity|]. split; [reflexivity|]. split; [reflexivity|]. split; [reflexivity|].
  intros Hp Hnz. destruct (M5 Hp) as [_ N2].
  assert (Q : forall j n, (j < length vertices)%nat -> nth_error (m_vnormals ms) j = Some n ->
    visR n (vertex_normal P faces j)).
  { intros j n Hj En. destruct (N2 j Hj) as (n' & En' & Vn). congruence. }
  apply visR_normalize.
  - unfold mixed_normal, bary. cbn [nsub XN Xnum n1].
    apply visR_add; [apply visR_add|]; (apply visR_scale; [|apply Q; assumption]); auto.
    apply isR_sub; [apply isR_sub; [apply isR_fin|]|]; assumption.
  - intros E. apply rv_norm_zero in E. contradiction.
Qed.
End Mesh.

(** A flat mesh, all faces turned the same way. *)
Fixpoint count_uses (faces : list (vec nat)) (j : nat) : R :=
  match faces with [] => 0 | f :: fs => uses f j + count_uses fs j end.
Lemma uses_nonneg f j : 0 <= uses f j.
Proof. unfold uses. repeat destruct (Nat.eq_dec _ _); lra. Qed.
Lemma count_nonneg faces j : 0 <= count_uses faces j.
Proof. induction faces as [|f fs IH]; cbn; [lra|]. pose proof (uses_nonneg f j). lra. Qed.
Lemma count_in faces f j : In f faces -> (vx f = j \/ vy f = j \/ vz f = j) -> 1 <= count_uses faces j.
Proof.
  induction faces as [|g fs IH]; intros Hf Hj; [destruct Hf|]. cbn. pose proof (count_nonneg fs j).
  destruct Hf as [->|Hf].
  - assert (1 <= uses f j) by (unfold uses; repeat destruct (Nat.eq_dec _ _); lra || tauto). lra.
  - pose proof (uses_nonneg g j). specialize (IH Hf Hj). lra.
Qed.
Lemma flat_vertex_normal P faces N j : (forall f, In f faces -> face_normal P f = N) ->
  vertex_normal P faces j = rv_scale (count_uses faces j / 3) N.
Proof.
  induction faces as [|f fs IH]; intros H; cbn [vertex_normal count_uses].
  - apply vec_eq; cbn; field.
  - rewrite IH by (intros g Hg; apply H; right; exact Hg). rewrite (H f) by (left; reflexivity).
    apply vec_eq; cbn; field.
Qed.
Lemma flat_mixed P faces N i u v : (forall f, In f faces -> face_normal P f = N) -> rv_norm N = 1 ->
  (i < length faces)%nat -> 0 <= u -> 0 <= v -> u + v <= 1 ->
  mixed_normal P faces i u v <> rv_zero /\ unit_of (mixed_normal P faces i u v) = N.
Proof.
  intros H H1 Hi Hu Hv Hs.
  assert (Hf : In (face faces i) faces) by (apply nth_In, Hi).
  set (f := face faces i) in *.
  pose proof (count_in faces f (vx f) Hf (or_introl eq_refl)) as Ca.
  pose proof (count_in faces f (vy f) Hf (or_intror (or_introl eq_refl))) as Cb.
  pose proof (count_in faces f (vz f) Hf (or_intror (or_intror eq_refl))) as Cc.
  set (k := ((1 - u - v) * count_uses faces (vx f) + u * count_uses faces (vy f) + v * count_uses faces (vz f)) / 3).
  assert (Hk : 0 < k).
  { unfold k. assert (1 <= (1 - u - v) * count_uses faces (vx f) + u * count_uses faces (vy f) + v * count_uses faces (vz f)) by nra. lra. }
  assert (E : mixed_normal P faces i u v = rv_scale k N).
  { unfold mixed_normal. fold f. rewrite !(flat_vertex_normal P faces N) by exact H. unfold k.
    apply vec_eq; cbn; field. }
  rewrite E. split.
  - intros Ez. assert (En : rv_norm (rv_scale k N) = 0).
    { rewrite Ez. unfold rv_norm, rv_dot, rv_zero; cbn. replace (0*0+0*0+0*0) with 0 by ring. apply sqrt_0. }
    rewrite rv_norm_scale, H1, Rabs_pos_eq in En; lra.
  - rewrite unit_of_scale by lra. unfold unit_of. rewrite H1, Rinv_1. apply vec_eq; cbn; ring.
Qed.
Lemma face_normal_unit P f : tri_cross (P (vx f)) (P (vy f)) (P (vz f)) <> rv_zero -> rv_norm (face_normal P f) = 1.
Proof.
  intros H. apply rv_norm_unit. apply unit_of_unit. intros E. apply rv_norm_zero in E. contradiction.
Qed.
