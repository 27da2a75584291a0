(** Meshes in IEEE arithmetic: data, boxes and the exact crossing. *)

From Coq Require Import Reals ZArith List Bool Arith Lra Lia Psatz Floats.SpecFloat.
From Flocq Require Import Core IEEE754.BinarySingleNaN.
From Verif Require Import Num NumR NumF Vec Datatypes Ray Bvh Traverse Trimesh SpecBvh SpecReal SpecIEEE SpecAny SpecTri SpecTriF.
From Verif Require Import PfBuild PfNumbered PfIEEE PfIEEE2 PfIEEE3 PfTri2 PfTriF PfTriF2 PfTriF3.
Import ListNotations.
Local Open Scope R_scope.

(** A mesh in any arithmetic. *)
Section Any.
Context {T : Type} {N : num T}.
Lemma add_normal_any (f : vec T) vns v : (v < length vns)%nat -> exists vns', add_normal f vns v = Ok vns' /\ length vns' = length vns.
Proof.
  intros Hv. unfold add_normal, at_. destruct (nth_error vns v) as [old|] eqn:E.
  - cbn [bind]. eexists. split; [reflexivity|apply set_length].
  - apply nth_error_None in E. lia.
Qed.
Variable vertices : list (vec T).
Lemma face_vertices_any f : face_in (length vertices) f -> exists a b c, face_vertices vertices f = Ok (a, b, c) /\
  nth_error vertices (vx f) = Some a /\ nth_error vertices (vy f) = Some b /\ nth_error vertices (vz f) = Some c.
Proof.
  intros (H1 & H2 & H3). unfold face_vertices, at_.
  destruct (nth_error vertices (vx f)) as [a|] eqn:Ea; [|apply nth_error_None in Ea; lia].
  destruct (nth_error vertices (vy f)) as [b|] eqn:Eb; [|apply nth_error_None in Eb; lia].
  destruct (nth_error vertices (vz f)) as [c|] eqn:Ec; [|apply nth_error_None in Ec; lia].
  cbn [bind]. eauto 8.
Qed.
Lemma mesh_loop_any faces : forall vns, (forall f, In f faces -> face_in (length vertices) f) -> length vns = length vertices ->
  exists cs bs fns vns', mesh_loop vertices faces vns = Ok (cs, bs, fns, vns') /\ length vns' = length vertices /\
    forall i f, nth_error faces i = Some f -> exists a b c, face_vertices vertices f = Ok (a, b, c) /\
      nth_error bs i = Some (tri_box a b c) /\ nth_error cs i = Some (tri_center a b c).
Proof.
  induction faces as [|f fs IH]; intros vns Hf Hl.
  - exists [], [], [], vns. split; [reflexivity|]. split; [exact Hl|]. intros [|i] f E; discriminate.
  - assert (Hff : face_in (length vertices) f) by (apply Hf; left; reflexivity).
    destruct (face_vertices_any f Hff) as (a & b & c & Ev & _). destruct Hff as (F1 & F2 & F3). rewrite <- Hl in F1, F2, F3.
    cbn [mesh_loop]. rewrite Ev. cbn [bind].
    destruct (add_normal_any (tri_normal a b c) vns (vx f) F1) as (v1 & E1 & L1). rewrite E1. cbn [bind].
    rewrite <- L1 in F2. destruct (add_normal_any (tri_normal a b c) v1 (vy f) F2) as (v2 & E2 & L2). rewrite E2. cbn [bind].
    rewrite <- L1, <- L2 in F3. destruct (add_normal_any (tri_normal a b c) v2 (vz f) F3) as (v3 & E3 & L3). rewrite E3. cbn [bind].
    destruct (IH v3) as (cs & bs & fns & vns' & E & L & Bx).
    { intros g Hg. apply Hf. right. exact Hg. }
    { congruence. }
    rewrite E. cbn [bind]. do 4 eexists. split; [reflexivity|]. split; [exact L|].
    intros [|i] f0 E0; cbn in E0 |- *; [|apply Bx, E0]. injection E0 as <-. exists a, b, c. auto.
Qed.
Variable faces : list (vec nat).
Hypothesis Hfaces : forall f, In f faces -> face_in (length vertices) f.
Lemma make_mesh_any : exists ms, make_mesh vertices faces = Ok ms.
Proof.
  destruct (mesh_loop_any faces (repeat (vconst n0) (length vertices)) Hfaces (repeat_length _ _)) as (cs & bs & fns & vns' & E & _).
  unfold make_mesh. rewrite E. cbn [bind]. eauto.
Qed.
Variable ms : mesh T.
Hypothesis Hm : make_mesh vertices faces = Ok ms.
Lemma mesh_any : m_vertices ms = vertices /\ m_faces ms = faces /\ length (m_vnormals ms) = length vertices /\
  forall i f, nth_error faces i = Some f -> exists a b c, face_vertices vertices f = Ok (a, b, c) /\
    nth_error (m_box ms) i = Some (tri_box a b c) /\ nth_error (m_centers ms) i = Some (tri_center a b c).
Proof.
  destruct (mesh_loop_any faces (repeat (vconst n0) (length vertices)) Hfaces (repeat_length _ _)) as (cs & bs & fns & vns' & E & L & Bx).
  unfold make_mesh in Hm. rewrite E in Hm. cbn [bind] in Hm. injection Hm as <-. cbn. auto.
Qed.
Lemma mesh_face i : (i < length faces)%nat -> exists a b c,
  nth_error vertices (vx (face faces i)) = Some a /\ nth_error vertices (vy (face faces i)) = Some b /\
  nth_error vertices (vz (face faces i)) = Some c /\
  c_prim (mesh_coll ms) i = Ok (make_triangle a b c i) /\ c_box (mesh_coll ms) i = Ok (tri_box a b c) /\
  c_center (mesh_coll ms) i = Ok (tri_center a b c).
Proof.
  intros Hi. destruct mesh_any as (E1 & E2 & _ & E3). destruct (nth_error faces i) as [f|] eqn:Ef; [|apply nth_error_None in Ef; lia].
  assert (E4 : face faces i = f) by (unfold face; apply nth_error_nth, Ef). rewrite E4.
  assert (Hin : face_in (length vertices) f) by (apply Hfaces; eapply nth_error_In; exact Ef).
  destruct (face_vertices_any f Hin) as (a & b & c & Ev & G1 & G2 & G3). destruct (E3 i f Ef) as (a' & b' & c' & Ev' & Eb & Ec).
  rewrite Ev in Ev'. injection Ev' as <- <- <-. exists a, b, c. split; [exact G1|]. split; [exact G2|]. split; [exact G3|].
  cbn [c_prim c_box c_center mesh_coll]. unfold tri_prim, at_. rewrite E1, E2, Ef, Eb, Ec. cbn [bind]. rewrite Ev. auto.
Qed.
Lemma mesh_size : c_size (mesh_coll ms) = length faces.
Proof. destruct mesh_any as (_ & E & _). cbn [c_size mesh_coll]. rewrite E. reflexivity. Qed.
Lemma mesh_numbered : numbered (mesh_coll ms) tr_id.
Proof.
  intros i p. cbn [c_prim mesh_coll]. unfold tri_prim. destruct (at_ _ _ _) as [f| |]; cbn [bind]; try discriminate.
  destruct (face_vertices _ _) as [[[a b] c]| |]; cbn [bind]; try discriminate. intros [= <-]. reflexivity.
Qed.
Lemma mesh_post i rh k : ti_prim i = Some k -> (k < length faces)%nat ->
  exists rh', tri_post ms i rh = Ok rh' /\ h_distance rh' = ti_hd i /\ h_prim rh' = Some k /\ h_uv rh' = ti_uv i.
Proof.
  intros Ek Hk. destruct mesh_any as (E1 & E2 & L & _). destruct (nth_error faces k) as [f|] eqn:Ef; [|apply nth_error_None in Ef; lia].
  assert (Hin : face_in (length vertices) f) by (apply Hfaces; eapply nth_error_In; exact Ef). destruct Hin as (F1 & F2 & F3).
  rewrite <- L in F1, F2, F3. unfold tri_post, at_. rewrite Ek. cbn [bind]. rewrite E2, Ef. cbn [bind].
  destruct (nth_error (m_vnormals ms) (vx f)) eqn:G1; [|apply nth_error_None in G1; lia].
  destruct (nth_error (m_vnormals ms) (vy f)) eqn:G2; [|apply nth_error_None in G2; lia].
  destruct (nth_error (m_vnormals ms) (vz f)) eqn:G3; [|apply nth_error_None in G3; lia].
  cbn [bind]. destruct (ti_uv i) as [x y]. eexists. split; [reflexivity|]. cbn. auto.
Qed.
End Any.

(** The exact crossing of a plane that the ray's line passes inside the triangle. *)
Lemma crossing_point s A B C O D t : passes s 0 O D A B C -> 0 < s * speed D A B C ->
  t * speed D A B C = rv_dot (tri_cross A B C) (rv_sub A O) -> in_box (tri_lower A B C) (tri_upper A B C) (at_t O D t).
Proof.
  intros (Hs & H1 & H2 & H3) Hn Ht.
  assert (Hsum : s * side O D A B + s * side O D B C + s * side O D C A = s * speed D A B C).
  { unfold speed. rewrite <- (sides_sum A B C O D). ring. }
  assert (Ex : forall x a b c, (s * speed D A B C) * x = (s * side O D B C) * a + (s * side O D C A) * b + (s * side O D A B) * c ->
    Rmin a (Rmin b c) <= x <= Rmax a (Rmax b c)).
  { intros x a b c E. rewrite <- Hsum in E. pose proof (Rmin_l a (Rmin b c)). pose proof (Rmin_r a (Rmin b c)).
    pose proof (Rmin_l b c). pose proof (Rmin_r b c). pose proof (Rmax_l a (Rmax b c)). pose proof (Rmax_r a (Rmax b c)).
    pose proof (Rmax_l b c). pose proof (Rmax_r b c).
    set (mn := Rmin a (Rmin b c)) in *. set (mx := Rmax a (Rmax b c)) in *.
    split; apply Rmult_le_reg_l with (s * speed D A B C); try exact Hn; rewrite <- Hsum; rewrite E.
    - assert (s * side O D B C * mn <= s * side O D B C * a) by (apply Rmult_le_compat_l; lra).
      assert (s * side O D C A * mn <= s * side O D C A * b) by (apply Rmult_le_compat_l; lra).
      assert (s * side O D A B * mn <= s * side O D A B * c) by (apply Rmult_le_compat_l; lra). lra.
    - assert (s * side O D B C * a <= s * side O D B C * mx) by (apply Rmult_le_compat_l; lra).
      assert (s * side O D C A * b <= s * side O D C A * mx) by (apply Rmult_le_compat_l; lra).
      assert (s * side O D A B * c <= s * side O D A B * mx) by (apply Rmult_le_compat_l; lra). lra. }
  clear H1 H2 H3 Hn Hsum.
  assert (Ey : forall o d, s * speed D A B C * (o + t * d) = s * (speed D A B C * o + rv_dot (tri_cross A B C) (rv_sub A O) * d)).
  { intros o d. rewrite <- Ht. ring. }
  unfold in_box, at_t, rv_add, rv_scale, tri_lower, tri_upper. cbn [vx vy vz].
  split; [|split]; apply Ex; rewrite Ey; unfold speed, side, tri_cross, rv_dot, rv_cross, rv_sub; cbn [vx vy vz]; ring.
Qed.

Section F.
Variables prec emax : Z.
Context {Hprec : Prec_gt_0 prec} {Hmax : Prec_lt_emax prec emax}.
Hypothesis Hfmt : usual_format prec emax.
Notation FN := (Fnum prec emax).
Notation isf := (isF prec emax).
Notation u := (ulpf prec).
Variable M : R.
Hypothesis HM : scale_ok prec emax M.

Lemma tri_box_F a b c A B C : visF prec emax a A -> visF prec emax b B -> visF prec emax c C ->
  visF prec emax (fst (@tri_box _ FN a b c)) (tri_lower A B C) /\ visF prec emax (snd (@tri_box _ FN a b c)) (tri_upper A B C).
Proof.
  intros (a1 & a2 & a3) (b1 & b2 & b3) (c1 & c2 & c3).
  assert (Gm : forall x y z x' y' z', isf x x' -> isf y y' -> isf z z' ->
    isf (@smin _ FN z (@smin _ FN y x)) (Rmin x' (Rmin y' z'))).
  { intros x y z x' y' z' H1 H2 H3. rewrite Rmin_assoc.
    apply (isF_smin prec emax z (@smin _ FN y x)); [exact H3|]. apply isF_smin; assumption. }
  assert (GM : forall x y z x' y' z', isf x x' -> isf y y' -> isf z z' ->
    isf (@smax _ FN z (@smax _ FN y x)) (Rmax x' (Rmax y' z'))).
  { intros x y z x' y' z' H1 H2 H3. rewrite Rmax_assoc. rewrite (Rmax_comm _ z'). rewrite (Rmax_comm x' y').
    apply (isF_smax prec emax z (@smax _ FN y x)); [exact H3|]. apply isF_smax; assumption. }
  unfold tri_box, unity, tri_lower, tri_upper. cbn [fst snd vmap2].
  split; (split; [|split]); cbn [vx vy vz vmap2 fst snd]; auto.
Qed.
Lemma lower_coords A B C : coords M A -> coords M B -> coords M C -> coords M (tri_lower A B C) /\ coords M (tri_upper A B C).
Proof.
  intros (a1 & a2 & a3) (b1 & b2 & b3) (c1 & c2 & c3).
  assert (Gm : forall x y z, Rabs x <= M -> Rabs y <= M -> Rabs z <= M -> Rabs (Rmin x (Rmin y z)) <= M).
  { intros x y z X Y Z. unfold Rmin. destruct (Rle_dec y z); [destruct (Rle_dec x y)|destruct (Rle_dec x z)]; assumption. }
  assert (GM : forall x y z, Rabs x <= M -> Rabs y <= M -> Rabs z <= M -> Rabs (Rmax x (Rmax y z)) <= M).
  { intros x y z X Y Z. unfold Rmax. destruct (Rle_dec y z); [destruct (Rle_dec x z)|destruct (Rle_dec x y)]; assumption. }
  unfold coords, tri_lower, tri_upper. cbn [vx vy vz]. auto 10.
Qed.
Lemma coords_moderate v : coords M v -> moderate emax v.
Proof.
  intros (H1 & H2 & H3). pose proof (Mk_top prec emax M HM 1 ltac:(lia)) as T. rewrite pow_1 in T. pose proof (M1 prec emax M HM).
  unfold moderate. lra.
Qed.

Variables (vertices : list (vec spec_float)) (faces : list (vec nat)) (P : nat -> vec R) (ms : mesh spec_float).
Hypothesis Hare : mesh_areF prec emax M vertices faces P.
Hypothesis Hmake : @make_mesh _ FN vertices faces = Ok ms.
Notation cl := (@mesh_coll _ FN ms).
Notation A i := (fa faces P i).
Notation B i := (fb faces P i).
Notation C i := (fc faces P i).

Lemma mesh_faceF i : (i < length faces)%nat -> exists a b c,
  visF prec emax a (A i) /\ visF prec emax b (B i) /\ visF prec emax c (C i) /\
  coords M (A i) /\ coords M (B i) /\ coords M (C i) /\
  c_prim cl i = Ok (@make_triangle _ FN a b c i) /\ c_box cl i = Ok (@tri_box _ FN a b c).
Proof.
  intros Hi. destruct (mesh_face vertices faces (proj2 Hare) ms Hmake i Hi) as (a & b & c & Ea & Eb & Ec & E1 & E2 & _).
  exists a, b, c.
  assert (G : forall j x, nth_error vertices j = Some x -> visF prec emax x (P j) /\ coords M (P j)).
  { intros j x Ex. destruct (proj1 Hare j) as (x' & Ex' & H1 & H2); [apply nth_error_Some; congruence|].
    rewrite Ex in Ex'. injection Ex' as <-. auto. }
  destruct (G _ _ Ea), (G _ _ Eb), (G _ _ Ec). unfold fa, fb, fc. auto 10.
Qed.
Lemma mesh_boxesF : boxes_areF prec emax cl (fun i => tri_lower (A i) (B i) (C i)) (fun i => tri_upper (A i) (B i) (C i)).
Proof.
  intros i Hi. rewrite (mesh_size vertices faces (proj2 Hare) ms Hmake) in Hi.
  destruct (mesh_faceF i Hi) as (a & b & c & Ha & Hb & Hc & _ & _ & _ & _ & E). eexists. split; [exact E|]. apply tri_box_F; assumption.
Qed.
Lemma mesh_moderate : moderate_boxes emax (c_size cl) (fun i => tri_lower (A i) (B i) (C i)) (fun i => tri_upper (A i) (B i) (C i)).
Proof.
  intros i Hi. rewrite (mesh_size vertices faces (proj2 Hare) ms Hmake) in Hi.
  destruct (mesh_faceF i Hi) as (a & b & c & _ & _ & _ & Sa & Sb & Sc & _). destruct (lower_coords _ _ _ Sa Sb Sc).
  split; apply coords_moderate; assumption.
Qed.
End F.
