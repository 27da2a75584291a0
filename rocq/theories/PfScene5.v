(** Histories with well-formed data run without undefined behaviour. *)

From Coq Require Import Reals ZArith List Bool Arith Lia Lra.
From Verif Require Import Num NumR NumX Vec Datatypes Ray Bvh Traverse Sphere Plane Trimesh Cylinder Scene.
From Verif Require Import SpecReal SpecBvh SpecTrav SpecNearest SpecSphere SpecPlane SpecTri SpecCyl SpecScene.
From Verif Require Import PfBuild PfX PfSphere2 PfPlane2 PfTri2 PfTri3 PfCyl6 PfScene PfScene2 PfScene3 PfScene4.
Import ListNotations.
Local Open Scope R_scope.

Section S.
Variables big tiny eps : R.
Notation XN := (Xnum big tiny eps).
Hypothesis Htiny : 0 <= tiny.
Variable part : (nat -> bool) -> list nat -> list nat * list nat.
Hypothesis Hpart : partition_ok part.
Variables (O D : vec R) (m : R).

Definition geo_builds {C P} (f : C -> coll xr P) (g : option (geometry C xr P)) : Prop :=
  forall x opt, g = Some x -> bins_ok opt -> exists n st, @build _ XN _ part [] (f (g_coll x)) opt = Ok (n, st).
Definition builds (s : scene xr) : Prop :=
  bins_ok (sc_options s) /\ geo_builds (@mesh_coll _ XN) (sc_mesh s) /\ geo_builds sphere_coll (sc_spheres s) /\
  geo_builds plane_coll (sc_planes s) /\ geo_builds cylinder_coll (sc_cylinders s).

Lemma geo_builds_again {C P} (f : C -> coll xr P) g opt : bins_ok opt -> geo_builds f g ->
  exists g', @build_geometry _ XN part _ _ f opt g = Ok g' /\ geo_builds f g'.
Proof.
  intros Ho H. destruct g as [x|]; [|exists None; split; [reflexivity|discriminate]].
  destruct (H x opt eq_refl Ho) as (n & st & E).
  pose proof (@build_prefix _ _ XN part Hpart (f (g_coll x)) opt [] (g_nodes x)) as B. rewrite E in B. cbn in B.
  cbn [build_geometry]. destruct (@build _ XN _ part (g_nodes x) (f (g_coll x)) opt) as [[n2 st2]| |]; try discriminate B.
  cbn [bind]. eexists. split; [reflexivity|]. intros y o [= <-] Hy. cbn. exact (H x o eq_refl Hy).
Qed.

Lemma spheres_defined ce ra : (length ce <= length ra)%nat -> exists s, @make_spheres _ XN ce ra = Ok s.
Proof.
  intros H. unfold make_spheres.
  destruct (mapM_ok (fun i => do c <- at_ UBprim ce i; do r <- at_ UBprim ra i; Ok (@sphere_box _ XN c r)) (seq 0 (length ce))) as (bs & ->).
  - intros i Hi. apply in_seq in Hi. destruct (at_lt UBprim ce i) as (c & ->); [lia|]. destruct (at_lt UBprim ra i) as (x & ->); [lia|]. cbn. eauto.
  - cbn. eauto.
Qed.
Lemma planes_defined ce dx dy ro : (length ce <= length dx /\ length ce <= length dy /\ length ce <= length ro)%nat ->
  exists s, @make_planes _ XN ce dx dy ro = Ok s.
Proof.
  intros H. unfold make_planes.
  destruct (mapM_ok (fun i => do c <- at_ UBprim ce i; do x <- at_ UBprim dx i; do y <- at_ UBprim dy i; do m <- at_ UBprim ro i; Ok (@plane_box _ XN c x y m)) (seq 0 (length ce))) as (bs & ->).
  - intros i Hi. apply in_seq in Hi. destruct (at_lt UBprim ce i) as (c & ->); [lia|]. destruct (at_lt UBprim dx i) as (x & ->); [lia|].
    destruct (at_lt UBprim dy i) as (y & ->); [lia|]. destruct (at_lt UBprim ro i) as (z & ->); [lia|]. cbn. eauto.
  - cbn. eauto.
Qed.

Lemma cylinders_defined ce sa sb hs ro : (length ce <= length sa /\ length ce <= length sb /\ length ce <= length hs /\ length ce <= length ro)%nat ->
  exists s, @make_cylinders _ XN ce sa sb hs ro = Ok s.
Proof.
  intros H. unfold make_cylinders.
  match goal with |- context [mapM ?f ?l] => destruct (mapM_ok f l) as (bs & ->) end.
  - intros i Hi. apply in_seq in Hi. destruct (at_lt UBprim ce i) as (c & ->); [lia|]. destruct (at_lt UBprim sa i) as (x & ->); [lia|].
    destruct (at_lt UBprim sb i) as (y & ->); [lia|]. destruct (at_lt UBprim hs i) as (w & ->); [lia|].
    destruct (at_lt UBprim ro i) as (z & ->); [lia|]. cbn. eauto.
  - cbn. eauto.
Qed.

Lemma step_defined s c : builds s -> is_query c = false ->
  (adds c <> None -> call_plain big tiny O D m c /\ call_lengths c) -> (forall opt, c = SetOptions opt -> bins_ok opt) ->
  exists s' a, @step _ XN part s c = Ok (s', a) /\ builds s'.
Proof.
  intros B Hq Hc Hs. pose proof B as (B0 & B1 & B2 & B3 & B4). destruct c; cbn [SpecScene.step]; try discriminate Hq.
  - destruct (Hc ltac:(discriminate)) as [(Hd & Hb) _]. unfold add_mesh.
    destruct (sc_mesh s) eqn:Em; [cbn [bind]; eauto|]. destruct (sc_committed s); [cbn [bind]; eauto|].
    destruct (make_mesh_ok big tiny eps vertices (vn vertices) (proj1 Hd) faces (proj2 Hd)) as (ms & Ems). rewrite Ems. cbn [bind].
    eexists _, _. split; [reflexivity|]. split; [exact B0|]. cbn. split; [|auto]. intros x opt [= <-] [Hx1 Hx2]. cbn.
    apply (mesh_build_ok big tiny eps vertices faces (vn vertices) ms part opt Hd Ems); auto.
    intros i Hi. destruct (Hb i Hi) as (H1 & H2 & _). auto.
  - destruct (Hc ltac:(discriminate)) as [(F1 & F2 & Hb) HL]. unfold add_spheres.
    destruct (sc_spheres s) eqn:Em; [cbn [bind]; eauto|]. destruct (sc_committed s); [cbn [bind]; eauto|].
    destruct (spheres_defined centers radii HL) as (ms & Ems). rewrite Ems. cbn [bind].
    eexists _, _. split; [reflexivity|]. split; [exact B0|]. cbn. split; [auto|]. split; [|auto]. intros x opt [= <-] [Hx1 Hx2]. cbn.
    destruct (spheres_made _ _ _ _ _ _ Ems) as (E1 & _).
    apply (sphere_build_ok big tiny eps centers radii ms (vn centers) (xn radii) part opt Ems (spheres_data _ _ _ _ _ _ Ems F1 F2)); auto; rewrite E1;
      intros i Hi; destruct (Hb i Hi) as (H1 & H2 & H3 & _); auto.
  - destruct (Hc ltac:(discriminate)) as [(F1 & F2 & F3 & F4 & Hb) HL]. unfold add_planes.
    destruct (sc_planes s) eqn:Em; [cbn [bind]; eauto|]. destruct (sc_committed s); [cbn [bind]; eauto|].
    destruct (planes_defined centers dxs dys rots HL) as (ms & Ems). rewrite Ems. cbn [bind].
    eexists _, _. split; [reflexivity|]. split; [exact B0|]. cbn. split; [auto|]. split; [auto|]. split; [|auto]. intros x opt [= <-] [Hx1 Hx2]. cbn.
    destruct (planes_made _ _ _ _ _ _ _ _ Ems) as (E1 & _).
    apply (plane_build_ok big tiny eps centers dxs dys rots ms (vn centers) (xn dxs) (xn dys) (mn rots) part opt Htiny Ems
             (planes_data _ _ _ _ _ _ _ _ Ems F1 F2 F3 F4)); auto; rewrite E1;
      intros i Hi; destruct (Hb i Hi) as (H1 & H2 & H3 & H4 & H5 & _); auto.
  - destruct (Hc ltac:(discriminate)) as [(F1 & F2 & F3 & F4 & F5 & _ & Hb) HL]. unfold add_cylinders.
    destruct (sc_cylinders s) eqn:Em; [cbn [bind]; eauto|]. destruct (sc_committed s); [cbn [bind]; eauto|].
    destruct (cylinders_defined centers sa sb hs rots HL) as (ms & Ems). rewrite Ems. cbn [bind].
    eexists _, _. split; [reflexivity|]. split; [exact B0|]. cbn. split; [auto|]. split; [auto|]. split; [auto|]. intros x opt [= <-] [Hx1 Hx2]. cbn.
    destruct (cylinders_made _ _ _ _ _ _ _ _ _ Ems) as (E1 & _).
    apply (cylinder_build_ok big tiny eps centers sa sb hs rots ms (vn centers) (xn sa) (xn sb) (xn hs) (mn rots) part opt Ems
             (cylinders_data _ _ _ _ _ _ _ _ _ Ems F1 F2 F3 F4 F5)); auto; rewrite E1;
      intros i Hi; destruct (Hb i Hi) as (_ & H4 & H5 & _); auto.
  - eexists _, _. split; [reflexivity|]. split; [apply Hs; reflexivity|]. cbn. auto.
  - unfold commit. destruct (geo_builds_again _ _ _ B0 B1) as (me & -> & G1). destruct (geo_builds_again _ _ _ B0 B2) as (sp & -> & G2).
    destruct (geo_builds_again _ _ _ B0 B3) as (pl & -> & G3). destruct (geo_builds_again _ _ _ B0 B4) as (cy & -> & G4). cbn [bind].
    eexists _, _. split; [reflexivity|]. split; [exact B0|]. cbn. auto.
Qed.

Lemma run_defined cs : forall s, builds s ->
  (forall c, In c cs -> is_query c = false /\ (adds c <> None -> call_plain big tiny O D m c /\ call_lengths c)) ->
  (forall opt, In (SetOptions opt) cs -> bins_ok opt) ->
  exists s' l, @run _ XN part s cs = Ok (s', l).
Proof.
  induction cs as [|c cs IH]; intros s B Hc Ho; [cbn; eauto|].
  destruct (Hc c (or_introl eq_refl)) as [Hq Ha].
  destruct (step_defined s c B Hq Ha) as (s1 & a & E & B1); [intros opt ->; apply Ho; left; reflexivity|].
  destruct (IH s1 B1) as (s2 & l & E2); [intros; apply Hc; right; assumption|intros; apply Ho; right; assumption|].
  cbn. rewrite E. cbn. rewrite E2. cbn. eauto.
Qed.

Lemma history_defined opt cs : bins_ok opt ->
  (forall c, In c cs -> is_query c = false /\ (adds c <> None -> call_plain big tiny O D m c /\ call_lengths c)) ->
  (forall opt, In (SetOptions opt) cs -> bins_ok opt) ->
  exists s l, @run _ XN part (new_scene opt) cs = Ok (s, l).
Proof.
  intros Ho. apply run_defined. split; [exact Ho|]. cbn. repeat split; discriminate.
Qed.
End S.
