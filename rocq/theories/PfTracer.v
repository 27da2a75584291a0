(** The path tracer as a whole. *)

From Coq Require Import Reals ZArith Strings.String List Bool Lia Lra Floats.SpecFloat.
From Flocq Require Import Core IEEE754.BinarySingleNaN.
From Verif Require Import Num NumR NumX NumF Vec Datatypes Ray Bvh Traverse Trimesh PathTracer TinyObj ObjText Image Mains PathMain.
From Verif Require Import SpecBvh SpecReal SpecIEEE SpecTri SpecNearest SpecOptics SpecLight SpecPath SpecImage SpecObj SpecObjMesh SpecText SpecRender SpecTracer.
From Verif Require Import PfBuild PfPart PfX PfTri2 PfTri3 PfLight PfPath PfImage PfImage2 PfImage3 PfObj5 PfObj6 PfObjMesh PfText PfText2 PfText3 PfText5 CaseImage.
Import ListNotations.
Local Open Scope R_scope.

(** The bar never runs out of its string. *)
Lemma bars_ok height : (0 < height < 4294967296)%Z -> exists l, bars height = Ok l.
Proof.
  intros H. unfold bars. assert (K : forall ys, (forall y, In y ys -> (0 <= y < height)%Z) -> exists l, mapM (fun y => progress_bar (y + 1) height 100) ys = Ok l).
  { induction ys as [|y ys IH]; intros Hy; [exists []; reflexivity|]. destruct IH as (l & E); [intros; apply Hy; now right|].
    cbn [mapM]. specialize (Hy y (or_introl eq_refl)).
    destruct (progress_ok (y + 1) height 100) as (-> & _); [lia|lia|lia|lia|]. cbn [bind]. rewrite E. eexists. reflexivity. }
  apply K. intros y Hy. now apply upto_in.
Qed.

Section Tracer.
Context (big tiny eps : R).
Notation XN := (Xnum big tiny eps).
Variables (pow_ : Z -> Z -> xr) (ldexp_ : xr -> Z -> xr) (to_float : xr -> xr).
Variable files : string -> option string.
Variable part : (nat -> bool) -> list nat -> list nat * list nat.
Hypothesis Hpart : partition_ok part.
Variables (fcos fsin : xr -> xr) (pi : xr) (p : R) (floor_u : xr -> option Z) (rand_max : Z).
Variables (gamma : xr -> xr) (to_f32 : xr -> spec_float).
Hypothesis Hpow : pow_exact pow_.
Hypothesis Hldexp : ldexp_exact ldexp_.
Hypothesis Hfloat : float_exact to_float.
Hypothesis Hcos : computes fcos cos.
Hypothesis Hsin : computes fsin sin.
Hypothesis Hpi : isR pi p.
Hypothesis Hp : 0 < p.
Hypothesis Hfl : floors floor_u.
Hypothesis Hf32 : gives_floats to_f32.
Variables (width height : Z) (ps : list (Z * Z)).
Hypothesis Hw : (0 < width)%Z.
Hypothesis Hh : (0 < height)%Z.
Hypothesis Hsize : (3 * width * height < 4294967296)%Z.
Hypothesis Hps : covers width height ps.
Variables (ks : Z -> Z -> nat -> Z * Z) (rnd : Z -> Z -> nat -> nat -> nat -> Z).
Hypothesis Hks : forall x y i, random_number rand_max (fst (ks x y i)) /\ random_number rand_max (snd (ks x y i)).
Hypothesis Hrnd : forall x y s i k, random_number rand_max (rnd x y s i k).
Notation main := (@tracer_main _ XN pow_ ldexp_ to_float files part fcos fsin pi floor_u rand_max gamma to_f32).


Section Load.
Variables (base : string) (mtl : string -> option (list (mcmd R))) (text : string) (cs : list (cmd R)) (scale : xr) (a : R).
Hypothesis Hfs : file_says text cs.
Hypothesis Hlib : libraries files base mtl cs.
Hypothesis HW : well_formed mtl 0 0 0 cs.
Hypothesis HU : uniform_shapes None cs.
Hypothesis HS : small_file mtl cs.
Hypothesis Ha : isR scale a.
Notation tris := (file_triangles mtl cs).
Notation matsR := (@file_materials _ mtl (Rnum big tiny eps) cs).
Hypothesis Hbig : forall j, (j < length (vertices_of cs))%nat -> in_bounds big (rv_scale a (point_of cs (Z.of_nat j))).

Lemma loaded : exists mesh mats P ms nodes st,
  @tracer_load _ XN pow_ ldexp_ to_float files base scale (Some text) = Ok (Some (mesh, mats)) /\
  Forall2 same_material mats matsR /\ om_materials mesh = map (fun t => stored_material (snd t)) tris /\
  mesh_are (om_vertices mesh) (map indices (om_faces mesh)) P /\
  faces_of tris (fun j => rv_scale a (point_of cs j)) (map indices (om_faces mesh)) P /\
  @make_mesh _ XN (om_vertices mesh) (map indices (om_faces mesh)) = Ok ms /\
  @build _ XN _ part [] (@mesh_coll _ XN ms) default_options = Ok (nodes, st).
Proof.
  destruct (file_reads big tiny eps pow_ ldexp_ to_float Hpow Hldexp Hfloat files base text cs Hfs) as (cs' & Hs & Hl & _).
  destruct (Hl mtl Hlib) as (Hm & _ & El).
  pose proof (Forall2_length _ _ _ (same_vertices _ _ Hs)) as L.
  set (mtl' := read_library big tiny eps pow_ ldexp_ to_float files base) in *.
  pose proof (same_well_formed mtl' mtl cs' cs Hs Hm 0 0 0 HW) as HW'. pose proof (same_small mtl' mtl cs' cs Hs Hm HS) as HS'.
  pose proof (same_uniform cs' cs Hs None HU) as HU'.
  destruct (@load_mesh_ok _ XN mtl' scale cs' HW' HU' HS') as (mesh & E1 & Dr & Dm & _ & I).
  assert (HQ : points (@vscale _ XN scale) (vertices_of cs') (fun j => rv_scale a (point_of cs j))).
  { intros j q E. apply PfX.visR_scale; [exact Ha|exact (same_points cs' cs Hs j q E)]. }
  pose proof (obj_mesh_are _ _ (om_vertices mesh) (om_faces mesh) _ _ HQ Dr I) as HM.
  pose proof (face_box _ _ (om_vertices mesh) (om_faces mesh) _ _ HQ Dr I big ltac:(rewrite L; exact Hbig)) as HB.
  destruct (make_mesh_ok big tiny eps (om_vertices mesh) (Pt (om_vertices mesh)) (proj1 HM) _ (proj2 HM)) as (ms & Ems).
  destruct (mesh_build_ok big tiny eps (om_vertices mesh) _ _ ms part default_options HM Ems HB Hpart ltac:(cbn; lia) ltac:(reflexivity)) as (nodes & st & Eb).
  eexists mesh, _, (Pt (om_vertices mesh)), ms, nodes, st. split; [etransitivity; [exact (El scale)|exact E1]|].
  split; [apply same_materials; assumption|].
  pose proof (faces_length _ _ (om_vertices mesh) (om_faces mesh) _ Dr) as FL.
  pose proof (face_points _ _ (om_vertices mesh) (om_faces mesh) _ _ HQ Dr I) as FP.
  unfold file_triangles in *. rewrite (same_triangles mtl' mtl cs' cs Hs Hm) in Dm, FL, FP.
  split; [exact Dm|]. split; [exact HM|]. split; [split; [exact FL|exact FP]|]. split; [exact Ems|exact Eb].
Qed.

(** Materials of the faces. *)
Lemma face_material mats ids f : Forall2 same_material mats matsR -> ids = map (fun t => stored_material (snd t)) tris ->
  (exists z m, has_material ids mats f z m) <-> exists t z, nth_error tris f = Some (t, Some z).
Proof.
  intros Hm ->. split.
  - intros (z & m & E & Hz & _). destruct (nth_error tris f) as [[t [y|]]|] eqn:Et; [eauto| |].
    2:{ exfalso. apply nth_error_None in Et. assert (f < length (map (fun t : tri => stored_material (snd t)) tris))%nat
          by (apply nth_error_Some; intros X; pose proof (eq_trans (eq_sym E) X) as Y; discriminate Y).
        rewrite map_length in H. lia. }
    pose proof (eq_trans (eq_sym E) (map_nth_error (fun t : tri => stored_material (snd t)) f tris Et)) as X. injection X as ->. exfalso.
    assert (C : (count matsR <= 2147483647)%Z) by (rewrite materials_names; apply HS).
    apply Forall2_length in Hm. unfold count in C. cbn in Hz. lia.
  - intros (t & z & Et). pose proof (@known_material _ (Rnum big tiny eps) _ _ _ _ HW (nth_error_In _ _ Et)) as K.
    pose proof (Forall2_length _ _ _ Hm) as L. unfold count in K.
    destruct (nth_error mats (Z.to_nat z)) as [m|] eqn:Em; [|apply nth_error_None in Em; lia].
    exists z, m. split; [apply (map_nth_error (fun t => stored_material (snd t)) _ _ Et)|]. split; [lia|exact Em].
Qed.
Definition sf_ (j : nat) : surface := match nth_error matsR j with Some m => surface_of m | None => surface_of (Material rv_zero rv_zero rv_zero rv_zero 0 0) end.
Lemma mats_are mats : Forall2 same_material mats matsR -> materials_are mats sf_.
Proof.
  intros Hm j Hj. destruct (nth_error mats j) as [m|] eqn:Em; [|apply nth_error_None in Em; lia].
  destruct (forall2_nth' _ _ _ _ _ Hm Em) as (m' & Em' & Hs). exists m. split; [reflexivity|]. unfold sf_. rewrite Em'. exact Hs.
Qed.
Lemma zero_lt e b : isR e b -> 0 < b -> @nltb _ XN (@nofZ _ XN 0) e = true.
Proof. intros H Hb. destruct e as [|s|s c]; try contradiction. cbn in H. subst c. apply Rltb_spec. exact Hb. Qed.
Lemma lights_there mats ids lights n : Forall2 same_material mats matsR -> ids = map (fun t => stored_material (snd t)) tris ->
  n = length tris -> lists_lights (N := XN) n ids mats lights -> lit tris matsR -> lights <> [].
Proof.
  intros Hm Hi -> (_ & Hl) (t & z & m & Ht & Em & He) E. subst lights.
  destruct (In_nth_error _ _ Ht) as (f & Ef).
  destruct (proj2 (face_material mats ids f Hm Hi) (ex_intro _ t (ex_intro _ z Ef))) as (z' & m' & Hh').
  apply (proj2 (Hl f z')). split; [apply nth_error_Some; intros X; pose proof (eq_trans (eq_sym Ef) X) as Y; discriminate Y|]. exists m'. split; [exact Hh'|].
  destruct Hh' as (E1 & _ & E2). rewrite Hi in E1. pose proof (eq_trans (eq_sym E1) (map_nth_error (fun t : tri => stored_material (snd t)) f tris Ef)) as X. injection X as ->. cbn [snd stored_material] in E2.
  destruct (forall2_nth' _ _ _ _ _ Hm E2) as (m2 & Em2 & (_ & (A & B & C) & _)). rewrite Em in Em2. injection Em2 as <-.
  destruct He as [H|[H|H]]; [left|right; left|right; right]; eapply zero_lt; eassumption.
Qed.

Lemma tracer_text : (forall t, In t tris -> snd t <> None) -> lit tris matsR -> physical_materials matsR ->
  exists mesh mats P ms nodes st,
    @tracer_load _ XN pow_ ldexp_ to_float files base scale (Some text) = Ok (Some (mesh, mats)) /\
    mesh_are (om_vertices mesh) (map indices (om_faces mesh)) P /\
    faces_of tris (fun j => rv_scale a (point_of cs j)) (map indices (om_faces mesh)) P /\
    @make_mesh _ XN (om_vertices mesh) (map indices (om_faces mesh)) = Ok ms /\
    @build _ XN _ part [] (@mesh_coll _ XN ms) default_options = Ok (nodes, st) /\
    ((forall k d, node_depth nodes k d -> (d <= 26)%nat) -> proper P (map indices (om_faces mesh)) ->
     normals_defined (4 * eps) (map indices (om_faces mesh)) P ->
     exists bytes c, main base scale (Some text) width height ps ks rnd = Ok (Some bytes) /\
       picture width height bytes (fun x r => bytes_of 24 128 (vmap (fun v => to_f32 (gamma v)) (c x (height - 1 - r)%Z))) /\
       forall x y, (0 <= x < width)%Z -> (0 <= y < height)%Z -> colour (c x y)).
Proof.
  intros Hall Hlit Hphys. destruct loaded as (mesh & mats & P & ms & nodes & st & El & Hm & Em & HM & HF & Ems & Eb).
  exists mesh, mats, P, ms, nodes, st. split; [exact El|]. split; [exact HM|]. split; [exact HF|]. split; [exact Ems|]. split; [exact Eb|].
  intros Hdep Hprop Hnd. set (faces := map indices (om_faces mesh)) in *.
  assert (HFL : length faces = length tris) by apply HF.
  assert (Hhas : forall f, (f < length faces)%nat -> exists z m, has_material (om_materials mesh) mats f z m).
  { intros f Hf. apply (face_material mats _ f Hm Em). destruct (nth_error tris f) as [[t [z|]]|] eqn:Et; [eauto| |apply nth_error_None in Et; lia].
    exfalso. exact (Hall _ (nth_error_In _ _ Et) eq_refl). }
  destruct (proj2 (@make_light_defined _ XN faces (om_materials mesh) mats) Hhas) as (lights & Elt).
  pose proof (lights_there mats _ lights _ Hm Em HFL (@make_light_ok _ XN _ _ _ _ Elt) Hlit) as Hne.
  assert (Hval : materials_valid faces (om_materials mesh) mats sf_).
  { split; [exact (mats_are mats Hm)|]. split; [|exact Hhas]. intros j Hj. unfold sf_.
    destruct (nth_error matsR j) as [m|] eqn:Ej; [|apply nth_error_None in Ej; pose proof (Forall2_length _ _ _ Hm); lia].
    exact (proj1 (Forall_forall _ _) Hphys m (nth_error_In _ _ Ej)). }
  assert (Hcount : (Z.of_nat (length faces) < 4294967296)%Z).
  { rewrite HFL. destruct HS as (_ & _ & _ & C & _). unfold count in C. lia. }
  assert (Hpx : forall x y, exists c, @pixel _ XN fcos fsin pi floor_u rand_max ms nodes (om_materials mesh) mats lights width height x y (ks x y) (rnd x y) = Ok c /\ colour c).
  { intros x y. eapply (pixel_sound_all big tiny eps (om_vertices mesh) faces P ms part default_options nodes st _ mats sf_ lights fcos fsin pi p); try eassumption; [apply Hks|apply Hrnd]. }
  pose (c := fun x y => match @pixel _ XN fcos fsin pi floor_u rand_max ms nodes (om_materials mesh) mats lights width height x y (ks x y) (rnd x y) with
                        | Ok c => c | _ => V (Fin 0) (Fin 0) (Fin 0) end).
  assert (Hc : forall x y, @tracer_pixel _ XN fcos fsin pi floor_u rand_max gamma to_f32 ms nodes (om_materials mesh) mats lights width height ks rnd x y =
    Ok (Some (vmap (fun v => to_f32 (gamma v)) (c x y)))).
  { intros x y. unfold tracer_pixel, c. destruct (Hpx x y) as (v & -> & _). reflexivity. }
  destruct (png_file 24 128 eq_refl eq_refl (S754_zero false) width height
    (@tracer_pixel _ XN fcos fsin pi floor_u rand_max gamma to_f32 ms nodes (om_materials mesh) mats lights width height ks rnd)
    (fun x y => Some (vmap (fun v => to_f32 (gamma v)) (c x y))) ps ltac:(lia) ltac:(lia) ltac:(lia) Hsize Hps (fun x y _ _ => Hc x y))
    as (img & bytes & Ei & Eby & Hpic).
  { intros x y _ _. repeat split; apply Hf32. }
  exists bytes, c. split; [|split].
  - unfold tracer_main. rewrite El. cbn [bind]. fold faces. rewrite Elt. cbn [bind]. rewrite Ems. cbn [bind]. rewrite Eb. cbn [bind]. rewrite Ei. cbn [bind].
    destruct (bars_ok height ltac:(nia)) as (l & ->). cbn [bind]. change F32 with (Fnum 24 128). rewrite Eby. reflexivity.
  - exact Hpic.
  - intros x y _ _. unfold c. destruct (Hpx x y) as (v & -> & Hv). exact Hv.
Qed.
(** A face for which no material was chosen. *)
Lemma tracer_bare t : In (t, None) tris -> forall out, main base scale (Some text) width height ps ks rnd <> Ok out.
Proof.
  intros Ht out E. destruct loaded as (mesh & mats & P & ms & nodes & st & El & Hm & Em & HM & HF & Ems & Eb).
  unfold tracer_main in E. rewrite El in E. cbn [bind] in E.
  destruct (@make_light _ XN (map indices (om_faces mesh)) (om_materials mesh) mats) as [lights| |] eqn:Elt; [|discriminate..].
  destruct (In_nth_error _ _ Ht) as (f & Ef).
  assert (Hf : (f < length (map indices (om_faces mesh)))%nat) by (rewrite (proj1 HF); apply nth_error_Some; intros X; pose proof (eq_trans (eq_sym Ef) X) as Y; discriminate Y).
  destruct (proj1 (face_material mats _ f Hm Em) (proj1 (@make_light_defined _ XN _ _ _) (ex_intro _ lights Elt) f Hf)) as (t' & z & E').
  pose proof (eq_trans (eq_sym Ef) E') as X. discriminate X.
Qed.
End Load.
(** Without a file, or with one the reader refuses, the program returns -1. *)
Lemma tracer_refused base scale file : @tracer_load _ XN pow_ ldexp_ to_float files base scale file = Ok None ->
  main base scale file width height ps ks rnd = Ok None.
Proof. intros E. unfold tracer_main. rewrite E. reflexivity. Qed.
End Tracer.
