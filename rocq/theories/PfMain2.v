(** The programs that only query: scene_mesh and benchmark_blaze. *)

From Coq Require Import Reals ZArith Strings.String List Bool Lia Lra.
From Verif Require Import Num NumR NumX Vec Datatypes Ray Bvh Traverse Trimesh Scene PathTracer TinyObj ObjText Image Camera ScenePic Mains.
From Verif Require Import SpecBvh SpecReal SpecTri SpecNearest SpecImage SpecCamera SpecObj SpecObjMesh SpecText SpecRender SpecMain.
From Verif Require Import PfPart PfX PfTrav2 PfTri2 PfTri3 PfImage PfImage3 PfCamera PfObj5 PfObj6 PfObjMesh PfText PfText2 PfText3 PfText5 PfRender CaseCamera PfMain.
Import ListNotations.
Local Open Scope R_scope.

Lemma queries_ok {T} (f : Z -> Z -> res (bool * rayhit T)) ps : (forall x y, exists a, f x y = Ok a) -> queries f ps = Ok tt.
Proof. intros H. induction ps as [|[x y] ps IH]; [reflexivity|]. cbn [queries]. destruct (H x y) as (a & ->). exact IH. Qed.

Section Programs.
Context (big tiny eps : R).
Notation XN := (Xnum big tiny eps).
Variables (pow_ : Z -> Z -> xr) (ldexp_ : xr -> Z -> xr) (to_float : xr -> xr).
Variable files : string -> option string.
Variable part : (nat -> bool) -> list nat -> list nat * list nat.
Hypothesis Hpart : partition_ok part.

(** Whatever the rays: a tree of small depth is traversed. *)
Lemma mains_from vertices faces ms nodes st file width height ps :
  @plain_mesh _ XN pow_ ldexp_ to_float files file = Ok (vertices, faces) -> @make_mesh _ XN vertices faces = Ok ms ->
  @build _ XN _ part [] (@mesh_coll _ XN ms) default_options = Ok (nodes, st) ->
  (forall x y, exists a, @traverse _ XN _ _ (@tri_isector _ XN ms) nodes (@pinhole_ray _ XN width height x y) (@new_rayhit _ XN) = Ok a) ->
  @scene_mesh_main _ XN pow_ ldexp_ to_float files part file width height ps = Ok tt /\
  @benchmark_blaze_main _ XN pow_ ldexp_ to_float files part file width height ps = Ok tt.
Proof.
  intros E1 E2 E3 H. split.
  - unfold scene_mesh_main. rewrite E1. cbn [bind]. unfold add_mesh. cbn [new_scene sc_mesh sc_committed sc_options sc_count].
    rewrite E2. cbn [bind]. unfold commit, build_geometry. cbn [sc_mesh sc_spheres sc_planes sc_cylinders sc_options g_nodes g_coll g_id].
    rewrite E3. cbn [bind]. apply queries_ok. intros x y. destruct (H x y) as ([h rh] & E).
    unfold intersect1. cbn [sc_mesh sc_spheres sc_planes sc_cylinders]. unfold query_block. cbn [g_nodes g_coll g_id].
    rewrite E. cbn [bind]. destruct h; cbn [andb orb bind]; eauto.
  - unfold benchmark_blaze_main. rewrite E1. cbn [bind]. rewrite E2. cbn [bind]. rewrite E3. cbn [bind]. apply queries_ok. exact H.
Qed.
End Programs.

Section Exact.
Context (big tiny eps : R) (Heps : 0 <= eps).
Notation XN := (Xnum big tiny eps).
Variables (pow_ : Z -> Z -> xr) (ldexp_ : xr -> Z -> xr) (to_float : xr -> xr).
Hypothesis Hpow : pow_exact pow_.
Hypothesis Hldexp : ldexp_exact ldexp_.
Hypothesis Hfloat : float_exact to_float.
Variable files : string -> option string.
Variable part : (nat -> bool) -> list nat -> list nat * list nat.
Hypothesis Hpart : partition_ok part.
Variables (width height : Z).
Hypothesis Hw : (0 < width)%Z.
Hypothesis Hh : (0 < height)%Z.

(** As many faces as triangles. *)
Lemma plain_size text cs vertices faces ms : file_says text cs -> well_formed no_mtl 0 0 0 cs -> small_file no_mtl cs ->
  @load_plain_text _ XN pow_ ldexp_ to_float files text = Ok (Some (vertices, faces)) -> @make_mesh _ XN vertices (map face_nat faces) = Ok ms ->
  c_size (@mesh_coll _ XN ms) = length (file_triangles no_mtl cs).
Proof.
  intros Hfs HW HS E Ems.
  destruct (file_reads big tiny eps pow_ ldexp_ to_float Hpow Hldexp Hfloat files ""%string text cs Hfs) as (cs' & Hs & _ & Hp).
  destruct (@load_plain_ok _ XN cs' (same_well_formed no_mtl no_mtl cs' cs Hs (no_libraries cs) 0 0 0 HW)
    (same_small no_mtl no_mtl cs' cs Hs (no_libraries cs) HS) no_mtl) as (vs & fs & El & D & I).
  pose proof (eq_trans (eq_sym E) (eq_trans (proj2 (Hp no_mtl)) El)) as X. injection X as -> ->.
  pose proof (obj_mesh_are _ _ vs fs _ _ (same_points cs' cs Hs) D (fun p Hp => ex_intro _ p (conj (I p Hp) eq_refl))) as HM.
  rewrite (PfTri3.mesh_size big tiny eps _ _ _ ms HM Ems). unfold nfaces. rewrite map_length, (Forall2_length _ _ _ D).
  unfold file_triangles. now rewrite (same_triangles no_mtl no_mtl cs' cs Hs (no_libraries cs)).
Qed.

Lemma plain_mains text cs : file_says text cs -> well_formed no_mtl 0 0 0 cs -> small_file no_mtl cs ->
  (forall j, (j < length (vertices_of cs))%nat -> in_bounds big (point_of cs (Z.of_nat j))) ->
  exists vertices faces ms nodes st,
    @plain_mesh _ XN pow_ ldexp_ to_float files (Some text) = Ok (vertices, faces) /\ @make_mesh _ XN vertices faces = Ok ms /\
    @build _ XN _ part [] (@mesh_coll _ XN ms) default_options = Ok (nodes, st) /\
    c_size (@mesh_coll _ XN ms) = length (file_triangles no_mtl cs) /\
    ((forall k d, node_depth nodes k d -> (d <= 26)%nat) -> forall ps,
     @scene_mesh_main _ XN pow_ ldexp_ to_float files part (Some text) width height ps = Ok tt /\
     @benchmark_blaze_main _ XN pow_ ldexp_ to_float files part (Some text) width height ps = Ok tt).
Proof.
  intros Hfs HW HS Hbig.
  destruct (text_plain_query big tiny eps Heps pow_ ldexp_ to_float Hpow Hldexp Hfloat files text cs Hfs HW HS Hbig part Hpart default_options)
    as (vertices & faces & ms & nodes & st & E1 & E2 & E3 & H); [cbn; lia|reflexivity|].
  assert (E : @plain_mesh _ XN pow_ ldexp_ to_float files (Some text) = Ok (vertices, map face_nat faces)).
  { unfold plain_mesh. rewrite E1. reflexivity. }
  exists vertices, (map face_nat faces), ms, nodes, st. split; [exact E|]. split; [exact E2|]. split; [exact E3|].
  split; [exact (plain_size text cs vertices faces ms Hfs HW HS E1 E2)|].
  intros Hdep ps. apply (mains_from big tiny eps pow_ ldexp_ to_float files part vertices (map face_nat faces) ms nodes st _ width height ps E E2 E3).
  intros x y. destruct (H Hdep _ _ _ (Fin big) false _ _ _ (pinhole_ok big tiny eps width height x y Hw Hh)) with (rh := @new_rayhit _ XN)
    as (b & rh & Eq & _); [cbn; lra|]. eexists. exact Eq.
Qed.

Lemma plain_mains_empty file ps : @plain_mesh _ XN pow_ ldexp_ to_float files file = Ok ([], []) ->
  @scene_mesh_main _ XN pow_ ldexp_ to_float files part file width height ps = Ok tt /\
  @benchmark_blaze_main _ XN pow_ ldexp_ to_float files part file width height ps = Ok tt.
Proof.
  intros E. assert (HM : mesh_are [] [] (fun _ => rv_zero)) by (split; [intros j Hj; cbn in Hj; lia|intros f []]).
  assert (HB : forall i, (i < @length (vec nat) [])%nat ->
     in_bounds big (tri_lower (fa [] (fun _ => rv_zero) i) (fb [] (fun _ => rv_zero) i) (fc [] (fun _ => rv_zero) i)) /\
     in_bounds big (tri_upper (fa [] (fun _ => rv_zero) i) (fb [] (fun _ => rv_zero) i) (fc [] (fun _ => rv_zero) i))) by (intros i Hi; cbn in Hi; lia).
  destruct (make_mesh_ok big tiny eps [] _ (proj1 HM) _ (proj2 HM)) as (ms & Ems).
  destruct (mesh_build_ok big tiny eps [] [] _ ms part default_options HM Ems HB Hpart ltac:(cbn; lia) ltac:(reflexivity)) as (nodes & st & Eb).
  assert (Hdep : forall k d, node_depth nodes k d -> (d <= 26)%nat).
  { apply (shallow_depth part Hpart _ default_options nodes st Eb). right. rewrite (PfTri3.mesh_size big tiny eps _ _ _ ms HM Ems). cbn. lia. }
  apply (mains_from big tiny eps pow_ ldexp_ to_float files part [] [] ms nodes st _ width height ps E Ems Eb).
  intros x y.
  destruct (mesh_query_wide big tiny eps Heps [] [] _ ms HM Ems HB part Hpart default_options nodes st Eb Hdep _ _ _ (Fin big) false _ _ _
    (pinhole_ok big tiny eps width height x y Hw Hh)) with (rh := @new_rayhit _ XN) as (b & rh & Eq & _); [cbn; lra|]. eexists. exact Eq.
Qed.
End Exact.
