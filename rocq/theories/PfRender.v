(** The picture the renderer computes. *)

From Coq Require Import Reals ZArith List Bool Lia Lra.
From Verif Require Import Num NumR NumX Vec Ray Bvh Traverse Trimesh PathTracer TinyObj Image Camera.
From Verif Require Import SpecBvh SpecReal SpecTri SpecNearest SpecImage SpecCamera SpecObj SpecObjMesh SpecRender.
From Verif Require Import PfX PfPart PfTri PfTri2 PfTri3 PfImage PfCamera PfObj5 PfObj6 PfObjMesh.
Import ListNotations.
Local Open Scope R_scope.

Lemma unit_self U : rv_norm U = 1 -> unit_of U = U.
Proof. intros H. unfold unit_of. rewrite H, Rinv_1. unfold rv_scale. destruct U as [x y z]. cbn [vx vy vz]. f_equal; ring. Qed.
Lemma abs_ok v w : visR v w -> visR (vmap xabs v) (rv_abs w).
Proof. intros (A & B & C). repeat split; cbn; apply isR_abs; assumption. Qed.

Section Picture.
Variables (big tiny eps : R) (ftan : xr -> xr) (half_degree : xr) (c : camera xr) (O D Up : vec R) (w : R) (width height : Z).
Notation XN := (Xnum big tiny eps).
Hypothesis Ho : visR (ca_eye c) O.
Hypothesis Hd : visR (ca_dir c) D.
Hypothesis Hu : visR (ca_up c) Up.
Hypothesis Zx : no_neg_zero (vx (ca_dir c)).
Hypothesis Zy : no_neg_zero (vy (ca_dir c)).
Hypothesis Zz : no_neg_zero (vz (ca_dir c)).
Hypothesis Ht : isR (ftan (@nmul _ XN (ca_fov c) half_degree)) w.
Hypothesis Hw : (0 < width)%Z.
Hypothesis Hh : (0 < height)%Z.
Hypothesis Hsize : (3 * width * height < 18446744073709551616)%Z.
Hypothesis HD : rv_cross D Up <> rv_zero.
Variables (ms : mesh xr) (nodes : list (node xr (triangle xr))) (rule : vec R -> vec xr -> Prop) (level : R -> Prop).
Hypothesis Hlevel : level_free D Up O w width height level.
(** What a query along [U] makes of the pixel. *)
Hypothesis Hquery : forall d U, rv_norm U = 1 -> wide (ca_eye c) d (Fin 0) O U 0 -> (vz U = 0 -> ~ level (vz O)) ->
  exists b rh, @traverse _ XN _ _ (@tri_isector _ XN ms) nodes
      (@make_ray _ XN (ca_eye c) d (Fin 0) (Fin big) false) (@new_rayhit _ XN) = Ok (b, rh) /\
    rule U (if b then vmap xabs (h_normal rh) else vconst (Fin 0)).

Lemma render_ok : exists img, @render _ XN ftan half_degree c ms nodes width height = Ok img /\
  photograph D Up w width height img rule.
Proof.
  destruct (camera_rays big tiny eps ftan half_degree c O D Up w width height Ho Hd Hu Zx Zy Zz Ht Hw Hh HD) as (d & r & a & L & H).
  pose (colour := fun i j => match @render_pixel _ XN ftan half_degree c ms nodes width height i j with
                            | Ok (Some v) => v | _ => vconst (Fin 0) end).
  assert (K : forall i j, @render_pixel _ XN ftan half_degree c ms nodes width height i j = Ok (Some (colour i j)) /\
    exists U, rv_norm U = 1 /\ through_pixel d r a w width height i j U /\ rule U (colour i j)).
  { intros i j. destruct (H i j) as (U & N1 & Th & Wd).
    destruct (Hquery _ U N1 Wd (Hlevel d r a i j U L Th)) as (b & rh & E & Rl).
    assert (E' : @render_pixel _ XN ftan half_degree c ms nodes width height i j =
      Ok (Some (if b then vmap xabs (h_normal rh) else vconst (Fin 0)))).
    { unfold render_pixel. change (@n0 _ XN) with (Fin 0). change (@nmaxv _ XN) with (Fin big). rewrite E. reflexivity. }
    unfold colour. rewrite E'. split; [reflexivity|]. exists U. auto. }
  destruct (pixel_image_ok xr (@n0 _ XN) width height (@render_pixel _ XN ftan half_degree c ms nodes width height) colour) as (img & E & Hp);
    [lia|lia|exact Hsize|intros; apply K|].
  exists img. split; [exact E|]. exists colour, d, r, a. split; [exact Hp|]. split; [exact L|]. intros i j _ _. apply K.
Qed.
End Picture.

(** From the answer of a query to the colour. *)
Lemma answer_colour faces P O U (firm hit : nat -> R -> Prop) rh0 res :
  loose_answer firm hit (mesh_about faces P O U) false rh0 res ->
  exists b rh, res = Ok (b, rh) /\
   ((visR (if b then vmap xabs (h_normal rh) else vconst (Fin 0)) rv_zero /\ forall i t, ~ firm i t) \/
    (exists i t u v, hit i t /\ (forall j s, firm j s -> t <= s) /\
     at_t O U t = bary (fa faces P i) (fb faces P i) (fc faces P i) u v /\
     (proper P faces -> mixed_normal P faces i u v <> rv_zero ->
      visR (if b then vmap xabs (h_normal rh) else vconst (Fin 0)) (rv_abs (unit_of (mixed_normal P faces i u v)))))).
Proof.
  intros (b & rh & E & Q0 & Q1). exists b, rh. split; [exact E|]. destruct b.
  - right. destruct (Q1 eq_refl) as (i & t & A1 & A2 & A3 & A4 & (u & v & A5 & A6 & A7 & A8) & A9).
    exists i, t, u, v. split; [exact A1|]. split; [apply A9; reflexivity|]. split; [exact A7|].
    intros Hp Hm. apply abs_ok, A8; assumption.
  - left. destruct (Q0 eq_refl) as [_ B]. split; [repeat split|exact B].
Qed.

(** Every mesh. *)
Lemma render_mesh big tiny eps ftan half_degree c O D Up w width height :
  visR (ca_eye c) O -> visR (ca_dir c) D -> visR (ca_up c) Up ->
  no_neg_zero (vx (ca_dir c)) -> no_neg_zero (vy (ca_dir c)) -> no_neg_zero (vz (ca_dir c)) ->
  isR (ftan (@nmul _ (Xnum big tiny eps) (ca_fov c) half_degree)) w ->
  (0 < width)%Z -> (0 < height)%Z -> (3 * width * height < 18446744073709551616)%Z -> rv_cross D Up <> rv_zero -> 0 <= eps ->
  forall vertices faces P ms, mesh_are vertices faces P -> @make_mesh _ (Xnum big tiny eps) vertices faces = Ok ms ->
  (forall i, (i < length faces)%nat ->
     in_bounds big (tri_lower (fa faces P i) (fb faces P i) (fc faces P i)) /\
     in_bounds big (tri_upper (fa faces P i) (fb faces P i) (fc faces P i))) ->
  level_free D Up O w width height (face_levels faces P) ->
  forall part, partition_ok part -> forall opt nodes st,
  @build _ (Xnum big tiny eps) _ part [] (@mesh_coll _ (Xnum big tiny eps) ms) opt = Ok (nodes, st) ->
  (forall k d, node_depth nodes k d -> (d <= 26)%nat) ->
  exists img, @render _ (Xnum big tiny eps) ftan half_degree c ms nodes width height = Ok img /\
    photograph D Up w width height img (fun U => shaded (4 * eps) faces P O U (Fin big)).
Proof.
  intros Ho Hd Hu Zx Zy Zz Ht Hw Hh Hs HD Heps vertices faces P ms HM Ems HB HL part Hpart opt nodes st Eb Hdep.
  apply (render_ok big tiny eps ftan half_degree c O D Up w width height Ho Hd Hu Zx Zy Zz Ht Hw Hh Hs HD ms nodes _ _ HL).
  intros d U N1 Wd Hz.
  pose proof (mesh_query_wide big tiny eps Heps vertices faces P ms HM Ems HB part Hpart opt nodes st Eb Hdep _ d (Fin 0) (Fin big) false O U 0 Wd) as H.
  rewrite (unit_self U N1), Rmult_0_l in H.
  exact (answer_colour faces P O U _ _ _ _
    (H (fun E i Hi => conj (fun X => Hz E (ex_intro _ i (conj Hi (or_introl X)))) (fun X => Hz E (ex_intro _ i (conj Hi (or_intror X))))) _)).
Qed.

(** From the file to the picture. *)
Lemma render_file big tiny eps ftan half_degree c O D Up w width height :
  visR (ca_eye c) O -> visR (ca_dir c) D -> visR (ca_up c) Up ->
  no_neg_zero (vx (ca_dir c)) -> no_neg_zero (vy (ca_dir c)) -> no_neg_zero (vz (ca_dir c)) ->
  isR (ftan (@nmul _ (Xnum big tiny eps) (ca_fov c) half_degree)) w ->
  (0 < width)%Z -> (0 < height)%Z -> (3 * width * height < 18446744073709551616)%Z -> rv_cross D Up <> rv_zero -> 0 <= eps ->
  forall mtl_file cs Q scale a,
  well_formed (T := xr) mtl_file 0 0 0 cs -> uniform_shapes None cs -> small_file mtl_file cs ->
  points (fun p => p) (vertices_of cs) Q -> isR scale a ->
  (forall j, (j < length (vertices_of cs))%nat -> in_bounds big (rv_scale a (Q (Z.of_nat j)))) ->
  level_free D Up O w width height (fun z => exists j, (j < length (vertices_of cs))%nat /\ z = a * vz (Q (Z.of_nat j))) ->
  forall part, partition_ok part -> forall opt, (1 <= bin_size opt)%nat -> (3 * Z.of_nat (bin_size opt) < 4294967296)%Z ->
  exists mesh P ms nodes st,
    @load_mesh _ (Xnum big tiny eps) mtl_file scale cs = Ok (Some (mesh, @file_materials _ mtl_file (Xnum big tiny eps) cs)) /\
    mesh_are (om_vertices mesh) (map face_nat (om_faces mesh)) P /\
    faces_of (file_triangles mtl_file cs) (fun j => rv_scale a (Q j)) (map face_nat (om_faces mesh)) P /\
    @make_mesh _ (Xnum big tiny eps) (om_vertices mesh) (map face_nat (om_faces mesh)) = Ok ms /\
    @build _ (Xnum big tiny eps) _ part [] (@mesh_coll _ (Xnum big tiny eps) ms) opt = Ok (nodes, st) /\
    ((forall k d, node_depth nodes k d -> (d <= 26)%nat) ->
     exists img, @render _ (Xnum big tiny eps) ftan half_degree c ms nodes width height = Ok img /\
       photograph D Up w width height img
         (fun U => file_shaded (4 * eps) (file_triangles mtl_file cs) (fun j => rv_scale a (Q j))
                     (map face_nat (om_faces mesh)) P O U (Fin big))).
Proof.
  intros Ho Hd Hu Zx Zy Zz Ht Hw Hh Hs HD Heps mtl_file cs Q scale a HW HU HS HQ Ha Hbig HL part Hpart opt Hb1 Hb2.
  destruct (@load_mesh_ok _ (Xnum big tiny eps) mtl_file scale cs HW HU HS) as (mesh & El & Dr & _ & _ & I).
  assert (HQ' : points (@vscale _ (Xnum big tiny eps) scale) (vertices_of cs) (fun j => rv_scale a (Q j))).
  { intros j p E. apply PfX.visR_scale; [exact Ha|exact (HQ j p E)]. }
  pose proof (obj_mesh_are _ _ (om_vertices mesh) (om_faces mesh) _ _ HQ' Dr I) as HM.
  pose proof (face_box _ _ (om_vertices mesh) (om_faces mesh) _ _ HQ' Dr I big Hbig) as HB.
  destruct (make_mesh_ok big tiny eps (om_vertices mesh) (Pt (om_vertices mesh)) (proj1 HM) _ (proj2 HM)) as (ms & Ems).
  destruct (mesh_build_ok big tiny eps (om_vertices mesh) _ _ ms part opt HM Ems HB Hpart Hb1 Hb2) as (nodes & st & Eb).
  exists mesh, (Pt (om_vertices mesh)), ms, nodes, st. split; [exact El|]. split; [exact HM|].
  split; [split; [eapply faces_length; eassumption|exact (face_points _ _ (om_vertices mesh) (om_faces mesh) _ _ HQ' Dr I)]|].
  split; [exact Ems|]. split; [exact Eb|].
  intros Hdep.
  apply (render_ok big tiny eps ftan half_degree c O D Up w width height Ho Hd Hu Zx Zy Zz Ht Hw Hh Hs HD ms nodes _ _ HL).
  intros d U N1 Wd Hz.
  pose proof (mesh_query_wide big tiny eps Heps (om_vertices mesh) _ _ ms HM Ems HB part Hpart opt nodes st Eb Hdep _ d (Fin 0) (Fin big) false O U 0 Wd
    (fun E => face_level _ _ (om_vertices mesh) (om_faces mesh) _ _ HQ' Dr I O (fun j Hj X => Hz E (ex_intro _ j (conj Hj X))))) as H.
  rewrite (unit_self U N1), Rmult_0_l in H.
  destruct (answer_colour _ _ O U _ _ _ _ (H (@new_rayhit _ (Xnum big tiny eps)))) as (b & rh & E & [[A B]|(i & t & u & v & A1 & A2 & A3)]).
  - exists b, rh. split; [exact E|]. left. split; [exact A|]. intros i t Hc.
    apply (B i t). apply (cross_iff _ _ (om_vertices mesh) (om_faces mesh) _ _ HQ' Dr I). exact Hc.
  - exists b, rh. split; [exact E|]. right. exists i, t, u, v.
    split; [apply (hit_obj _ _ (om_vertices mesh) (om_faces mesh) _ _ HQ' Dr I); exact A1|]. split; [|exact A3].
    intros j s Hc. apply (A2 j s). apply (cross_iff _ _ (om_vertices mesh) (om_faces mesh) _ _ HQ' Dr I). exact Hc.
Qed.
