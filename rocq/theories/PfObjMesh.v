(** Rays and the triangles of an OBJ file. *)

From Coq Require Import Reals ZArith Strings.String List Bool Lia Lra.
From Verif Require Import Num NumX Vec Datatypes Ray Bvh Traverse Trimesh SpecBvh SpecReal SpecTri SpecNearest TinyObj SpecObj SpecObjMesh.
From Verif Require Import PfTri2 PfTri3 PfEmbNear PfObj PfObj3 PfObj4 PfObj5.
Import ListNotations.
Local Open Scope list_scope.
Local Open Scope R_scope.

Definition toR (x : xr) : R := match x with Xf _ a => a | _ => 0 end.
Definition vtoR (v : vec xr) : vec R := V (toR (vx v)) (toR (vy v)) (toR (vz v)).
Lemma visR_vtoR v w : visR v w -> visR v (vtoR v).
Proof.
  destruct v as [x y z], w as [a b c]. intros (H1 & H2 & H3). unfold visR, vtoR. cbn [vx vy vz] in *.
  destruct x, y, z; cbn in *; tauto.
Qed.

Lemma forall2_nth' {A B} (R : A -> B -> Prop) l l' i a : Forall2 R l l' -> nth_error l i = Some a ->
  exists b, nth_error l' i = Some b /\ R a b.
Proof.
  intros F. revert i. induction F as [|x y l l' Hxy F IH]; intros [|i] E; try discriminate E.
  - injection E as <-. exists y. now split.
  - cbn in *. apply IH, E.
Qed.

Section Drawn.
Variables (g : vec xr -> vec xr) (file vertices : list (vec xr)) (faces : list (vec Z)) (tris : list tri) (Q : Z -> vec R).
Hypothesis HQ : points g file Q.
Hypothesis HD : Forall2 (drawn g file vertices) faces tris.
Hypothesis HV : forall p, In p vertices -> exists q, In q file /\ p = g q.

Definition Pt (j : nat) : vec R := vtoR (nth j vertices (V (Fin 0) (Fin 0) (Fin 0))).
Definition nfaces : list (vec nat) := map face_nat faces.

Lemma vertex_real p : In p vertices -> visR p (vtoR p).
Proof.
  intros H. destruct (HV p H) as (q & Hq & ->). apply In_nth_error in Hq as (j & Hj). exact (visR_vtoR _ _ (HQ j q Hj)).
Qed.
Lemma nth_vertex j p : nth_error vertices j = Some p -> Pt j = vtoR p.
Proof. intros E. unfold Pt. now rewrite (nth_error_nth _ _ _ E). Qed.
Lemma holds_point i j : holds g file vertices i j -> (Z.to_nat i < length vertices)%nat /\ Pt (Z.to_nat i) = Q j.
Proof.
  intros (Hi & Hj & p & E & E'). split; [apply nth_error_Some; congruence|].
  rewrite (nth_vertex _ _ E'). pose proof (HQ _ _ E) as V1. rewrite Z2Nat.id in V1 by exact Hj.
  exact (visR_inj _ _ _ (vertex_real _ (nth_error_In _ _ E')) V1).
Qed.

Lemma obj_mesh_are : mesh_are vertices nfaces Pt.
Proof.
  split.
  - intros j Hj. destruct (nth_error vertices j) as [p|] eqn:E; [|apply nth_error_None in E; lia].
    exists p. split; [reflexivity|]. rewrite (nth_vertex _ _ E). apply vertex_real, (nth_error_In _ _ E).
  - intros f Hf. apply in_map_iff in Hf as (fz & <- & Hf). apply In_nth_error in Hf as (i & Ei).
    assert (exists t, nth_error tris i = Some t /\ drawn g file vertices fz t) as (t & _ & D).
    { destruct (forall2_nth' _ _ _ _ _ HD Ei) as (t & E & D). eauto. }
    destruct t as [[[[a ?] [b ?]] [c ?]] ?]. destruct D as (D0 & D1 & D2). cbn [face_nat vx vy vz].
    split; [apply (holds_point _ _ D0)|]. split; [apply (holds_point _ _ D1)|apply (holds_point _ _ D2)].
Qed.

Lemma faces_length : length nfaces = length tris.
Proof. unfold nfaces. rewrite map_length. exact (forall2_len _ _ _ HD). Qed.

(** Face [i] of the mesh is triangle [i] of the file. *)
Lemma face_points i a b c x y z mat : nth_error tris i = Some ((a, x), (b, y), (c, z), mat) ->
  fa nfaces Pt i = Q a /\ fb nfaces Pt i = Q b /\ fc nfaces Pt i = Q c.
Proof.
  intros E. destruct (forall2_nth _ _ _ _ _ HD E) as (f & Ef & D0 & D1 & D2).
  unfold fa, fb, fc, face, nfaces. rewrite (nth_error_nth _ _ (V 0 0 0)%nat (map_nth_error face_nat _ _ Ef)). cbn [face_nat vx vy vz].
  split; [apply (holds_point _ _ D0)|]. split; [apply (holds_point _ _ D1)|apply (holds_point _ _ D2)].
Qed.
Lemma tri_at i : (i < length nfaces)%nat -> exists a b c x y z mat, nth_error tris i = Some ((a, x), (b, y), (c, z), mat).
Proof.
  rewrite faces_length. intros H. destruct (nth_error tris i) as [[[[[a x] [b y]] [c z]] mat]|] eqn:E.
  - do 7 eexists. reflexivity.
  - apply nth_error_None in E. lia.
Qed.

Lemma cross_iff O U m tmax i t : mesh_cross nfaces Pt O U m tmax i t <-> obj_cross tris Q O U m tmax i t.
Proof.
  split.
  - intros (H & (H1 & H2 & H3) & H4). destruct (tri_at i H) as (a & b & c & x & y & z & mat & E).
    destruct (face_points _ _ _ _ _ _ _ _ E) as (Ea & Eb & Ec). rewrite Ea, Eb, Ec in *.
    exists a, b, c, x, y, z, mat. auto.
  - intros (a & b & c & x & y & z & mat & E & H1 & H2 & H3 & H4).
    destruct (face_points _ _ _ _ _ _ _ _ E) as (Ea & Eb & Ec). split.
    + rewrite faces_length. apply nth_error_Some. congruence.
    + rewrite Ea, Eb, Ec. auto.
Qed.
Lemma hit_obj tol O U m tmax i t : mesh_hit tol nfaces Pt O U m tmax i t -> obj_hit tol tris Q O U m tmax i t.
Proof.
  intros (H & (H1 & H2 & H3) & H4). destruct (tri_at i H) as (a & b & c & x & y & z & mat & E).
  destruct (face_points _ _ _ _ _ _ _ _ E) as (Ea & Eb & Ec). rewrite Ea, Eb, Ec in *.
  exists a, b, c, x, y, z, mat. auto.
Qed.
Lemma about_obj tol O U m tmax i t rh : mesh_hit tol nfaces Pt O U m tmax i t -> mesh_about nfaces Pt O U i t rh -> obj_about tris Q O U i t rh.
Proof.
  intros (H & _) (u & v & Hu & Hv & E & _). destruct (tri_at i H) as (a & b & c & x & y & z & mat & Et).
  destruct (face_points _ _ _ _ _ _ _ _ Et) as (Ea & Eb & Ec). rewrite Ea, Eb, Ec in *.
  exists a, b, c, x, y, z, mat, u, v. auto.
Qed.

Lemma holds_in (S : vec R -> Prop) i j : (forall j, (j < length file)%nat -> S (Q (Z.of_nat j))) ->
  holds g file vertices i j -> S (Q j).
Proof.
  intros H (_ & Hj & p & E & _). rewrite <- (Z2Nat.id j Hj). apply H. apply nth_error_Some. congruence.
Qed.
Lemma face_box big : (forall j, (j < length file)%nat -> in_bounds big (Q (Z.of_nat j))) ->
  forall i, (i < length nfaces)%nat ->
     in_bounds big (tri_lower (fa nfaces Pt i) (fb nfaces Pt i) (fc nfaces Pt i)) /\
     in_bounds big (tri_upper (fa nfaces Pt i) (fb nfaces Pt i) (fc nfaces Pt i)).
Proof.
  intros Hb i Hi. destruct (tri_at i Hi) as (a & b & c & x & y & z & mat & E).
  destruct (forall2_nth _ _ _ _ _ HD E) as (f & Ef & D0 & D1 & D2).
  destruct (face_points _ _ _ _ _ _ _ _ E) as (-> & -> & ->).
  pose proof (holds_in (in_bounds big) _ _ Hb D0) as B0. pose proof (holds_in (in_bounds big) _ _ Hb D1) as B1. pose proof (holds_in (in_bounds big) _ _ Hb D2) as B2.
  revert B0 B1 B2. unfold in_bounds, tri_lower, tri_upper. cbn [vx vy vz]. unfold Rmin, Rmax.
  split; repeat destruct (Rle_dec _ _); lra.
Qed.
Lemma face_level (O : vec R) : (forall j, (j < length file)%nat -> vz O <> vz (Q (Z.of_nat j))) ->
  forall i, (i < length nfaces)%nat ->
     vz O <> vz (tri_lower (fa nfaces Pt i) (fb nfaces Pt i) (fc nfaces Pt i)) /\
     vz O <> vz (tri_upper (fa nfaces Pt i) (fb nfaces Pt i) (fc nfaces Pt i)).
Proof.
  intros Hb i Hi. destruct (tri_at i Hi) as (a & b & c & x & y & z & mat & E).
  destruct (forall2_nth _ _ _ _ _ HD E) as (f & Ef & D0 & D1 & D2).
  destruct (face_points _ _ _ _ _ _ _ _ E) as (-> & -> & ->).
  pose proof (holds_in (fun v => vz O <> vz v) _ _ Hb D0) as B0. pose proof (holds_in (fun v => vz O <> vz v) _ _ Hb D1) as B1.
  pose proof (holds_in (fun v => vz O <> vz v) _ _ Hb D2) as B2. cbv beta in *.
  unfold tri_lower, tri_upper. cbn [vz]. unfold Rmin, Rmax.
  split; repeat destruct (Rle_dec _ _); assumption.
Qed.
End Drawn.

(** A mesh loaded from a file answers for the triangles of the file. *)
Section Query.
Variables (big tiny eps : R).
Notation XN := (Xnum big tiny eps).
Hypothesis Heps : 0 <= eps.
Variables (g : vec xr -> vec xr) (file vertices : list (vec xr)) (faces : list (vec Z)) (tris : list tri) (Q : Z -> vec R).
Hypothesis HQ : points g file Q.
Hypothesis HD : Forall2 (drawn g file vertices) faces tris.
Hypothesis HV : forall p, In p vertices -> exists q, In q file /\ p = g q.
Hypothesis Hbig : forall j, (j < length file)%nat -> in_bounds big (Q (Z.of_nat j)).

Lemma obj_query part : partition_ok part -> forall opt, (1 <= bin_size opt)%nat -> (3 * Z.of_nat (bin_size opt) < 4294967296)%Z ->
  exists ms nodes st, @make_mesh _ XN vertices (map face_nat faces) = Ok ms /\
    @build _ XN _ part [] (@mesh_coll _ XN ms) opt = Ok (nodes, st) /\
    ((forall k d, node_depth nodes k d -> (d <= 26)%nat) ->
     forall o d tmin tmax any O D m, wide o d tmin O D m ->
     (vz D = 0 -> forall j, (j < length file)%nat -> vz O <> vz (Q (Z.of_nat j))) ->
     forall rh, loose_answer (obj_cross tris Q O (unit_of D) (m * rv_norm D) tmax) (obj_hit (4 * eps) tris Q O (unit_of D) m tmax)
       (obj_about tris Q O (unit_of D)) any rh
       (@traverse _ XN _ _ (@tri_isector _ XN ms) nodes (@make_ray _ XN o d tmin tmax any) rh)).
Proof.
  intros Hpart opt Hb1 Hb2.
  pose proof (obj_mesh_are g file vertices faces tris Q HQ HD HV) as HM.
  pose proof (face_box g file vertices faces tris Q HQ HD HV big Hbig) as HB.
  destruct (make_mesh_ok big tiny eps vertices (Pt vertices) (proj1 HM) _ (proj2 HM)) as (ms & Ems).
  destruct (mesh_build_ok big tiny eps vertices _ _ ms part opt HM Ems HB Hpart Hb1 Hb2) as (nodes & st & Eb).
  exists ms, nodes, st. split; [exact Ems|]. split; [exact Eb|].
  intros Hd o d tmin tmax any O D m Hw Hz rh.
  destruct (mesh_query_wide big tiny eps Heps vertices _ _ ms HM Ems HB part Hpart opt nodes st Eb Hd o d tmin tmax any O D m Hw
    (fun E => face_level g file vertices faces tris Q HQ HD HV O (Hz E)) rh) as (b & rh' & E & Q0 & Q1).
  exists b, rh'. split; [exact E|]. split.
  - intros Ebf. destruct (Q0 Ebf) as [A B]. split; [exact A|]. intros j u Hj.
    apply (B j u). apply (cross_iff g file vertices faces tris Q HQ HD HV). exact Hj.
  - intros Ebt. destruct (Q1 Ebt) as (i & t & A1 & A2 & A3 & A4 & A5 & A6). exists i, t.
    split; [apply (hit_obj g file vertices faces tris Q HQ HD HV); exact A1|]. split; [exact A2|]. split; [exact A3|]. split; [exact A4|].
    split; [eapply (about_obj g file vertices faces tris Q HQ HD HV); eassumption|].
    intros Ha j u Hj. apply (A6 Ha j u). apply (cross_iff g file vertices faces tris Q HQ HD HV). exact Hj.
Qed.
End Query.

(** scene_mesh: the file's own vertices. *)
Lemma plain_query big tiny eps cs Q : 0 <= eps ->
  well_formed (T := xr) no_mtl 0 0 0 cs -> small_file no_mtl cs -> points (fun p => p) (vertices_of cs) Q ->
  (forall j, (j < length (vertices_of cs))%nat -> in_bounds big (Q (Z.of_nat j))) ->
  forall part, partition_ok part -> forall opt, (1 <= bin_size opt)%nat -> (3 * Z.of_nat (bin_size opt) < 4294967296)%Z ->
  forall mtl_file, exists vertices faces ms nodes st,
    @load_plain _ (Xnum big tiny eps) mtl_file cs = Ok (Some (vertices, faces)) /\
    @make_mesh _ (Xnum big tiny eps) vertices (map face_nat faces) = Ok ms /\
    @build _ (Xnum big tiny eps) _ part [] (@mesh_coll _ (Xnum big tiny eps) ms) opt = Ok (nodes, st) /\
    ((forall k d, node_depth nodes k d -> (d <= 26)%nat) ->
     forall o d tmin tmax any O D m, wide o d tmin O D m ->
     (vz D = 0 -> forall j, (j < length (vertices_of cs))%nat -> vz O <> vz (Q (Z.of_nat j))) ->
     forall rh, loose_answer (obj_cross (file_triangles no_mtl cs) Q O (unit_of D) (m * rv_norm D) tmax)
       (obj_hit (4 * eps) (file_triangles no_mtl cs) Q O (unit_of D) m tmax)
       (obj_about (file_triangles no_mtl cs) Q O (unit_of D)) any rh
       (@traverse _ (Xnum big tiny eps) _ _ (@tri_isector _ (Xnum big tiny eps) ms) nodes
          (@make_ray _ (Xnum big tiny eps) o d tmin tmax any) rh)).
Proof.
  intros Heps HW HS HQ Hbig part Hpart opt Hb1 Hb2 mtl_file.
  destruct (@load_plain_ok _ (Xnum big tiny eps) cs HW HS mtl_file) as (vertices & faces & El & D & I).
  destruct (obj_query big tiny eps Heps (fun p => p) (vertices_of cs) vertices faces _ Q HQ D
    (fun p Hp => ex_intro _ p (conj (I p Hp) eq_refl)) Hbig part Hpart opt Hb1 Hb2) as (ms & nodes & st & H).
  exists vertices, faces, ms, nodes, st. split; [exact El|exact H].
Qed.

(** path_tracer, renderer: scaled vertices. *)
Lemma mesh_file_query big tiny eps mtl_file cs Q scale a : 0 <= eps ->
  well_formed (T := xr) mtl_file 0 0 0 cs -> uniform_shapes None cs -> small_file mtl_file cs ->
  points (fun p => p) (vertices_of cs) Q -> isR scale a ->
  (forall j, (j < length (vertices_of cs))%nat -> in_bounds big (rv_scale a (Q (Z.of_nat j)))) ->
  forall part, partition_ok part -> forall opt, (1 <= bin_size opt)%nat -> (3 * Z.of_nat (bin_size opt) < 4294967296)%Z ->
  exists mesh ms nodes st,
    @load_mesh _ (Xnum big tiny eps) mtl_file scale cs = Ok (Some (mesh, @file_materials _ mtl_file (Xnum big tiny eps) cs)) /\
    @make_mesh _ (Xnum big tiny eps) (om_vertices mesh) (map face_nat (om_faces mesh)) = Ok ms /\
    @build _ (Xnum big tiny eps) _ part [] (@mesh_coll _ (Xnum big tiny eps) ms) opt = Ok (nodes, st) /\
    ((forall k d, node_depth nodes k d -> (d <= 26)%nat) ->
     forall o d tmin tmax any O D m, wide o d tmin O D m ->
     (vz D = 0 -> forall j, (j < length (vertices_of cs))%nat -> vz O <> a * vz (Q (Z.of_nat j))) ->
     forall rh, loose_answer
       (obj_cross (file_triangles mtl_file cs) (fun j => rv_scale a (Q j)) O (unit_of D) (m * rv_norm D) tmax)
       (obj_hit (4 * eps) (file_triangles mtl_file cs) (fun j => rv_scale a (Q j)) O (unit_of D) m tmax)
       (obj_about (file_triangles mtl_file cs) (fun j => rv_scale a (Q j)) O (unit_of D)) any rh
       (@traverse _ (Xnum big tiny eps) _ _ (@tri_isector _ (Xnum big tiny eps) ms) nodes
          (@make_ray _ (Xnum big tiny eps) o d tmin tmax any) rh)).
Proof.
  intros Heps HW HU HS HQ Ha Hbig part Hpart opt Hb1 Hb2.
  destruct (@load_mesh_ok _ (Xnum big tiny eps) mtl_file scale cs HW HU HS) as (mesh & El & D & _ & _ & I).
  assert (HQ' : points (@vscale _ (Xnum big tiny eps) scale) (vertices_of cs) (fun j => rv_scale a (Q j))).
  { intros j p E. apply PfX.visR_scale; [exact Ha|exact (HQ j p E)]. }
  destruct (obj_query big tiny eps Heps _ (vertices_of cs) (om_vertices mesh) (om_faces mesh) _ _ HQ' D
    I Hbig part Hpart opt Hb1 Hb2) as (ms & nodes & st & H).
  exists mesh, ms, nodes, st. split; [exact El|exact H].
Qed.
