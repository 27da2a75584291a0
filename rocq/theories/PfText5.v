(** From the text of a file to the answer: proofs. *)

From Coq Require Import Reals ZArith Strings.String Strings.Ascii List Bool Lia Lra.
From Verif Require Import Num NumR NumX Vec Datatypes Ray Bvh Traverse Trimesh PathTracer TinyObj SpecBvh SpecReal SpecTri SpecNearest SpecObj SpecObjMesh.
From Verif Require Import ObjText SpecText PfPart PfX PfText PfText2 PfText3 PfObj5 PfObj6 PfObjMesh.
Import ListNotations.
Local Open Scope list_scope.
Local Open Scope R_scope.

(** ** Materials *)

Section Materials.
Variables big tiny eps : R.

Lemma last_set_rel {A' A} (P : A' -> A -> Prop) (get' : mcmd xr -> option A') (get : mcmd R -> option A) :
  (forall m' m, same_mcmd m' m -> match get' m', get m with None, None => True | Some a', Some a => P a' a | _, _ => False end) ->
  forall ms' ms, Forall2 same_mcmd ms' ms -> forall d' d, P d' d -> P (last_set get' d' ms') (last_set get d ms).
Proof.
  intros Hg. induction 1 as [|m' m ms' ms H Hl IH]; intros d' d Hd; [exact Hd|]. cbn [last_set]. apply IH.
  specialize (Hg m' m H). destruct (get' m'), (get m); tauto.
Qed.
Lemma material_rel ms' ms : Forall2 same_mcmd ms' ms ->
  same_material (@material_of _ (Xnum big tiny eps) ms') (@material_of _ (Rnum big tiny eps) ms).
Proof.
  intros H. unfold same_material, material_of. cbn [mt_diffuse mt_emission mt_specular mt_transmittance mt_ior mt_dissolve].
  assert (B : visR (V (@nofZ _ (Xnum big tiny eps) 0) (@nofZ _ (Xnum big tiny eps) 0) (@nofZ _ (Xnum big tiny eps) 0))
    (V (@nofZ _ (Rnum big tiny eps) 0) (@nofZ _ (Rnum big tiny eps) 0) (@nofZ _ (Rnum big tiny eps) 0)))
    by (split; [|split]; reflexivity).
  split; [|split; [|split; [|split; [|split]]]].
  1,2,3,4: apply (last_set_rel visR); [intros m' m Hm; destruct Hm; exact I || assumption|exact H|exact B].
  - apply (last_set_rel isR); [intros m' m Hm; destruct Hm; exact I || assumption|exact H|reflexivity].
  - apply (last_set_rel isR); [|exact H|reflexivity]. intros m' m Hm; destruct Hm as [| | | | | | |x a Hx|]; try exact I; try assumption.
    apply (isR_sub _ _ 1 a); [reflexivity|exact Hx].
Qed.
Lemma blocks_rel ms' ms : Forall2 same_mcmd ms' ms ->
  Forall2 same_mcmd (fst (blocks ms')) (fst (blocks ms)) /\
  Forall2 (fun b' b => Forall2 same_mcmd (snd b') (snd b)) (snd (blocks ms')) (snd (blocks ms)).
Proof.
  induction 1 as [|m' m ms' ms H Hl [IH1 IH2]]; [split; constructor|].
  destruct H; cbn [blocks fst snd]; (split; [try constructor; try assumption; try (constructor; assumption)|try assumption; try (constructor; assumption)]).
Qed.
Lemma described_rel ms' ms : Forall2 same_mcmd ms' ms -> Forall2 (Forall2 same_mcmd) (described ms') (described ms).
Proof.
  intros H. destruct (blocks_rel ms' ms H) as [H1 H2]. unfold described.
  destruct H2 as [|b' b bs' bs Hb Hbs]; [constructor; [exact H1|constructor]|]. cbn [map]. constructor; [exact Hb|].
  clear -Hbs. induction Hbs; cbn [map]; constructor; assumption.
Qed.
Lemma Forall2_app' {A B} (P : A -> B -> Prop) a b c d : Forall2 P a b -> Forall2 P c d -> Forall2 P (a ++ c) (b ++ d).
Proof. intros H H'. induction H; [exact H'|]. cbn [app]. constructor; assumption. Qed.
Lemma same_materials mtl' mtl cs' cs : Forall2 same_cmd cs' cs ->
  (forall n, In (OMtlLib n) cs -> same_library (mtl' n) (mtl n)) ->
  Forall2 same_material (@file_materials _ mtl' (Xnum big tiny eps) cs') (@file_materials _ mtl (Rnum big tiny eps) cs).
Proof.
  induction 1 as [|c' c cs' cs H Hl IH]; intros Hm; [constructor|]. unfold file_materials in *. cbn [flat_map].
  apply Forall2_app'; [|apply IH; intros n Hn; apply Hm; right; exact Hn].
  destruct H; try constructor. specialize (Hm n (or_introl eq_refl)).
  destruct (mtl' n) as [ms'|], (mtl n) as [ms|]; cbn [same_library] in Hm; try contradiction; [|constructor].
  pose proof (described_rel ms' ms Hm) as D. induction D; cbn [map]; constructor; [apply material_rel; assumption|assumption].
Qed.
End Materials.

(** ** Queries *)

Section Queries.
Context (big tiny eps : R) (Heps : 0 <= eps).
Variable pow_ : Z -> Z -> xr.
Variable ldexp_ : xr -> Z -> xr.
Variable to_float : xr -> xr.
Hypothesis Hpow : pow_exact pow_.
Hypothesis Hldexp : ldexp_exact ldexp_.
Hypothesis Hfloat : float_exact to_float.
Variable files : string -> option string.

Lemma no_libraries (cs : list (cmd R)) n : In (OMtlLib n) cs -> same_library (@no_mtl xr n) (@no_mtl R n).
Proof. intros _. constructor. Qed.

Theorem text_plain_query text cs : file_says text cs ->
  well_formed no_mtl 0 0 0 cs -> small_file no_mtl cs ->
  (forall j, (j < length (vertices_of cs))%nat -> in_bounds big (point_of cs (Z.of_nat j))) ->
  forall part, partition_ok part -> forall opt, (1 <= bin_size opt)%nat -> (3 * Z.of_nat (bin_size opt) < 4294967296)%Z ->
  exists vertices faces ms nodes st,
    @load_plain_text _ (Xnum big tiny eps) pow_ ldexp_ to_float files text = Ok (Some (vertices, faces)) /\
    @make_mesh _ (Xnum big tiny eps) vertices (map face_nat faces) = Ok ms /\
    @build _ (Xnum big tiny eps) _ part [] (@mesh_coll _ (Xnum big tiny eps) ms) opt = Ok (nodes, st) /\
    ((forall k d, node_depth nodes k d -> (d <= 26)%nat) ->
     forall o d tmin tmax any O D m, wide o d tmin O D m ->
     (vz D = 0 -> forall j, (j < length (vertices_of cs))%nat -> vz O <> vz (point_of cs (Z.of_nat j))) ->
     forall rh, loose_answer (obj_cross (file_triangles no_mtl cs) (point_of cs) O (unit_of D) (m * rv_norm D) tmax)
       (obj_hit (4 * eps) (file_triangles no_mtl cs) (point_of cs) O (unit_of D) m tmax)
       (obj_about (file_triangles no_mtl cs) (point_of cs) O (unit_of D)) any rh
       (@traverse _ (Xnum big tiny eps) _ _ (@tri_isector _ (Xnum big tiny eps) ms) nodes
          (@make_ray _ (Xnum big tiny eps) o d tmin tmax any) rh)).
Proof.
  intros Ht HW HS Hbig part Hpart opt Hb1 Hb2.
  destruct (file_reads big tiny eps pow_ ldexp_ to_float Hpow Hldexp Hfloat files ""%string text cs Ht) as (cs' & Hs & _ & Hp).
  pose proof (Forall2_length _ _ _ (same_vertices _ _ Hs)) as L.
  destruct (plain_query big tiny eps cs' (point_of cs) Heps
    (same_well_formed no_mtl no_mtl cs' cs Hs (no_libraries cs) 0 0 0 HW) (same_small no_mtl no_mtl cs' cs Hs (no_libraries cs) HS)
    (same_points cs' cs Hs) ltac:(rewrite L; exact Hbig) part Hpart opt Hb1 Hb2 no_mtl) as (vertices & faces & ms & nodes & st & E1 & E2 & E3 & H).
  exists vertices, faces, ms, nodes, st. split; [etransitivity; [exact (proj2 (Hp no_mtl))|exact E1]|]. split; [exact E2|]. split; [exact E3|].
  unfold file_triangles in *. rewrite L, (same_triangles no_mtl no_mtl cs' cs Hs (no_libraries cs)) in H. exact H.
Qed.

Theorem text_mesh_query base mtl text cs scale a : file_says text cs -> libraries files base mtl cs ->
  well_formed mtl 0 0 0 cs -> uniform_shapes None cs -> small_file mtl cs -> isR scale a ->
  (forall j, (j < length (vertices_of cs))%nat -> in_bounds big (rv_scale a (point_of cs (Z.of_nat j)))) ->
  forall part, partition_ok part -> forall opt, (1 <= bin_size opt)%nat -> (3 * Z.of_nat (bin_size opt) < 4294967296)%Z ->
  exists mesh materials ms nodes st,
    @load_mesh_text _ (Xnum big tiny eps) pow_ ldexp_ to_float files base scale text = Ok (Some (mesh, materials)) /\
    Forall2 same_material materials (@file_materials _ mtl (Rnum big tiny eps) cs) /\
    om_materials mesh = map (fun t => stored_material (snd t)) (file_triangles mtl cs) /\
    @make_mesh _ (Xnum big tiny eps) (om_vertices mesh) (map face_nat (om_faces mesh)) = Ok ms /\
    @build _ (Xnum big tiny eps) _ part [] (@mesh_coll _ (Xnum big tiny eps) ms) opt = Ok (nodes, st) /\
    ((forall k d, node_depth nodes k d -> (d <= 26)%nat) ->
     forall o d tmin tmax any O D m, wide o d tmin O D m ->
     (vz D = 0 -> forall j, (j < length (vertices_of cs))%nat -> vz O <> a * vz (point_of cs (Z.of_nat j))) ->
     forall rh, loose_answer
       (obj_cross (file_triangles mtl cs) (fun j => rv_scale a (point_of cs j)) O (unit_of D) (m * rv_norm D) tmax)
       (obj_hit (4 * eps) (file_triangles mtl cs) (fun j => rv_scale a (point_of cs j)) O (unit_of D) m tmax)
       (obj_about (file_triangles mtl cs) (fun j => rv_scale a (point_of cs j)) O (unit_of D)) any rh
       (@traverse _ (Xnum big tiny eps) _ _ (@tri_isector _ (Xnum big tiny eps) ms) nodes
          (@make_ray _ (Xnum big tiny eps) o d tmin tmax any) rh)).
Proof.
  intros Ht Hlib HW HU HS Ha Hbig part Hpart opt Hb1 Hb2.
  destruct (file_reads big tiny eps pow_ ldexp_ to_float Hpow Hldexp Hfloat files base text cs Ht) as (cs' & Hs & Hl & _).
  destruct (Hl mtl Hlib) as (Hm & _ & El).
  pose proof (Forall2_length _ _ _ (same_vertices _ _ Hs)) as L.
  set (mtl' := read_library big tiny eps pow_ ldexp_ to_float files base) in *.
  pose proof (same_well_formed mtl' mtl cs' cs Hs Hm 0 0 0 HW) as HW'. pose proof (same_small mtl' mtl cs' cs Hs Hm HS) as HS'.
  pose proof (same_uniform cs' cs Hs None HU) as HU'.
  destruct (mesh_file_query big tiny eps mtl' cs' (point_of cs) scale a Heps HW' HU' HS'
    (same_points cs' cs Hs) Ha ltac:(rewrite L; exact Hbig) part Hpart opt Hb1 Hb2) as (mesh & ms & nodes & st & E1 & E2 & E3 & H).
  destruct (@materials_stored _ (Xnum big tiny eps) mtl' scale cs' HW' HU' HS') as (mesh' & E1' & Em).
  assert (X : mesh' = mesh) by congruence. subst mesh'.
  eexists mesh, _, ms, nodes, st. split; [etransitivity; [exact (El scale)|exact E1]|].
  split; [apply same_materials; assumption|].
  unfold file_triangles in *. rewrite (same_triangles mtl' mtl cs' cs Hs Hm) in Em, H. rewrite L in H.
  split; [exact Em|]. split; [exact E2|]. split; [exact E3|]. exact H.
Qed.
End Queries.
