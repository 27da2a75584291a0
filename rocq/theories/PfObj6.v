(** The statements about OBJ files one by one, and the lights of a loaded mesh. *)

From Coq Require Import ZArith Strings.String List Bool Lia.
From Verif Require Import Num Vec Datatypes PathTracer TinyObj SpecObj SpecObjMesh PfImage3 PfLight PfObj PfObj3 PfObj4 PfObj5.
Import ListNotations.
Local Open Scope list_scope.
Local Open Scope Z_scope.

Section S.
Variables (T : Type) (N : num T) (mtl_file : string -> option (list (mcmd T))).
Variables (scale : T) (cs : list (cmd T)).
Hypothesis HW : well_formed mtl_file 0 0 0 cs.
Hypothesis HU : uniform_shapes None cs.
Hypothesis HS : small_file mtl_file cs.

Lemma geometry : exists m, load_mesh mtl_file scale cs = Ok (Some (m, file_materials mtl_file cs)) /\
    Forall2 (drawn (vscale scale) (vertices_of cs) (om_vertices m)) (om_faces m) (file_triangles mtl_file cs) /\
    (forall p, In p (om_vertices m) -> exists q, In q (vertices_of cs) /\ p = vscale scale q).
Proof. destruct (load_mesh_ok mtl_file scale cs HW HU HS) as (m & E & D & _ & _ & I). exists m. auto. Qed.
Lemma materials_stored : exists m, load_mesh mtl_file scale cs = Ok (Some (m, file_materials mtl_file cs)) /\
    om_materials m = map (fun t => stored_material (snd t)) (file_triangles mtl_file cs).
Proof. destruct (load_mesh_ok mtl_file scale cs HW HU HS) as (m & E & _ & M & _). exists m. auto. Qed.
Lemma texture : exists m, load_mesh mtl_file scale cs = Ok (Some (m, file_materials mtl_file cs)) /\
    Forall2 (uv_drawn (nofZ 0) (texcoords_of cs)) (om_uvs m) (somes (map uv_of (file_triangles mtl_file cs))).
Proof. destruct (load_mesh_ok mtl_file scale cs HW HU HS) as (m & E & _ & _ & D & _). exists m. auto. Qed.
End S.

Section M.
Context {T : Type} {N : num T}.
Variable mtl_file : string -> option (list (mcmd T)).
Lemma blocks_names (ms : list (mcmd T)) : length (snd (blocks ms)) = length (new_names ms).
Proof. unfold new_names. induction ms as [|[] ms IH]; [reflexivity|..]; cbn [blocks snd length flat_map app]; congruence. Qed.
Lemma described_names (ms : list (mcmd T)) : length (described ms) = length (names_of ms).
Proof.
  unfold described, names_of. pose proof (blocks_names ms) as H.
  destruct (snd (blocks ms)), (new_names ms); cbn [length] in *; try discriminate H; [reflexivity|].
  cbn [map length]. rewrite map_length. congruence.
Qed.
Lemma materials_names cs : count (file_materials mtl_file cs) = count (file_names mtl_file cs).
Proof.
  unfold count, file_materials, file_names. f_equal. induction cs as [|c cs IH]; [reflexivity|].
  cbn [flat_map]. rewrite !app_length, IH. f_equal. destruct c; try reflexivity.
  destruct (mtl_file name) as [ms|]; [|reflexivity]. rewrite map_length. apply described_names.
Qed.
End M.

Lemma known_material T (N : num T) mtl_file (cs : list (cmd T)) t z :
  well_formed mtl_file 0 0 0 cs -> In (t, Some z) (file_triangles mtl_file cs) ->
  0 <= z < count (file_materials mtl_file cs).
Proof.
  intros _ H. rewrite materials_names.
  apply (material_range mtl_file cs 0 0 [] None z t); [discriminate|exact H].
Qed.

Lemma lights_defined T (N : num T) mtl_file scale (cs : list (cmd T)) :
  well_formed mtl_file 0 0 0 cs -> uniform_shapes None cs -> small_file mtl_file cs ->
  (forall t, In t (file_triangles mtl_file cs) -> snd t <> None) ->
  exists m lights, load_mesh mtl_file scale cs = Ok (Some (m, file_materials mtl_file cs)) /\
    make_light (map face_nat (om_faces m)) (om_materials m) (file_materials mtl_file cs) = Ok lights.
Proof.
  intros HW HU HS Hm. destruct (load_mesh_ok mtl_file scale cs HW HU HS) as (m & E & D & M & _).
  assert (HL : exists l, make_light (map face_nat (om_faces m)) (om_materials m) (file_materials mtl_file cs) = Ok l).
  { apply make_light_defined. intros f Hf. rewrite map_length, (forall2_len _ _ _ D) in Hf.
    destruct (nth_error (file_triangles mtl_file cs) f) as [[t [z|]]|] eqn:Et.
    - pose proof (known_material _ _ _ _ _ _ HW (nth_error_In _ _ Et)) as R.
      destruct (nth_error (file_materials mtl_file cs) (Z.to_nat z)) as [mt|] eqn:Em.
      + exists z, mt. rewrite M. split.
        * apply (map_nth_error (fun t => stored_material (snd t)) _ _ Et).
        * split; [exact R|exact Em].
      + apply nth_error_None in Em. unfold count in R. lia.
    - exfalso. apply (Hm _ (nth_error_In _ _ Et)). reflexivity.
    - apply nth_error_None in Et. lia. }
  destruct HL as (l & El). exists m, l. auto.
Qed.
