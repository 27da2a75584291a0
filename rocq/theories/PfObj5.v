(** Loading an OBJ file. *)

From Coq Require Import ZArith Strings.String List Bool Lia.
From Verif Require Import Num Vec Datatypes PathTracer TinyObj SpecObj PfImage PfImage3 PfObj PfObj2 PfObj3 PfObj4.
Import ListNotations.
Local Open Scope list_scope.
Local Open Scope Z_scope.

Section Load.
Context {T : Type} {N : num T}.
Variable mtl_file : string -> option (list (mcmd T)).

(** Materials. *)
Definition set_all (b : list (mcmd T)) (m : material T) : material T := fold_left (fun m c => set_material c m) b m.
Lemma set_all_last b : forall m, set_all b m = Material
    (last_set (fun c => match c with MDiffuse v => Some v | _ => None end) (mt_diffuse m) b)
    (last_set (fun c => match c with MEmission v => Some v | _ => None end) (mt_emission m) b)
    (last_set (fun c => match c with MSpecular v => Some v | _ => None end) (mt_specular m) b)
    (last_set (fun c => match c with MTransmittance v => Some v | _ => None end) (mt_transmittance m) b)
    (last_set (fun c => match c with MIor x => Some x | _ => None end) (mt_ior m) b)
    (last_set (fun c => match c with MDissolve x => Some x | MTr x => Some (nsub (nofZ 1) x) | _ => None end) (mt_dissolve m) b).
Proof.
  induction b as [|c b IH]; intros m; [now destruct m|].
  change (set_all (c :: b) m) with (set_all b (set_material c m)). rewrite IH. now destruct c.
Qed.
Lemma material_of_all b : material_of b = set_all b init_material.
Proof. rewrite set_all_last. reflexivity. Qed.

Lemma mtl_contents ms : forall map (mats : list (material T)) name m, (forall k, In k (new_names ms) -> k <> ""%string) ->
  snd (mtl_loop ms map mats name m) =
    match name with
    | EmptyString => mats ++ match snd (blocks ms) with [] => [set_all (fst (blocks ms)) m] | bs => List.map (fun b => material_of (snd b)) bs end
    | _ => mats ++ set_all (fst (blocks ms)) m :: List.map (fun b => material_of (snd b)) (snd (blocks ms))
    end.
Proof.
  induction ms as [|c ms IH]; intros map mats name m Hk.
  - destruct name; reflexivity.
  - assert (Hk' : forall k, In k (new_names ms) -> k <> ""%string).
    { intros k H. apply Hk. unfold new_names in *. cbn [flat_map]. apply in_or_app. now right. }
    destruct c as [n|v|v|v|v|x|x|x|]; cbn [mtl_loop]; try (rewrite IH by assumption; destruct name; reflexivity).
    assert (Hn : n <> ""%string) by (apply Hk; now left).
    destruct name as [|a name]; cbn [String.eqb]; rewrite IH by assumption; destruct n as [|a' n]; try congruence;
      cbn [blocks fst snd List.map]; rewrite !material_of_all; [reflexivity|].
    now rewrite <- app_assoc.
Qed.
Lemma load_mtl_contents ms map (mats : list (material T)) : (forall k, In k (new_names ms) -> k <> ""%string) ->
  snd (load_mtl ms map mats) = mats ++ List.map material_of (described ms).
Proof.
  intros Hk. unfold load_mtl. rewrite mtl_contents by assumption. unfold described. f_equal.
  destruct (snd (blocks ms)) as [|b bs]; [cbn; now rewrite material_of_all|]. rewrite map_map. reflexivity.
Qed.

Lemma read_materials cs : forall r r' nv nt nn, well_formed mtl_file nv nt nn cs -> read_lines mtl_file r cs = Ok (Some r') ->
  rd_materials r' = rd_materials r ++ file_materials mtl_file cs.
Proof.
  induction cs as [|c cs IH]; intros r r' nv nt nn HW E.
  - injection E as <-. cbn. now rewrite app_nil_r.
  - destruct c as [x y z|x y z|x y|f|n|n| | |]; cbn [well_formed] in HW; cbn [read_lines read_line] in E;
      try (apply (IH _ _ _ _ _ HW) in E; exact E).
    + destruct HW as (_ & _ & HW). apply (IH _ _ _ _ _ HW) in E. exact E.
    + destruct (flush r); try discriminate E. apply (IH _ _ _ _ _ HW) in E. exact E.
    + destruct HW as ((ms & Hms & Hk) & HW). rewrite Hms in E.
      pose proof (load_mtl_contents ms (rd_map r) (rd_materials r) Hk) as C.
      destruct (load_mtl ms (rd_map r) (rd_materials r)) as [map mats]. cbn [bind] in E.
      apply (IH _ _ _ _ _ HW) in E. rewrite E. cbn [rd_materials snd] in *. rewrite C.
      cbn [file_materials flat_map]. now rewrite Hms, app_assoc.
    + destruct (flush r); try discriminate E. apply (IH _ _ _ _ _ HW) in E. exact E.
    + destruct (flush r); try discriminate E. apply (IH _ _ _ _ _ HW) in E. exact E.
Qed.

Lemma place_range n l z : place n l = Some z -> 0 <= z < count l.
Proof.
  revert z. induction l as [|k l IH]; intros z E; [discriminate E|]. cbn [place] in E.
  unfold count in *. cbn [length]. destruct (String.eqb k n); [injection E as <-; lia|].
  destruct (place n l) as [y|]; [|discriminate E]. injection E as <-. specialize (IH y eq_refl). lia.
Qed.
Lemma material_range cs : forall nv nt names m z t,
  (forall z, m = Some z -> 0 <= z < count names) ->
  In (t, Some z) (triangles mtl_file nv nt names m cs) -> 0 <= z < count names + count (file_names mtl_file cs).
Proof.
  assert (P : forall A (l : list A), 0 <= count l) by (intros; unfold count; lia).
  assert (Q : forall A (l l' : list A), count (l ++ l') = count l + count l') by (intros; unfold count; rewrite app_length; lia).
  induction cs as [|c cs IH]; intros nv nt names m z t Hm H; [destruct H|].
  destruct c as [x y w|x y w|x y|f|n|n| | |]; cbn [triangles file_names flat_map] in *; fold (file_names mtl_file cs) in *;
    try (apply (IH _ _ _ _ _ _ Hm H)).
  - apply in_app_or in H as [H|H]; [|apply (IH _ _ _ _ _ _ Hm H)].
    apply in_map_iff in H as (u & E & _). injection E as <- E. specialize (Hm z E).
    pose proof (P _ (file_names mtl_file cs)). cbn [app]. lia.
  - apply (IH _ _ _ _ _ _ (fun z E => place_range _ _ _ E) H).
  - rewrite Q, Z.add_assoc, <- Q. refine (IH _ _ _ _ _ _ _ H). intros y E. specialize (Hm y E). rewrite Q.
    specialize (P _ (match mtl_file n with Some ms => names_of ms | None => [] end)). lia.
Qed.

Lemma load_obj_ok U cs : well_formed mtl_file 0 0 0 cs -> (U = true -> uniform_shapes None cs) -> small_file mtl_file cs ->
  exists shapes pieces, load_obj mtl_file cs = Ok (Some (shapes, file_materials mtl_file cs)) /\
    Forall2 (shape_piece U (vertices_of cs) (texcoords_of cs)) shapes pieces /\
    flat_map tris_of pieces = file_triangles mtl_file cs.
Proof.
  intros HW HU (S1 & S2 & S3 & S4 & S5). unfold load_obj.
  assert (HR : reads U (new_reader ([] : list (material T))) [] [] [] [] None [] None).
  { split; try reflexivity; try (intros; reflexivity); [apply Forall2_nil|intros f []|intros k; reflexivity]. }
  pose proof (count_pos (file_triangles mtl_file cs)).
  destruct (read_ok U mtl_file cs _ _ _ _ _ _ _ _ HR HW HU) as (r' & names' & m' & pieces & b' & E & R' & Ht & Hs).
  { rewrite normals_of_count in S3. unfold sizes, count in *. cbn [length pending new_reader rd_group flat_map tris_of fst map].
    unfold file_triangles in *. cbn [Z.of_nat]. lia. }
  cbn [app flat_map] in R', Ht. rewrite E. cbn [bind].
  rewrite normals_of_count in S3.
  destruct (flush_ok U r' _ _ _ _ _ _ _ R' S1 S3 S2 Hs) as (shapes & pieces' & Ef & Fs & Ft).
  rewrite Ef. cbn [bind]. exists shapes, pieces'.
  rewrite (read_materials _ _ _ _ _ _ HW E). split; [reflexivity|]. split; [exact Fs|]. rewrite Ft. exact Ht.
Qed.

Lemma load_mesh_ok scale cs : well_formed mtl_file 0 0 0 cs -> uniform_shapes None cs -> small_file mtl_file cs ->
  exists m, load_mesh mtl_file scale cs = Ok (Some (m, file_materials mtl_file cs)) /\
    Forall2 (drawn (vscale scale) (vertices_of cs) (om_vertices m)) (om_faces m) (file_triangles mtl_file cs) /\
    om_materials m = map (fun t => stored_material (snd t)) (file_triangles mtl_file cs) /\
    Forall2 (uv_drawn (nofZ 0) (texcoords_of cs)) (om_uvs m) (somes (map uv_of (file_triangles mtl_file cs))) /\
    (forall p, In p (om_vertices m) -> exists q, In q (vertices_of cs) /\ p = vscale scale q).
Proof.
  intros HW HU HS. destruct (load_obj_ok true cs HW (fun _ => HU) HS) as (shapes & pieces & E & F & Ft).
  destruct HS as (S1 & S2 & S3 & S4 & S5). pose proof (count_pos (file_triangles mtl_file cs)).
  unfold load_mesh. rewrite E. cbn [bind].
  destruct (add_shapes_ok _ _ scale _ _ F (ObjMesh [] [] [] [])) as (m & newv & newf & newuv & Em & Ev & Ef & Emt & Eu & D & Du & I & _).
  { rewrite Ft. cbn [om_vertices]. change (count (@nil (vec T))) with 0. lia. }
  { rewrite Ft. lia. }
  rewrite Em. cbn [bind om_vertices om_faces om_materials om_uvs app] in *. exists m. split; [reflexivity|].
  rewrite Ft in *. split; [rewrite Ef; exact D|]. split; [|split; [rewrite Eu; exact Du|rewrite Ev; exact I]].
  rewrite Emt. apply map_ext_in. intros [t [z|]] Hin; [|reflexivity]. cbn [snd enc stored_material].
  assert (R : 0 <= z < count (@nil string) + count (file_names mtl_file cs)).
  { apply (material_range cs 0 0 [] None z t); [discriminate|exact Hin]. }
  change (count (@nil string)) with 0 in R. apply u32_id. lia.
Qed.

(** Without materials. *)
Definition no_mtl : string -> option (list (mcmd T)) := fun _ => Some [].
Lemma plain_vertices_of cs : vertices_of (map (plain (T := T)) cs) = vertices_of cs.
Proof. unfold vertices_of. induction cs as [|[] cs IH]; cbn [map plain flat_map app]; congruence. Qed.
Lemma plain_texcoords_of cs : texcoords_of (map (plain (T := T)) cs) = texcoords_of cs.
Proof. unfold texcoords_of. induction cs as [|[] cs IH]; cbn [map plain flat_map app]; congruence. Qed.
Lemma plain_normals_of cs : normals_of (map (plain (T := T)) cs) = normals_of cs.
Proof. unfold normals_of. induction cs as [|[] cs IH]; cbn [map plain flat_map app]; congruence. Qed.
Lemma plain_triangles f cs : forall nv nt names m names' m',
  map fst (triangles mtl_file nv nt names m (map (plain (T := T)) cs)) = map fst (triangles f nv nt names' m' cs).
Proof.
  induction cs as [|c cs IH]; intros nv nt names m names' m'; [reflexivity|].
  destruct c; cbn [map plain triangles]; try apply IH.
  rewrite !map_app, !map_map. f_equal. apply IH.
Qed.
Lemma plain_well_formed cs : forall nv nt nn, well_formed no_mtl nv nt nn cs -> well_formed mtl_file nv nt nn (map (plain (T := T)) cs).
Proof.
  induction cs as [|c cs IH]; intros nv nt nn H; [exact I|]. destruct c; cbn [map plain well_formed] in *; try apply IH; try tauto.
  destruct H as (H1 & H2 & H3). split; [exact H1|]. split; [exact H2|]. apply IH, H3.
Qed.
Lemma drawn_fst {B} (g : vec T -> B) vs all fs ts : forall ts', map fst ts = map fst ts' ->
  Forall2 (drawn g vs all) fs ts -> Forall2 (drawn g vs all) fs ts'.
Proof.
  intros ts' E F. revert ts' E. induction F as [|fc t fs ts H F IH]; intros [|t' ts'] E; try discriminate E; [constructor|].
  injection E as E1 E2. constructor; [|now apply IH].
  destruct t as [[[[a ?] [b ?]] [c ?]] ?], t' as [[[[a' ?] [b' ?]] [c' ?]] ?]. cbn [fst] in E1. injection E1 as -> _ -> _ -> _. exact H.
Qed.
End Load.

Section Plain.
Context {T : Type} {N : num T}.
Lemma load_plain_ok cs : well_formed (T := T) no_mtl 0 0 0 cs -> small_file no_mtl cs ->
  forall mtl_file, exists vertices faces, load_plain mtl_file cs = Ok (Some (vertices, faces)) /\
    Forall2 (drawn (fun p => p) (vertices_of cs) vertices) faces (file_triangles no_mtl cs) /\
    (forall p, In p vertices -> In p (vertices_of cs)).
Proof.
  intros HW (S1 & S2 & S3 & S4 & S5) mtl_file. unfold load_plain, load_obj_plain.
  assert (HR : reads false (Reader [] [] [] [] 0 [] ([] : list (material T)) []) [] [] [] [] (Some 0) [] None).
  { split; try reflexivity; try (intros; reflexivity); [apply Forall2_nil|intros f []|intros k; reflexivity]. }
  pose proof (count_pos (file_triangles no_mtl cs)).
  assert (Hl : count (file_triangles no_mtl cs) = count (triangles mtl_file 0 0 [] (Some 0) (map plain cs))).
  { pose proof (plain_triangles mtl_file no_mtl cs 0 0 [] (Some 0) [] None) as P.
    apply (f_equal (@Datatypes.length _)) in P. rewrite !map_length in P. exact (f_equal Z.of_nat (eq_sym P)). }
  destruct (read_ok false mtl_file (map plain cs) _ _ _ _ _ _ _ _ HR (plain_well_formed _ _ _ _ _ HW) ltac:(discriminate))
    as (r' & names' & m' & pieces & b' & E & R' & Ht & Hs).
  { rewrite normals_of_count in S3. unfold sizes. rewrite plain_vertices_of, plain_normals_of, plain_texcoords_of.
    unfold count in *. cbn [length pending rd_group flat_map tris_of fst map Z.of_nat]. lia. }
  rewrite plain_vertices_of, plain_normals_of, plain_texcoords_of in R'. cbn [app flat_map] in R', Ht.
  rewrite normals_of_count in S3.
  destruct (flush_ok false r' _ _ _ _ _ _ _ R' S1 S3 S2 Hs) as (shapes & pieces' & Ef & Fs & Ft).
  rewrite E. cbn [bind]. rewrite Ef. cbn [bind].
  assert (Hp : flat_map tris_of pieces' = triangles mtl_file 0 0 [] (Some 0) (map plain cs)) by (rewrite Ft; exact Ht).
  destruct (add_plain_ok false _ _ _ _ Fs [] []) as (vertices & faces & Ea & D & I & _).
  { rewrite Hp, <- Hl. change (count (@nil (vec T))) with 0. lia. }
  change (count (@nil (vec T))) with 0 in Ea. rewrite Ea. cbn [bind app]. exists vertices, faces. split; [reflexivity|].
  rewrite Hp in D. cbn [app] in D. split; [|exact I]. eapply drawn_fst; [|exact D]. apply plain_triangles.
Qed.
End Plain.
