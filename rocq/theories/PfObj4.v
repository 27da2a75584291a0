(** From the shapes of an OBJ file to a mesh. *)

From Coq Require Import ZArith Strings.String List Bool Lia.
From Verif Require Import Num Vec Datatypes PathTracer TinyObj SpecObj PfImage PfImage3 PfObj PfObj2 PfObj3.
Import ListNotations.
Local Open Scope list_scope.
Local Open Scope Z_scope.

Lemma map_res_seq {A B} (f : nat -> res B) (R : B -> A -> Prop) (xs : list A) : forall k,
  (forall i x, nth_error xs i = Some x -> exists y, f (k + i)%nat = Ok y /\ R y x) ->
  exists l, map_res f (seq k (length xs)) = Ok l /\ Forall2 R l xs.
Proof.
  induction xs as [|x xs IH]; intros k H; [exists []; split; [reflexivity|constructor]|].
  destruct (H 0%nat x eq_refl) as (y & Ey & Hy). rewrite Nat.add_0_r in Ey.
  destruct (IH (S k)) as (l & El & Hl).
  { intros i z Hi. destruct (H (S i) z Hi) as (y' & E' & R'). exists y'. split; [|exact R'].
    rewrite <- E'. f_equal. lia. }
  exists (y :: l). cbn [length seq map_res]. rewrite Ey. cbn [bind]. rewrite El. split; [reflexivity|now constructor].
Qed.

Lemma at_nth {A} w (l : list A) i a : nth_error l i = Some a -> at_ w l i = Ok a.
Proof. unfold at_. now intros ->. Qed.

Lemma forall2_nth {A B} (R : A -> B -> Prop) l l' i b : Forall2 R l l' -> nth_error l' i = Some b ->
  exists a, nth_error l i = Some a /\ R a b.
Proof.
  intros F. revert i. induction F as [|x y l l' Hxy F IH]; intros [|i] E; try discriminate E.
  - injection E as <-. exists x. now split.
  - cbn in *. apply IH, E.
Qed.
Lemma forall2_len {A B} (R : A -> B -> Prop) l l' : Forall2 R l l' -> length l = length l'.
Proof. intros F. induction F; cbn; congruence. Qed.

Lemma forall2_map {A B} (g : B -> A) l l' : Forall2 (fun a b => a = g b) l l' -> l = map g l'.
Proof. intros F. induction F; cbn; congruence. Qed.
Lemma forall2_pair {A A' B} (R : A -> B -> Prop) (z : A') l l' :
  Forall2 (fun y t => R (fst y) t /\ snd y = z) l l' -> Forall2 R (map fst l) l' /\ map snd l = map (fun _ => z) l'.
Proof.
  intros F. induction F as [|x y l l' [H1 H2] F [IH1 IH2]]; [split; [constructor|reflexivity]|].
  cbn [map]. split; [now constructor|congruence].
Qed.

Lemma corners_nth {A} (l : list (A * A * A)) i t : nth_error l i = Some t ->
  nth_error (corners_of l) (3 * i) = Some (fst (fst t)) /\ nth_error (corners_of l) (3 * i + 1) = Some (snd (fst t)) /\
  nth_error (corners_of l) (3 * i + 2) = Some (snd t).
Proof.
  revert i. induction l as [|u l IH]; intros [|i] E; try discriminate E.
  - injection E as <-. repeat split.
  - cbn [nth_error] in E. destruct (IH i E) as (E0 & E1 & E2).
    replace (3 * S i)%nat with (S (S (S (3 * i)))) by lia. cbn [corners_of flat_map app Nat.add nth_error].
    repeat split; assumption.
Qed.

Section Mesh.
Context {T : Type} {N : num T}.
Variable U : bool.

Lemma positions_nth (ps : list (vec T)) i p : nth_error ps i = Some p ->
  nth_error (flat3 ps) (3 * i) = Some (vx p) /\ nth_error (flat3 ps) (3 * i + 1) = Some (vy p) /\
  nth_error (flat3 ps) (3 * i + 2) = Some (vz p).
Proof.
  revert i. induction ps as [|u l IH]; intros [|i] E; try discriminate E.
  - injection E as <-. repeat split.
  - cbn [nth_error] in E. destruct (IH i E) as (E0 & E1 & E2).
    replace (3 * S i)%nat with (S (S (S (3 * i)))) by lia. cbn [flat3 flat_map app Nat.add nth_error].
    repeat split; assumption.
Qed.

Section Shape.
Variables (vs : list (vec T)) (vts : list (T * T)) (s : shape T) (pc : piece).
Variables (ps : list (vec T)).
Hypothesis HS : shape_ok vs s ps (corners_of (fst pc)) (repeat (enc (snd pc)) (length (fst pc))).

Lemma faces_number : (length (sh_indices s) / 3 = length (fst pc))%nat.
Proof.
  rewrite (forall2_len _ _ _ (so_idx _ _ _ _ _ HS)), corners_length, Nat.mul_comm. apply Nat.div_mul. lia.
Qed.
Lemma vertices_number : (length (sh_positions s) / 3 = length ps)%nat.
Proof. rewrite (so_pos _ _ _ _ _ HS), flat3_length, Nat.mul_comm. apply Nat.div_mul. lia. Qed.

Lemma face_indices f t : nth_error (fst pc) f = Some t ->
  exists i0 i1 i2, at_ UBprim (sh_indices s) (3 * f) = Ok i0 /\ at_ UBprim (sh_indices s) (3 * f + 1) = Ok i1 /\
    at_ UBprim (sh_indices s) (3 * f + 2) = Ok i2 /\
    located vs ps i0 (v_idx (fst (fst t))) /\ located vs ps i1 (v_idx (snd (fst t))) /\ located vs ps i2 (v_idx (snd t)).
Proof.
  intros E. destruct (corners_nth _ _ _ E) as (E0 & E1 & E2).
  destruct (forall2_nth _ _ _ _ _ (so_idx _ _ _ _ _ HS) E0) as (i0 & F0 & L0).
  destruct (forall2_nth _ _ _ _ _ (so_idx _ _ _ _ _ HS) E1) as (i1 & F1 & L1).
  destruct (forall2_nth _ _ _ _ _ (so_idx _ _ _ _ _ HS) E2) as (i2 & F2 & L2).
  exists i0, i1, i2. split; [now apply at_nth|]. split; [now apply at_nth|]. split; [now apply at_nth|]. auto.
Qed.

(** Index [u32 (i + offset)] of the mesh is vertex [j] of the file. *)
Lemma located_moved {B} (g : vec T -> B) (before after : list B) i j :
  located vs ps i j -> 0 <= j -> count before + count ps < 4294967296 ->
  holds g vs (before ++ map g ps ++ after) (u32 (i + count before)) j.
Proof.
  intros (H & p & E & E') Hj Hc.
  assert (Z.to_nat i < length ps)%nat by (apply nth_error_Some; congruence).
  unfold count in *. rewrite u32_id by lia. split; [lia|]. split; [exact Hj|]. exists p. split; [exact E|].
  replace (Z.to_nat (i + Z.of_nat (length before))) with (length before + Z.to_nat i)%nat by lia.
  rewrite nth_error_app2 by lia. replace (length before + Z.to_nat i - length before)%nat with (Z.to_nat i) by lia.
  apply nth_app_l. now apply map_nth_error.
Qed.

Hypothesis Hnonneg : forall i, In i (corners_of (fst pc)) -> 0 <= v_idx i.

Lemma corner_in t : In t (fst pc) -> 0 <= v_idx (fst (fst t)) /\ 0 <= v_idx (snd (fst t)) /\ 0 <= v_idx (snd t).
Proof.
  intros H. repeat split; apply Hnonneg, in_flat_map; exists t; (split; [exact H|]); cbn; auto.
Qed.

Definition face_drawn {B} (g : vec T -> B) (all : list B) (fc : vec Z) (t : vindex * vindex * vindex) : Prop :=
  holds g vs all (vx fc) (v_idx (fst (fst t))) /\ holds g vs all (vy fc) (v_idx (snd (fst t))) /\
  holds g vs all (vz fc) (v_idx (snd t)).

Lemma plain_faces {B} (g : vec T -> B) (before after : list B) : count before + count ps < 4294967296 ->
  exists fs, map_res (plain_face s (count before)) (seq 0 (length (sh_indices s) / 3)) = Ok fs /\
    Forall2 (face_drawn g (before ++ map g ps ++ after)) fs (fst pc).
Proof.
  intros Hc. rewrite faces_number. apply map_res_seq. intros f t E.
  destruct (face_indices f t E) as (i0 & i1 & i2 & E0 & E1 & E2 & L0 & L1 & L2).
  destruct (corner_in t (nth_error_In _ _ E)) as (P0 & P1 & P2).
  unfold plain_face. rewrite Nat.add_0_l, E0, E1, E2. cbn [bind]. eexists. split; [reflexivity|].
  unfold face_drawn. cbn [vx vy vz].
  split; [now apply located_moved|]. split; [now apply located_moved|]. now apply located_moved.
Qed.
Lemma plain_vertices : map_res (plain_vertex s) (seq 0 (length (sh_positions s) / 3)) = Ok ps.
Proof.
  rewrite vertices_number.
  destruct (map_res_seq (plain_vertex s) (fun y x => y = x) ps 0) as (l & E & F).
  - intros i p E. destruct (positions_nth _ _ _ E) as (E0 & E1 & E2). unfold plain_vertex.
    rewrite (so_pos _ _ _ _ _ HS), Nat.add_0_l, (at_nth _ _ _ _ E0), (at_nth _ _ _ _ E1), (at_nth _ _ _ _ E2).
    cbn [bind]. eexists. split; [reflexivity|]. now destruct p.
  - rewrite E. f_equal. rewrite (forall2_map (fun x => x) _ _ F). apply map_id.
Qed.

Lemma mesh_faces {B} (g : vec T -> B) (before after : list B) : count before + count ps < 4294967296 ->
  exists fs, map_res (shape_face s (count before)) (seq 0 (length (sh_indices s) / 3)) = Ok fs /\
    Forall2 (face_drawn g (before ++ map g ps ++ after)) (map fst fs) (fst pc) /\
    map snd fs = map (fun _ => u32 (enc (snd pc))) (fst pc).
Proof.
  intros Hc. rewrite faces_number.
  destruct (map_res_seq (shape_face s (count before))
    (fun y t => face_drawn g (before ++ map g ps ++ after) (fst y) t /\ snd y = u32 (enc (snd pc))) (fst pc) 0) as (fs & E & F).
  - intros f t E.
    destruct (face_indices f t E) as (i0 & i1 & i2 & E0 & E1 & E2 & L0 & L1 & L2).
    destruct (corner_in t (nth_error_In _ _ E)) as (P0 & P1 & P2).
    unfold shape_face. rewrite Nat.add_0_l, E0, E1, E2. cbn [bind].
    rewrite (at_nth UBprim (sh_materials s) f (enc (snd pc))).
    + cbn [bind]. eexists. split; [reflexivity|]. cbn [fst snd]. split; [|reflexivity].
      unfold face_drawn. cbn [vx vy vz].
      split; [now apply located_moved|]. split; [now apply located_moved|]. now apply located_moved.
    + rewrite (so_mat _ _ _ _ _ HS). apply nth_error_repeat. apply nth_error_Some. congruence.
  - exists fs. split; [exact E|]. now apply forall2_pair.
Qed.
Lemma mesh_vertices scale : map_res (shape_vertex scale s) (seq 0 (length (sh_positions s) / 3)) = Ok (map (vscale scale) ps).
Proof.
  rewrite vertices_number.
  destruct (map_res_seq (shape_vertex scale s) (fun y x => y = vscale scale x) ps 0) as (l & E & F).
  - intros i p E. destruct (positions_nth _ _ _ E) as (E0 & E1 & E2). unfold shape_vertex.
    rewrite (so_pos _ _ _ _ _ HS), Nat.add_0_l, (at_nth _ _ _ _ E0), (at_nth _ _ _ _ E1), (at_nth _ _ _ _ E2).
    cbn [bind]. eexists. split; [reflexivity|]. now destruct p.
  - rewrite E. f_equal. exact (forall2_map _ _ _ F).
Qed.

(** Texture coordinates. *)
Lemma texcoord_ok (ts : list (T * T)) i j : sh_texcoords s = flat2 ts -> located vts ts i j -> 2 * count ts < 4294967296 ->
  exists p, nth_error vts (Z.to_nat j) = Some p /\ texcoord s i = Ok (V (fst p) (snd p) (nofZ 0)).
Proof.
  intros Et (H & p & E & E') Hc. exists p. split; [exact E|].
  assert (Hl : (Z.to_nat i < length ts)%nat) by (apply nth_error_Some; congruence).
  destruct (flat2_nth _ _ _ E') as (F0 & F1). unfold texcoord, count in *.
  rewrite !(u32_id (2 * i)) by lia. rewrite !u32_id by lia. rewrite Et.
  rewrite (atZ_ok _ _ _ (fst p)); [|lia|rewrite <- F0; f_equal; lia].
  rewrite (atZ_ok _ _ _ (snd p)); [|lia|rewrite <- F1; f_equal; lia]. reflexivity.
Qed.

Lemma somes_none {A B} (f : A -> option B) l : (forall a, In a l -> f a = None) -> somes (map f l) = [].
Proof. induction l as [|a l IH]; intros H; [reflexivity|]. cbn. rewrite (H a (or_introl eq_refl)). apply IH. intros b Hb. apply H. now right. Qed.
Lemma somes_some {A B} (f : A -> option B) (g : A -> B) l : (forall a, In a l -> f a = Some (g a)) -> somes (map f l) = map g l.
Proof. induction l as [|a l IH]; intros H; [reflexivity|]. cbn. rewrite (H a (or_introl eq_refl)). f_equal. apply IH. intros b Hb. apply H. now right. Qed.

Lemma mesh_uvs b ts : tex_inv vts b [] s ts (corners_of (fst pc)) ->
  (forall i, In i (corners_of (fst pc)) -> (b = true <-> 0 <= vt_idx i)) -> 2 * count ps < 4294967296 ->
  exists uvs, match sh_texcoords s with [] => Ok [] | _ => map_res (shape_uv s) (seq 0 (length (sh_indices s) / 3)) end = Ok uvs /\
    Forall2 (uv_drawn (nofZ 0) vts) uvs (somes (map uv_of (tris_of pc))).
Proof.
  intros HI Hb Hc. rewrite faces_number.
  assert (Hcorner : forall t, In t (fst pc) -> (b = true <-> 0 <= vt_idx (fst (fst t))) /\
     (b = true <-> 0 <= vt_idx (snd (fst t))) /\ (b = true <-> 0 <= vt_idx (snd t))).
  { intros t H. repeat split; intros K; apply Hb in K || (apply Hb; [|assumption]); try assumption;
      apply in_flat_map; exists t; (split; [exact H|]); cbn; auto. }
  unfold tris_of. rewrite map_map. destruct b; cbn [tex_inv] in HI.
  - destruct HI as (I1 & I2 & _ & I4).
    assert (Lts : length ts = length ps) by (rewrite (so_pos _ _ _ _ _ HS), flat3_length in I2; lia).
    rewrite (somes_some _ (fun t => (vt_idx (fst (fst t)), vt_idx (snd (fst t)), vt_idx (snd t)))).
    2:{ intros t Ht. destruct (Hcorner t Ht) as (P0 & P1 & P2). unfold uv_of, map3, spot_of.
        destruct (Z.leb_spec 0 (vt_idx (fst (fst t)))); [|exfalso; intuition lia].
        destruct (Z.leb_spec 0 (vt_idx (snd (fst t)))); [|exfalso; intuition lia].
        destruct (Z.leb_spec 0 (vt_idx (snd t))); [|exfalso; intuition lia]. reflexivity. }
    assert (Hmap : exists uvs, map_res (shape_uv s) (seq 0 (length (fst pc))) = Ok uvs /\
      Forall2 (fun y t => uv_drawn (nofZ 0) vts y (vt_idx (fst (fst t)), vt_idx (snd (fst t)), vt_idx (snd t))) uvs (fst pc)).
    { apply map_res_seq. intros f t E. destruct (corners_nth _ _ _ E) as (E0 & E1 & E2).
      destruct (forall2_nth _ _ _ _ _ I4 E0) as (i0 & F0 & L0).
      destruct (forall2_nth _ _ _ _ _ I4 E1) as (i1 & F1 & L1).
      destruct (forall2_nth _ _ _ _ _ I4 E2) as (i2 & F2 & L2).
      assert (Hc' : 2 * count ts < 4294967296) by (unfold count in *; lia).
      destruct (texcoord_ok ts i0 _ I1 L0 Hc') as (p & Np & Ep). destruct (texcoord_ok ts i1 _ I1 L1 Hc') as (q & Nq & Eq).
      destruct (texcoord_ok ts i2 _ I1 L2 Hc') as (r & Nr & Er).
      unfold shape_uv. rewrite Nat.add_0_l, (at_nth _ _ _ _ F0), (at_nth _ _ _ _ F1), (at_nth _ _ _ _ F2). cbn [bind].
      rewrite Ep, Eq, Er. cbn [bind]. eexists. split; [reflexivity|]. exists p, q, r. auto. }
    destruct Hmap as (uvs & Em & Fm).
    destruct (sh_texcoords s) as [|x l] eqn:Ex.
    + assert (ts = []) by (destruct ts; [reflexivity|discriminate I1]). subst ts.
      destruct (fst pc) as [|t l]; [exists []; split; [reflexivity|constructor]|].
      exfalso. inversion I4 as [|? ? ? ? (_ & p & _ & E)]. destruct (Z.to_nat x); discriminate E.
    + exists uvs. split; [exact Em|]. clear Em Ex I4 Hcorner. revert Fm. generalize (fst pc). intros l' F.
      induction F; constructor; assumption.
  - rewrite HI. exists []. split; [reflexivity|].
    rewrite somes_none; [constructor|]. intros t Ht. destruct (Hcorner t Ht) as (P0 & P1 & P2). unfold uv_of, map3, spot_of.
    destruct (Z.leb_spec 0 (vt_idx (fst (fst t)))) as [K|K]; [apply P0 in K; discriminate|reflexivity].
Qed.
End Shape.

Lemma holds_app {A B} (g : A -> B) file l l' i j : holds g file l i j -> holds g file (l ++ l') i j.
Proof. intros (H & H' & p & E & E'). split; [exact H|]. split; [exact H'|]. exists p. split; [exact E|]. now apply nth_app_l. Qed.
Lemma drawn_app {B} (g : vec T -> B) file l l' fc t : drawn g file l fc t -> drawn g file (l ++ l') fc t.
Proof. destruct t as [[[[a ?] [b ?]] [c ?]] ?]. intros (H0 & H1 & H2). split; [|split]; apply holds_app; assumption. Qed.
Lemma forall2_drawn {B} (g : vec T -> B) vs all fs pc :
  Forall2 (face_drawn vs g all) fs (fst pc) -> Forall2 (drawn g vs all) fs (tris_of pc).
Proof.
  unfold tris_of. intros F. induction F as [|fc t fs ts H F IH]; cbn [map]; constructor; [|exact IH].
  exact H.
Qed.
Lemma forall2_drawn_app {B} (g : vec T -> B) vs all all' fs ts :
  Forall2 (drawn g vs all) fs ts -> Forall2 (drawn g vs (all ++ all')) fs ts.
Proof. apply forall2_imp. intros. now apply drawn_app. Qed.

Lemma tris_count pc : count (tris_of pc) = count (fst pc).
Proof. unfold count, tris_of. now rewrite map_length. Qed.
Lemma few_vertices (vs : list (vec T)) s ps pc : shape_ok vs s ps (corners_of (fst pc)) (repeat (enc (snd pc)) (length (fst pc))) ->
  count ps <= 3 * count (tris_of pc).
Proof. intros H. rewrite tris_count. pose proof (so_few _ _ _ _ _ H) as L. rewrite corners_length in L. unfold count. lia. Qed.
Lemma somes_app {A} (l l' : list (option A)) : somes (l ++ l') = somes l ++ somes l'.
Proof. induction l as [|[a|] l IH]; cbn; congruence. Qed.

Section Shapes.
Variables (vs : list (vec T)) (vts : list (T * T)).

Lemma add_plain_ok shapes pieces : Forall2 (shape_piece U vs vts) shapes pieces -> forall before faces,
  count before + 3 * count (flat_map tris_of pieces) < 4294967296 ->
  exists newv newf, add_plain shapes (count before) before faces = Ok (before ++ newv, faces ++ newf) /\
    Forall2 (drawn (fun p => p) vs (before ++ newv)) newf (flat_map tris_of pieces) /\
    (forall p, In p newv -> In p vs) /\
    count newv <= 3 * count (flat_map tris_of pieces).
Proof.
  intros F. induction F as [|s pc shapes pieces (ps & HS & Hn & _) F IH]; intros before faces Hc.
  - exists [], []. cbn. rewrite !app_nil_r. split; [reflexivity|]. split; [constructor|]. split; [intros p []|cbn; lia].
  - pose proof (few_vertices _ _ _ _ HS) as Hf. cbn [flat_map] in *. rewrite count_app in *.
    pose proof (count_pos (flat_map tris_of pieces)). pose proof (count_pos ps).
    destruct (plain_faces vs s pc ps HS Hn (fun p => p) before []) as (fs & Ef & Df); [lia|].
    rewrite map_id, app_nil_r in Df. apply forall2_drawn in Df.
    cbn [add_plain]. rewrite Ef. cbn [bind]. rewrite (plain_vertices vs s pc ps HS). cbn [bind].
    rewrite (vertices_number vs s pc ps HS). fold (count ps). rewrite <- count_app.
    destruct (IH (before ++ ps) (faces ++ fs)) as (newv & newf & E & D & I & L); [rewrite count_app; lia|].
    exists (ps ++ newv), (fs ++ newf). rewrite E, !app_assoc. split; [reflexivity|]. split.
    + apply Forall2_app; [|exact D]. now apply forall2_drawn_app.
    + split; [|rewrite count_app; lia]. intros p Hp. apply in_app_or in Hp as [Hp|Hp]; [|now apply I].
      exact (so_from _ _ _ _ _ HS p Hp).
Qed.
End Shapes.

Lemma add_shapes_ok vs vts scale shapes pieces : Forall2 (shape_piece true vs vts) shapes pieces -> forall m,
  count (om_vertices m) + 3 * count (flat_map tris_of pieces) < 4294967296 ->
  6 * count (flat_map tris_of pieces) < 4294967296 ->
  exists m' newv newf newuv, add_shapes scale shapes m = Ok m' /\
    om_vertices m' = om_vertices m ++ newv /\ om_faces m' = om_faces m ++ newf /\
    om_materials m' = om_materials m ++ map (fun t => u32 (enc (snd t))) (flat_map tris_of pieces) /\
    om_uvs m' = om_uvs m ++ newuv /\
    Forall2 (drawn (vscale scale) vs (om_vertices m')) newf (flat_map tris_of pieces) /\
    Forall2 (uv_drawn (nofZ 0) vts) newuv (somes (map uv_of (flat_map tris_of pieces))) /\
    (forall p, In p newv -> exists q, In q vs /\ p = vscale scale q) /\
    count newv <= 3 * count (flat_map tris_of pieces).
Proof.
  intros F. induction F as [|s pc shapes pieces (ps & HS & Hn & Ht) F IH]; intros m Hc Hc6.
  - exists m, [], [], []. cbn. rewrite !app_nil_r. split; [reflexivity|]. split; [reflexivity|]. split; [reflexivity|].
    split; [reflexivity|]. split; [reflexivity|]. split; [constructor|]. split; [constructor|]. split; [intros p []|cbn; lia].
  - destruct (Ht eq_refl) as (b & ts & HI & Hb).
    pose proof (few_vertices _ _ _ _ HS) as Hf. cbn [flat_map] in *. rewrite count_app in *.
    pose proof (count_pos (flat_map tris_of pieces)). pose proof (count_pos ps).
    destruct (mesh_faces vs s pc ps HS Hn (vscale scale) (om_vertices m) []) as (fs & Ef & Df & Mf); [lia|].
    rewrite app_nil_r in Df. apply forall2_drawn in Df.
    destruct (mesh_uvs vs vts s pc ps HS Hn b ts HI Hb) as (uvs & Eu & Du); [lia|].
    cbn [add_shapes]. fold (count (om_vertices m)). rewrite Ef. cbn [bind]. rewrite (mesh_vertices vs s pc ps HS scale). cbn [bind].
    rewrite Eu. cbn [bind].
    destruct (IH (ObjMesh (om_vertices m ++ map (vscale scale) ps) (om_faces m ++ map fst fs) (om_materials m ++ map snd fs) (om_uvs m ++ uvs)))
      as (m' & newv & newf & newuv & E & Ev & Eff & Em & Euv & Dn & Un & I & L).
    + cbn [om_vertices]. rewrite count_app. unfold count at 2. rewrite map_length. fold (count ps). lia.
    + lia.
    + cbn [om_vertices om_faces om_materials om_uvs] in *.
      exists m', (map (vscale scale) ps ++ newv), (map fst fs ++ newf), (uvs ++ newuv).
      split; [exact E|]. split; [now rewrite Ev, app_assoc|]. split; [now rewrite Eff, app_assoc|].
      split. { rewrite Em, Mf, map_app, app_assoc. do 2 f_equal. unfold tris_of. rewrite map_map. reflexivity. }
      split; [now rewrite Euv, app_assoc|].
      split; [|split; [|split]].
      * apply Forall2_app; [|exact Dn]. rewrite Ev. now apply forall2_drawn_app.
      * rewrite map_app, somes_app. now apply Forall2_app.
      * intros p Hp. apply in_app_or in Hp as [Hp|Hp]; [|now apply I]. apply in_map_iff in Hp as (q & <- & Hq).
        exists q. split; [exact (so_from _ _ _ _ _ HS q Hq)|reflexivity].
      * rewrite count_app. unfold count at 1. rewrite map_length. fold (count ps). lia.
Qed.
End Mesh.
