(** Collections that were made can be printed; what is never JSON. *)

From Coq Require Import ZArith Strings.String Strings.Ascii List Bool Lia.
From Verif Require Import Num Vec Datatypes Ray Bvh Sphere Plane Cylinder Trimesh Scene Embree Mains Print SpecJson SpecPrint PfBuild PfJson PfPrint.
Import ListNotations.
Local Open Scope string_scope.
Local Open Scope list_scope.

Section Made.
Context {T : Type} {N : num T}.
Lemma seq_fits i n : fits n -> (i < n)%nat -> fits i.
Proof. unfold fits. lia. Qed.
Lemma spheres_made xs rs s : make_spheres (T := T) xs rs = Ok s -> fits (length xs) -> printable sp_id (sphere_coll s).
Proof.
  unfold make_spheres. intros E Hf. bind_inv. injection E as <-. split; [exact Hf|]. intros i Hi.
  destruct (mapM_in _ _ _ i E0 (proj2 (in_seq _ _ _) (conj (Nat.le_0_l i) Hi))) as (b & Eb & _). cbn [sphere_coll c_prim]. unfold sphere_prim. cbn [ss_centers ss_radii].
  destruct (at_ UBprim xs i); try discriminate.
  destruct (at_ UBprim rs i); try discriminate.
  cbn [bind]. eexists. split; [reflexivity|]. exact (seq_fits i _ Hf Hi).
Qed.
Lemma planes_made xs dxs dys ms s : make_planes (T := T) xs dxs dys ms = Ok s -> fits (length xs) -> printable pl_id (plane_coll s).
Proof.
  unfold make_planes. intros E Hf. bind_inv. injection E as <-. split; [exact Hf|]. intros i Hi.
  destruct (mapM_in _ _ _ i E0 (proj2 (in_seq _ _ _) (conj (Nat.le_0_l i) Hi))) as (b & Eb & _). cbn [plane_coll c_prim]. unfold plane_prim. cbn [ps_centers ps_dxs ps_dys ps_rots].
  destruct (at_ UBprim xs i); try discriminate.
  destruct (at_ UBprim dxs i); try discriminate.
  destruct (at_ UBprim dys i); try discriminate.
  destruct (at_ UBprim ms i); try discriminate.
  cbn [bind]. eexists. split; [reflexivity|]. exact (seq_fits i _ Hf Hi).
Qed.
Lemma cylinders_made xs sa sb hs ms s : make_cylinders (T := T) xs sa sb hs ms = Ok s -> fits (length xs) -> printable cy_id (cylinder_coll s).
Proof.
  unfold make_cylinders. intros E Hf. bind_inv. injection E as <-. split; [exact Hf|]. intros i Hi.
  destruct (mapM_in _ _ _ i E0 (proj2 (in_seq _ _ _) (conj (Nat.le_0_l i) Hi))) as (b & Eb & _). cbn [cylinder_coll c_prim]. unfold cylinder_prim. cbn [cs_centers cs_as cs_bs cs_hs cs_rots].
  destruct (at_ UBprim xs i); try discriminate.
  destruct (at_ UBprim sa i); try discriminate.
  destruct (at_ UBprim sb i); try discriminate.
  destruct (at_ UBprim hs i); try discriminate.
  destruct (at_ UBprim ms i); try discriminate.
  cbn [bind]. eexists. split; [reflexivity|]. exact (seq_fits i _ Hf Hi).
Qed.
Lemma loop_faces (vertices : list (vec T)) faces : forall vns r, mesh_loop vertices faces vns = Ok r ->
  forall f, In f faces -> exists abc, face_vertices vertices f = Ok abc.
Proof.
  induction faces as [|g fs IH]; intros vns r E f Hf; [destruct Hf|]. cbn [mesh_loop] in E. bind_inv. destruct Hf as [<-|Hf]; [eauto|].
  eapply IH; eassumption.
Qed.
Lemma mesh_made vs fs s : make_mesh (T := T) vs fs = Ok s -> fits (length fs) -> printable tr_id (mesh_coll s).
Proof.
  unfold make_mesh. intros E Hf. bind_inv. injection E as <-. split; [exact Hf|]. intros i Hi. cbn [mesh_coll c_prim c_size m_faces] in *.
  unfold tri_prim. cbn [m_faces m_vertices]. unfold at_. destruct (nth_error fs i) as [f|] eqn:Ef; [|apply nth_error_None in Ef; lia]. cbn [bind].
  destruct (loop_faces _ _ _ _ E0 f (nth_error_In _ _ Ef)) as ([[a1 b1] c1] & ->). cbn [bind]. eexists. split; [reflexivity|]. exact (seq_fits i _ Hf Hi).
Qed.
Lemma new_printable o : scene_printable (new_scene (T := T) o).
Proof. repeat split; intros; discriminate. Qed.
Lemma mesh_keeps s vs fs s' o : add_mesh (T := T) s vs fs = Ok (s', o) -> fits (length fs) -> scene_printable s -> scene_printable s'.
Proof.
  unfold add_mesh. intros E Hf H. destruct (sc_mesh s) eqn:Es, (sc_committed s); try (injection E as <- <-; exact H). destruct H as (A & B & C & D).
  bind_inv. injection E as <- <-. unfold scene_printable. cbn [sc_mesh sc_spheres sc_planes sc_cylinders].
  refine (conj _ (conj _ (conj _ _))); try assumption; intros g' Eg; injection Eg as <-; exact (mesh_made _ _ _ E0 Hf).
Qed.
Lemma spheres_keeps s xs rs s' o : add_spheres (T := T) s xs rs = Ok (s', o) -> fits (length xs) -> scene_printable s -> scene_printable s'.
Proof.
  unfold add_spheres. intros E Hf H. destruct (sc_spheres s) eqn:Es, (sc_committed s); try (injection E as <- <-; exact H). destruct H as (A & B & C & D).
  bind_inv. injection E as <- <-. unfold scene_printable. cbn [sc_mesh sc_spheres sc_planes sc_cylinders].
  refine (conj _ (conj _ (conj _ _))); try assumption; intros g' Eg; injection Eg as <-; exact (spheres_made _ _ _ E0 Hf).
Qed.
Lemma planes_keeps s xs dxs dys ms s' o : add_planes (T := T) s xs dxs dys ms = Ok (s', o) -> fits (length xs) -> scene_printable s -> scene_printable s'.
Proof.
  unfold add_planes. intros E Hf H. destruct (sc_planes s) eqn:Es, (sc_committed s); try (injection E as <- <-; exact H). destruct H as (A & B & C & D).
  bind_inv. injection E as <- <-. unfold scene_printable. cbn [sc_mesh sc_spheres sc_planes sc_cylinders].
  refine (conj _ (conj _ (conj _ _))); try assumption; intros g' Eg; injection Eg as <-; exact (planes_made _ _ _ _ _ E0 Hf).
Qed.
Lemma cylinders_keeps s xs sa sb hs ms s' o : add_cylinders (T := T) s xs sa sb hs ms = Ok (s', o) -> fits (length xs) -> scene_printable s -> scene_printable s'.
Proof.
  unfold add_cylinders. intros E Hf H. destruct (sc_cylinders s) eqn:Es, (sc_committed s); try (injection E as <- <-; exact H). destruct H as (A & B & C & D).
  bind_inv. injection E as <- <-. unfold scene_printable. cbn [sc_mesh sc_spheres sc_planes sc_cylinders].
  refine (conj _ (conj _ (conj _ _))); try assumption; intros g' Eg; injection Eg as <-; exact (cylinders_made _ _ _ _ _ _ E0 Hf).
Qed.
Lemma built_keeps {C P} part (id : P -> nat) (of : C -> coll T P) o g g' : build_geometry part of o g = Ok g' ->
  part_printable id of g -> part_printable id of g'.
Proof.
  unfold build_geometry. destruct g as [g|]; intros E H; [|injection E as <-; exact H]. bind_inv. injection E as <-.
  intros h Eh. injection Eh as <-. exact (H g eq_refl).
Qed.
Lemma commit_keeps part s s' : commit (T := T) part s = Ok s' -> scene_printable s -> scene_printable s'.
Proof.
  unfold commit. intros E (A & B & C & D). bind_inv. injection E as <-.
  refine (conj _ (conj _ (conj _ _))); cbn [sc_mesh sc_spheres sc_planes sc_cylinders]; eapply built_keeps; eassumption.
Qed.
Lemma scene_made part s s' o :
  scene_printable (new_scene (T := T) default_options) /\
  (scene_printable s ->
    (forall vs fs, add_mesh s vs fs = Ok (s', o) -> fits (length fs) -> scene_printable s') /\
    (forall cs rs, add_spheres s cs rs = Ok (s', o) -> fits (length cs) -> scene_printable s') /\
    (forall cs dxs dys ms, add_planes s cs dxs dys ms = Ok (s', o) -> fits (length cs) -> scene_printable s') /\
    (forall cs sa sb hs ms, add_cylinders s cs sa sb hs ms = Ok (s', o) -> fits (length cs) -> scene_printable s') /\
    (commit part s = Ok s' -> scene_printable s')).
Proof.
  split; [apply new_printable|]. intros H. repeat match goal with |- _ /\ _ => split end; intros.
  - eapply mesh_keeps; eassumption.
  - eapply spheres_keeps; eassumption.
  - eapply planes_keeps; eassumption.
  - eapply cylinders_keeps; eassumption.
  - eapply commit_keeps; eassumption.
Qed.
End Made.

Section Never.
Context {T : Type} {N : num T}.
Variable show : T -> string.
Hypothesis Hshow : forall x, word (show x).
Variable addrs : nat -> string.
Hypothesis Haddrs : forall i, word (addrs i).
Ltac pair a b c d := exists a, b, c, d; split; reflexivity.

(** Names without quotes. *)
Lemma ray_never a cull (r : ray T) : not_json (cat (print_ray show a cull r)).
Proof. refine (clash_not_json [ln "{"; "  Ray: "] _ _ _ eq_refl _). pair (@nil token) (Punct "{") (Word "Ray") [Punct ":"]. Qed.
Lemma rayhit_never a (h : rayhit T) : not_json (cat (print_rayhit show a h)).
Proof. refine (clash_not_json [ln "{"; "  Ray: "] _ _ _ eq_refl _). pair (@nil token) (Punct "{") (Word "Ray") [Punct ":"]. Qed.
Lemma stats_never a time s : not_json (cat (print_stats a time s)).
Proof. refine (clash_not_json [ln "{"; "  statistics: "] _ _ _ eq_refl _). pair (@nil token) (Punct "{") (Word "statistics") [Punct ":"]. Qed.
(** A colon inside a name. *)
Lemma node_scan {P} a (n : node T P) : word a ->
  exists m, print_node show a n = [ln "{"; "  ""node"": "; a; ln ","; "  ""min:"" ["] ++ m /\
  scan Out (cat [ln "{"; "  ""node"": "; a; ln ","; "  ""min:"" ["]) =
    Some ([Punct "{"; Quoted "node"; Punct ":"; Word a; Punct ","; Quoted "min:"; Punct "["], Out).
Proof.
  intros Ha. eexists. split; [reflexivity|]. etransitivity; [repeat piece; reflexivity|reflexivity].
Qed.
Lemma node_never {P} a (n : node T P) : word a -> not_json (cat (print_node show a n)).
Proof.
  intros Ha. destruct (node_scan a n Ha) as (m & -> & E). refine (clash_not_json _ _ _ _ E _).
  pair [Punct "{"; Quoted "node"; Punct ":"; Word a; Punct ","] (Quoted "min:") (Punct "[") (@nil token).
Qed.
Lemma bvh_never {P} (nodes : list (node T P)) : not_json (cat (print_bvh show addrs nodes)).
Proof.
  unfold print_bvh. destruct nodes as [|n nodes].
  - refine (clash_not_json ["{"; ln ""; """nodes"": [ "; ln ""; "}"] _ _ [ln ""] eq_refl _).
    pair [Punct "{"; Quoted "nodes"; Punct ":"] (Punct "[") (Punct "}") (@nil token).
  - cbn [print_nodes]. destruct (node_scan (addrs 0) n (Haddrs 0)) as (m & -> & E). rewrite <- !app_assoc. rewrite app_assoc.
    refine (clash_not_json _ _ _ _ (scan_list Out ["{"; ln ""; """nodes"": [ "; ln ""] _ _ _ _ _ eq_refl E) _).
    pair [Punct "{"; Quoted "nodes"; Punct ":"; Punct "["; Punct "{"; Quoted "node"; Punct ":"; Word (addrs 0%nat); Punct ","] (Quoted "min:") (Punct "[") (@nil token).
Qed.
(** No comma between members. *)
Lemma eplane_never a (e : eplane T) : word a -> not_json (cat (print_eplane show a e)).
Proof.
  intros Ha. refine (clash_not_json ([ln "{"; "  ""EmbreePlane"": "; a; ln ","; "  ""center"": ["] ++ show_vec show (ep_center e) ++
    ["  ""d1"": "; show (ep_d1 e); ln ""; "  ""d2"": "]) _ _ _ _ _); [scan_all|].
  eexists [_; _; _; _; _; _; _; _; _; _; _; _; _; _; _; _; _], (Word (show (ep_d1 e))), (Quoted "d2"), [Punct ":"]. split; reflexivity.
Qed.
Lemma ecyl_never a (e : ecyl T) : word a -> not_json (cat (print_ecyl show a e)).
Proof.
  intros Ha. refine (clash_not_json ([ln "{"; "  ""EmbreeCylinder"": "; a; ln ","; "  ""cylinder"": ["] ++ show_vec show (ec_center e) ++
    ["  ""a"": "; show (ec_a e); ln ""; "  ""b"": "]) _ _ _ _ _); [scan_all|].
  eexists [_; _; _; _; _; _; _; _; _; _; _; _; _; _; _; _; _], (Word (show (ec_a e))), (Quoted "b"), [Punct ":"]. split; reflexivity.
Qed.

(** Statements about the texts. *)
Lemma sphere_text a : word a -> forall s, fits (sp_id s) -> json_text (cat (print_sphere show a s)) (jsphere show a s).
Proof. intros Ha s Hs. apply reads_text, sphere_reads; assumption. Qed.
Lemma plane_text a : word a -> forall s, fits (pl_id s) -> json_text (cat (print_plane show a s)) (jplane show a s).
Proof. intros Ha s Hs. apply reads_text, plane_reads; assumption. Qed.
Lemma cylinder_text a : word a -> forall s, fits (cy_id s) -> json_text (cat (print_cylinder show a s)) (jcylinder show a s).
Proof. intros Ha s Hs. apply reads_text, cylinder_reads; assumption. Qed.
Lemma triangle_text a : word a -> forall s, fits (tr_id s) -> json_text (cat (print_triangle show a s)) (jtriangle show a (mixed s)).
Proof. intros Ha s Hs. apply reads_text, triangle_reads; assumption. Qed.
Lemma esphere_text a : word a -> forall s, json_text (cat (print_esphere show a s)) (jesphere show a s).
Proof. intros Ha s. apply reads_text, esphere_reads; assumption. Qed.
Lemma coll_text {P} (print : res (list string)) (id : P -> nat) name jprim (c : coll T P) :
  (printable id c -> exists l ts, print = Ok l /\ scan Out (cat l) = Some (ts, Out) /\
    (c_size c <> 0%nat -> exists v, value ts v /\ jcoll name jprim addrs c v) /\ (c_size c = 0%nat -> clash ts)) ->
  printable id c -> exists l, print = Ok l /\ (c_size c <> 0%nat -> exists v, jcoll name jprim addrs c v /\ json_text (cat l) v) /\
    (c_size c = 0%nat -> not_json (cat l)).
Proof.
  intros H Hp. destruct (H Hp) as (l & ts & E & Hs & Hv & Hc). exists l. split; [exact E|]. split.
  - intros Hn. destruct (Hv Hn) as (v & Vv & Jv). exists v. split; [exact Jv|]. exists ts. split; [left; exact Hs|exact Vv].
  - intros Hn. rewrite <- (app_nil_r l). exact (clash_not_json l ts Out [] Hs (Hc Hn)).
Qed.
Lemma spheres_text xs rs s : make_spheres xs rs = Ok s -> fits (length xs) -> exists l, print_spheres show addrs s = Ok l /\
  (c_size (sphere_coll s) <> 0%nat -> exists v, jcoll "SphereCollection" (jsphere show) addrs (sphere_coll s) v /\ json_text (cat l) v) /\
  (c_size (sphere_coll s) = 0%nat -> not_json (cat l)).
Proof. intros E Hf. exact (coll_text _ sp_id _ _ _ (spheres_read show Hshow addrs Haddrs s) (spheres_made _ _ _ E Hf)). Qed.
Lemma planes_text xs dxs dys ms s : make_planes xs dxs dys ms = Ok s -> fits (length xs) -> exists l, print_planes show addrs s = Ok l /\
  (c_size (plane_coll s) <> 0%nat -> exists v, jcoll "PlaneCollection" (jplane show) addrs (plane_coll s) v /\ json_text (cat l) v) /\
  (c_size (plane_coll s) = 0%nat -> not_json (cat l)).
Proof. intros E Hf. exact (coll_text _ pl_id _ _ _ (planes_read show Hshow addrs Haddrs s) (planes_made _ _ _ _ _ E Hf)). Qed.
Lemma cylinders_text xs sa sb hs ms s : make_cylinders xs sa sb hs ms = Ok s -> fits (length xs) -> exists l, print_cylinders show addrs s = Ok l /\
  (c_size (cylinder_coll s) <> 0%nat -> exists v, jcoll "CylinderCollection" (jcylinder show) addrs (cylinder_coll s) v /\ json_text (cat l) v) /\
  (c_size (cylinder_coll s) = 0%nat -> not_json (cat l)).
Proof. intros E Hf. exact (coll_text _ cy_id _ _ _ (cylinders_read show Hshow addrs Haddrs s) (cylinders_made _ _ _ _ _ _ E Hf)). Qed.
Lemma mesh_text vs fs s : make_mesh vs fs = Ok s -> fits (length fs) -> exists l, print_mesh show addrs s = Ok l /\
  (c_size (mesh_coll s) <> 0%nat -> exists v, jcoll "TriangleMesh" (fun a t => jtriangle show a (mixed t)) addrs (mesh_coll s) v /\ json_text (cat l) v) /\
  (c_size (mesh_coll s) = 0%nat -> not_json (cat l)).
Proof. intros E Hf. exact (coll_text _ tr_id _ _ _ (mesh_read show Hshow addrs Haddrs s) (mesh_made _ _ _ E Hf)). Qed.
(** The triangle's text does not depend on the second coordinate of its corner. *)
Lemma triangle_blind a x y y' z b c i :
  cat (print_triangle show a (Triangle (V x y z) b c i)) = cat (print_triangle show a (Triangle (V x y' z) b c i)).
Proof. reflexivity. Qed.
End Never.
