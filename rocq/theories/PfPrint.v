(** What the stream output operators print, read as JSON. *)

From Coq Require Import ZArith Strings.String Strings.Ascii List Bool Lia.
From Verif Require Import Num Vec Datatypes Ray Bvh Sphere Plane Cylinder Trimesh Scene Embree Mains Print SpecJson SpecPrint PfJson.
Import ListNotations.
Local Open Scope string_scope.
Local Open Scope list_scope.

Lemma nat_word n : fits n -> word (show_nat n).
Proof. intros H. apply dec_word. unfold fits in H. lia. Qed.

Ltac piece := eapply scan_more; [first [apply scan_word; solve [auto using nat_word, bit_word] | reflexivity]|].
Ltac scan_all := cbn [app show_vec show_vec2 show_rot]; repeat piece; reflexivity.

Section Print.
Context {T : Type} {N : num T}.
Variable show : T -> string.
Hypothesis Hshow : forall x, word (show x).

(** A printed text is scanned as a whole. *)
Definition reads (l : list string) (v : json) : Prop := exists ts, scan Out (cat l) = Some (ts, Out) /\ value ts v.
Lemma reads_text l v : reads l v -> json_text (cat l) v.
Proof. intros (ts & H & Hv). exists ts. split; [left; exact H|exact Hv]. Qed.


Lemma sphere_reads a s : word a -> fits (sp_id s) -> reads (print_sphere show a s) (jsphere show a s).
Proof. intros Ha Hi. eexists. split; [unfold print_sphere; scan_all|]. apply (parse_value 40). reflexivity. Qed.
Lemma plane_reads a p : word a -> fits (pl_id p) -> reads (print_plane show a p) (jplane show a p).
Proof. intros Ha Hi. eexists. split; [unfold print_plane; scan_all|]. apply (parse_value 40). reflexivity. Qed.
Lemma cylinder_reads a c : word a -> fits (cy_id c) -> reads (print_cylinder show a c) (jcylinder show a c).
Proof. intros Ha Hi. eexists. split; [unfold print_cylinder; scan_all|]. apply (parse_value 40). reflexivity. Qed.
Lemma triangle_reads a t : word a -> fits (tr_id t) -> reads (print_triangle show a t) (jtriangle show a (mixed t)).
Proof. intros Ha Hi. eexists. split; [unfold print_triangle; scan_all|]. apply (parse_value 40). reflexivity. Qed.
Lemma esphere_reads a s : word a -> reads (print_esphere show a s) (jesphere show a s).
Proof. intros Ha. eexists. split; [unfold print_esphere; scan_all|]. apply (parse_value 40). reflexivity. Qed.

(** Collections. *)
Variable addrs : nat -> string.
Hypothesis Haddrs : forall i, word (addrs i).
Section Coll.
Context {P : Type}.
Variables (print : string -> P -> list string) (jprim : string -> P -> json) (id : P -> nat).
Hypothesis Hread : forall a p, word a -> fits (id p) -> reads (print a p) (jprim a p).

Lemma items_read (prim : nat -> res P) n : forall i,
  (forall k, (i <= k < i + S n)%nat -> exists p, prim k = Ok p /\ fits (id p)) ->
  exists l ts items, print_items addrs print prim (i + n) (seq i (S n)) = Ok l /\ scan Out (cat l) = Some (ts ++ [Punct "]"], Out) /\
    elements ts items /\ length items = S n /\
    forall k p, (k < S n)%nat -> prim (i + k)%nat = Ok p -> nth_error items k = Some (jprim (addrs (i + k)) p).
Proof.
  induction n as [|n IH]; intros i H; cbn [seq print_items].
  - destruct (H i ltac:(lia)) as (p & E & Hp). rewrite E. cbn [bind]. destruct (Hread (addrs i) p (Haddrs i) Hp) as (ts & Hs & Hv).
    rewrite Nat.add_0_r, Nat.eqb_refl. exists (print (addrs i) p ++ [ln "]"]), ts, [jprim (addrs i) p]. split; [reflexivity|].
    split; [|split; [constructor; exact Hv|split; [reflexivity|]]].
    + eapply scan_list; [exact Hs|]. reflexivity.
    + intros k q Hk Ek. assert (k = 0)%nat by lia. subst k. rewrite Nat.add_0_r in *. rewrite E in Ek. injection Ek as <-. reflexivity.
  - destruct (H i ltac:(lia)) as (p & E & Hp). destruct (Hread (addrs i) p (Haddrs i) Hp) as (ts & Hs & Hv).
    destruct (IH (S i)) as (l & us & items & El & Hl & He & Hn & Hi); [intros k Hk; apply H; lia|].
    rewrite E. cbn [bind]. replace (i + S n)%nat with (S i + n)%nat by lia. cbn [seq print_items] in El. rewrite El. cbn [bind].
    rewrite (proj2 (Nat.eqb_neq i (S i + n))) by lia.
    exists (print (addrs i) p ++ [ln ", "] ++ l), (ts ++ Punct "," :: us), (jprim (addrs i) p :: items). split; [reflexivity|].
    split; [|split; [constructor; assumption|split; [cbn [length]; now rewrite Hn|]]].
    + rewrite <- app_assoc. eapply scan_list; [exact Hs|]. cbn [app]. change (Punct "," :: us ++ [Punct "]"]) with ([Punct ","] ++ us ++ [Punct "]"]).
      eapply scan_more; [reflexivity|]. exact Hl.
    + intros k q Hk Ek. destruct k as [|k].
      * rewrite Nat.add_0_r in *. rewrite E in Ek. injection Ek as <-. reflexivity.
      * cbn [nth_error]. replace (i + S k)%nat with (S i + k)%nat in * by lia. apply Hi; [lia|exact Ek].
Qed.

Variables (head size name : string).
Hypothesis Hhead : scan Out head = Some ([Quoted name; Punct ":"; Punct "["], Out).
Hypothesis Hsize : scan Out size = Some ([Punct "{"; Quoted "size"; Punct ":"], Out).
(** The text is scanned; it is JSON if there is a primitive. *)
Lemma coll_reads (c : coll T P) : printable id c ->
  exists l ts, print_coll addrs head size print c = Ok l /\ scan Out (cat l) = Some (ts, Out) /\
    (c_size c <> 0%nat -> exists v, value ts v /\ jcoll name jprim addrs c v) /\ (c_size c = 0%nat -> clash ts).
Proof.
  intros [Hf Hp]. unfold print_coll. assert (W : word (show_nat (c_size c))) by (apply nat_word, Hf).
  assert (F : forall items ts, scan Out (cat items) = Some (ts, Out) ->
    scan Out (cat ([ln "{"; head; ln ""; size; show_nat (c_size c); ln "},"] ++ items ++ [ln "}"])) =
    Some ([Punct "{"; Quoted name; Punct ":"; Punct "["; Punct "{"; Quoted "size"; Punct ":"; Word (show_nat (c_size c)); Punct "}"; Punct ","] ++ ts ++ [Punct "}"], Out)).
  { intros items ts Hts. eapply scan_list; [|eapply scan_list; [exact Hts|reflexivity]].
    etransitivity; [eapply scan_more; [reflexivity|eapply scan_more; [exact Hhead|eapply scan_more; [reflexivity|eapply scan_more; [exact Hsize|
      eapply scan_more; [apply scan_word, W|eapply scan_more; reflexivity]]]]]|reflexivity]. }
  destruct (c_size c) as [|n] eqn:En.
  - cbn [seq print_items bind]. eexists. eexists. split; [reflexivity|]. split; [exact (F [] [] eq_refl)|]. split; [intros H; contradiction|]. intros _.
    eexists [Punct "{"; Quoted name; Punct ":"; Punct "["; Punct "{"; Quoted "size"; Punct ":"; Word _; Punct "}"], (Punct ","), (Punct "}"), [].
    split; reflexivity.
  - destruct (items_read (c_prim c) n 0) as (l & ts & items & El & Hl & He & Hn & Hi); [intros k Hk; apply Hp; lia|].
    replace (S n - 1)%nat with (0 + n)%nat by lia. rewrite El. cbn [bind]. eexists. eexists. split; [reflexivity|]. split; [exact (F l _ Hl)|].
    split; [|discriminate]. intros _. exists (JObj [(name, JArr (JObj [("size", jid (S n))] :: items))]). split.
    + match goal with |- value ?a _ => replace a with
        (Punct "{" :: (Quoted name :: Punct ":" :: (Punct "[" :: ([Punct "{"; Quoted "size"; Punct ":"; Word (show_nat (S n)); Punct "}"] ++ Punct "," :: ts) ++ [Punct "]"])) ++ [Punct "}"])
        by (cbn [app]; rewrite <- !app_assoc; reflexivity) end.
      constructor. constructor. constructor. constructor; [|exact He]. apply (parse_value 9). reflexivity.
    + exists items. split; [now rewrite En|]. split; [now rewrite En|]. intros i p Hi' Ep. apply (Hi i p); [now rewrite <- En|exact Ep].
Qed.
End Coll.

Lemma spheres_read s : printable sp_id (sphere_coll s) -> exists l ts, print_spheres show addrs s = Ok l /\ scan Out (cat l) = Some (ts, Out) /\
  (c_size (sphere_coll s) <> 0%nat -> exists v, value ts v /\ jcoll "SphereCollection" (jsphere show) addrs (sphere_coll s) v) /\
  (c_size (sphere_coll s) = 0%nat -> clash ts).
Proof. exact (coll_reads _ _ sp_id sphere_reads """SphereCollection"": [" "{""size"": " "SphereCollection" eq_refl eq_refl (sphere_coll s)). Qed.
Lemma planes_read s : printable pl_id (plane_coll s) -> exists l ts, print_planes show addrs s = Ok l /\ scan Out (cat l) = Some (ts, Out) /\
  (c_size (plane_coll s) <> 0%nat -> exists v, value ts v /\ jcoll "PlaneCollection" (jplane show) addrs (plane_coll s) v) /\
  (c_size (plane_coll s) = 0%nat -> clash ts).
Proof. exact (coll_reads _ _ pl_id plane_reads """PlaneCollection"": [" "{""size"": " "PlaneCollection" eq_refl eq_refl (plane_coll s)). Qed.
Lemma cylinders_read s : printable cy_id (cylinder_coll s) -> exists l ts, print_cylinders show addrs s = Ok l /\ scan Out (cat l) = Some (ts, Out) /\
  (c_size (cylinder_coll s) <> 0%nat -> exists v, value ts v /\ jcoll "CylinderCollection" (jcylinder show) addrs (cylinder_coll s) v) /\
  (c_size (cylinder_coll s) = 0%nat -> clash ts).
Proof. exact (coll_reads _ _ cy_id cylinder_reads """CylinderCollection"": [" "{ ""size"": " "CylinderCollection" eq_refl eq_refl (cylinder_coll s)). Qed.
Lemma mesh_read s : printable tr_id (mesh_coll s) -> exists l ts, print_mesh show addrs s = Ok l /\ scan Out (cat l) = Some (ts, Out) /\
  (c_size (mesh_coll s) <> 0%nat -> exists v, value ts v /\ jcoll "TriangleMesh" (fun a t => jtriangle show a (mixed t)) addrs (mesh_coll s) v) /\
  (c_size (mesh_coll s) = 0%nat -> clash ts).
Proof. exact (coll_reads _ _ tr_id triangle_reads """TriangleMesh"": [" "{""size"": " "TriangleMesh" eq_refl eq_refl (mesh_coll s)). Qed.

(** Elements of an array that may be missing. *)
Definition row (b : bool) (ts : list token) (l : list json) : Prop := if b then elements ts l else ts = [] /\ l = [].
Section Part.
Context {C P : Type}.
Variables (print : C -> res (list string)) (of : C -> coll T P) (name : string) (jprim : string -> P -> json) (id : P -> nat).
Hypothesis H : forall c, printable id (of c) -> exists l ts, print c = Ok l /\ scan Out (cat l) = Some (ts, Out) /\
  (c_size (of c) <> 0%nat -> exists v, value ts v /\ jcoll name jprim addrs (of c) v) /\ (c_size (of c) = 0%nat -> clash ts).
Lemma part_reads g more : part_printable id of g ->
  exists l ts, print_part print more g = Ok l /\ scan Out (cat l) = Some (ts, Out) /\
    (part_filled of g -> forall us js, row more us js -> exists vs, jpart name jprim addrs of g vs /\ row (some g || more) (ts ++ us) (vs ++ js)) /\
    (~ part_filled of g -> clash ts).
Proof.
  intros Hg. destruct g as [g|]; cbn [print_part some jpart].
  - destruct (H _ (Hg g eq_refl)) as (l & ts & E & Hs & Hv & Hc). rewrite E. cbn [bind].
    exists (l ++ (if more then [ln ","] else [])), (ts ++ (if more then [Punct ","] else [])). split; [reflexivity|].
    split; [eapply scan_list; [exact Hs|]; destruct more; reflexivity|]. split.
    + intros Hf us js Hr. destruct (Hv (Hf g eq_refl)) as (v & Vv & Jv). exists [v]. split; [eauto|]. cbn [orb row app]. destruct more; cbn [row] in Hr.
      * rewrite <- app_assoc. constructor; assumption.
      * destruct Hr as [-> ->]. rewrite !app_nil_r. constructor. exact Vv.
    + intros Hf. destruct (Nat.eq_dec (c_size (of (g_coll g))) 0) as [E0|E0].
      * specialize (Hc E0). exact (clash_app [] ts _ Hc).
      * destruct Hf. intros g' [= <-]. exact E0.
  - exists [], []. split; [reflexivity|]. split; [reflexivity|]. split.
    + intros _ us js Hr. exists []. split; [reflexivity|]. exact Hr.
    + intros Hf. destruct Hf. discriminate.
Qed.
End Part.

Lemma scene_reads a s : word a -> scene_printable s -> exists l, print_scene show a addrs s = Ok l /\
  (scene_filled s -> exists v, jscene show a addrs s v /\ json_text (cat l) v) /\ (~ scene_filled s -> not_json (cat l)).
Proof.
  intros Ha (P1 & P2 & P3 & P4). unfold print_scene.
  destruct (part_reads _ _ _ _ _ mesh_read (sc_mesh s) (some (sc_spheres s) || some (sc_cylinders s) || some (sc_planes s)) P1) as (lm & tm & Em & Sm & Jm & Cm).
  destruct (part_reads _ _ _ _ _ spheres_read (sc_spheres s) (some (sc_cylinders s) || some (sc_planes s)) P2) as (lb & tb & Eb & Sb & Jb & Cb).
  destruct (part_reads _ _ _ _ _ cylinders_read (sc_cylinders s) (some (sc_planes s)) P3) as (lc & tc & Ec & Sc & Jc & Cc).
  destruct (part_reads _ _ _ _ _ planes_read (sc_planes s) false P4) as (lp & tp & Ep & Sp & Jp & Cp).
  rewrite Em, Eb, Ec, Ep. cbn [bind].
  assert (S : scan Out (cat ([ln "{"; "  ""Scene"": "; a; ln ","; "  ""Collections"": ["; ln ""] ++ lm ++ lb ++ lc ++ lp ++ [ln "  ]"; ln "}"])) =
    Some ([Punct "{"; Quoted "Scene"; Punct ":"; Word a; Punct ","; Quoted "Collections"; Punct ":"; Punct "["] ++ tm ++ tb ++ tc ++ tp ++ [Punct "]"; Punct "}"], Out)).
  { eapply scan_list; [etransitivity; [repeat piece; reflexivity|reflexivity]|].
    eapply scan_list; [exact Sm|]. eapply scan_list; [exact Sb|]. eapply scan_list; [exact Sc|]. eapply scan_list; [exact Sp|]. reflexivity. }
  eexists. split; [reflexivity|]. split.
  - intros (F1 & F2 & F3 & F4).
    destruct (Jp F4 [] [] (conj eq_refl eq_refl)) as (vp & Vp & Rp). destruct (Jc F3 _ _ (eq_ind _ (fun b => row b _ _) Rp _ (orb_false_r _))) as (vc & Vc & Rc).
    destruct (Jb F2 _ _ Rc) as (vb & Vb & Rb). rewrite orb_assoc in Rb. destruct (Jm F1 _ _ Rb) as (vm & Vm & Rm). rewrite !app_nil_r in Rm.
    exists (JObj [("Scene", JWord a); ("Collections", JArr (vm ++ vb ++ vc ++ vp))]). split; [exists vm, vb, vc, vp; auto|].
    eexists. split; [left; exact S|].
    match goal with |- value ?x _ => replace x with
      (Punct "{" :: (Quoted "Scene" :: Punct ":" :: [Word a] ++ Punct "," :: (Quoted "Collections" :: Punct ":" :: (Punct "[" :: (tm ++ tb ++ tc ++ tp) ++ [Punct "]"]))) ++ [Punct "}"])
      by (cbn [app]; rewrite <- !app_assoc; reflexivity) end.
    constructor. constructor; [constructor|]. constructor.
    destruct (some (sc_mesh s) || _)%bool; cbn [row] in Rm.
    + constructor. exact Rm.
    + destruct Rm as [-> ->]. exact V_arr0.
  - intros Hf v (ts & Ht & Hv). assert (ts = _) by (eapply scan_unique; [exact Ht|left; exact S]). subst ts. revert Hv. apply clash_value.
    assert (D : ~ part_filled mesh_coll (sc_mesh s) \/ ~ part_filled sphere_coll (sc_spheres s) \/
      ~ part_filled cylinder_coll (sc_cylinders s) \/ ~ part_filled plane_coll (sc_planes s)).
    { assert (Q : forall C P (of : C -> coll T P) (g : option (geometry C T P)), part_filled of g \/ ~ part_filled of g).
      { intros C P of [g|]; [|left; discriminate]. destruct (Nat.eq_dec (c_size (of (g_coll g))) 0) as [E|E].
        - right. intros F. exact (F g eq_refl E).
        - left. intros g' [= <-]. exact E. }
      destruct (Q _ _ mesh_coll (sc_mesh s)); [|auto]. destruct (Q _ _ sphere_coll (sc_spheres s)); [|auto].
      destruct (Q _ _ cylinder_coll (sc_cylinders s)); [|auto]. destruct (Q _ _ plane_coll (sc_planes s)); [|auto].
      destruct Hf. repeat split; assumption. }
    destruct D as [D|[D|[D|D]]].
    + apply clash_app, Cm, D.
    + rewrite app_assoc. apply clash_app, Cb, D.
    + rewrite !app_assoc, <- app_assoc. rewrite <- (app_assoc _ tc). apply clash_app, Cc, D.
    + rewrite !app_assoc. rewrite <- (app_assoc _ tp). apply clash_app, Cp, D.
Qed.
End Print.
