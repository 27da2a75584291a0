(** Reading an OBJ file line by line. *)

From Coq Require Import ZArith Strings.String List Bool Lia.
From Verif Require Import Num Vec Datatypes PathTracer TinyObj SpecObj PfImage PfImage3 PfObj PfObj2.
Import ListNotations.
Local Open Scope list_scope.
Local Open Scope Z_scope.

(** Fans and maps. *)
Definition map3 {A B} (f : A -> B) (t : A * A * A) : B * B * B := (f (fst (fst t)), f (snd (fst t)), f (snd t)).
Lemma fan_from_map {A B} (f : A -> B) l : forall a b, fan_from (f a) (f b) (map f l) = map (map3 f) (fan_from a b l).
Proof. induction l as [|c l IH]; intros a b; [reflexivity|]. cbn. now rewrite IH. Qed.
Lemma fan_map {A B} (f : A -> B) l : fan (map f l) = map (map3 f) (fan l).
Proof. destruct l as [|a [|b l]]; try reflexivity. cbn [map fan]. apply fan_from_map. Qed.

Lemma fan_from_in {A} (l : list A) : forall a b t, In t (fan_from a b l) ->
  (fst (fst t) = a \/ In (fst (fst t)) l) /\ (snd (fst t) = b \/ In (snd (fst t)) l) /\ In (snd t) l.
Proof.
  induction l as [|c l IH]; intros a b t H; [destruct H|]. cbn [fan_from] in H. destruct H as [<-|H].
  - cbn. auto.
  - destruct (IH a c t H) as (H1 & H2 & H3). cbn [In]. intuition.
Qed.
Lemma fan_in {A} (l : list A) t : In t (fan l) -> In (fst (fst t)) l /\ In (snd (fst t)) l /\ In (snd t) l.
Proof.
  destruct l as [|a [|b l]]; try (intros []; fail). cbn [fan]. intros H.
  destruct (fan_from_in l a b t H) as (H1 & H2 & H3). cbn [In]. intuition.
Qed.

(** Names. *)
Lemma place_app n l l' : place n (l ++ l') = match place n l with Some z => Some z | None => option_map (fun z => count l + z) (place n l') end.
Proof.
  induction l as [|k l IH].
  - cbn. destruct (place n l'); reflexivity.
  - cbn [app place]. destruct (String.eqb k n); [reflexivity|]. rewrite IH. destruct (place n l); [reflexivity|].
    destruct (place n l'); [|reflexivity]. cbn [option_map]. f_equal. unfold count. cbn [length]. lia.
Qed.
Definition map_ok (m : name_map) (names : list string) : Prop := forall n, name_find m n = place n names.
Lemma name_find_app m n z k : name_find (m ++ [(n, z)]) k =
  match name_find m k with Some y => Some y | None => if String.eqb n k then Some z else None end.
Proof. induction m as [|[a y] m IH]; [reflexivity|]. cbn [app name_find]. destruct (String.eqb a k); auto. Qed.
Lemma insert_ok m names n : map_ok m names -> map_ok (name_insert m n (count names)) (names ++ [n]).
Proof.
  intros H k. rewrite place_app. cbn [place]. unfold name_insert. rewrite (H n).
  destruct (place n names) as [z|] eqn:En.
  - rewrite (H k). destruct (place k names) eqn:Ek; [reflexivity|]. destruct (String.eqb_spec n k); [congruence|reflexivity].
  - rewrite name_find_app, (H k). destruct (place k names); [reflexivity|]. destruct (String.eqb n k); [|reflexivity].
    cbn [option_map]. f_equal. lia.
Qed.

Section Mtl.
Context {T : Type} {N : num T}.

Lemma mtl_named cs : forall map (mats : list (material T)) names name m,
  map_ok map names -> length names = length mats -> name <> ""%string -> (forall k, In k (new_names cs) -> k <> ""%string) ->
  exists map' new, mtl_loop cs map mats name m = (map', mats ++ new) /\
    map_ok map' (names ++ name :: new_names cs) /\ length new = S (length (new_names cs)).
Proof.
  induction cs as [|c cs IH]; intros map mats names name m Hm Hl Hn Hk.
  - cbn [mtl_loop]. exists (name_insert map name (count names)), [m]. unfold count at 1. rewrite Hl.
    split; [reflexivity|]. split; [now apply insert_ok|reflexivity].
  - destruct c as [n|v|v|v|v|x|x|x|]; try (apply IH; assumption).
    cbn [mtl_loop]. destruct (String.eqb_spec name ""); [contradiction|].
    destruct (IH (name_insert map name (Z.of_nat (length mats))) (mats ++ [m]) (names ++ [name]) n init_material)
      as (map' & new & E & M & L).
    + replace (Z.of_nat (length mats)) with (count names) by (unfold count; lia). now apply insert_ok.
    + rewrite !app_length. cbn. lia.
    + apply Hk. now left.
    + intros k H. apply Hk. now right.
    + exists map', (m :: new). rewrite E, <- app_assoc. split; [reflexivity|]. split.
      * rewrite <- app_assoc in M. exact M.
      * cbn [length]. change (new_names (MNew n :: cs)) with (n :: new_names cs). cbn [length]. lia.
Qed.
Lemma mtl_unnamed cs : forall map (mats : list (material T)) names m,
  map_ok map names -> length names = length mats -> (forall k, In k (new_names cs) -> k <> ""%string) ->
  exists map' new, mtl_loop cs map mats ""%string m = (map', mats ++ new) /\
    map_ok map' (names ++ names_of cs) /\ length new = length (names_of cs).
Proof.
  induction cs as [|c cs IH]; intros map mats names m Hm Hl Hk.
  - cbn [mtl_loop]. exists (name_insert map ""%string (count names)), [m]. unfold count at 1. rewrite Hl.
    split; [reflexivity|]. split; [now apply insert_ok|reflexivity].
  - destruct c as [n|v|v|v|v|x|x|x|]; try (apply IH; assumption).
    cbn [mtl_loop String.eqb]. unfold names_of. change (new_names (MNew n :: cs)) with (n :: new_names cs).
    destruct (mtl_named cs map mats names n init_material Hm Hl) as (map' & new & E & M & L).
    + apply Hk. now left.
    + intros k H. apply Hk. now right.
    + exists map', new. auto.
Qed.
End Mtl.

Section Read.
Context {T : Type} {N : num T}.
Variable U : bool.
Variable mtl_file : string -> option (list (mcmd T)).

Definition enc (m : option Z) : Z := match m with Some z => z | None => -1 end.
Definition spot_of (i : vindex) : spot := (v_idx i, if 0 <=? vt_idx i then Some (vt_idx i) else None).
Definition piece := (list (vindex * vindex * vindex) * option Z)%type.
Definition tris_of (pc : piece) : list tri := map (fun t => (map3 spot_of t, snd pc)) (fst pc).

Definition shape_piece (vs : list (vec T)) (vts : list (T * T)) (s : shape T) (pc : piece) : Prop :=
  exists ps, shape_ok vs s ps (corners_of (fst pc)) (repeat (enc (snd pc)) (length (fst pc))) /\
   (forall i, In i (corners_of (fst pc)) -> 0 <= v_idx i) /\
   (U = true -> exists b ts, tex_inv vts b [] s ts (corners_of (fst pc)) /\
      forall i, In i (corners_of (fst pc)) -> (b = true <-> 0 <= vt_idx i)).

Lemma located_more {A} (l l' ps : list A) idx j : located l ps idx j -> located (l ++ l') ps idx j.
Proof. intros (H & p & E & E'). split; [exact H|]. exists p. split; [now apply nth_app_l|exact E']. Qed.
Lemma shape_piece_more vs vts vs' vts' s pc : shape_piece vs vts s pc -> shape_piece (vs ++ vs') (vts ++ vts') s pc.
Proof.
  intros (ps & [S1 S2 S3 S4 S5] & Hn & Ht). exists ps. split; [|split; [exact Hn|]].
  - split; try assumption; [|intros p Hp; apply in_or_app; left; now apply S5].
    eapply forall2_imp; [|exact S2]. intros idx i H. now apply located_more.
  - intros HU. destruct (Ht HU) as (b & ts & Hi & Hb). exists b, ts. split; [|exact Hb].
    destruct b; [|exact Hi]. destruct Hi as (I1 & I2 & I3 & I4). split; [exact I1|]. split; [exact I2|].
    split; [intros i idx H; discriminate H|]. eapply forall2_imp; [|exact I4]. intros idx i H. now apply located_more.
Qed.

Definition mode_ok (b : option bool) (group : list (list vindex)) : Prop :=
  match b with None => group = [] | Some b => forall f i, In f group -> In i f -> (b = true <-> 0 <= vt_idx i) end.

Record reads (r : reader T) (vs vns : list (vec T)) (vts : list (T * T)) (names : list string) (m : option Z)
    (pieces : list piece) (b : option bool) : Prop := {
  re_v : rd_v r = flat3 vs; re_vn : rd_vn r = flat3 vns; re_vt : rd_vt r = flat2 vts;
  re_shapes : Forall2 (shape_piece vs vts) (rd_shapes r) pieces;
  re_group : forall f, In f (rd_group r) -> (2 <= length f)%nat /\ forall i, In i f -> usable vs vns vts i;
  re_mode : U = true -> mode_ok b (rd_group r);
  re_map : map_ok (rd_map r) names;
  re_names : length names = length (rd_materials r);
  re_mat : rd_material r = enc m }.

Definition pending (r : reader T) (m : option Z) : list tri :=
  tris_of (flat_map fan (rd_group r), m).

Lemma forall_corners (P : vindex -> Prop) group :
  (forall f i, In f group -> In i f -> P i) -> forall i, In i (corners_of (flat_map fan group)) -> P i.
Proof.
  intros H i Hi. unfold corners_of in Hi. apply in_flat_map in Hi as (t & Ht & Hi).
  apply in_flat_map in Ht as (f & Hf & Ht). destruct (fan_in f t Ht) as (F1 & F2 & F3).
  destruct Hi as [<-|[<-|[<-|[]]]]; apply (H f); assumption.
Qed.

Lemma vindex_dec (a b : vindex) : {a = b} + {a <> b}.
Proof. decide equality; apply Z.eq_dec. Qed.

Lemma flush_ok r vs vns vts names m pieces b : reads r vs vns vts names m pieces b ->
  3 * count vs <= 2147483647 -> 3 * count vns <= 2147483647 -> 2 * count vts <= 2147483647 ->
  3 * count (pending r m) < 4294967296 ->
  exists shapes pieces', flush r = Ok shapes /\ Forall2 (shape_piece vs vts) shapes pieces' /\
    flat_map tris_of pieces' = flat_map tris_of pieces ++ pending r m.
Proof.
  intros [Rv Rvn Rvt Rs Rg Rm Rn Rl Rc] Hvs Hvns Hvts Hp. unfold flush, export, pending in *.
  destruct (list_eq_dec (fun a b : list vindex => list_eq_dec vindex_dec a b) (rd_group r) []) as [Eg|Eg].
  - rewrite Eg. exists (rd_shapes r), pieces. cbn. rewrite app_nil_r. auto.
  - rewrite Rv, Rvn, Rvt, Rc.
    assert (Hmatch : forall A (x y : A), match rd_group r with [] => x | _ :: _ => y end = y).
    { intros. destruct (rd_group r); [congruence|reflexivity]. }
    rewrite Hmatch.
    assert (Hp' : count ([] : list vindex) + 3 * count (flat_map fan (rd_group r)) < 4294967296).
    { unfold tris_of, count in *. rewrite map_length in Hp. cbn [fst] in Hp. cbn [length]. lia. }
    assert (C0 : cache_ok vs [] (new_shape (T := T)) []) by (split; [reflexivity|split; [intros i idx H; discriminate H|intros p []]]).
    assert (S0 : shape_ok vs (new_shape (T := T)) [] [] []) by (split; try reflexivity; [constructor|intros p []]).
    assert (Hnn : forall i, In i (corners_of (flat_map fan (rd_group r))) -> 0 <= v_idx i).
    { apply forall_corners. intros f i Hf Hi. apply (Rg f Hf), Hi. }
    assert (E : exists c s, export_loop (flat3 vs) (flat3 vns) (flat2 vts) (enc m) (rd_group r) [] new_shape = Ok (c, s) /\
       shape_piece vs vts s (flat_map fan (rd_group r), m)).
    { destruct U eqn:EU.
      - assert (Hbb : exists b', forall f i, In f (rd_group r) -> In i f -> (b' = true <-> 0 <= vt_idx i)).
        { specialize (Rm eq_refl). destruct b as [b'|]; cbn [mode_ok] in Rm; [eauto|].
          exists true. rewrite Rm. intros f i []. }
        destruct Hbb as [b' Hb'].
        assert (T0 : tex_inv vts b' [] (new_shape (T := T)) [] []).
        { destruct b'; [|reflexivity]. split; [reflexivity|]. split; [reflexivity|]. split; [intros i idx H; discriminate H|constructor]. }
        destruct (export_tex vs vns vts Hvs Hvns Hvts (enc m) b' (rd_group r) [] new_shape [] [] [] [] [] C0 S0 Rg Hb' Hp' T0)
          as (c' & s' & ps' & ts' & E & S' & T').
        exists c', s'. split; [exact E|]. exists ps'. split; [exact S'|]. split; [exact Hnn|]. intros _. exists b', ts'. split.
        + destruct b'; [|exact T']. destruct T' as (X1 & X2 & _ & X4). split; [exact X1|]. split; [exact X2|].
          split; [intros i idx H; discriminate H|exact X4].
        + apply forall_corners. exact Hb'.
      - destruct (export_ok vs vns vts Hvs Hvns Hvts (enc m) (rd_group r) [] new_shape [] [] [] C0 S0 Rg Hp')
          as (c' & s' & ps' & E & S').
        exists c', s'. split; [exact E|]. exists ps'. split; [exact S'|]. split; [exact Hnn|]. intros HU; congruence. }
    destruct E as (c & s & E & Hs).
    exists (rd_shapes r ++ [s]), (pieces ++ [(flat_map fan (rd_group r), m)]).
    split; [|split].
    + rewrite E. reflexivity.
    + apply Forall2_app; [exact Rs|]. constructor; [exact Hs|constructor].
    + rewrite flat_map_app. cbn [flat_map]. now rewrite app_nil_r.
Qed.
Definition normals_of (cs : list (cmd T)) : list (vec T) :=
  flat_map (fun c => match c with ONormal x y z => [V x y z] | _ => [] end) cs.
Lemma normals_of_count cs : normals_in cs = count (normals_of cs).
Proof. 
  unfold normals_in, count, normals_of. f_equal. induction cs as [|[] cs IH]; [reflexivity|..]; cbn [flat_map app length]; congruence.
Qed.

Lemma count_app {A} (l l' : list A) : count (l ++ l') = count l + count l'.
Proof. unfold count. rewrite app_length. lia. Qed.
Lemma count_pos {A} (l : list A) : 0 <= count l.
Proof. unfold count. lia. Qed.

(** Entries only get more. *)
Lemma reads_more r vs vns vts names m pieces b vs' vns' vts' r' :
  reads r vs vns vts names m pieces b ->
  rd_v r' = rd_v r ++ flat3 vs' -> rd_vn r' = rd_vn r ++ flat3 vns' -> rd_vt r' = rd_vt r ++ flat2 vts' ->
  rd_group r' = rd_group r -> rd_material r' = rd_material r -> rd_map r' = rd_map r ->
  rd_materials r' = rd_materials r -> rd_shapes r' = rd_shapes r ->
  reads r' (vs ++ vs') (vns ++ vns') (vts ++ vts') names m pieces b.
Proof.
  intros [Rv Rvn Rvt Rs Rg Rm Rn Rl Rc] E1 E2 E3 E4 E5 E6 E7 E8. split.
  - now rewrite E1, Rv, flat3_app.
  - now rewrite E2, Rvn, flat3_app.
  - now rewrite E3, Rvt, flat2_app.
  - rewrite E8. eapply forall2_imp; [|exact Rs]. intros. now apply shape_piece_more.
  - rewrite E4. intros f Hf. destruct (Rg f Hf) as [H1 H2]. split; [exact H1|]. intros i Hi.
    destruct (H2 i Hi) as (H3 & H4 & H5). unfold usable. rewrite !count_app.
    pose proof (count_pos vs'). pose proof (count_pos vns'). pose proof (count_pos vts'). lia.
  - now rewrite E4.
  - now rewrite E6.
  - now rewrite E7.
  - now rewrite E5.
Qed.

Lemma fix_entry i n : i <> 0 -> fixIndex i n = entry i n.
Proof. intros H. unfold fixIndex, entry. destruct (Z.ltb_spec 0 i); [reflexivity|]. destruct (Z.eqb_spec i 0); [contradiction|reflexivity]. Qed.

Lemma parse_ok nv nt nn c : corner_ok nv nt nn c ->
  spot_of (parseTriple c nv nn nt) = (entry (co_v c) nv, option_map (fun j => entry j nt) (co_vt c)) /\
  0 <= v_idx (parseTriple c nv nn nt) < nv /\ (vn_idx (parseTriple c nv nn nt) < nn \/ vn_idx (parseTriple c nv nn nt) = -1) /\
  (vt_idx (parseTriple c nv nn nt) < nt \/ vt_idx (parseTriple c nv nn nt) = -1) /\
  (co_vt c <> None <-> 0 <= vt_idx (parseTriple c nv nn nt)).
Proof.
  intros ([H1 H2] & H3 & H4). unfold parseTriple, spot_of. cbn [v_idx vt_idx vn_idx].
  rewrite (fix_entry (co_v c) nv H1).
  assert (Hvt : match co_vt c with Some j => fixIndex j nt = entry j nt /\ 0 <= entry j nt < nt | None => True end).
  { destruct (co_vt c) as [j|]; [|exact I]. destruct (H3 j eq_refl) as [A B]. split; [now apply fix_entry|exact B]. }
  assert (Hvn : match co_vn c with Some j => fixIndex j nn = entry j nn /\ 0 <= entry j nn < nn | None => True end).
  { destruct (co_vn c) as [j|]; [|exact I]. destruct (H4 j eq_refl) as [A B]. split; [now apply fix_entry|exact B]. }
  split; [|split; [exact H2|split; [|split]]].
  - destruct (co_vt c) as [j|]; [|reflexivity]. destruct Hvt as [-> B]. cbn [option_map].
    destruct (Z.leb_spec 0 (entry j nt)); [reflexivity|lia].
  - destruct (co_vn c) as [j|]; [|lia]. destruct Hvn as [-> B]. lia.
  - destruct (co_vt c) as [j|]; [|lia]. destruct Hvt as [-> B]. lia.
  - destruct (co_vt c) as [j|]; [|split; [congruence|lia]]. destruct Hvt as [-> B]. split; [lia|discriminate].
Qed.

Lemma flat_len3 (l : list (vec T)) : Z.of_nat (length (flat3 l)) / 3 = count l.
Proof. rewrite flat3_length. unfold count. replace (Z.of_nat (3 * length l)) with (Z.of_nat (length l) * 3) by lia. apply Z.div_mul. lia. Qed.
Lemma flat_len2 (l : list (T * T)) : Z.of_nat (length (flat2 l)) / 2 = count l.
Proof. rewrite flat2_length. unfold count. replace (Z.of_nat (2 * length l)) with (Z.of_nat (length l) * 2) by lia. apply Z.div_mul. lia. Qed.

Lemma tris_app l l' m : tris_of (l ++ l', m) = tris_of (l, m) ++ tris_of (l', m).
Proof. unfold tris_of. cbn [fst snd]. apply map_app. Qed.

Notation tri_of := (triangles mtl_file).

Definition sizes (r : reader T) (vs vns : list (vec T)) (vts : list (T * T)) (names : list string) (m : option Z)
    (cs : list (cmd T)) : Prop :=
  3 * (count vs + count (vertices_of cs)) <= 2147483647 /\ 3 * (count vns + count (normals_of cs)) <= 2147483647 /\
  2 * (count vts + count (texcoords_of cs)) <= 2147483647 /\
  3 * (count (pending r m) + count (tri_of (count vs) (count vts) names m cs)) < 4294967296.

Lemma read_ok cs : forall r vs vns vts names m pieces b,
  reads r vs vns vts names m pieces b ->
  well_formed mtl_file (count vs) (count vts) (count vns) cs -> (U = true -> uniform_shapes b cs) ->
  sizes r vs vns vts names m cs ->
  exists r' names' m' pieces' b', read_lines mtl_file r cs = Ok (Some r') /\
    reads r' (vs ++ vertices_of cs) (vns ++ normals_of cs) (vts ++ texcoords_of cs) names' m' pieces' b' /\
    flat_map tris_of pieces' ++ pending r' m' =
      flat_map tris_of pieces ++ pending r m ++ tri_of (count vs) (count vts) names m cs /\
    3 * count (pending r' m') < 4294967296.
Proof.
  induction cs as [|c cs IH]; intros r vs vns vts names m pieces b HR HW HU HS.
  - exists r, names, m, pieces, b. cbn. rewrite !app_nil_r. destruct HS as (_ & _ & _ & HS).
    split; [reflexivity|]. split; [exact HR|]. split; [reflexivity|].
    cbn in HS. rewrite Z.add_0_r in HS. exact HS.
  - destruct HS as (S1 & S2 & S3 & S4).
    assert (FL : 3 * count (pending r m) < 4294967296) by (pose proof (count_pos (tri_of (count vs) (count vts) names m (c :: cs))); lia).
    assert (FS : exists shapes pieces', flush r = Ok shapes /\ Forall2 (shape_piece vs vts) shapes pieces' /\
      flat_map tris_of pieces' = flat_map tris_of pieces ++ pending r m).
    { apply (flush_ok r vs vns vts names m pieces b HR); try assumption.
      - pose proof (count_pos (vertices_of (c :: cs))). lia.
      - pose proof (count_pos (normals_of (c :: cs))). lia.
      - pose proof (count_pos (texcoords_of (c :: cs))). lia. }
    assert (VP : 0 <= count (vertices_of (c :: cs)) /\ 0 <= count (normals_of (c :: cs)) /\ 0 <= count (texcoords_of (c :: cs)))
      by (repeat split; apply count_pos).
    (* a step that leaves the group alone *)
    assert (Step : forall r1 vs1 vns1 vts1 names1 m1 pieces1 b1,
      read_line mtl_file r c = Ok (Some r1) ->
      reads r1 (vs ++ vs1) (vns ++ vns1) (vts ++ vts1) names1 m1 pieces1 b1 ->
      vertices_of (c :: cs) = vs1 ++ vertices_of cs -> normals_of (c :: cs) = vns1 ++ normals_of cs ->
      texcoords_of (c :: cs) = vts1 ++ texcoords_of cs ->
      well_formed mtl_file (count vs + count vs1) (count vts + count vts1) (count vns + count vns1) cs ->
      (U = true -> uniform_shapes b1 cs) ->
      flat_map tris_of pieces1 ++ pending r1 m1 ++ tri_of (count vs + count vs1) (count vts + count vts1) names1 m1 cs =
        flat_map tris_of pieces ++ pending r m ++ tri_of (count vs) (count vts) names m (c :: cs) ->
      count (pending r1 m1) + count (tri_of (count vs + count vs1) (count vts + count vts1) names1 m1 cs) <=
        count (pending r m) + count (tri_of (count vs) (count vts) names m (c :: cs)) ->
      exists r' names' m' pieces' b', read_lines mtl_file r (c :: cs) = Ok (Some r') /\
        reads r' (vs ++ vertices_of (c :: cs)) (vns ++ normals_of (c :: cs)) (vts ++ texcoords_of (c :: cs)) names' m' pieces' b' /\
        flat_map tris_of pieces' ++ pending r' m' =
          flat_map tris_of pieces ++ pending r m ++ tri_of (count vs) (count vts) names m (c :: cs) /\
        3 * count (pending r' m') < 4294967296).
    { intros r1 vs1 vns1 vts1 names1 m1 pieces1 b1 E R1 Ev En Et W1 U1 T1 C1.
      rewrite Ev, count_app in S1. rewrite En, count_app in S2. rewrite Et, count_app in S3.
      rewrite <- !count_app in W1. rewrite <- !(count_app vs), <- !(count_app vts) in T1, C1.
      destruct (IH r1 _ _ _ _ _ _ _ R1 W1 U1) as (r' & names' & m' & pieces' & b' & E' & R' & Ht & Hs).
      - unfold sizes. rewrite !count_app in *. lia.
      - exists r', names', m', pieces', b'. cbn [read_lines]. rewrite E. cbn [bind]. split; [exact E'|].
        rewrite Ev, En, Et, !app_assoc. split; [exact R'|]. split; [|exact Hs].
        rewrite Ht, T1. now rewrite !app_assoc. }
    assert (P0 : forall r m, rd_group r = [] -> pending r m = []) by (intros r0 m0 E; unfold pending; now rewrite E).
    assert (Z0 : forall A : Type, count (@nil A) = 0) by reflexivity.
    destruct c as [x y z|x y z|x y|f|n|n| | |].
    + (* vertex *)
      eapply (Step _ [V x y z] [] [] names m pieces b eq_refl); try reflexivity; try assumption.
      * apply (reads_more r); try reflexivity; try exact HR; cbn; now rewrite app_nil_r.
      * rewrite !Z0, !Z.add_0_r. exact HW.
      * rewrite !Z0, !Z.add_0_r. reflexivity.
      * rewrite !Z0, !Z.add_0_r. reflexivity.
    + (* normal *)
      eapply (Step _ [] [V x y z] [] names m pieces b eq_refl); try reflexivity; try assumption.
      * apply (reads_more r); try reflexivity; try exact HR; cbn; now rewrite app_nil_r.
      * rewrite !Z0, !Z.add_0_r. exact HW.
      * rewrite !Z0, !Z.add_0_r. reflexivity.
      * rewrite !Z0, !Z.add_0_r. reflexivity.
    + (* texture coordinates *)
      eapply (Step _ [] [] [(x, y)] names m pieces b eq_refl); try reflexivity; try assumption.
      * apply (reads_more r); try reflexivity; try exact HR; cbn; now rewrite app_nil_r.
      * rewrite !Z0, !Z.add_0_r. exact HW.
      * rewrite !Z0, !Z.add_0_r. reflexivity.
      * rewrite !Z0, !Z.add_0_r. reflexivity.
    + (* face *)
      destruct HW as (Hlen & Hc & HW).
      pose proof (re_v _ _ _ _ _ _ _ _ HR) as Rv. pose proof (re_vn _ _ _ _ _ _ _ _ HR) as Rvn. pose proof (re_vt _ _ _ _ _ _ _ _ HR) as Rvt.
      assert (Ef : read_face r f = map (fun c => parseTriple c (count vs) (count vns) (count vts)) f).
      { unfold read_face. rewrite Rv, Rvn, Rvt, !flat_len3, flat_len2. reflexivity. }
      assert (Hb : exists b1, (U = true -> uniform_shapes b1 cs) /\ (U = true -> mode_ok b1 (rd_group r ++ [read_face r f]))).
      { destruct U eqn:EU.
        - destruct (HU eq_refl) as (b' & Ht & Hb & Hu). exists (Some b'). split; [auto|]. intros _. cbn [mode_ok].
          intros g i Hg Hi. apply in_app_or in Hg as [Hg|[<-|[]]].
          + pose proof (re_mode _ _ _ _ _ _ _ _ HR EU) as Rm. destruct Hb as [->| ->].
            * cbn [mode_ok] in Rm. rewrite Rm in Hg. destruct Hg.
            * exact (Rm g i Hg Hi).
          + rewrite Ef in Hi. apply in_map_iff in Hi as (c & <- & Hi).
            destruct (parse_ok _ _ _ _ (Hc c Hi)) as (_ & _ & _ & _ & P). specialize (Ht c Hi). tauto.
        - exists None. split; congruence. }
      destruct Hb as (b1 & Hu1 & Hm1).
      assert (Et : tris_of (fan (read_face r f), m) =
        map (fun t => (t, m)) (fan (map (fun c => (entry (co_v c) (count vs), option_map (fun j => entry j (count vts)) (co_vt c))) f))).
      { rewrite <- (map_ext_in (fun c => spot_of (parseTriple c (count vs) (count vns) (count vts)))).
        - rewrite <- (map_map (fun c => parseTriple c (count vs) (count vns) (count vts)) spot_of), fan_map, map_map, <- Ef. reflexivity.
        - intros c Hi. now destruct (parse_ok _ _ _ _ (Hc c Hi)) as (P & _). }
      eapply (Step _ [] [] [] names m pieces b1 eq_refl); try reflexivity; try assumption.
      * rewrite !app_nil_r. destruct HR as [Rv' Rvn' Rvt' Rs Rg Rm Rn Rl Rc]. split; try assumption.
        cbn [rd_group]. intros g Hg. apply in_app_or in Hg as [Hg|[<-|[]]]; [now apply Rg|].
        rewrite Ef, map_length. split; [exact Hlen|]. intros i Hi. apply in_map_iff in Hi as (c & <- & Hi).
        destruct (parse_ok _ _ _ _ (Hc c Hi)) as (_ & P1 & P2 & P3 & _). unfold usable.
        pose proof (count_pos vns). pose proof (count_pos vts). lia.
      * rewrite !Z0, !Z.add_0_r. exact HW.
      * rewrite !Z0, !Z.add_0_r. unfold pending. cbn [rd_group triangles]. rewrite flat_map_app, tris_app. cbn [flat_map].
        rewrite app_nil_r, Et, !app_assoc. reflexivity.
      * rewrite !Z0, !Z.add_0_r. unfold pending. cbn [rd_group triangles]. rewrite flat_map_app, tris_app. cbn [flat_map].
        rewrite app_nil_r, Et, !count_app. lia.
    + (* usemtl *)
      destruct FS as (shapes & pieces' & Ef & Fs & Ft).
      eapply (Step _ [] [] [] names (place n names) pieces' None); try reflexivity.
      * cbn [read_line]. rewrite Ef. reflexivity.
      * rewrite !app_nil_r. destruct HR as [Rv' Rvn' Rvt' Rs Rg Rm Rn Rl Rc]. split; try assumption; cbn [rd_group rd_material].
        -- intros g [].
        -- intros _. reflexivity.
        -- rewrite (Rn n). reflexivity.
      * rewrite !Z0, !Z.add_0_r. exact HW.
      * exact HU.
      * rewrite !Z0, !Z.add_0_r, Ft.
        match goal with |- context [pending ?q ?k] => rewrite (P0 q k eq_refl) end. rewrite <- app_assoc. reflexivity.
      * match goal with |- context [pending ?q ?k] => rewrite (P0 q k eq_refl) end.
        rewrite !Z0, !Z.add_0_r. pose proof (count_pos (pending r m)). cbn [triangles]. lia.
    + (* mtllib *)
      destruct HW as ((ms & Hms & Hk) & HW).
      destruct (mtl_unnamed ms (rd_map r) (rd_materials r) names init_material (re_map _ _ _ _ _ _ _ _ HR)
        (re_names _ _ _ _ _ _ _ _ HR) Hk) as (map' & new & El & Mo & Ln).
      eapply (Step _ [] [] [] (names ++ names_of ms) m pieces b); try reflexivity.
      * cbn [read_line]. rewrite Hms. unfold load_mtl. rewrite El. reflexivity.
      * rewrite !app_nil_r. destruct HR as [Rv' Rvn' Rvt' Rs Rg Rm Rn Rl Rc]. split; try assumption; cbn [rd_materials].
        rewrite !app_length. lia.
      * rewrite !Z0, !Z.add_0_r. exact HW.
      * exact HU.
      * rewrite !Z0, !Z.add_0_r. cbn [triangles]. rewrite Hms. reflexivity.
      * rewrite !Z0, !Z.add_0_r. cbn [triangles]. rewrite Hms. reflexivity.
    + (* group *)
      destruct FS as (shapes & pieces' & Ef & Fs & Ft).
      eapply (Step _ [] [] [] names m pieces' None); try reflexivity.
      * cbn [read_line]. rewrite Ef. reflexivity.
      * rewrite !app_nil_r. destruct HR as [Rv' Rvn' Rvt' Rs Rg Rm Rn Rl Rc]. split; try assumption; cbn [rd_group].
        -- intros g [].
        -- intros _. reflexivity.
      * rewrite !Z0, !Z.add_0_r. exact HW.
      * exact HU.
      * rewrite !Z0, !Z.add_0_r, Ft.
        match goal with |- context [pending ?q ?k] => rewrite (P0 q k eq_refl) end. rewrite <- app_assoc. reflexivity.
      * match goal with |- context [pending ?q ?k] => rewrite (P0 q k eq_refl) end.
        rewrite !Z0, !Z.add_0_r. pose proof (count_pos (pending r m)). cbn [triangles]. lia.
    + (* object *)
      destruct FS as (shapes & pieces' & Ef & Fs & Ft).
      eapply (Step _ [] [] [] names m pieces' None); try reflexivity.
      * cbn [read_line]. rewrite Ef. reflexivity.
      * rewrite !app_nil_r. destruct HR as [Rv' Rvn' Rvt' Rs Rg Rm Rn Rl Rc]. split; try assumption; cbn [rd_group].
        -- intros g [].
        -- intros _. reflexivity.
      * rewrite !Z0, !Z.add_0_r. exact HW.
      * exact HU.
      * rewrite !Z0, !Z.add_0_r, Ft.
        match goal with |- context [pending ?q ?k] => rewrite (P0 q k eq_refl) end. rewrite <- app_assoc. reflexivity.
      * match goal with |- context [pending ?q ?k] => rewrite (P0 q k eq_refl) end.
        rewrite !Z0, !Z.add_0_r. pose proof (count_pos (pending r m)). cbn [triangles]. lia.
    + (* anything else *)
      eapply (Step _ [] [] [] names m pieces b eq_refl); try reflexivity; try assumption.
      * now rewrite !app_nil_r.
      * rewrite !Z0, !Z.add_0_r. exact HW.
      * rewrite !Z0, !Z.add_0_r. reflexivity.
      * rewrite !Z0, !Z.add_0_r. reflexivity.
Qed.
End Read.
