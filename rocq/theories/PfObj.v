(** The shapes of an OBJ file: exportFaceGroupToShape. *)

From Coq Require Import ZArith Strings.String List Bool Lia.
From Verif Require Import Num Vec Datatypes PathTracer TinyObj SpecObj PfImage PfImage3.
Import ListNotations.
Local Open Scope list_scope.
Local Open Scope Z_scope.

Lemma vindex_same k i : negb (vindex_lt k i) && negb (vindex_lt i k) = true <-> k = i.
Proof.
  destruct k as [a b c], i as [a' b' c']. unfold vindex_lt. cbn [v_idx vt_idx vn_idx].
  rewrite (Z.eqb_sym a' a), (Z.eqb_sym b' b), (Z.eqb_sym c' c).
  destruct (Z.eqb_spec a a'); cbn [negb]; [|destruct (Z.ltb_spec a a'), (Z.ltb_spec a' a); cbn; split; intros; try discriminate; try lia; congruence].
  destruct (Z.eqb_spec c c'); cbn [negb]; [|destruct (Z.ltb_spec c c'), (Z.ltb_spec c' c); cbn; split; intros; try discriminate; try lia; congruence].
  destruct (Z.eqb_spec b b'); cbn [negb]; [|destruct (Z.ltb_spec b b'), (Z.ltb_spec b' b); cbn; split; intros; try discriminate; try lia; congruence].
  cbn. split; congruence.
Qed.

Lemma cache_find_cons k z c i : cache_find ((k, z) :: c) i = Some z /\ k = i \/
  cache_find ((k, z) :: c) i = cache_find c i /\ k <> i.
Proof.
  cbn [cache_find]. destruct (negb (vindex_lt k i) && negb (vindex_lt i k)) eqn:E.
  - left. split; [reflexivity|]. now apply vindex_same.
  - right. split; [reflexivity|]. intros H. apply vindex_same in H. congruence.
Qed.

Section Flat.
Context {A : Type}.
Definition flat3 (l : list (vec A)) : list A := flat_map (fun v => [vx v; vy v; vz v]) l.
Definition flat2 (l : list (A * A)) : list A := flat_map (fun v => [fst v; snd v]) l.
Lemma flat3_length l : length (flat3 l) = (3 * length l)%nat.
Proof. apply flat_block. reflexivity. Qed.
Lemma flat2_length l : length (flat2 l) = (2 * length l)%nat.
Proof. apply flat_block. reflexivity. Qed.
Lemma flat3_app l l' : flat3 (l ++ l') = flat3 l ++ flat3 l'.
Proof. apply flat_map_app. Qed.
Lemma flat2_app l l' : flat2 (l ++ l') = flat2 l ++ flat2 l'.
Proof. apply flat_map_app. Qed.
Lemma flat3_nth l k p : nth_error l k = Some p ->
  nth_error (flat3 l) (3 * k) = Some (vx p) /\ nth_error (flat3 l) (3 * k + 1) = Some (vy p) /\
  nth_error (flat3 l) (3 * k + 2) = Some (vz p).
Proof.
  intros E. destruct (flat_block (fun v : vec A => [vx v; vy v; vz v]) 3 l) as [_ K]; [reflexivity|].
  unfold flat3. pose proof (K k p 0%nat E ltac:(lia)) as K0. rewrite Nat.add_0_r in K0.
  rewrite K0, (K k p 1%nat E), (K k p 2%nat E) by lia. repeat split; reflexivity.
Qed.
Lemma flat2_nth l k p : nth_error l k = Some p ->
  nth_error (flat2 l) (2 * k) = Some (fst p) /\ nth_error (flat2 l) (2 * k + 1) = Some (snd p).
Proof.
  intros E. destruct (flat_block (fun v : A * A => [fst v; snd v]) 2 l) as [_ K]; [reflexivity|].
  unfold flat2. pose proof (K k p 0%nat E ltac:(lia)) as K0. rewrite Nat.add_0_r in K0.
  rewrite K0, (K k p 1%nat E) by lia. split; reflexivity.
Qed.
End Flat.

Lemma nth_app_l {A} (l l' : list A) k a : nth_error l k = Some a -> nth_error (l ++ l') k = Some a.
Proof. intros E. rewrite nth_error_app1; [exact E|]. apply nth_error_Some. congruence. Qed.

Section Export.
Context {T : Type}.

Lemma int_ok z : -2147483648 <= z <= 2147483647 -> int_ z = Ok z.
Proof. intros. unfold int_. destruct (Z.leb_spec (-2147483648) z); [|lia]. destruct (Z.leb_spec z 2147483647); [|lia]. reflexivity. Qed.
Lemma at_int_ok (l : list T) a i b x : 0 <= a -> 0 <= i -> 0 <= b -> a * i + b <= 2147483647 ->
  nth_error l (Z.to_nat (a * i + b)) = Some x -> at_int l a i b = Ok x.
Proof.
  intros. unfold at_int. rewrite int_ok by nia. cbn [bind]. rewrite int_ok by nia. cbn [bind].
  apply atZ_ok; [nia|assumption].
Qed.
Lemma at_int3 (l : list (vec T)) i p : 3 * count l <= 2147483647 -> 0 <= i -> nth_error l (Z.to_nat i) = Some p ->
  at_int (flat3 l) 3 i 0 = Ok (vx p) /\ at_int (flat3 l) 3 i 1 = Ok (vy p) /\ at_int (flat3 l) 3 i 2 = Ok (vz p).
Proof.
  intros Hl Hi E. assert (Z.to_nat i < length l)%nat by (apply nth_error_Some; congruence).
  unfold count in Hl. destruct (flat3_nth l _ p E) as (E0 & E1 & E2).
  repeat split; apply at_int_ok; try lia; [rewrite <- E0|rewrite <- E1|rewrite <- E2]; f_equal; lia.
Qed.
Lemma at_int2 (l : list (T * T)) i p : 2 * count l <= 2147483647 -> 0 <= i -> nth_error l (Z.to_nat i) = Some p ->
  at_int (flat2 l) 2 i 0 = Ok (fst p) /\ at_int (flat2 l) 2 i 1 = Ok (snd p).
Proof.
  intros Hl Hi E. assert (Z.to_nat i < length l)%nat by (apply nth_error_Some; congruence).
  unfold count in Hl. destruct (flat2_nth l _ p E) as (E0 & E1).
  split; apply at_int_ok; try lia; [rewrite <- E0|rewrite <- E1]; f_equal; lia.
Qed.

Variable vs vns : list (vec T).
Variable vts : list (T * T).
Hypothesis Hvs : 3 * count vs <= 2147483647.
Hypothesis Hvns : 3 * count vns <= 2147483647.
Hypothesis Hvts : 2 * count vts <= 2147483647.

Definition usable (i : vindex) : Prop :=
  0 <= v_idx i < count vs /\ vn_idx i < count vns /\ vt_idx i < count vts.

(** Index [idx] of [ps] is vertex [i]. *)
Definition located {A} (l ps : list A) (idx j : Z) : Prop :=
  0 <= idx /\ exists p, nth_error l (Z.to_nat j) = Some p /\ nth_error ps (Z.to_nat idx) = Some p.
Definition cache_ok (c : cache) (s : shape T) (ps : list (vec T)) : Prop :=
  sh_positions s = flat3 ps /\ (forall i idx, cache_find c i = Some idx -> located vs ps idx (v_idx i)) /\
  (forall p, In p ps -> In p vs).

Lemma located_app {A} (l ps ps' : list A) idx j : located l ps idx j -> located l (ps ++ ps') idx j.
Proof. intros (H & p & E & E'). split; [exact H|]. exists p. split; [exact E|]. now apply nth_app_l. Qed.

Lemma get_nth {A} (l : list A) i : 0 <= i < count l -> exists p, nth_error l (Z.to_nat i) = Some p.
Proof.
  intros H. unfold count in H. destruct (nth_error l (Z.to_nat i)) as [p|] eqn:E; [eauto|].
  apply nth_error_None in E. lia.
Qed.

Lemma update_ok c s ps i : cache_ok c s ps -> usable i -> count ps < 4294967296 ->
  exists idx c' s' ps' , updateVertex (flat3 vs) (flat3 vns) (flat2 vts) c s i = Ok (idx, c', s') /\
    cache_ok c' s' (ps ++ ps') /\ (length ps' <= 1)%nat /\ located vs (ps ++ ps') idx (v_idx i) /\
    sh_indices s' = sh_indices s /\ sh_materials s' = sh_materials s.
Proof.
  intros (Hp & Hc & Hin) (Hv & Hn & Ht) Hs. unfold updateVertex. destruct (cache_find c i) as [idx|] eqn:E.
  - exists idx, c, s, []. rewrite app_nil_r. split; [reflexivity|]. split; [split; [exact Hp|now split]|].
    split; [cbn; lia|]. split; [now apply Hc|]. split; reflexivity.
  - destruct (get_nth vs (v_idx i) Hv) as [p Ep].
    destruct (at_int3 vs (v_idx i) p Hvs ltac:(lia) Ep) as (-> & -> & ->). cbn [bind].
    assert (Hnorm : exists normals, (if 0 <=? vn_idx i then
         do x <- at_int (flat3 vns) 3 (vn_idx i) 0; do y <- at_int (flat3 vns) 3 (vn_idx i) 1;
         do z <- at_int (flat3 vns) 3 (vn_idx i) 2; Ok (sh_normals s ++ [x; y; z]) else Ok (sh_normals s)) = Ok normals).
    { destruct (Z.leb_spec 0 (vn_idx i)) as [H|H]; [|eauto].
      destruct (get_nth vns (vn_idx i) ltac:(lia)) as [q Eq].
      destruct (at_int3 vns (vn_idx i) q Hvns H Eq) as (-> & -> & ->). cbn [bind]. eauto. }
    destruct Hnorm as [normals ->]. cbn [bind].
    assert (Htex : exists texcoords, (if 0 <=? vt_idx i then
         do x <- at_int (flat2 vts) 2 (vt_idx i) 0; do y <- at_int (flat2 vts) 2 (vt_idx i) 1;
         Ok (sh_texcoords s ++ [x; y]) else Ok (sh_texcoords s)) = Ok texcoords).
    { destruct (Z.leb_spec 0 (vt_idx i)) as [H|H]; [|eauto].
      destruct (get_nth vts (vt_idx i) ltac:(lia)) as [q Eq].
      destruct (at_int2 vts (vt_idx i) q Hvts H Eq) as (-> & ->). cbn [bind]. eauto. }
    destruct Htex as [texcoords ->]. cbn [bind]. cbv beta zeta.
    assert (Epos : sh_positions s ++ [vx p; vy p; vz p] = flat3 (ps ++ [p])) by (rewrite flat3_app, <- Hp; reflexivity).
    rewrite Epos.
    assert (Eidx : u32 (Z.of_nat (length (flat3 (ps ++ [p]))) / 3 - 1) = count ps).
    { rewrite flat3_length, app_length. cbn [length]. unfold count in *.
      replace (Z.of_nat (3 * (length ps + 1))) with ((Z.of_nat (length ps) + 1) * 3) by lia.
      rewrite Z.div_mul by lia. rewrite u32_id by lia. lia. }
    rewrite Eidx.
    assert (Hloc : located vs (ps ++ [p]) (count ps) (v_idx i)).
    { split; [unfold count; lia|]. exists p. split; [exact Ep|].
      unfold count. rewrite Nat2Z.id, nth_error_app2 by lia. now rewrite Nat.sub_diag. }
    do 4 eexists. split; [reflexivity|]. split; [|split; [|split; [exact Hloc|split; reflexivity]]].
    + split; [reflexivity|]. split.
      2:{ intros q Hq. apply in_app_or in Hq as [Hq|[<-|[]]]; [now apply Hin|]. now apply nth_error_In in Ep. }
      intros j idx Hj. destruct (cache_find_cons i (count ps) c j) as [[E1 E2]|[E1 E2]].
      * subst j. rewrite E1 in Hj. injection Hj as <-. exact Hloc.
      * rewrite E1 in Hj. apply located_app. now apply Hc.
    + cbn. lia.
Qed.

(** The indices of a shape stand for the corners [L]. *)
Definition indexed (s : shape T) (ps : list (vec T)) (L : list vindex) : Prop :=
  Forall2 (fun idx i => located vs ps idx (v_idx i)) (sh_indices s) L.
Definition corners_of {A} (l : list (A * A * A)) : list A := flat_map (fun t => [fst (fst t); snd (fst t); snd t]) l.
Lemma corners_length {A} (l : list (A * A * A)) : length (corners_of l) = (3 * length l)%nat.
Proof. apply flat_block. reflexivity. Qed.

Record shape_ok (s : shape T) (ps : list (vec T)) (L : list vindex) (ms : list Z) : Prop := {
  so_pos : sh_positions s = flat3 ps;
  so_idx : indexed s ps L;
  so_mat : sh_materials s = ms;
  so_few : (length ps <= length L)%nat;
  so_from : forall p, In p ps -> In p vs }.

Variable mat_id : Z.

Lemma forall2_imp {A B} (P Q : A -> B -> Prop) l l' : (forall a b, P a b -> Q a b) -> Forall2 P l l' -> Forall2 Q l l'.
Proof. intros H F. induction F; constructor; auto. Qed.

Lemma fan_ok rest : forall i0 i2 c s ps L ms,
  cache_ok c s ps -> shape_ok s ps L ms -> usable i0 -> usable i2 -> (forall i, In i rest -> usable i) ->
  count L + 3 * count rest < 4294967296 ->
  exists c' s' ps', fan_loop (flat3 vs) (flat3 vns) (flat2 vts) mat_id i0 i2 rest c s = Ok (c', s') /\
    cache_ok c' s' ps' /\
    shape_ok s' ps' (L ++ corners_of (fan_from i0 i2 rest)) (ms ++ repeat mat_id (length rest)).
Proof.
  induction rest as [|k rest IH]; intros i0 i2 c s ps L ms Hc Hs H0 H2 Hr Hsz.
  - exists c, s, ps. cbn [fan_from corners_of flat_map length repeat]. rewrite !app_nil_r. split; [reflexivity|]. split; assumption.
  - cbn [fan_loop fan_from length repeat].
    assert (Hk : usable k) by (apply Hr; now left).
    destruct Hs as [Sp Si Sm Sf Sv]. unfold count in Hsz. cbn [length] in Hsz.
    destruct (update_ok c s ps i0 Hc H0) as (v0 & c0 & s0 & p0 & -> & C0 & N0 & L0 & I0 & M0); [unfold count; lia|].
    cbn [bind].
    destruct (update_ok c0 s0 _ i2 C0 H2) as (v1 & c1 & s1 & p1 & -> & C1 & N1 & L1 & I1 & M1); [unfold count; rewrite app_length; lia|].
    cbn [bind].
    destruct (update_ok c1 s1 _ k C1 Hk) as (v2 & c2 & s2 & p2 & -> & C2 & N2 & L2 & I2 & M2); [unfold count; rewrite !app_length; lia|].
    cbn [bind].
    set (ps' := ((ps ++ p0) ++ p1) ++ p2) in *.
    set (s3 := Shape (sh_positions s2) (sh_normals s2) (sh_texcoords s2) (sh_indices s2 ++ [v0; v1; v2]) (sh_materials s2 ++ [mat_id])).
    assert (C3 : cache_ok c2 s3 ps') by exact C2.
    assert (S3 : shape_ok s3 ps' (L ++ [i0; i2; k]) (ms ++ [mat_id])).
    { split.
      - apply C2.
      - unfold indexed, s3. cbn [sh_indices]. rewrite I2, I1, I0. apply Forall2_app.
        + eapply forall2_imp; [|exact Si]. intros idx i H. unfold ps'. do 3 apply located_app. exact H.
        + constructor; [unfold ps'; do 2 apply located_app; exact L0|]. constructor; [unfold ps'; apply located_app; exact L1|].
          constructor; [exact L2|constructor].
      - unfold s3. cbn [sh_materials]. congruence.
      - unfold ps'. rewrite !app_length. cbn [length]. lia.
      - apply C2. }
    destruct (IH i0 k c2 s3 ps' _ _ C3 S3 H0 Hk ltac:(intros; apply Hr; now right)) as (c' & s' & q & E & C' & S').
    { unfold count in *. rewrite app_length. cbn [length]. lia. }
    exists c', s', q. split; [exact E|]. split; [exact C'|].
    cbn [corners_of flat_map fst snd]. rewrite !app_assoc_reverse in S'. cbn [app] in S'. exact S'.
Qed.

Lemma fan_from_length {A} (a b : A) l : length (fan_from a b l) = length l.
Proof. revert b. induction l as [|c l IH]; intros b; [reflexivity|]. cbn. now rewrite IH. Qed.
Lemma corners_app {A} (l l' : list (A * A * A)) : corners_of (l ++ l') = corners_of l ++ corners_of l'.
Proof. apply flat_map_app. Qed.

Lemma export_ok group : forall c s ps L ms,
  cache_ok c s ps -> shape_ok s ps L ms -> (forall f, In f group -> (2 <= length f)%nat /\ forall i, In i f -> usable i) ->
  count L + 3 * count (flat_map fan group) < 4294967296 ->
  exists c' s' ps', export_loop (flat3 vs) (flat3 vns) (flat2 vts) mat_id group c s = Ok (c', s') /\
    shape_ok s' ps' (L ++ corners_of (flat_map fan group)) (ms ++ repeat mat_id (length (flat_map fan group))).
Proof.
  induction group as [|f group IH]; intros c s ps L ms Hc Hs Hg Hsz.
  - exists c, s, ps. cbn. rewrite !app_nil_r. split; [reflexivity|exact Hs].
  - cbn [export_loop flat_map].
    destruct (Hg f (or_introl eq_refl)) as [Hf Hu].
    destruct f as [|a [|b f]]; cbn [length] in Hf; try lia.
    cbn [at_ nth_error bind skipn].
    unfold count in Hsz. cbn [flat_map fan] in Hsz. rewrite app_length, fan_from_length in Hsz.
    destruct (fan_ok f a b c s ps L ms Hc Hs) as (c1 & s1 & p1 & -> & C1 & S1).
    { apply Hu. now left. } { apply Hu. right. now left. } { intros i Hi. apply Hu. right. now right. }
    { unfold count. lia. }
    cbn [bind fan].
    destruct (IH c1 s1 p1 _ _ C1 S1) as (c' & s' & p' & -> & S').
    { intros g Hin. apply Hg. now right. }
    { unfold count. rewrite app_length, corners_length, fan_from_length. lia. }
    exists c', s', p'. split; [reflexivity|].
    rewrite corners_app, app_length, repeat_app, !app_assoc, fan_from_length. exact S'.
Qed.
End Export.
