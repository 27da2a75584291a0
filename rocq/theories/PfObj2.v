(** Texture coordinates of the shapes. *)

From Coq Require Import ZArith Strings.String List Bool Lia.
From Verif Require Import Num Vec Datatypes PathTracer TinyObj SpecObj PfImage PfImage3 PfObj.
Import ListNotations.
Local Open Scope list_scope.
Local Open Scope Z_scope.

Section Tex.
Context {T : Type}.
Variable vs vns : list (vec T).
Variable vts : list (T * T).
Hypothesis Hvs : 3 * count vs <= 2147483647.
Hypothesis Hvns : 3 * count vns <= 2147483647.
Hypothesis Hvts : 2 * count vts <= 2147483647.
Notation update := (updateVertex (flat3 vs) (flat3 vns) (flat2 vts)).
Notation usable := (usable vs vns vts).

Definition tex_inv (b : bool) (c : cache) (s : shape T) (ts : list (T * T)) (L : list vindex) : Prop :=
  if b then sh_texcoords s = flat2 ts /\ length (sh_positions s) = (3 * length ts)%nat /\
    (forall i idx, cache_find c i = Some idx -> located vts ts idx (vt_idx i)) /\
    Forall2 (fun idx i => located vts ts idx (vt_idx i)) (sh_indices s) L
  else sh_texcoords s = [].

Lemma update_tex b c s ts L i idx c' s' : update c s i = Ok (idx, c', s') -> usable i ->
  (b = true <-> 0 <= vt_idx i) -> tex_inv b c s ts L -> (length (sh_positions s) < 3 * Z.to_nat 4294967296)%nat ->
  exists ts', tex_inv b c' s' (ts ++ ts') L /\ (b = true -> located vts (ts ++ ts') idx (vt_idx i)).
Proof.
  intros E (Hv & Hn & Ht) Hb Hinv Hsz. unfold updateVertex in E. destruct (cache_find c i) as [z|] eqn:Ec.
  - injection E as <- <- <-. exists []. rewrite app_nil_r. split; [exact Hinv|].
    intros ->. now apply Hinv.
  - destruct (get_nth vs (v_idx i) Hv) as [p Ep].
    destruct (at_int3 vs (v_idx i) p Hvs ltac:(lia) Ep) as (E0 & E1 & E2). rewrite E0, E1, E2 in E. cbn [bind] in E.
    match type of E with bind ?m _ = _ => destruct m as [normals| |]; try discriminate E end. cbn [bind] in E.
    destruct b.
    + assert (Hp : 0 <= vt_idx i) by tauto. destruct (Z.leb_spec 0 (vt_idx i)); [|lia].
      destruct (get_nth vts (vt_idx i) ltac:(lia)) as [q Eq].
      destruct (at_int2 vts (vt_idx i) q Hvts Hp Eq) as (E3 & E4). rewrite E3, E4 in E. cbn [bind] in E.
      destruct Hinv as (I1 & I2 & I3 & I4).
      injection E as <- <- <-.
      assert (Eidx : u32 (Z.of_nat (length (sh_positions s ++ [vx p; vy p; vz p])) / 3 - 1) = count ts).
      { rewrite app_length, I2. cbn [length]. unfold count.
        replace (Z.of_nat (3 * length ts + 3)) with ((Z.of_nat (length ts) + 1) * 3) by lia.
        rewrite Z.div_mul by lia. rewrite u32_id by lia. lia. }
      rewrite Eidx.
      assert (Hloc : located vts (ts ++ [q]) (count ts) (vt_idx i)).
      { split; [unfold count; lia|]. exists q. split; [exact Eq|].
        unfold count. rewrite Nat2Z.id, nth_error_app2 by lia. now rewrite Nat.sub_diag. }
      exists [q]. split; [|intros _; exact Hloc].
      cbn [tex_inv sh_texcoords sh_positions sh_indices]. split; [rewrite flat2_app, <- I1; reflexivity|].
      split; [rewrite !app_length; cbn [length]; lia|]. split.
      * intros j z Hj. destruct (cache_find_cons i (count ts) c j) as [[F1 F2]|[F1 F2]].
        -- subst j. rewrite F1 in Hj. injection Hj as <-. exact Hloc.
        -- rewrite F1 in Hj. apply located_app. now apply I3.
      * eapply forall2_imp; [|exact I4]. intros a j H1. now apply located_app.
    + assert (Hp : ~ 0 <= vt_idx i) by (intros H; apply Hb in H; discriminate).
      destruct (Z.leb_spec 0 (vt_idx i)); [lia|]. cbn [bind] in E. injection E as <- <- <-.
      exists []. split; [exact Hinv|discriminate].
Qed.

Variable mat_id : Z.

Lemma tex_more b c s ts L v0 v1 v2 i0 i1 i2 m : tex_inv b c s ts L ->
  (b = true -> located vts ts v0 (vt_idx i0) /\ located vts ts v1 (vt_idx i1) /\ located vts ts v2 (vt_idx i2)) ->
  tex_inv b c (Shape (sh_positions s) (sh_normals s) (sh_texcoords s) (sh_indices s ++ [v0; v1; v2]) m) ts (L ++ [i0; i1; i2]).
Proof.
  intros H K. destruct b; [|exact H]. destruct H as (A1 & A2 & A3 & A4). destruct (K eq_refl) as (K0 & K1 & K2).
  cbn [tex_inv sh_texcoords sh_positions sh_indices]. split; [exact A1|]. split; [exact A2|]. split; [exact A3|].
  apply Forall2_app; [exact A4|]. constructor; [exact K0|]. constructor; [exact K1|]. constructor; [exact K2|constructor].
Qed.

Lemma fan_tex b rest : forall i0 i2 c s ps ts L M ms,
  cache_ok vs c s ps -> shape_ok vs s ps L ms -> usable i0 -> usable i2 -> (forall i, In i rest -> usable i) ->
  (forall i, i = i0 \/ i = i2 \/ In i rest -> (b = true <-> 0 <= vt_idx i)) ->
  count L + 3 * count rest < 4294967296 -> tex_inv b c s ts M ->
  exists c' s' ps' ts', fan_loop (flat3 vs) (flat3 vns) (flat2 vts) mat_id i0 i2 rest c s = Ok (c', s') /\
    cache_ok vs c' s' ps' /\
    shape_ok vs s' ps' (L ++ corners_of (fan_from i0 i2 rest)) (ms ++ repeat mat_id (length rest)) /\
    tex_inv b c' s' ts' (M ++ corners_of (fan_from i0 i2 rest)).
Proof.
  induction rest as [|k rest IH]; intros i0 i2 c s ps ts L M ms Hc Hs H0 H2 Hr Hb Hsz Ht.
  - exists c, s, ps, ts. cbn [fan_from corners_of flat_map length repeat]. rewrite !app_nil_r.
    split; [reflexivity|]. split; [assumption|]. split; assumption.
  - cbn [fan_loop fan_from length repeat].
    assert (Hk : usable k) by (apply Hr; now left).
    destruct Hs as [Sp Si Sm Sf Sv]. unfold count in Hsz. cbn [length] in Hsz.
    assert (Bd : forall c s qs, cache_ok vs c s qs -> Z.of_nat (length qs) < 4294967296 ->
      (length (sh_positions s) < 3 * Z.to_nat 4294967296)%nat).
    { intros c1 s1 qs [-> _] Hq. rewrite flat3_length. lia. }
    destruct (update_ok vs vns vts Hvs Hvns Hvts c s ps i0 Hc H0) as (v0 & c0 & s0 & p0 & E0 & C0 & N0 & L0 & I0 & M0); [unfold count; lia|].
    destruct (update_tex b c s ts M i0 v0 c0 s0 E0 H0 (Hb i0 ltac:(auto)) Ht) as (t0 & T0 & U0).
    { apply (Bd c s ps Hc). lia. }
    rewrite E0. cbn [bind].
    destruct (update_ok vs vns vts Hvs Hvns Hvts c0 s0 _ i2 C0 H2) as (v1 & c1 & s1 & p1 & E1 & C1 & N1 & L1 & I1 & M1); [unfold count; rewrite app_length; lia|].
    destruct (update_tex b c0 s0 _ M i2 v1 c1 s1 E1 H2 (Hb i2 ltac:(auto)) T0) as (t1 & T1 & U1).
    { apply (Bd c0 s0 _ C0). rewrite app_length. lia. }
    rewrite E1. cbn [bind].
    destruct (update_ok vs vns vts Hvs Hvns Hvts c1 s1 _ k C1 Hk) as (v2 & c2 & s2 & p2 & E2 & C2 & N2 & L2 & I2 & M2); [unfold count; rewrite !app_length; lia|].
    destruct (update_tex b c1 s1 _ M k v2 c2 s2 E2 Hk (Hb k ltac:(cbn; auto)) T1) as (t2 & T2 & U2).
    { apply (Bd c1 s1 _ C1). rewrite !app_length. lia. }
    rewrite E2. cbn [bind].
    set (ps' := ((ps ++ p0) ++ p1) ++ p2) in *. set (ts' := ((ts ++ t0) ++ t1) ++ t2) in *.
    set (s3 := Shape (sh_positions s2) (sh_normals s2) (sh_texcoords s2) (sh_indices s2 ++ [v0; v1; v2]) (sh_materials s2 ++ [mat_id])).
    assert (C3 : cache_ok vs c2 s3 ps') by exact C2.
    assert (S3 : shape_ok vs s3 ps' (L ++ [i0; i2; k]) (ms ++ [mat_id])).
    { split.
      - apply C2.
      - unfold indexed, s3. cbn [sh_indices]. rewrite I2, I1, I0. apply Forall2_app.
        + eapply forall2_imp; [|exact Si]. intros idx i H. unfold ps'. do 3 apply located_app. exact H.
        + constructor; [unfold ps'; do 2 apply located_app; exact L0|]. constructor; [unfold ps'; apply located_app; exact L1|].
          constructor; [exact L2|constructor].
      - unfold s3. cbn [sh_materials]. congruence.
      - unfold ps'. rewrite !app_length. cbn [length]. lia.
      - apply C2. }
    assert (T3 : tex_inv b c2 s3 ts' (M ++ [i0; i2; k])).
    { apply tex_more; [exact T2|]. intros Hbt. unfold ts'. split; [do 2 apply located_app; now apply U0|].
      split; [apply located_app; now apply U1|now apply U2]. }
    destruct (IH i0 k c2 s3 ps' ts' _ (M ++ [i0; i2; k]) _ C3 S3 H0 Hk ltac:(intros; apply Hr; now right))
      as (c' & s' & q & tq & E & C' & S' & T').
    { intros i [->|[->|Hi]]; apply Hb; cbn; auto. }
    { unfold count in *. rewrite app_length. cbn [length]. lia. }
    { exact T3. }
    exists c', s', q, tq. split; [exact E|]. split; [exact C'|].
    cbn [corners_of flat_map fst snd]. rewrite !app_assoc_reverse in S'. rewrite !app_assoc_reverse in T'.
    cbn [app] in S', T'. split; assumption.
Qed.

Lemma export_tex b group : forall c s ps ts L M ms,
  cache_ok vs c s ps -> shape_ok vs s ps L ms -> (forall f, In f group -> (2 <= length f)%nat /\ forall i, In i f -> usable i) ->
  (forall f i, In f group -> In i f -> (b = true <-> 0 <= vt_idx i)) ->
  count L + 3 * count (flat_map fan group) < 4294967296 -> tex_inv b c s ts M ->
  exists c' s' ps' ts', export_loop (flat3 vs) (flat3 vns) (flat2 vts) mat_id group c s = Ok (c', s') /\
    shape_ok vs s' ps' (L ++ corners_of (flat_map fan group)) (ms ++ repeat mat_id (length (flat_map fan group))) /\
    tex_inv b c' s' ts' (M ++ corners_of (flat_map fan group)).
Proof.
  induction group as [|f group IH]; intros c s ps ts L M ms Hc Hs Hg Hb Hsz Ht.
  - exists c, s, ps, ts. cbn. rewrite !app_nil_r. split; [reflexivity|]. split; assumption.
  - cbn [export_loop flat_map].
    destruct (Hg f (or_introl eq_refl)) as [Hf Hu].
    destruct f as [|x [|y f]]; cbn [length] in Hf; try lia.
    cbn [at_ nth_error bind skipn].
    unfold count in Hsz. cbn [flat_map fan] in Hsz. rewrite app_length, fan_from_length in Hsz.
    destruct (fan_tex b f x y c s ps ts L M ms Hc Hs) as (c1 & s1 & p1 & t1 & -> & C1 & S1 & T1).
    { apply Hu. now left. } { apply Hu. right. now left. } { intros i Hi. apply Hu. right. now right. }
    { intros i Hi. apply (Hb (x :: y :: f)); [now left|]. cbn. destruct Hi as [->|[->|Hi]]; auto. }
    { unfold count. lia. } { exact Ht. }
    cbn [bind fan].
    destruct (IH c1 s1 p1 t1 _ (M ++ corners_of (fan_from x y f)) _ C1 S1) as (c' & s' & p' & t' & -> & S' & T').
    { intros g Hin. apply Hg. now right. }
    { intros g i Hin Hi. apply (Hb g); [now right|exact Hi]. }
    { unfold count. rewrite app_length, corners_length, fan_from_length. lia. }
    { exact T1. }
    exists c', s', p', t'. split; [reflexivity|].
    rewrite corners_app, app_length, repeat_app, !app_assoc. rewrite fan_from_length. split; assumption.
Qed.
End Tex.
