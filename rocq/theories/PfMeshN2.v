(** Normals of meshes with rounding: hits and queries. *)

From Coq Require Import Reals ZArith List Bool Arith Lra Lia Psatz Floats.SpecFloat.
From Flocq Require Import Core IEEE754.BinarySingleNaN.
From Verif Require Import Num NumR NumF Vec Datatypes Ray Bvh Traverse Trimesh SpecBvh SpecReal SpecIEEE SpecTri SpecTriF SpecTubeN SpecMeshN.
From Verif Require Import PfBuild PfIEEE PfIEEE2 PfIEEE3 PfTri2 PfLight PfTriF PfTriF5 PfDirF PfX PfSphF PfSphN PfPlaneF3 PfMeshF PfMeshN.
Import ListNotations.
Local Open Scope R_scope.

Lemma traverse_post {T P I} {N : num T} (isx : isector T P I) nodes (r : ray T) rh rh' :
  traverse isx nodes r rh = Ok (true, rh') -> exists i, is_post isx i rh = Ok rh'.
Proof.
  unfold traverse. destruct (push_back _ _) as [stk| |]; cbn [bind]; try discriminate. destruct (traverse_loop _ _ _ _ _ _ _) as [i| |]; cbn [bind]; try discriminate.
  destruct (nltb _ _); [|discriminate]. destruct (is_post isx i rh) as [x| |] eqn:E; cbn [bind]; try discriminate. intros H. injection H as ->. eauto.
Qed.

Section F.
Variables prec emax : Z.
Context {Hprec : Prec_gt_0 prec} {Hmax : Prec_lt_emax prec emax}.
Hypothesis Hfmt : usual_format prec emax.
Notation FN := (Fnum prec emax).
Notation isf := (isF prec emax).
Notation u := (ulpf prec).
Variables (vertices : list (vec spec_float)) (faces : list (vec nat)) (P : nat -> vec R).
Hypothesis Hverts : forall j, (j < length vertices)%nat -> exists x, nth_error vertices j = Some x /\ visF prec emax x (P j).
Hypothesis Hfaces : forall f, In f faces -> (vx f < length vertices /\ vy f < length vertices /\ vz f < length vertices)%nat.
Variable ms : mesh spec_float.
Hypothesis Hmake : @make_mesh _ FN vertices faces = Ok ms.

Lemma mesh_sums k m : 1 <= k -> 1024 * k * u <= 1 -> stout_faces prec k P faces -> 1 <= m -> 1024 * m * u <= 1 -> (forall j, valence faces j <= m) ->
  m_faces ms = faces /\ length (m_vnormals ms) = length vertices /\
  (forall i, (i < length faces)%nat -> exists n, nth_error (m_fnormals ms) i = Some n /\ vec_near prec emax (face_err prec k) n (face_normal P (face faces i))) /\
  sums_are prec emax k (m_vnormals ms) (valence faces) (vertex_normal P faces).
Proof.
  intros K1 K2 St M1 M2 Hv. pose proof Hmake as H. unfold make_mesh in H.
  destruct (mesh_loop_F prec emax Hfmt k K1 K2 m M2 vertices P Hverts faces (repeat (vconst (@n0 _ FN)) (length vertices)) Hfaces) as (cs & bs & fns & vns & E & L & N1 & N2); [apply repeat_length|exact St|].
  rewrite E in H. cbn [bind] in H. injection H as <-. cbn [m_faces m_vnormals m_fnormals]. split; [reflexivity|]. split; [exact L|]. split.
  - intros i Hi. unfold face. destruct (nth_error faces i) as [f|] eqn:Ef; [|apply nth_error_None in Ef; lia]. rewrite (nth_error_nth _ _ _ Ef). apply N1, Ef.
  - assert (Z : sums_are prec emax k (repeat (vconst (@n0 _ FN)) (length vertices)) (fun _ => 0) (fun _ => rv_zero)).
    { intros j Hj. rewrite repeat_length in Hj. exists (vconst (@n0 _ FN)). split; [apply nth_error_repeat, Hj|].
      assert (S : summed prec emax k 0 0 (@n0 _ FN)).
      { split; [rewrite Rabs_R0; lra|]. exists 0. split; [apply (zero_isF prec emax)|]. unfold vertex_err. rewrite Rminus_0_r, Rabs_R0. lra. }
      split; [exact S|split; exact S]. }
    specialize (N2 _ _ Z). assert (C : forall j : nat, 0 <= 0 /\ 0 + valence faces j <= m) by (intros j; specialize (Hv j); lra). specialize (N2 C).
    revert N2. apply sums_ext; intros j; [ring|apply vec_eq; cbn; ring].
Qed.

Lemma mesh_normals_F k m : 1 <= k -> 1024 * k * u <= 1 -> stout_faces prec k P faces -> 1 <= m -> 1024 * m * u <= 1 -> (forall j, valence faces j <= m) ->
  (forall i, (i < length faces)%nat -> exists n, nth_error (m_fnormals ms) i = Some n /\ vec_near prec emax (face_err prec k) n (face_normal P (face faces i))) /\
  (forall j, (j < length vertices)%nat -> exists n, nth_error (m_vnormals ms) j = Some n /\
     vec_near prec emax (vertex_err prec k (valence faces j)) n (vertex_normal P faces j)).
Proof.
  intros K1 K2 St M1 M2 Hv. destruct (mesh_sums k m K1 K2 St M1 M2 Hv) as (_ & L & F & S). split; [exact F|]. intros j Hj. rewrite <- L in Hj.
  destruct (S j Hj) as (n & En & (_ & x & X1 & X2) & (_ & y & Y1 & Y2) & (_ & z & Z1 & Z2)). exists n. split; [exact En|].
  exists (V x y z). split; [split; [exact X1|split; [exact Y1|exact Z1]]|]. split; [exact X2|split; [exact Y2|exact Z2]].
Qed.

Lemma summed_le k c m s x : 1 <= k -> 0 <= c <= m -> summed prec emax k c s x -> summed prec emax k m s x.
Proof.
  intros K1 Hc [S (y & Hy & E)]. pose proof (u_pos prec). split; [lra|]. exists y. split; [exact Hy|]. eapply Rle_trans; [exact E|]. unfold vertex_err.
  assert (c * u <= m * u) by (apply Rmult_le_compat_r; lra). assert (0 <= c * u) by (apply Rmult_le_pos; lra).
  assert (1 * u <= k * u) by (apply Rmult_le_compat_r; lra).
  assert (c * (face_err prec k + c * u) <= m * (face_err prec k + m * u)) by (unfold face_err; apply Rmult_le_compat; lra). lra.
Qed.

Lemma post_normal i rh rh' f b c : @tri_post _ FN ms i rh = Ok rh' -> h_prim rh' = Some f -> (f < length faces)%nat ->
  isf (fst (h_uv rh')) b -> isf (snd (h_uv rh')) c -> Rabs b <= 8 -> Rabs c <= 8 -> mesh_normal prec emax faces P f b c (h_normal rh').
Proof.
  intros E Ep Hf Hb Hc Bb Bc k m K1 K2 St M1 M2 Hv. cbv zeta. set (w := mixed_normal P faces f b c). intros Hg.
  destruct (mesh_sums k m K1 K2 St M1 M2 Hv) as (Ef & Lv & _ & Sm). unfold tri_post in E.
  destruct (ti_prim i) as [f'|] eqn:Ei; cbn [bind] in E; [|discriminate]. rewrite Ef in E.
  destruct (nth_error faces f') as [g|] eqn:Eg; [|unfold at_ in E; rewrite Eg in E; discriminate]. rewrite (proj2 (at_some _ _ _ _) Eg) in E. cbn [bind] in E.
  destruct (Hfaces g (nth_error_In _ _ Eg)) as (G1 & G2 & G3). rewrite <- Lv in G1, G2, G3.
  destruct (Sm _ G1) as (na & Ea & Sa). destruct (Sm _ G2) as (nb & Eb & Sb). destruct (Sm _ G3) as (nc & Ec & Sc).
  rewrite (proj2 (at_some _ _ _ _) Ea), (proj2 (at_some _ _ _ _) Eb), (proj2 (at_some _ _ _ _) Ec) in E. cbn [bind] in E. destruct (ti_uv i) as [fu fv] eqn:Euv.
  injection E as <-. cbn [h_prim h_uv h_normal fst snd] in *. injection Ep as ->.
  assert (Eface : face faces f = g) by (unfold face; apply (nth_error_nth _ _ _ Eg)).
  assert (Up : forall j s x, summed prec emax k (valence faces j) s x -> summed prec emax k m s x).
  { intros j s x. apply summed_le; [exact K1|]. split; [apply valence_pos|apply Hv]. }
  destruct Sa as (A1 & A2 & A3), Sb as (B1 & B2 & B3), Sc as (C1 & C2 & C3).
  apply Up in A1. apply Up in A2. apply Up in A3. apply Up in B1. apply Up in B2. apply Up in B3. apply Up in C1. apply Up in C2. apply Up in C3.
  destruct (mix_F prec emax Hfmt k K1 K2 m M1 M2 _ _ _ _ _ _ _ _ _ _ Hb Hc Bb Bc A1 B1 C1) as (z1 & Z1 & D1).
  destruct (mix_F prec emax Hfmt k K1 K2 m M1 M2 _ _ _ _ _ _ _ _ _ _ Hb Hc Bb Bc A2 B2 C2) as (z2 & Z2 & D2).
  destruct (mix_F prec emax Hfmt k K1 K2 m M1 M2 _ _ _ _ _ _ _ _ _ _ Hb Hc Bb Bc A3 B3 C3) as (z3 & Z3 & D3).
  set (e := 20 * m * (32 * k + m) * u) in *. set (n := @vadd _ FN _ _).
  assert (Hn : visF prec emax n (V z1 z2 z3)) by (split; [exact Z1|split; [exact Z2|exact Z3]]).
  assert (Cw : coords e (rv_sub (V z1 z2 z3) w)).
  { unfold w, mixed_normal. rewrite Eface. unfold coords, rv_sub, bary, rv_add, rv_scale. cbn [vx vy vz]. split; [exact D1|split; [exact D2|exact D3]]. }
  pose proof (u_pos prec) as U0. pose proof (u_small prec emax Hfmt) as U1.
  assert (Iu : 1000000 <= / u). { rewrite <- (Rinv_inv 1000000). apply Rinv_le_contravar; lra. }
  assert (km : 33 <= m * (32 * k + m)). { apply Rle_trans with (1 * 33); [lra|]. apply Rmult_le_compat; lra. }
  assert (e1 : 660 * u <= e). { unfold e. replace (20 * m * (32 * k + m) * u) with (20 * (m * (32 * k + m)) * u) by ring. apply Rmult_le_compat_r; lra. }
  assert (Hg' : 25.6 * e <= rv_norm w) by (unfold e; lra).
  assert (Nd : rv_norm (rv_sub (V z1 z2 z3) w) <= 1.7321 * e) by (destruct Cw as (W1 & W2 & W3); apply norm_const; [lra|assumption..]).
  pose proof (norm_sub_le (V z1 z2 z3) w) as T1. pose proof (norm_sub_le w (V z1 z2 z3)) as T2. rewrite norm_sub_sym in T2.
  (* lengths *)
  assert (Wc : rv_norm w <= 20 * m).
  { assert (CC : forall s0 s1 s2, Rabs s0 <= m / 3 -> Rabs s1 <= m / 3 -> Rabs s2 <= m / 3 -> Rabs ((1 - b - c) * s0 + b * s1 + c * s2) <= 11 * m).
    { intros s0 s1 s2 H0 H1 H2. apply Rabs_le_inv in Bb as Bb'. apply Rabs_le_inv in Bc as Bc'.
      assert (J0 : Rabs ((1 - b - c) * s0) <= 17 * (m / 3)) by (apply Rabs_mul_le2; [apply Rabs_le; lra|assumption]).
      assert (J1 : Rabs (b * s1) <= 8 * (m / 3)) by (apply Rabs_mul_le2; assumption). assert (J2 : Rabs (c * s2) <= 8 * (m / 3)) by (apply Rabs_mul_le2; assumption).
      eapply Rle_trans; [apply Rabs_two; [apply Rabs_two; eassumption|exact J2]|]. lra. }
    eapply Rle_trans; [apply (norm_const (11 * m)); [lra|..]|lra]; unfold w, mixed_normal; rewrite Eface; unfold bary, rv_add, rv_scale; cbn [vx vy vz];
      apply CC; match goal with H : summed _ _ _ _ ?s _ |- Rabs ?s <= _ => apply H end. }
  assert (mu : m * u <= 0.001) by lra. assert (m6 : m * 1024 <= / u). { apply Rmult_le_reg_r with u; [exact U0|]. rewrite Rinv_l by lra. lra. }
  destruct (normalize_near prec emax Hfmt _ _ Hn ltac:(split; lra)) as (_ & D & HD & X1 & X2 & X3).
  destruct (unit_close (V z1 z2 z3) w _ _ ltac:(lra) ltac:(lra) Cw Nd) as (Y1 & Y2 & Y3). set (g0 := rv_norm w) in *.
  exists D. split; [exact HD|].
  assert (Ef2 : mixed_err prec k m g0 = 4 * (e / g0)) by (unfold mixed_err, e; field; lra).
  assert (Y0 : (e + 1.7321 * e) / g0 = 2.7321 * (e / g0)) by (unfold Rdiv; lra). rewrite Y0 in Y1, Y2, Y3.
  assert (Q : 5 * u <= e / g0).
  { apply Rmult_le_reg_r with g0; [lra|]. replace (e / g0 * g0) with e by (field; lra). apply Rle_trans with (5 * u * (20 * m)); [apply Rmult_le_compat_l; lra|].
    unfold e. replace (5 * u * (20 * m)) with (5 * (20 * m * u)) by ring. replace (20 * m * (32 * k + m) * u) with ((32 * k + m) * (20 * m * u)) by ring.
    apply Rmult_le_compat_r; [apply Rmult_le_pos; lra|lra]. }
  rewrite Ef2.
  assert (J : forall x y z, Rabs (x - y) <= 5 * u -> Rabs (y - z) <= 2.7321 * (e / g0) -> Rabs (x - z) <= 4 * (e / g0)).
  { intros x y z H1 H2. replace (x - z) with ((x - y) + (y - z)) by ring. eapply Rle_trans; [apply Rabs_two; eassumption|]. lra. }
  unfold coords, rv_sub in *. cbn [vx vy vz] in *. split; [|split]; eapply J; eassumption.
Qed.
End F.

(** The weights of a hit are moderate. *)
Lemma weights_moderate prec M faces P O U lo i t b c : 0 < M -> (i < length faces)%nat -> none_edge_on prec M faces P O U ->
  nearly_hit prec M faces P O U lo i t b c -> Rabs b <= 8 /\ Rabs c <= 8.
Proof.
  intros HM Hi He ((s & Hp & _) & _ & H2 & H3). specialize (He i s Hi Hp). destruct Hp as (Hs & P1 & P2 & P3).
  set (A := fa faces P i) in *. set (B := fb faces P i) in *. set (C := fc faces P i) in *. set (e := ulpf prec * M ^ 2) in *.
  assert (E0 : 0 < e). { unfold e. apply Rmult_lt_0_compat; [apply (u_pos prec)|apply pow_lt, HM]. }
  assert (Id : side O U A B + side O U B C + side O U C A = speed U A B C).
  { unfold side, speed, tri_cross, rv_dot, rv_cross, rv_sub. cbn [vx vy vz]. ring. }
  set (x := side O U A B) in *. set (y := side O U B C) in *. set (z := side O U C A) in *. set (w := speed U A B C) in *.
  replace (980 * ulpf prec * M ^ 2) with (980 * e) in * by (unfold e; ring). replace (1000 * ulpf prec * M ^ 2) with (1000 * e) in He by (unfold e; ring).
  assert (G : forall b x, - (980 * e) <= s * x -> s * x <= s * w + 2 * (980 * e) -> Rabs (b * w - x) <= 384 * ulpf prec * M ^ 2 * (1 + Rabs b) -> Rabs b <= 8).
  { intros b0 x0 L1 L2 Hb. replace (384 * ulpf prec * M ^ 2 * (1 + Rabs b0)) with (384 * e + 384 * (e * Rabs b0)) in Hb by (unfold e; ring).
    assert (X : Rabs x0 <= Rabs w + 1960 * e).
    { pose proof (Rle_abs w). pose proof (Rle_abs (- w)) as Q. rewrite Rabs_Ropp in Q. apply Rabs_le. destruct Hs as [-> | ->]; lra. }
    assert (Y : Rabs (b0 * w) <= Rabs (b0 * w - x0) + Rabs x0). { replace (b0 * w) with ((b0 * w - x0) + x0) at 1 by ring. apply Rabs_triang. }
    rewrite Rabs_mult in Y. pose proof (Rabs_pos b0) as B0. assert (eb : 1000 * e * Rabs b0 <= Rabs w * Rabs b0) by (apply Rmult_le_compat_r; lra).
    destruct (Rle_lt_dec (Rabs b0) 8) as [Q|Q]; [exact Q|exfalso].
    assert (8 * Rabs w < Rabs b0 * Rabs w) by (apply Rmult_lt_compat_r; lra). lra. }
  split; [apply (G b z)|apply (G c x)]; try assumption; destruct Hs as [-> | ->]; lra.
Qed.

Lemma mesh_query_normal prec emax (Hprec : Prec_gt_0 prec) (Hmax : Prec_lt_emax prec emax) M vertices faces P o d tmin tmax O D lo :
  mesh_ray prec emax M vertices faces P o d tmin tmax O D lo ->
  forall ms, @make_mesh _ (Fnum prec emax) vertices faces = Ok ms ->
  forall part, partition_ok part -> forall opt nodes st,
  @build _ (Fnum prec emax) _ part [] (@mesh_coll _ (Fnum prec emax) ms) opt = Ok (nodes, st) ->
  (forall k d, node_depth nodes k d -> (d <= 26)%nat) ->
  forall any rh,
  (@traverse _ (Fnum prec emax) _ _ (@tri_isector _ (Fnum prec emax) ms) nodes (@make_ray _ (Fnum prec emax) o d tmin tmax any) rh = Ok (false, rh) /\
   forall i s, (i < length faces)%nat -> ~ surely_hit prec M faces P O (unit_of D) (lo_unit lo D) i s) \/
  (exists rh' k t u v,
     @traverse _ (Fnum prec emax) _ _ (@tri_isector _ (Fnum prec emax) ms) nodes (@make_ray _ (Fnum prec emax) o d tmin tmax any) rh = Ok (true, rh') /\
     (k < length faces)%nat /\ h_prim rh' = Some k /\
     isF prec emax (h_distance rh') t /\ isF prec emax (fst (h_uv rh')) u /\ isF prec emax (snd (h_uv rh')) v /\
     nearly_hit prec M faces P O (unit_of D) lo k t u v /\
     (any = false -> forall i s, (i < length faces)%nat -> surely_hit prec M faces P O (unit_of D) (lo_unit lo D) i s ->
        not_behind prec M faces P O (unit_of D) i s (length faces) t) /\
     mesh_normal prec emax faces P k u v (h_normal rh')).
Proof.
  intros Hr ms Hm part Hp opt nodes st Hb Hdep any rh.
  destruct (mesh_query_ready prec emax Hprec Hmax M vertices faces P o d tmin tmax O D lo Hr ms Hm part Hp opt nodes st Hb Hdep any rh)
    as [H|(rh' & k & t & b & c & E & Hk & Ep & Ht & Hu & Hv & Hn & Hf)]; [left; exact H|right].
  exists rh', k, t, b, c. repeat (split; [assumption|]). destruct Hr as [Hfmt Hsc Hma _ _ _ _ _ _ He].
  destruct (weights_moderate prec M faces P O (unit_of D) lo k t b c ltac:(destruct Hsc; lra) Hk He Hn) as [Bb Bc].
  destruct (traverse_post _ _ _ _ _ E) as (i & Ei). destruct Hma as [Q1 Q2].
  assert (Q3 : forall j, (j < length vertices)%nat -> exists x, nth_error vertices j = Some x /\ visF prec emax x (P j)).
  { intros j Hj. destruct (Q1 j Hj) as (x & X1 & X2 & _). eauto. }
  cbn [is_post tri_isector] in Ei.
  exact (post_normal prec emax Hfmt vertices faces P Q3 Q2 ms Hm i rh rh' k b c Ei Ep Hk Hu Hv Bb Bc).
Qed.

Lemma mesh_made prec emax (Hprec : Prec_gt_0 prec) (Hmax : Prec_lt_emax prec emax) : usual_format prec emax ->
  forall vertices faces P, (forall j, (j < length vertices)%nat -> exists x, nth_error vertices j = Some x /\ visF prec emax x (P j)) ->
  (forall f, In f faces -> (vx f < length vertices /\ vy f < length vertices /\ vz f < length vertices)%nat) ->
  forall k m, 1 <= k -> 1024 * k * ulpf prec <= 1 -> stout_faces prec k P faces ->
  1 <= m -> 1024 * m * ulpf prec <= 1 -> (forall j, valence faces j <= m) ->
  exists ms, @make_mesh _ (Fnum prec emax) vertices faces = Ok ms /\
  (forall i, (i < length faces)%nat -> exists n, nth_error (m_fnormals ms) i = Some n /\
     vec_near prec emax (face_err prec k) n (face_normal P (face faces i))) /\
  (forall j, (j < length vertices)%nat -> exists n, nth_error (m_vnormals ms) j = Some n /\
     vec_near prec emax (vertex_err prec k (valence faces j)) n (vertex_normal P faces j)).
Proof.
  intros Hfmt vertices faces P Hv Hf k m K1 K2 St M1 M2 Hm.
  destruct (mesh_loop_F prec emax Hfmt k K1 K2 m M2 vertices P Hv faces (repeat (vconst (@n0 _ (Fnum prec emax))) (length vertices)) Hf) as (cs & bs & fns & vns & E & _); [apply repeat_length|exact St|].
  assert (Em : exists ms, @make_mesh _ (Fnum prec emax) vertices faces = Ok ms) by (unfold make_mesh; rewrite E; cbn [bind]; eauto).
  destruct Em as (ms & Em). exists ms. split; [exact Em|]. exact (mesh_normals_F prec emax Hfmt vertices faces P Hv Hf ms Em k m K1 K2 St M1 M2 Hm).
Qed.
