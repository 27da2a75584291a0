(** The sphere mesh of the benchmarks in IEEE arithmetic: its vertices are near the unit sphere. *)

From Coq Require Import Reals ZArith List Bool Lra Lia Psatz Floats.SpecFloat.
From Flocq Require Import Core IEEE754.BinarySingleNaN.
From Verif Require Import Num NumR NumF Vec OriginSphere SpecReal SpecIEEE SpecTri SpecTriF SpecOrigin.
From Verif Require Import PfX PfIEEE PfIEEE2 PfIEEE3 PfTriF PfDirF PfOrigin PfOrigin2 PfOrigin3 PfOrigin4.
Import ListNotations.
Local Open Scope R_scope.

Section F.
Variables prec emax : Z.
Context {Hprec : Prec_gt_0 prec} {Hmax : Prec_lt_emax prec emax}.
Hypothesis Hfmt : usual_format prec emax.
Notation FN := (Fnum prec emax).
Notation isf := (isF prec emax).
Notation rd := (rnd prec emax).
Notation u := (ulpf prec).
Notation ap1 := (ap prec emax 1 0).

Lemma scale1 : scale_ok prec emax 1.
Proof.
  pose proof (top_u prec emax Hfmt) as T. pose proof (u_pos prec) as U0. pose proof (u_small prec emax Hfmt) as U1.
  assert (U2 : 1000000 <= / u) by (rewrite <- (Rinv_inv 1000000); apply Rinv_le_contravar; lra).
  assert (1000000 * 1000000 <= / u * / u) by (apply Rmult_le_compat; lra).
  split; [lra|]. split; [lra|].
  apply Rmult_le_reg_l with (/ u); [lra|]. replace (/ u * (u * top emax)) with (top emax) by (field; lra).
  assert (/ u * 1 <= / u * / u * 1000000); [|lra]. assert (/ u * 1 <= / u * (/ u * 1000000)) by (apply Rmult_le_compat_l; lra). lra.
Qed.
Lemma half_isF : isf (@nhalf _ FN) (/ 2).
Proof.
  assert (E : rd (1 / 2) = / 2).
  { replace (1 / 2) with (bpow radix2 (-1)) by (cbn; lra). rewrite (rd_bpow prec emax); [cbn; lra|]. destruct Hfmt. lia. }
  rewrite <- E. unfold nhalf. apply (isF_div prec emax).
  - apply (one_isF prec emax (p6 prec emax Hfmt)).
  - assert (E2 : rd (IZR 2) = 2). { replace (IZR 2) with (bpow radix2 1) by (cbn; lra). rewrite (rd_bpow prec emax); [cbn; lra|]. destruct Hfmt. lia. }
    rewrite <- E2. apply (isF_ofZ prec emax). rewrite E2, Rabs_pos_eq by lra. pose proof scale1 as (_ & S & _). lra.
  - lra.
  - rewrite E, Rabs_pos_eq by lra. pose proof scale1 as (_ & S & _). lra.
Qed.

(** [p] is the unit vector [W] up to five units of roundoff in each coordinate. *)
Definition near1 (p : vec spec_float) (W : vec R) : Prop :=
  rv_dot W W = 1 /\ exists P, visF prec emax p P /\ coords (5 * u) (rv_sub P W).
Lemma unit_comp W : rv_dot W W = 1 -> Rabs (vx W) <= 1 /\ Rabs (vy W) <= 1 /\ Rabs (vz W) <= 1.
Proof. unfold rv_dot. intros H. repeat split; apply Rabs_le; nra. Qed.
Lemma near1_ap p W : near1 p W -> ap1 1 5 (vx p) (vx W) /\ ap1 1 5 (vy p) (vy W) /\ ap1 1 5 (vz p) (vz W).
Proof.
  intros (HW & P & (X & Y & Z) & CX & CY & CZ). cbn [rv_sub vx vy vz] in *. destruct (unit_comp W HW) as (A & B & C).
  repeat split; cbn [pow]; try lra; [exists (vx P)|exists (vy P)|exists (vz P)]; (split; [assumption|]); cbn [pow]; lra.
Qed.
Lemma half_sum x y v w : ap1 1 5 x v -> ap1 1 5 y w -> ap1 1 7.2 (@nmul _ FN (@nadd _ FN x y) (@nhalf _ FN)) ((v + w) * / 2).
Proof.
  intros Hx Hy. pose proof (ap_add prec emax Hfmt 1 scale1 0 1 5 1 5 12.1 x y v w Hx Hy ltac:(lia) ltac:(lra) ltac:(lra) ltac:(lra) ltac:(lra)) as S.
  assert (H2 : ap1 (/ 2) 0 (@nhalf _ FN) (/ 2)) by (apply ap_exact; [exact half_isF|rewrite Rabs_pos_eq; cbn; lra]).
  pose proof (ap_mul prec emax Hfmt 1 scale1 0 0 (1 + 1) 12.1 (/ 2) 0 7.2 _ _ _ _ S H2 ltac:(lia) ltac:(lra) ltac:(lra) ltac:(lra) ltac:(lra) ltac:(lra) ltac:(lra)) as Q.
  replace 1 with ((1 + 1) * / 2) by lra. exact Q.
Qed.

(** The middle of two directions not too far apart. *)
Definition mid_near (A B S : vec R) : Prop := coords (/ 100000) (rv_sub S (rv_scale (/ 2) (rv_add A B))).
Lemma mid_F a b A B : near1 a A -> near1 b B -> 0.4 <= rv_dot A B ->
  exists S, mid_near A B S /\ 0.5 <= rv_norm S <= 1.05 /\ near1 (@midpoint _ FN a b) (unit_of S).
Proof.
  intros Ha Hb H. destruct (near1_ap a A Ha) as (AX & AY & AZ). destruct (near1_ap b B Hb) as (BX & BY & BZ).
  destruct (half_sum _ _ _ _ AX BX) as (_ & sx & SX & EX). destruct (half_sum _ _ _ _ AY BY) as (_ & sy & SY & EY).
  destruct (half_sum _ _ _ _ AZ BZ) as (_ & sz & SZ & EZ). cbn [pow] in EX, EY, EZ.
  pose proof (u_pos prec) as U0. pose proof (u_small prec emax Hfmt) as U1.
  assert (U7 : 7.2 * u * 1 <= / 100000) by lra.
  assert (Hc : mid_near A B (V sx sy sz)).
  { unfold mid_near, coords; cbn [rv_sub rv_scale rv_add vx vy vz]. rewrite <- !(Rmult_comm (_ + _)). repeat split; lra. }
  exists (V sx sy sz). split; [exact Hc|].
  destruct Ha as (HA & _). destruct Hb as (HB & _). destruct (unit_comp A HA) as (A1 & A2 & A3). destruct (unit_comp B HB) as (B1 & B2 & B3).
  assert (N : 0.5 <= rv_norm (V sx sy sz) <= 1.05).
  { destruct Hc as (C1 & C2 & C3). cbn [rv_sub rv_scale rv_add vx vy vz] in C1, C2, C3. apply Rabs_le_inv in C1, C2, C3. apply Rabs_le_inv in A1, A2, A3, B1, B2, B3.
    assert (L : 0.69 <= rv_dot (V sx sy sz) (V sx sy sz) <= 1.1).
    { set (x := / 2 * (vx A + vx B)) in *. set (y := / 2 * (vy A + vy B)) in *. set (z := / 2 * (vz A + vz B)) in *.
      assert (E : x * x + y * y + z * z = / 4 * (2 + 2 * rv_dot A B)).
      { transitivity (/ 4 * (rv_dot A A + rv_dot B B + 2 * rv_dot A B)); [unfold x, y, z, rv_dot; field|rewrite HA, HB; ring]. }
      pose proof (cs A B HA HB) as Hle.
      set (e := sx - x) in *. set (f := sy - y) in *. set (g := sz - z) in *.
      assert (-1 <= x <= 1) by (unfold x; lra). assert (-1 <= y <= 1) by (unfold y; lra). assert (-1 <= z <= 1) by (unfold z; lra).
      unfold rv_dot; cbn [vx vy vz]. replace sx with (x + e) by (unfold e; ring). replace sy with (y + f) by (unfold f; ring). replace sz with (z + g) by (unfold g; ring).
      assert (Rabs (x * e) <= 1 * / 100000) by (rewrite Rabs_mult; apply Rmult_le_compat; try apply Rabs_pos; apply Rabs_le; lra).
      assert (Rabs (y * f) <= 1 * / 100000) by (rewrite Rabs_mult; apply Rmult_le_compat; try apply Rabs_pos; apply Rabs_le; lra).
      assert (Rabs (z * g) <= 1 * / 100000) by (rewrite Rabs_mult; apply Rmult_le_compat; try apply Rabs_pos; apply Rabs_le; lra).
      assert (Q : forall k, - / 100000 <= k <= / 100000 -> 0 <= k * k <= / 100000) by (intros k Hk; split; nra).
      pose proof (Q e ltac:(assumption)). pose proof (Q f ltac:(assumption)). pose proof (Q g ltac:(assumption)).
      repeat match goal with K : Rabs _ <= 1 * _ |- _ => apply Rabs_le_inv in K end. split; lra. }
    unfold rv_norm. split.
    - replace 0.5 with (sqrt (0.5 * 0.5)) by (apply sqrt_square; lra). apply sqrt_le_1_alt. lra.
    - replace 1.05 with (sqrt (1.05 * 1.05)) by (apply sqrt_square; lra). apply sqrt_le_1_alt. lra. }
  split; [exact N|].
  destruct (normalize_near prec emax Hfmt (@vscaler _ FN (@vadd _ FN a b) (@nhalf _ FN)) (V sx sy sz)) as (_ & D & HD & CD).
  - split; [exact SX|split; [exact SY|exact SZ]].
  - assert (1000000 <= / u) by (rewrite <- (Rinv_inv 1000000); apply Rinv_le_contravar; lra). lra.
  - split; [|exists D; split; [exact HD|exact CD]].
    unfold unit_of. rewrite dot_scale, dot_scale_l. replace (rv_dot (V sx sy sz) (V sx sy sz)) with (rv_norm (V sx sy sz) * rv_norm (V sx sy sz)) by (apply sqrt_sqrt, rv_dot_nonneg).
    field. lra.
Qed.

Lemma near_dot A B S C c : mid_near A B S -> rv_dot C C = 1 -> c <= / 2 * (rv_dot A C + rv_dot B C) -> c - 0.0001 <= rv_dot S C.
Proof.
  intros (C1 & C2 & C3) HC Hc. destruct (unit_comp C HC) as (X & Y & Z). cbn [rv_sub rv_scale rv_add vx vy vz] in C1, C2, C3.
  replace (rv_dot S C) with (/ 2 * (rv_dot A C + rv_dot B C) + ((vx S - / 2 * (vx A + vx B)) * vx C + (vy S - / 2 * (vy A + vy B)) * vy C + (vz S - / 2 * (vz A + vz B)) * vz C))
    by (unfold rv_dot; field).
  pose proof (Rmult_le_compat _ _ _ _ (Rabs_pos _) (Rabs_pos _) C1 X) as E1. pose proof (Rmult_le_compat _ _ _ _ (Rabs_pos _) (Rabs_pos _) C2 Y) as E2.
  pose proof (Rmult_le_compat _ _ _ _ (Rabs_pos _) (Rabs_pos _) C3 Z) as E3. rewrite <- Rabs_mult in E1, E2, E3.
  apply Rabs_le_inv in E1, E2, E3. lra.
Qed.
Lemma mid_dot A B S C : mid_near A B S -> 0.5 <= rv_norm S <= 1.05 -> rv_dot C C = 1 -> 0.5 <= / 2 * (rv_dot A C + rv_dot B C) ->
  0.4 <= rv_dot (unit_of S) C.
Proof.
  intros HS HN HC Hc. pose proof (near_dot A B S C _ HS HC Hc) as D. unfold unit_of. rewrite dot_scale_l.
  apply Rmult_le_reg_l with (rv_norm S); [lra|]. rewrite <- Rmult_assoc, Rinv_r, Rmult_1_l by lra. lra.
Qed.
Lemma mids_dot A B C S S' : rv_dot A A = 1 -> rv_dot B B = 1 -> rv_dot C C = 1 -> 0.4 <= rv_dot A B -> 0.4 <= rv_dot B C -> 0.4 <= rv_dot C A ->
  mid_near A B S -> mid_near B C S' -> 0.5 <= rv_norm S <= 1.05 -> 0.5 <= rv_norm S' <= 1.05 -> 0.4 <= rv_dot (unit_of S) (unit_of S').
Proof.
  intros HA HB HC X Y Z HS HS' HN HN'.
  assert (U : rv_dot (unit_of S') (unit_of S') = 1).
  { unfold unit_of. rewrite dot_scale, dot_scale_l. replace (rv_dot S' S') with (rv_norm S' * rv_norm S') by (apply sqrt_sqrt, rv_dot_nonneg). field. lra. }
  apply (mid_dot A B S (unit_of S') HS HN U).
  pose proof (near_dot B C S' A (/ 2 * (rv_dot B A + rv_dot C A)) HS' HA ltac:(lra)) as D1.
  pose proof (near_dot B C S' B (/ 2 * (rv_dot B B + rv_dot C B)) HS' HB ltac:(lra)) as D2.
  rewrite (dot_comm B A) in D1. rewrite HB, (dot_comm C B) in D2. rewrite (dot_comm S' A) in D1. rewrite (dot_comm S' B) in D2.
  unfold unit_of. rewrite !dot_scale. rewrite <- Rmult_plus_distr_l.
  apply Rmult_le_reg_l with (rv_norm S'); [lra|].
  replace (rv_norm S' * (/ 2 * (/ rv_norm S' * (rv_dot A S' + rv_dot B S')))) with (/ 2 * (rv_dot A S' + rv_dot B S')) by (field; lra). lra.
Qed.

(** A face of such points. *)
Definition nface (q : vec (vec spec_float)) : Prop := exists A B C, near1 (vx q) A /\ near1 (vy q) B /\ near1 (vz q) C /\
  0.4 <= rv_dot A B /\ 0.4 <= rv_dot B C /\ 0.4 <= rv_dot C A.
Definition nvert (p : vec spec_float) : Prop := exists W, near1 p W.
Lemma nface_split q : nface q -> Forall nface (@split _ FN q) /\ Forall nvert (@mids _ FN q).
Proof.
  intros (A & B & C & NA & NB & NC & X & Y & Z).
  destruct (mid_F _ _ A B NA NB X) as (S1 & M1 & R1 & N1). destruct (mid_F _ _ B C NB NC Y) as (S2 & M2 & R2 & N2). destruct (mid_F _ _ C A NC NA Z) as (S3 & M3 & R3 & N3).
  destruct NA as (HA & NA). destruct NB as (HB & NB). destruct NC as (HC & NC).
  assert (X' := X). assert (Y' := Y). assert (Z' := Z). rewrite (dot_comm A B) in X'. rewrite (dot_comm B C) in Y'. rewrite (dot_comm C A) in Z'.
  assert (D1A : 0.4 <= rv_dot (unit_of S1) A) by (apply (mid_dot A B); auto; lra).
  assert (D1B : 0.4 <= rv_dot (unit_of S1) B) by (apply (mid_dot A B); auto; lra).
  assert (D2B : 0.4 <= rv_dot (unit_of S2) B) by (apply (mid_dot B C); auto; lra).
  assert (D2C : 0.4 <= rv_dot (unit_of S2) C) by (apply (mid_dot B C); auto; lra).
  assert (D3C : 0.4 <= rv_dot (unit_of S3) C) by (apply (mid_dot C A); auto; lra).
  assert (D3A : 0.4 <= rv_dot (unit_of S3) A) by (apply (mid_dot C A); auto; lra).
  pose proof (mids_dot A B C S1 S2 HA HB HC X Y Z M1 M2 R1 R2) as D12. pose proof (mids_dot B C A S2 S3 HB HC HA Y Z X M2 M3 R2 R3) as D23.
  pose proof (mids_dot C A B S3 S1 HC HA HB Z X Y M3 M1 R3 R1) as D31.
  assert (NA' : near1 (vx q) A) by (split; assumption). assert (NB' : near1 (vy q) B) by (split; assumption). assert (NC' : near1 (vz q) C) by (split; assumption).
  assert (K : forall P Q, 0.4 <= rv_dot P Q -> 0.4 <= rv_dot Q P) by (intros; rewrite dot_comm; assumption).
  split.
  - repeat apply Forall_cons; try apply Forall_nil.
    + exists A, (unit_of S1), (unit_of S3). cbn [vx vy vz]. auto 9.
    + exists (unit_of S1), B, (unit_of S2). cbn [vx vy vz]. auto 9.
    + exists (unit_of S2), C, (unit_of S3). cbn [vx vy vz]. auto 9.
    + exists (unit_of S1), (unit_of S2), (unit_of S3). cbn [vx vy vz]. auto 9.
  - repeat apply Forall_cons; try apply Forall_nil; eexists; eassumption.
Qed.
Lemma grown_near k : forall s, Forall nvert (fst s) -> Forall nface (snd s) -> Forall nvert (fst (@grown _ FN k s)).
Proof.
  induction k as [|k IH]; intros s Hv Hf; [exact Hv|]. cbn [grown]. apply IH; cbn [fst snd].
  - apply Forall_app. split; [exact Hv|]. clear - Hf Hprec Hmax Hfmt. induction Hf as [|q l Hq Hf IH]; cbn [flat_map]; [constructor|].
    apply Forall_app. split; [apply (nface_split q Hq)|exact IH].
  - clear - Hf Hprec Hmax Hfmt. induction Hf as [|q l Hq Hf IH]; cbn [flat_map]; [constructor|].
    apply Forall_app. split; [apply (nface_split q Hq)|exact IH].
Qed.

Lemma ico_near t tau : isf t tau -> 1.6 <= tau <= 1.65 ->
  Forall2 near1 (om_vertices (@icosahedron _ FN t)) (map (rr tau) (seq 0 12)).
Proof.
  intros Ht Hr.
  assert (N : forall v w, visF prec emax v w -> rv_dot w w = 1 + tau * tau -> near1 (@normalize _ FN v) (rv_scale (kk tau) w)).
  { intros v w Hv Hw. assert (E : rv_norm w = sqrt (1 + tau * tau)) by (unfold rv_norm; rewrite Hw; reflexivity).
    assert (B : 1 <= sqrt (1 + tau * tau) <= 2).
    { split; [rewrite <- sqrt_1 at 1; apply sqrt_le_1_alt; nra|]. rewrite <- (sqrt_square 2) by lra. apply sqrt_le_1_alt. nra. }
    pose proof (u_pos prec) as U0. pose proof (u_small prec emax Hfmt) as U1.
    assert (U2 : 1000000 <= / u) by (rewrite <- (Rinv_inv 1000000); apply Rinv_le_contravar; lra).
    destruct (normalize_near prec emax Hfmt v w Hv) as (_ & D & HD & CD); [rewrite E; lra|].
    unfold unit_of in CD. rewrite E in CD. fold (kk tau) in CD. split; [|exists D; split; assumption].
    rewrite dot_scale, dot_scale_l, Hw. transitivity (kk tau * kk tau * (1 + tau * tau)); [ring|apply kk_sq]. }
  assert (O1 : isf (@nopp _ FN (@n1 _ FN)) (-1)) by (replace (-1) with (- (1)) by ring; apply (isF_opp prec emax), (one_isF prec emax (p6 prec emax Hfmt))).
  pose proof (one_isF prec emax (p6 prec emax Hfmt)) as I1. pose proof (zero_isF prec emax) as I0.
  pose proof (isF_opp prec emax t tau Ht) as Ot. cbn [icosahedron om_vertices map seq]. unfold rr, r, rawv. cbn [nth].
  repeat apply Forall2_cons; try apply Forall2_nil;
    (apply N; [(split; [|split]); cbn [vx vy vz]; assumption|unfold rv_dot; cbn [vx vy vz]; ring]).
Qed.
Lemma ico_faces_near t tau : isf t tau -> 1.6 <= tau <= 1.65 -> Forall nface (@ico_points _ FN t).
Proof.
  intros Ht Hr. pose proof (ico_near t tau Ht Hr) as Vs.
  assert (Pt : forall i, (i < 12)%nat -> near1 (nth i (om_vertices (@icosahedron _ FN t)) (vconst (@n0 _ FN))) (rr tau i)).
  { intros i Hi. set (l := om_vertices (@icosahedron _ FN t)) in *.
    assert (Ll : length l = 12%nat) by reflexivity. clearbody l.
    destruct (nth_error l i) as [x|] eqn:Ex; [|apply nth_error_None in Ex; lia].
    destruct (Forall2_nth _ _ _ Vs i x Ex) as (y & Ey & Hy). rewrite (nth_error_nth _ _ _ Ex).
    rewrite nth_error_map in Ey. destruct (nth_error (seq 0 12) i) as [j|] eqn:Ej; [|discriminate]. injection Ey as <-.
    apply (nth_error_nth _ _ 0%nat) in Ej. rewrite seq_nth in Ej by exact Hi. cbn in Ej. subst j. exact Hy. }
  unfold ico_points. change (om_triangles (@icosahedron _ FN t)) with ico_faces.
  assert (Lt : Forall (fun f => (vx f < 12 /\ vy f < 12 /\ vz f < 12)%nat /\
     0.4 <= rv_dot (rr tau (vx f)) (rr tau (vy f)) /\ 0.4 <= rv_dot (rr tau (vy f)) (rr tau (vz f)) /\ 0.4 <= rv_dot (rr tau (vz f)) (rr tau (vx f))) ico_faces).
  { pose proof (kk_sq tau) as K. set (k := kk tau * kk tau) in *.
    assert (K0 : 0 < k) by (unfold k; pose proof (kk_pos tau); nra).
    assert (D1 : 0.4 <= k * (tau * tau - 1)) by nra. assert (D2 : 0.4 <= k * tau) by nra.
    assert (Sc : forall i j c, rv_dot (r tau i) (r tau j) = c -> rv_dot (rr tau i) (rr tau j) = k * c).
    { intros i j c <-. unfold rr, k. rewrite dot_scale, dot_scale_l. ring. }
    unfold ico_faces. repeat apply Forall_cons; try apply Forall_nil; cbn [vx vy vz]; (split; [lia|]); (split; [|split]);
      (first [rewrite (Sc _ _ (tau * tau - 1)); [exact D1|unfold r, rawv, rv_dot; cbn [nth vx vy vz]; ring]
             |rewrite (Sc _ _ tau); [exact D2|unfold r, rawv, rv_dot; cbn [nth vx vy vz]; ring]]). }
  induction Lt as [|f fs ((A & B & C) & D & E & F) Lt IH]; cbn [map]; constructor; [|exact IH].
  exists (rr tau (vx f)), (rr tau (vy f)), (rr tau (vz f)). cbn [vx vy vz]. repeat split; try assumption; apply Pt; assumption.
Qed.

Lemma near1_norm p W : near1 p W -> exists P, visF prec emax p P /\ Rabs (rv_norm P - 1) <= 9 * u.
Proof.
  intros (HW & P & HP & CX & CY & CZ). exists P. split; [exact HP|]. destruct (unit_comp W HW) as (A & B & C).
  pose proof (u_pos prec) as U0. pose proof (u_small prec emax Hfmt) as U1. cbn [rv_sub vx vy vz] in CX, CY, CZ.
  set (e := vx P - vx W) in *. set (f := vy P - vy W) in *. set (g := vz P - vz W) in *.
  assert (E : rv_dot P P = 1 + 2 * (vx W * e + vy W * f + vz W * g) + (e * e + f * f + g * g)).
  { rewrite <- HW. unfold rv_dot, e, f, g. ring. }
  assert (S : e * e + f * f + g * g <= 75 * (u * u)).
  { assert (Q : forall k, Rabs k <= 5 * u -> k * k <= 25 * (u * u)) by (intros k Hk; apply Rabs_le_inv in Hk; nra).
    pose proof (Q e CX). pose proof (Q f CY). pose proof (Q g CZ). lra. }
  assert (D : (vx W * e + vy W * f + vz W * g) * (vx W * e + vy W * f + vz W * g) <= 75 * (u * u)).
  { apply Rle_trans with (rv_dot W W * (e * e + f * f + g * g)); [|rewrite HW; lra]. unfold rv_dot.
    assert (0 <= (vx W * f - vy W * e) * (vx W * f - vy W * e)) by apply Rle_0_sqr. assert (0 <= (vy W * g - vz W * f) * (vy W * g - vz W * f)) by apply Rle_0_sqr.
    assert (0 <= (vz W * e - vx W * g) * (vz W * e - vx W * g)) by apply Rle_0_sqr. lra. }
  set (d := vx W * e + vy W * f + vz W * g) in *. set (s := e * e + f * f + g * g) in *.
  assert (S0 : 0 <= s) by (unfold s; pose proof (Rle_0_sqr e); pose proof (Rle_0_sqr f); pose proof (Rle_0_sqr g); unfold Rsqr in *; lra).
  assert (Dr : Rabs d <= 8.7 * u). { apply Rabs_le. nra. } apply Rabs_le_inv in Dr.
  assert (Us : u * u <= / 1000000 * u) by (apply Rmult_le_compat_r; lra).
  assert (Sl : 75 * (u * u) <= 0.0001 * u) by lra.
  unfold rv_norm. rewrite E. apply Rabs_le. split.
  - assert (1 - 9 * u <= sqrt (1 + 2 * d + s)); [|lra]. replace (1 - 9 * u) with (sqrt ((1 - 9 * u) * (1 - 9 * u))) by (apply sqrt_square; lra).
    apply sqrt_le_1_alt. nra.
  - assert (sqrt (1 + 2 * d + s) <= 1 + 9 * u); [|lra]. replace (1 + 9 * u) with (sqrt ((1 + 9 * u) * (1 + 9 * u))) by (apply sqrt_square; lra).
    apply sqrt_le_1_alt. nra.
Qed.

Definition sphere_at (m : omesh spec_float) (j : nat) : vec R := vmap (SF2R radix2) (nth j (om_vertices m) (vconst (@n0 _ FN))).
Lemma sphere_near t tau n m : isf t tau -> 1.6 <= tau <= 1.65 -> @origin_sphere _ FN t n = Ok m ->
  exists P, mesh_areF prec emax 1.1 (om_vertices m) (om_triangles m) P /\
    forall j, (j < length (om_vertices m))%nat -> Rabs (rv_norm (P j) - 1) <= 9 * u.
Proof.
  intros Ht Hr Hm. destruct (sphere_is t n m Hm) as [_ [Ev _]].
  assert (Vn : Forall nvert (om_vertices m)).
  { rewrite Ev. apply grown_near; cbn [fst snd].
    - pose proof (ico_near t tau Ht Hr) as H. clear - H. induction H; constructor; [eexists; eassumption|assumption].
    - apply (ico_faces_near t tau Ht Hr). }
  assert (K : forall j, (j < length (om_vertices m))%nat -> exists v, nth_error (om_vertices m) j = Some v /\ visF prec emax v (sphere_at m j) /\
    Rabs (rv_norm (sphere_at m j) - 1) <= 9 * u).
  { intros j Hj. destruct (nth_error (om_vertices m) j) as [v|] eqn:E; [|apply nth_error_None in E; lia].
    destruct (proj1 (Forall_forall _ _) Vn v (nth_error_In _ _ E)) as (W & HW). destruct (near1_norm v W HW) as (P & HP & HN).
    exists v. split; [reflexivity|]. unfold sphere_at. rewrite (nth_error_nth _ _ _ E).
    replace (vmap (SF2R radix2) v) with P; [auto|]. destruct HP as ((_ & _ & X) & (_ & _ & Y) & (_ & _ & Z)).
    apply vec_eq; cbn; auto. }
  exists (sphere_at m). split; [split|].
  - intros j Hj. destruct (K j Hj) as (v & E & Hv & HN). exists v. split; [exact E|]. split; [exact Hv|].
    pose proof (u_small prec emax Hfmt). apply Rabs_le_inv in HN. set (L := rv_norm (sphere_at m j)) in *.
    assert (LL : rv_dot (sphere_at m j) (sphere_at m j) = L * L) by (symmetry; apply sqrt_sqrt, rv_dot_nonneg).
    unfold rv_dot in LL. assert (L * L <= 1.1 * 1.1) by (apply Rmult_le_compat; unfold L; try apply sqrt_pos; fold L; lra).
    repeat split; apply Rabs_le; nra.
  - apply (sphere_counts t n m Hm).
  - intros j Hj. destruct (K j Hj) as (v & _ & _ & HN). exact HN.
Qed.
End F.
