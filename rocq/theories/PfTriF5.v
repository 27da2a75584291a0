(** Queries on meshes in IEEE arithmetic. *)

From Coq Require Import Reals ZArith List Bool Arith Lra Lia Psatz Floats.SpecFloat.
From Flocq Require Import Core IEEE754.BinarySingleNaN.
From Verif Require Import Num NumR NumF Vec Datatypes Ray Bvh Traverse Trimesh SpecBvh SpecReal SpecIEEE SpecAny SpecTri SpecTriF.
From Verif Require Import PfBuild PfBuild2 PfReject PfAny PfLate PfIEEE PfIEEE2 PfIEEE3 PfIEEE4 PfTri2 PfTriF PfTriF2 PfTriF3 PfTriF4 PfDirF.
Import ListNotations.
Local Open Scope R_scope.

Lemma min_kept {T} {N : num T} st q (r : ray T) h st' : tri_intersect st q r = (h, st') -> ti_min st' = ti_min st.
Proof.
  unfold tri_intersect. cbv zeta. destruct (_ && _); [|intros [= _ <-]; reflexivity]. destruct (_ && _); intros [= _ <-]; reflexivity.
Qed.

Section F.
Variables prec emax : Z.
Context {Hprec : Prec_gt_0 prec} {Hmax : Prec_lt_emax prec emax}.
Hypothesis Hfmt : usual_format prec emax.
Notation FN := (Fnum prec emax).
Notation isf := (isF prec emax).
Notation rd := (rnd prec emax).
Notation u := (ulpf prec).
Variable M : R.
Hypothesis HM : scale_ok prec emax M.
Variables (vertices : list (vec spec_float)) (faces : list (vec nat)) (P : nat -> vec R) (ms : mesh spec_float).
Hypothesis Hare : mesh_areF prec emax M vertices faces P.
Hypothesis Hmake : @make_mesh _ FN vertices faces = Ok ms.
Notation cl := (@mesh_coll _ FN ms).
Notation A i := (fa faces P i).
Notation B i := (fb faces P i).
Notation C i := (fc faces P i).
Variables (o d : vec spec_float) (tmin tmax : spec_float) (any : bool) (O D : vec R) (lo : R).
Hypothesis Htame : tame_ray prec emax o d tmin O D lo.
Hypothesis SO : coords M O.
Hypothesis HL : 1 - 4 * u <= rv_norm D <= / u.
Notation U := (unit_of D).
Hypothesis Hlo : 0 <= lo.
Hypothesis Hfar : at_least prec emax tmax (M / u).
Hypothesis Hz : vz D = 0 -> forall i, (i < length faces)%nat ->
  vz O <> vz (tri_lower (A i) (B i) (C i)) /\ vz O <> vz (tri_upper (A i) (B i) (C i)).
Hypothesis Hedge : none_edge_on prec M faces P O U.
Notation r := (@make_ray _ FN o d tmin tmax any).
Notation isx := (@tri_isector _ FN ms).
Notation pl i x := (plane (A i) (B i) (C i) (at_t O U x)).
Notation sp i := (speed U (A i) (B i) (C i)).

Lemma Ho : visF prec emax (origin r) O. Proof. apply Htame. Qed.
Lemma Hd : near_dir prec emax (direction r) U. Proof. apply (normalize_near prec emax Hfmt d D); [apply Htame|]. pose proof (u_small prec emax Hfmt). destruct HL. split; lra. Qed.
Lemma U0 : 0 < u. Proof. apply (u_pos prec). Qed.
Lemma U1 : u <= / 1000000. Proof. apply (u_small prec emax Hfmt). Qed.
Lemma P2 : 1 <= M ^ 2. Proof. apply (M2_1 prec emax M HM). Qed.
Lemma P1 : 1 <= M. Proof. apply (M1 prec emax M HM). Qed.
Lemma uM2 : 0 < u * M ^ 2. Proof. apply Rmult_lt_0_compat; [apply U0|pose proof P2; lra]. Qed.
Lemma low_uu : least emax <= u * u.
Proof. unfold least, ulpf. rewrite <- bpow_plus. apply bpow_le. destruct Hfmt. lia. Qed.

Lemma speed_le i : (i < length faces)%nat -> Rabs (sp i) <= 24 * M ^ 2.
Proof.
  intros Hi. destruct (mesh_faceF prec emax M vertices faces P ms Hare Hmake i Hi) as (a & b & c & Ha & Hb & Hc & Sa & Sb & Sc & _).
  destruct (det_ap prec emax Hfmt M HM a b c (direction r) (A i) (B i) (C i) U Ha Hb Hc Hd Sa Sb Sc) as [H _].
  rewrite det_n, Rabs_Ropp in H. exact H.
Qed.
Lemma plane_le i : (i < length faces)%nat -> Rabs (plane (A i) (B i) (C i) O) <= 48 * M ^ 3.
Proof.
  intros Hi. destruct (mesh_faceF prec emax M vertices faces P ms Hare Hmake i Hi) as (a & b & c & Ha & Hb & Hc & Sa & Sb & Sc & _).
  destruct (t_ap prec emax Hfmt M HM a b c o (A i) (B i) (C i) O Ha Hb Hc Ho Sa Sb Sc SO) as [H _].
  rewrite t_side in H. replace (plane (A i) (B i) (C i) O) with (- rv_dot (tri_cross (A i) (B i) (C i)) (rv_sub (A i) O)); [exact H|].
  unfold plane, rv_dot, rv_sub. cbn [vx vy vz]. ring.
Qed.
Lemma plane_lin i x : pl i x = plane (A i) (B i) (C i) O + x * sp i.
Proof. unfold plane, speed, at_t, rv_add, rv_scale, rv_sub, rv_dot. cbn [vx vy vz]. ring. Qed.

(** Where a face that is surely hit is met, and how late an answer can be. *)
Lemma sure_facts lo1 i s : 0 <= lo1 -> (i < length faces)%nat -> surely_hit prec M faces P O U lo1 i s ->
  exists t beta, in_box (tri_lower (A i) (B i) (C i)) (tri_upper (A i) (B i) (C i)) (at_t O U t) /\
    lo1 <= t /\ (16 * u <= t /\ 36 * (u * t) <= M) /\ t * (1 + 10 * u) <= beta /\ 16 * u <= beta /\ t * (1 + 10 * u) <= M / u /\
    (forall x, s * pl i x <= 512 * u * M ^ 2 * (M + x) <-> x <= beta) /\
    (forall h, M / u <= h -> 400 * u * M ^ 2 * (M + h) <= s * pl i h).
Proof.
  intros Hlo1 Hi [Hp Hb]. pose proof (passes_speed (A i) (B i) (C i) O U s _ Hp) as Hn. destruct Hp as (Hs & H1 & H2 & H3).
  pose proof (speed_le i Hi) as L1. pose proof (plane_le i Hi) as L2.
  pose proof U0 as V0. pose proof U1 as V1. pose proof P1 as V2. pose proof P2 as V3. pose proof uM2 as V4.
  rewrite plane_lin in Hb. set (p0 := plane (A i) (B i) (C i) O) in *. set (n := sp i) in *.
  assert (Ls1 : s * n <= 24 * M ^ 2) by (apply Rabs_le_inv in L1; destruct Hs as [-> | ->]; lra).
  assert (Ls2 : - (48 * M ^ 3) <= s * p0 <= 48 * M ^ 3) by (apply Rabs_le_inv in L2; destruct Hs as [-> | ->]; lra).
  set (n' := s * n) in *. set (T := - (s * p0)).
  assert (HbT : lo1 * n' + 400 * u * M ^ 2 * (M + lo1) <= T) by (unfold T, n'; lra).
  assert (Hn0 : 0 < n') by lra.
  assert (HT : 400 * (u * M ^ 2) * M <= T) by nra.
  assert (M3 : M ^ 3 = M ^ 2 * M) by ring. rewrite M3 in *.
  assert (Pl : forall x, s * pl i x = x * n' - T).
  { intros x. rewrite plane_lin. fold p0 n. unfold T, n'. ring. }
  assert (Den : 0 < n' - 512 * u * M ^ 2) by lra.
  exists (T / n'), ((T + 512 * u * M ^ 2 * M) / (n' - 512 * u * M ^ 2)).
  set (t := T / n'). assert (Et : t * n' = T) by (unfold t; field; lra).
  set (be := (T + 512 * u * M ^ 2 * M) / (n' - 512 * u * M ^ 2)).
  assert (Eb : be * (n' - 512 * u * M ^ 2) = T + 512 * u * M ^ 2 * M) by (unfold be; field; lra).
  assert (V5 : 0 <= u * M ^ 2 * M) by (apply Rmult_le_pos; lra).
  assert (T16 : 16 * u * M <= t).
  { apply Rmult_le_reg_r with n'; [exact Hn0|]. rewrite Et. apply Rle_trans with (16 * u * M * (24 * M ^ 2)); [|lra].
    apply Rmult_le_compat_l; [|lra]. apply Rmult_le_pos; lra. }
  assert (Tu : 37 * (u * t) <= M).
  { apply Rmult_le_reg_r with (M ^ 2); [lra|].
    assert (t * (2901 * (u * M ^ 2)) <= t * n') by (apply Rmult_le_compat_l; [nra|lra]). unfold T in *. lra. }
  assert (Hbe : forall x, s * pl i x <= 512 * u * M ^ 2 * (M + x) <-> x <= be).
  { intros x. rewrite Pl. split; intros Hx.
    - apply Rmult_le_reg_r with (n' - 512 * u * M ^ 2); [exact Den|]. rewrite Eb. lra.
    - assert (x * (n' - 512 * u * M ^ 2) <= be * (n' - 512 * u * M ^ 2)) by (apply Rmult_le_compat_r; lra). lra. }
  assert (Tbe : t * (1 + 10 * u) <= be).
  { apply Hbe. rewrite Pl. assert (t * u * n' <= t * u * (24 * M ^ 2)) by (apply Rmult_le_compat_l; [nra|lra]).
    assert (0 <= u * M ^ 2 * M) by (apply Rmult_le_pos; lra). assert (0 <= t * u * (u * M ^ 2)) by (apply Rmult_le_pos; nra).
    nra. }
  split; [|split; [|split; [|split; [|split; [|split; [|split]]]]]].
  - apply (crossing_point s).
    + split; [exact Hs|]. lra.
    + fold n n'. lra.
    + fold n. replace (rv_dot (tri_cross (A i) (B i) (C i)) (rv_sub (A i) O)) with (- p0).
      2: { unfold p0, plane, rv_dot, rv_sub. cbn [vx vy vz]. ring. }
      unfold T, n' in Et. destruct Hs as [-> | ->]; lra.
  - apply Rmult_le_reg_r with n'; [exact Hn0|]. rewrite Et. nra.
  - assert (u * 1 <= u * M) by (apply Rmult_le_compat_l; lra). assert (0 <= u * t) by (apply Rmult_le_pos; lra). split; lra.
  - exact Tbe.
  - nra.
  - apply Rmult_le_reg_l with u; [exact V0|]. replace (u * (M / u)) with M by (field; lra). nra.
  - exact Hbe.
  - intros h Hh. rewrite Pl.
    assert (Hu : M <= u * h). { apply Rmult_le_compat_l with (r := u) in Hh; [|lra]. replace (u * (M / u)) with M in Hh by (field; lra). exact Hh. }
    assert (h0 : 0 <= h) by nra.
    assert (h * (2901 * (u * M ^ 2)) <= h * n') by (apply Rmult_le_compat_l; lra).
    assert (M * M ^ 2 <= u * h * M ^ 2) by (apply Rmult_le_compat_r; lra).
    assert (u * M ^ 2 * M <= 1 * (M ^ 2 * M)) by (rewrite Rmult_assoc; apply Rmult_le_compat_r; nra). unfold T in *. lra.
Qed.
Lemma at_unit t : at_t O U t = at_t O D (t / rv_norm D).
Proof.
  assert (0 < rv_norm D) by (destruct HL; pose proof U1; lra).
  unfold at_t, unit_of, rv_add, rv_scale. cbn [vx vy vz]. f_equal; field; lra.
Qed.
Notation lo1 := (lo * Rmax 1 (rv_norm D)).
Lemma lo1_ge : lo <= lo1 /\ lo * rv_norm D <= lo1 /\ 0 <= lo1.
Proof.
  pose proof (Rmax_l 1 (rv_norm D)). pose proof (Rmax_r 1 (rv_norm D)).
  assert (lo * 1 <= lo1) by (apply Rmult_le_compat_l; assumption). assert (lo * rv_norm D <= lo1) by (apply Rmult_le_compat_l; assumption). lra.
Qed.
Lemma pierced_sure i s : (i < length faces)%nat -> surely_hit prec M faces P O U lo1 i s ->
  exists tau beta, 16 * u <= beta /\ tau * (1 + 4 * u) <= beta /\ tau * (1 + 4 * u) <= M / u /\
    (forall x, s * pl i x <= 512 * u * M ^ 2 * (M + x) <-> x <= beta) /\
    (forall h, M / u <= h -> 400 * u * M ^ 2 * (M + h) <= s * pl i h) /\
    forall hd, at_least prec emax hd (tau * (1 + 4 * u)) ->
      meets_at prec emax (tri_lower (A i) (B i) (C i)) (tri_upper (A i) (B i) (C i)) O D lo hd tau.
Proof.
  intros Hi Hs. destruct lo1_ge as (G1 & G2 & G3). destruct (sure_facts lo1 i s G3 Hi Hs) as (t & be & F1 & F2 & (F3 & F3') & F4 & F5 & F6 & F7 & F8).
  pose proof U0 as V0. pose proof U1 as V1. pose proof P1 as V2. set (L := rv_norm D) in *. destruct HL as [L1 L2].
  assert (L0 : 0 < L) by lra.
  exists (t / L), be. set (tau := t / L). assert (Et : tau * L = t) by (unfold tau; field; lra).
  assert (T0 : 0 < tau) by (unfold tau, Rdiv; apply Rmult_lt_0_compat; [lra|apply Rinv_0_lt_compat, L0]).
  assert (Tt : tau * (1 + 4 * u) <= t * (1 + 10 * u)).
  { rewrite <- Et. rewrite Rmult_assoc. apply Rmult_le_compat_l; [lra|].
    apply Rle_trans with ((1 - 4 * u) * (1 + 10 * u)); [|apply Rmult_le_compat_r; lra]. nra. }
  split; [exact F5|]. split; [lra|]. split; [lra|]. split; [exact F7|]. split; [exact F8|].
  intros hd Hh. split; [|split; [|split; [|exact Hh]]].
  - apply Rmult_le_reg_r with L; [exact L0|]. rewrite Et. lra.
  - right. pose proof low_uu. destruct HM as (_ & _ & G). split.
    + apply Rmult_le_reg_r with L; [exact L0|]. rewrite Et. apply Rle_trans with (2 * (u * u) * L); [apply Rmult_le_compat_r; lra|].
      assert (u * L <= 1). { apply Rle_trans with (u * / u); [apply Rmult_le_compat_l; lra|]. rewrite Rinv_r; lra. }
      assert (u * (u * L) <= u * 1) by (apply Rmult_le_compat_l; lra). lra.
    + apply Rmult_le_reg_l with u; [exact V0|]. assert (tau <= t * (1 + 10 * u)) by nra.
      assert (u * tau <= u * (t * (1 + 10 * u))) by (apply Rmult_le_compat_l; lra).
      assert (0 <= u * t) by (apply Rmult_le_pos; lra). assert (u * t * u <= u * t * 1) by (apply Rmult_le_compat_l; lra). nra.
  - unfold tau, L. rewrite <- at_unit. exact F1.
Qed.

(** What the routine does, for a stored triangle. *)
Definition state_ok (i : tri_isect spec_float) : Prop :=
  ti_min i = tmin /\ (ti_hd i = S754_infinity false \/ exists h, isf (ti_hd i) h).
Lemma prepare_ok : state_ok (is_prepare isx r).
Proof. split; [reflexivity|]. destruct Hfar as [E|(b & E & _)]; [left|right; exists b]; exact E. Qed.

Lemma accept_ok st k p st' : (k < length faces)%nat -> c_prim cl k = Ok p -> ti_min st = tmin -> @tri_intersect _ FN st p r = (true, st') ->
  state_ok st' /\ ti_prim st' = Some k /\
  (exists t b c, isf (ti_hd st') t /\ isf (fst (ti_uv st')) b /\ isf (snd (ti_uv st')) c /\
     nearly_hit prec M faces P O U lo k t b c /\ u * Rabs t <= 0.1 * M) /\
  (forall h be, isf (ti_hd st) h -> 16 * u <= be -> h <= be -> exists t, isf (ti_hd st') t /\ t <= be * (1 + 4 * u)).
Proof.
  intros Hk Ep Emin H.
  destruct (mesh_faceF prec emax M vertices faces P ms Hare Hmake k Hk) as (a & b & c & Ha & Hb & Hc & Sa & Sb & Sc & E & _).
  rewrite Ep in E. injection E as ->.
  destruct (tri_sound prec emax Hfmt M HM a b c (A k) (B k) (C k) O U Ha Hb Hc Sa Sb Sc r Ho Hd SO k st st' H) as (s & S1 & S2 & S3).
  pose proof (Hedge k s Hk S1) as Hn.
  destruct (tri_distance prec emax Hfmt M HM a b c (A k) (B k) (C k) O U Ha Hb Hc Sa Sb Sc r Ho Hd SO k st st' H Hn)
    as (t & x & y & T1 & T2 & T3 & T4).
  apply accepted in H as (_ & E4 & E5 & E'). rewrite E' in *. cbn [ti_min ti_hd ti_prim ti_uv fst snd] in *.
  assert (Hn' : 1000 * u * M ^ 2 <= Rabs (- sgn_of (@dot _ FN (@cross _ FN (@vsub _ FN a b) (@vsub _ FN c a)) (direction r)) *
    rv_dot (tri_cross (A k) (B k) (C k)) U)).
  { rewrite Rabs_mult, Rabs_Ropp. destruct (sgn_cases (@dot _ FN (@cross _ FN (@vsub _ FN a b) (@vsub _ FN c a)) (direction r))) as [-> | ->];
      rewrite <- abs_IZR; cbn [Z.abs]; unfold speed in Hn; lra. }
  destruct (quotient prec emax Hfmt M HM a b c (direction r) (A k) (B k) (C k) U Ha Hb Hc Hd Sa Sb Sc 3 48 371 _ _ ltac:(lia) ltac:(lra) ltac:(lra)
    (ft_ap prec emax Hfmt M HM a b c (origin r) (direction r) (A k) (B k) (C k) O Ha Hb Hc Ho Sa Sb Sc SO) Hn')
    as (t' & dd & tt & yy & Q1 & (Q2 & Q3 & Q4 & Q5 & Q6 & Q7) & _).
  pose proof (isF_fun prec emax _ _ _ T1 Q1) as Et. rewrite <- Et in Q4, Q7.
  split; [split; [exact Emin|right; exists t; exact T1]|]. split; [reflexivity|]. split.
  { exists t, x, y. split; [exact T1|]. split; [exact T2|]. split; [exact T3|]. split; [|exact Q7]. split; [|exact T4].
    exists s. split; [exact S1|]. apply S2; [rewrite Emin; apply Htame|exact Hlo]. }
  intros h be Hh B1 B2. exists t. split; [exact T1|].
  pose proof U0 as V0. pose proof U1 as V1. pose proof low_uu as V2. pose proof P2 as V3. pose proof P1 as V4. pose proof uM2 as V5.
  assert (Dp : 0 < dd) by lra.
  assert (Du : 718 * u <= dd). { apply Rle_trans with (718 * (u * M ^ 2)); [|lra]. nra. }
  assert (Hdb : least emax <= dd * be). { apply Rle_trans with (718 * u * (16 * u)); [nra|]. apply Rmult_le_compat; lra. }
  assert (Bp : 0 < be) by lra. assert (Dbp : 0 < dd * be) by (apply Rmult_lt_0_compat; lra).
  assert (R1 : rd (dd * be) <= dd * be * (1 + u)).
  { pose proof (rd_rel prec emax (dd * be)) as R. rewrite Rabs_pos_eq in R by lra. specialize (R Hdb). apply Rabs_le_inv in R. lra. }
  assert (TT : tt <= dd * be * (1 + u)).
  { destruct (Rle_lt_dec 0 h) as [h0|h0].
    - destruct (mul_pos prec emax _ _ _ _ Q2 Hh (Rlt_le _ _ Dp) h0) as [E|[_ E]].
      + rewrite (isF_ltb prec emax _ _ _ _ Q3 E) in E5. apply Rltb_spec in E5.
        pose proof (rd_mono prec emax (dd * h) (dd * be) ltac:(apply Rmult_le_compat_l; lra)). lra.
      + pose proof (rd_mono prec emax (dd * h) (dd * be) ltac:(apply Rmult_le_compat_l; lra)).
        destruct (ap_val prec emax M _ _ _ _ _ (ft_ap prec emax Hfmt M HM a b c (origin r) (direction r) (A k) (B k) (C k) O Ha Hb Hc Ho Sa Sb Sc SO))
          as (t2 & W1 & _ & _ & W4). rewrite (isF_fun prec emax _ _ _ Q3 W1) in *.
        pose proof (Mk_top prec emax M HM 3 ltac:(lia)). pose proof (Mk_pos prec emax M HM 3).
        assert (48 + 371 * u <= 49) by lra. apply Rabs_le_inv in W4.
        assert ((48 + 371 * u) * M ^ 3 <= 49 * M ^ 3) by (apply Rmult_le_compat_r; lra). lra.
    - destruct (Rle_lt_dec tt 0) as [t0|t0]; [apply Rle_trans with 0; [exact t0|]; apply Rmult_le_pos; lra|exfalso].
      (* a negative bound cannot exceed a positive value *)
      destruct (Rlt_le_dec (Rabs (rd (dd * h))) (top emax)) as [L|L].
      + pose proof (isF_mul prec emax _ _ _ _ Q2 Hh L) as E. rewrite (isF_ltb prec emax _ _ _ _ Q3 E) in E5. apply Rltb_spec in E5.
        pose proof (rd_mono prec emax (dd * h) 0 ltac:(nra)) as R. rewrite (rd_0 prec emax) in R. lra.
      + destruct (isF_mul_over prec emax _ _ _ _ Q2 Hh L) as (sg & E & Sg). rewrite E in E5.
        assert (sg = true) by (apply Sg; nra). subst sg.
        destruct Q3 as (_ & F & _). revert E5.
        match type of F with is_finite_SF ?z = true => destruct z as [z0|z0| |z0 z1 z2]; try discriminate F; cbn; try discriminate; destruct z0; discriminate end. }
  rewrite Q4.
  assert (By : tt * yy <= be * (1 + u) * (1 + u)).
  { destruct (Rle_lt_dec tt 0) as [t0|t0].
    - apply Rle_trans with 0; [nra|]. apply Rmult_le_pos; nra.
    - apply Rle_trans with (tt * (/ dd * (1 + u))); [apply Rmult_le_compat_l; lra|].
      assert (tt * / dd <= be * (1 + u)).
      { apply Rmult_le_reg_r with dd; [exact Dp|]. rewrite Rmult_assoc, Rinv_l by lra. lra. }
      rewrite <- Rmult_assoc. apply Rmult_le_compat_r; lra. }
  apply Rle_trans with (rd (be * (1 + u) * (1 + u))); [apply (rd_mono prec emax _ _ By)|].
  assert (Lw : least emax <= be * (1 + u) * (1 + u)) by nra.
  pose proof (rd_rel prec emax (be * (1 + u) * (1 + u))) as R. rewrite Rabs_pos_eq in R by nra. specialize (R Lw).
  apply Rabs_le_inv in R. apply Rle_trans with (be * ((1 + u) * (1 + u) * (1 + u))); [lra|]. apply Rmult_le_compat_l; nra.
Qed.

Lemma sure_accepts i s st q h : (i < length faces)%nat -> surely_hit prec M faces P O U lo1 i s -> c_prim cl i = Ok q ->
  ti_min st = tmin -> at_least prec emax (ti_hd st) h -> 0 <= h -> 400 * u * M ^ 2 * (M + h) <= s * pl i h ->
  fst (@tri_intersect _ FN st q r) = true.
Proof.
  intros Hi Hs Eq Em Hh H0 Hp.
  destruct (mesh_faceF prec emax M vertices faces P ms Hare Hmake i Hi) as (a & b & c & Ha & Hb & Hc & Sa & Sb & Sc & E & _).
  rewrite Eq in E. injection E as ->. destruct Hs as [S1 S2].
  apply (tri_complete prec emax Hfmt M HM a b c (A i) (B i) (C i) O U Ha Hb Hc Sa Sb Sc r Ho Hd SO i st s lo h); auto.
  - rewrite Em. apply Htame.
  - destruct lo1_ge as (G1 & _ & G3). pose proof (passes_speed (A i) (B i) (C i) O U s _ S1) as Hn.
    pose proof uM2. rewrite plane_lin in S2 |- *. assert (lo * (s * sp i) <= lo1 * (s * sp i)) by (apply Rmult_le_compat_r; lra).
    assert (u * M ^ 2 * lo <= u * M ^ 2 * lo1) by (apply Rmult_le_compat_l; lra). lra.
Qed.
Lemma far_self : @nltb _ FN tmax tmax = false.
Proof.
  destruct Hfar as [-> | (b & Hb & _)]; [reflexivity|]. rewrite (isF_ltb prec emax _ _ _ _ Hb Hb).
  destruct (Rltb b b) eqn:E; [|reflexivity]. apply Rltb_spec in E. lra.
Qed.
Lemma far_over x t : isf x t -> u * Rabs t <= 0.1 * M -> @nltb _ FN x tmax = true.
Proof.
  intros Hx Ht. destruct Hfar as [-> | (b & Hb & Hge)]; [apply (inf_ltb prec emax _ _ Hx)|].
  rewrite (isF_ltb prec emax _ _ _ _ Hx Hb). apply Rltb_spec. pose proof U0. pose proof P1. pose proof (Rle_abs t).
  apply Rlt_le_trans with (M / u); [|exact Hge]. apply Rmult_lt_reg_l with u; [lra|]. replace (u * (M / u)) with M by (field; lra).
  assert (u * t <= u * Rabs t) by (apply Rmult_le_compat_l; lra). lra.
Qed.

Variable part : (nat -> bool) -> list nat -> list nat * list nat.
Hypothesis Hpart : partition_ok part.
Variable opt : options.
Variables (nodes : list (node spec_float (triangle spec_float))) (stt : stats).
Hypothesis Hbuild : @build _ FN _ part [] cl opt = Ok (nodes, stt).
Hypothesis Hdepth : forall k d, node_depth nodes k d -> (d <= 26)%nat.

Lemma mesh_query_F rh :
  (@traverse _ FN _ _ isx nodes r rh = Ok (false, rh) /\
   forall i s, (i < length faces)%nat -> ~ surely_hit prec M faces P O U lo1 i s) \/
  (exists rh' k t b c, @traverse _ FN _ _ isx nodes r rh = Ok (true, rh') /\ (k < length faces)%nat /\ h_prim rh' = Some k /\
     isf (h_distance rh') t /\ isf (fst (h_uv rh')) b /\ isf (snd (h_uv rh')) c /\
     nearly_hit prec M faces P O U lo k t b c /\
     (any = false -> forall i s, (i < length faces)%nat -> surely_hit prec M faces P O U lo1 i s ->
        not_behind prec M faces P O U i s (length faces) t)).
Proof.
  pose proof (mesh_size vertices faces (proj2 Hare) ms Hmake) as Hsize. assert (Hnum : numbered cl tr_id) by apply mesh_numbered.
  pose proof (p6 prec emax Hfmt) as Hp6.
  pose (bmin := fun i => tri_lower (A i) (B i) (C i)). pose (bmax := fun i => tri_upper (A i) (B i) (C i)).
  pose proof (mesh_boxesF prec emax M vertices faces P ms Hare Hmake) as Hbx. fold bmin bmax in Hbx.
  pose proof (mesh_moderate prec emax M HM vertices faces P ms Hare Hmake) as Hmd. fold bmin bmax in Hmd.
  assert (Hz' : vz D = 0 -> forall i, (i < c_size cl)%nat -> vz O <> vz (bmin i) /\ vz O <> vz (bmax i)) by (rewrite Hsize; exact Hz).
  assert (Hrej : rejecting isx r) by (intros i p i'; exact (proj1 (proj2 (proj2 (@all_reject _ FN (Sphere.Spheres [] [] []) ms r))) i p i')).
  pose proof U0 as V0. pose proof P1 as V1.
  assert (Mu : 0 <= M / u) by (apply Rmult_le_pos; [lra|apply Rlt_le, Rinv_0_lt_compat, V0]).
  destruct (built_final cl part Hpart opt nodes stt Hbuild Hdepth isx r Hrej
    (fun q => exists i t, (i < c_size cl)%nat /\ c_prim cl i = Ok q /\ meets_at prec emax (bmin i) (bmax i) O D lo tmax t) rh)
    as (fin & Et & Hfin & Hkeep & Hlate).
  { intros ids mn mx i q Hlt Hb Hi Ei (j & t & Hj & Ej & Hm) nd E1 E2.
    assert (i = j) by (rewrite <- (Hnum i q Ei); apply (Hnum j q Ej)). subst j.
    apply (group_passes_hd prec emax Hp6 cl bmin bmax Hbx Hmd o d tmin tmax any O D lo Htame Hz' tmax ids mn mx i t Hlt Hb Hi Hm nd E1 E2). }
  rewrite Et. unfold verdict. change (max_hit_distance r) with tmax.
  assert (Hin : forall p, In p (stored nodes) -> exists k, (k < length faces)%nat /\ c_prim cl k = Ok p).
  { intros p Hp. destruct (@build_stores _ _ FN part Hpart cl opt nodes stt tr_id Hnum Hbuild) as [G1 G2].
    exists (tr_id p). split; [|apply G2, Hp]. rewrite <- Hsize. apply in_map with (f := tr_id) in Hp.
    apply (Permutation.Permutation_in _ G1), in_seq in Hp. lia. }
  destruct Hfin as [[-> Hq]|(p & j & Hp & Ej & Hj)].
  - left. change (is_hd isx (is_prepare isx r)) with tmax. rewrite far_self. split; [reflexivity|]. intros i s Hi Hs.
    destruct (pierced_sure i s Hi Hs) as (tau & be & _ & _ & W1 & _ & W2 & W3).
    destruct (mesh_faceF prec emax M vertices faces P ms Hare Hmake i Hi) as (a & b & c & _ & _ & _ & _ & _ & _ & E & _).
    assert (Hst : In (@make_triangle _ FN a b c i) (stored nodes)).
    { destruct (@build_stores _ _ FN part Hpart cl opt nodes stt tr_id Hnum Hbuild) as [G1 G2].
      assert (Hi' : In i (map tr_id (stored nodes))).
      { apply (Permutation.Permutation_in _ (Permutation.Permutation_sym G1)), in_seq. rewrite Hsize. lia. }
      apply in_map_iff in Hi' as (q & <- & Hq'). specialize (G2 q Hq'). rewrite E in G2. injection G2 as E'. rewrite E'. exact Hq'. }
    assert (Hacc : fst (@tri_intersect _ FN (is_prepare isx r) (@make_triangle _ FN a b c i) r) = true).
    { apply (sure_accepts i s (is_prepare isx r) _ (M / u) Hi Hs E); [reflexivity|exact Hfar|exact Mu|]. apply W2. lra. }
    specialize (Hq _ Hst). cbn [is_prim tri_isector] in Hq. rewrite Hacc in Hq. discriminate Hq.
    exists i, tau. rewrite Hsize. split; [exact Hi|]. split; [exact E|]. apply W3.
    destruct Hfar as [Q|(b' & Q & Q')]; [left; exact Q|right; exists b'; split; [exact Q|lra]].
  - right. destruct (Hin p Hp) as (k & Hk & Ek).
    assert (Hjm : forall st, state_ok st -> ti_min st = tmin) by (intros st [Q _]; exact Q).
    cbn [is_prim tri_isector] in Ej.
    assert (Emin : ti_min j = tmin).
    { assert (K : ti_min fin = tmin).
      { apply (Hkeep (fun st => ti_min st = tmin)); [|reflexivity]. intros st q h st' <- E. apply (min_kept _ _ _ _ _ E). }
      rewrite <- K. symmetry. apply (min_kept _ _ _ _ _ Ej). }
    destruct (accept_ok j k p fin Hk Ek Emin Ej) as (_ & Ep & (t & b & c & I1 & I2 & I3 & I4 & I5) & _).
    change (is_hd isx fin) with (ti_hd fin). rewrite (far_over _ _ I1 I5).
    destruct (mesh_post vertices faces (proj2 Hare) ms Hmake fin rh k Ep Hk) as (rh' & Er & R1 & R2 & R3).
    cbn [is_post tri_isector]. rewrite Er. cbn [bind]. exists rh', k, t, b, c. rewrite R1, R3.
    split; [reflexivity|]. split; [exact Hk|]. split; [exact R2|]. split; [exact I1|]. split; [exact I2|]. split; [exact I3|]. split; [exact I4|].
    intros Hany i s Hi Hs.
    destruct (mesh_faceF prec emax M vertices faces P ms Hare Hmake i Hi) as (a' & b' & c' & _ & _ & _ & _ & _ & _ & Eq & _).
    destruct (pierced_sure i s Hi Hs) as (tau & be & W0 & W1 & W1' & W2 & W3 & W4).
    pose (Bd := fun (n : nat) x => exists y, isf x y /\ y <= be * (1 + 4 * u) ^ n).
    assert (Hgr : forall n, 16 * u <= be * (1 + 4 * u) ^ n).
    { intros n. apply Rle_trans with (be * 1); [lra|]. apply Rmult_le_compat_l; [lra|]. apply pow_R1_Rle. lra. }
    assert (HB : Bd (c_size cl) (ti_hd fin)).
    { apply (Hlate (fun p => exists k, (k < length faces)%nat /\ c_prim cl k = Ok p) state_ok Bd (@make_triangle _ FN a' b' c' i) i Hany).
      - intros st q st' (k' & Hk' & Ek') Hst E'. cbn [is_prim tri_isector] in E'.
        destruct (accept_ok st k' q st' Hk' Ek' (Hjm _ Hst) E') as (Q1 & _ & _ & Q2). split; [exact Q1|].
        intros n (y & Y1 & Y2). destruct (Q2 y (be * (1 + 4 * u) ^ n) Y1 (Hgr n) Y2) as (t' & T1 & T2). exists t'. split; [exact T1|].
        cbn [pow]. lra.
      - intros st hh st' Hst E'. cbn [is_prim tri_isector] in E'. change (is_hd isx st') with (ti_hd st'). destruct hh.
        + destruct (accept_ok st i _ st' Hi Eq (Hjm _ Hst) E') as (_ & _ & (t' & x' & y' & T1 & _ & _ & [_ T4] & _) & _).
          exists t'. split; [exact T1|]. rewrite pow_O, Rmult_1_r. destruct T4 as [T4 _].
          destruct (Rle_lt_dec t' 0) as [L|L]; [lra|]. apply W2. rewrite (Rabs_pos_eq t') in T4 by lra.
          destruct Hs as [(Hsg & _) _]. apply Rabs_le_inv in T4. destruct Hsg as [-> | ->]; lra.
        + pose proof (Hrej _ _ _ E'). subst st'. destruct Hst as [Sm [Sh|(h & Sh)]].
          * exfalso. assert (Hacc : fst (@tri_intersect _ FN st (@make_triangle _ FN a' b' c' i) r) = true).
            { apply (sure_accepts i s st _ (M / u) Hi Hs Eq Sm); [left; exact Sh|exact Mu|]. apply W3. lra. }
            rewrite E' in Hacc. discriminate Hacc.
          * exists h. split; [exact Sh|]. rewrite pow_O, Rmult_1_r. destruct (Rle_lt_dec h 0) as [L|L]; [lra|].
            apply W2. destruct (Rle_lt_dec (s * pl i h) (512 * u * M ^ 2 * (M + h))) as [G|G]; [exact G|exfalso].
            assert (Hacc : fst (@tri_intersect _ FN st (@make_triangle _ FN a' b' c' i) r) = true).
            { apply (sure_accepts i s st _ h Hi Hs Eq Sm); [right; exists h; split; [exact Sh|lra]|lra|].
              pose proof uM2. assert (0 <= u * M ^ 2 * (M + h)) by (apply Rmult_le_pos; lra). lra. }
            rewrite E' in Hacc. discriminate Hacc.
      - intros n x (y & Y1 & Y2). exists y. split; [exact Y1|]. cbn [pow]. pose proof (Hgr n). nra.
      - apply prepare_ok.
      - reflexivity.
      - exact Hin.
      - rewrite Hsize. exact Hi.
      - exact Eq.
      - intros ids mn mx j' st Hlt Hb Hj' Ej' Hst nd E1 E2 Ef. change (is_hd isx st) with (ti_hd st) in *. change (min_hit_distance r) with tmin in Ef.
        assert (j' = i) by (rewrite <- (Hnum j' _ Ej'); reflexivity). subst j'.
        destruct (proj2 Hst) as [Sh|(h & Sh)].
        + exfalso. rewrite (group_passes_hd prec emax Hp6 cl bmin bmax Hbx Hmd o d tmin tmax any O D lo Htame Hz' (ti_hd st) ids mn mx i tau Hlt Hb Hj'
            (W4 _ (or_introl Sh)) nd E1 E2) in Ef. discriminate Ef.
        + exists h. split; [exact Sh|]. rewrite pow_O, Rmult_1_r. destruct (Rle_lt_dec h (tau * (1 + 4 * u))) as [L|L]; [lra|exfalso].
          rewrite (group_passes_hd prec emax Hp6 cl bmin bmax Hbx Hmd o d tmin tmax any O D lo Htame Hz' (ti_hd st) ids mn mx i tau Hlt Hb Hj'
            (W4 _ (or_intror (ex_intro _ h (conj Sh (Rlt_le _ _ L))))) nd E1 E2) in Ef. discriminate Ef. }
    destruct HB as (y & Y1 & Y2). rewrite (isF_fun prec emax _ _ _ Y1 I1), Hsize in Y2. exists be. split; [exact Y2|]. apply W2. lra.
Qed.
End F.

Lemma mesh_query_ready prec emax (Hprec : Prec_gt_0 prec) (Hmax : Prec_lt_emax prec emax) M vertices faces P o d tmin tmax O D lo :
  mesh_ray prec emax M vertices faces P o d tmin tmax O D lo ->
  forall ms, @make_mesh _ (Fnum prec emax) vertices faces = Ok ms ->
  forall part, partition_ok part -> forall opt nodes st,
  @build _ (Fnum prec emax) _ part [] (@mesh_coll _ (Fnum prec emax) ms) opt = Ok (nodes, st) ->
  (forall k d, node_depth nodes k d -> (d <= 26)%nat) ->
  forall any rh,
  (@traverse _ (Fnum prec emax) _ _ (@tri_isector _ (Fnum prec emax) ms) nodes (@make_ray _ (Fnum prec emax) o d tmin tmax any) rh = Ok (false, rh) /\
   forall i s, (i < length faces)%nat -> ~ surely_hit prec M faces P O (unit_of D) (lo_unit lo D) i s) \/
  (exists rh' k t u v,
     @traverse _ (Fnum prec emax) _ _ (@tri_isector _ (Fnum prec emax) ms) nodes (@make_ray _ (Fnum prec emax) o d tmin tmax any) rh = Ok (true, rh') /\
     (k < length faces)%nat /\ h_prim rh' = Some k /\
     isF prec emax (h_distance rh') t /\ isF prec emax (fst (h_uv rh')) u /\ isF prec emax (snd (h_uv rh')) v /\
     nearly_hit prec M faces P O (unit_of D) lo k t u v /\
     (any = false -> forall i s, (i < length faces)%nat -> surely_hit prec M faces P O (unit_of D) (lo_unit lo D) i s ->
        not_behind prec M faces P O (unit_of D) i s (length faces) t)).
Proof.
  intros [H1 H2 H3 H4 H5 H6 H7 H8 H9 H10] ms Hm part Hp opt nodes st Hb Hdep any rh.
  exact (mesh_query_F prec emax H1 M H2 vertices faces P ms H3 Hm o d tmin tmax any O D lo H4 H5 H6 H7 H8 H9 H10 part Hp opt nodes st Hb Hdep rh).
Qed.
