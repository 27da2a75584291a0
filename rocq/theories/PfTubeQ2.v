(** Queries on cylinders with rounding. *)

From Coq Require Import Reals ZArith List Bool Arith Lra Lia Psatz Floats.SpecFloat.
From Flocq Require Import Core IEEE754.BinarySingleNaN.
From Verif Require Import Num NumR NumF Vec Datatypes Ray Bvh Traverse Cylinder SpecBvh SpecReal SpecIEEE SpecAny SpecTriF SpecSphF SpecPlane SpecPlaneF SpecTubeF SpecTubeN SpecCyl SpecTubeQ.
From Verif Require Import PfBuild PfBuild2 PfSphere2 PfTrav2 PfNumbered PfReject PfAny PfLate PfIEEE PfIEEE2 PfIEEE3 PfIEEE4 PfTriF PfTriF2 PfDirF PfX PfSphF PfSphF2 PfPlane
  PfPlaneF PfPlaneF2 PfPlaneF3 PfPlaneF6 PfTubeF8 PfTubeF9 PfTubeG PfTubeN2 PfTubeQ.
Import ListNotations.
Local Open Scope R_scope.

(** A deep point lies far inside the box of an axis-aligned cylinder. *)
Lemma deep_side s e X : 0 <= e <= 1 -> 0 < s -> X / s * (X / s) <= 1 - e -> Rabs X <= s - e / 2 * s.
Proof.
  intros E S H. assert (G : Rabs (X / s) <= 1 - e / 2).
  { apply (sq_abs (X / s) (1 - e / 2)); [lra|]. nra. }
  unfold Rdiv in G. rewrite Rabs_mult, (Rabs_pos_eq (/ s)) in G by (apply Rlt_le, Rinv_0_lt_compat, S).
  apply Rmult_le_compat_r with (r := s) in G; [|lra]. rewrite Rmult_assoc, Rinv_l in G by lra. lra.
Qed.
Lemma unit_row w : rv_norm w = 1 -> axis_row w ->
  (Rabs (vx w) = 1 /\ vy w = 0 /\ vz w = 0) \/ (Rabs (vy w) = 1 /\ vx w = 0 /\ vz w = 0) \/ (Rabs (vz w) = 1 /\ vx w = 0 /\ vy w = 0).
Proof.
  intros N A. pose proof (rv_norm_sq w) as S. rewrite N in S. unfold rv_dot in S.
  assert (G : forall z, z * z = 1 -> Rabs z = 1).
  { intros z Hz. assert ((Rabs z - 1) * (Rabs z + 1) = 0). { replace ((Rabs z - 1) * (Rabs z + 1)) with (Rabs z * Rabs z - 1) by ring. rewrite <- Rabs_mult, Rabs_pos_eq by apply Rle_0_sqr. lra. }
    apply Rmult_integral in H as [H|H]; [lra|]. pose proof (Rabs_pos z). lra. }
  destruct A as [[A B]|[[A B]|[A B]]]; rewrite A, B in *.
  - right. right. split; [apply G; lra|auto].
  - right. left. split; [apply G; lra|auto].
  - left. split; [apply G; lra|auto].
Qed.
Lemma tip_ge a b h w : Rabs (vx w * a) <= tip_extent a b (2 * h) w /\ Rabs (vy w * b) <= tip_extent a b (2 * h) w /\ Rabs (vz w * h) <= tip_extent a b (2 * h) w.
Proof.
  unfold tip_extent. replace (2 * h / 2) with h by lra. set (x := Rabs _). set (y := Rabs _). set (z := Rabs _).
  pose proof (Rmax_l x y). pose proof (Rmax_r x y). pose proof (Rmax_l (Rmax x y) z). pose proof (Rmax_r (Rmax x y) z). lra.
Qed.
Lemma row_inside a b h k w X : 0 <= a -> 0 <= b -> 0 <= h -> rv_norm w = 1 -> axis_row w -> Rabs (vx X) + k <= a -> Rabs (vy X) + k <= b -> Rabs (vz X) + k <= h ->
  Rabs (rv_dot w X) + k <= tip_extent a b (2 * h) w.
Proof.
  intros A0 B0 H0 N A Hx Hy Hz. destruct (tip_ge a b h w) as (T1 & T2 & T3). rewrite Rabs_mult, (Rabs_pos_eq a A0) in T1. rewrite Rabs_mult, (Rabs_pos_eq b B0) in T2. rewrite Rabs_mult, (Rabs_pos_eq h H0) in T3.
  unfold rv_dot. destruct (unit_row w N A) as [(E1 & E2 & E3)|[(E1 & E2 & E3)|(E1 & E2 & E3)]]; rewrite E2, E3, E1 in *.
  - replace (vx w * vx X + 0 * vy X + 0 * vz X) with (vx w * vx X) by ring. rewrite Rabs_mult, E1. lra.
  - replace (0 * vx X + vy w * vy X + 0 * vz X) with (vy w * vy X) by ring. rewrite Rabs_mult, E1. lra.
  - replace (0 * vx X + 0 * vy X + vz w * vz X) with (vz w * vz X) by ring. rewrite Rabs_mult, E1. lra.
Qed.

Section F.
Variables prec emax : Z.
Context {Hprec : Prec_gt_0 prec} {Hmax : Prec_lt_emax prec emax}.
Notation FN := (Fnum prec emax).
Notation isf := (isF prec emax).
Notation rd := (rnd prec emax).
Notation u := (ulpf prec).
Notation q := (/ 1000000).
Variables M r v : R.
Variables (centers : list (vec spec_float)) (sa sb hs : list spec_float) (rots : list (mat spec_float)).
Variables (C : nat -> vec R) (a b h : nat -> R) (Q : nat -> mat R) (B : nat -> vec R).
Variables (o d : vec spec_float) (tmin tmax : spec_float) (any : bool) (O D : vec R) (lo : R).
Hypothesis Hray : tubes_ray prec emax M r v centers sa sb hs rots C a b h Q B o d tmin tmax O D lo.
Variable cs : cylinders spec_float.
Hypothesis Hmake : @make_cylinders _ FN centers sa sb hs rots = Ok cs.
Notation cl := (@cylinder_coll _ cs).
Notation U := (unit_of D).
Notation ry := (@make_ray _ FN o d tmin tmax any).
Notation isx := (@cylinder_isector _ FN).
Notation lo1 := (lo_unit lo D).
Notation box i := (tube_box_of prec emax centers sa sb hs rots i).
Notation e := (tube_err prec M r).
Notation ez := (cap_err prec M).
Notation seen i t := (plain_view prec M r (a i) (b i) (h i) (C i) (Q i) O U lo1 t).
Notation met i x := (first_meeting prec M r (a i) (b i) (h i) (C i) (Q i) O U x).
Notation facing i x n := (tube_normal prec emax M r (a i) (b i) (h i) (C i) (Q i) (B i) O U x n).
Notation tr i c fa fb fh m := (tube_ray prec emax M r v o (@normalize _ FN d) c fa fb fh m O U (C i) (a i) (b i) (h i) (Q i) (B i)).

Lemma Tfmt : usual_format prec emax. Proof. apply Hray. Qed.
Lemma Tscale : scale_ok prec emax M. Proof. apply Hray. Qed.
Lemma TL : 1 - 4 * u <= rv_norm D <= / u. Proof. apply Hray. Qed.
Lemma Tlo : 0 <= lo. Proof. apply Hray. Qed.
Lemma Tfar : at_least prec emax tmax (4 * M). Proof. apply Hray. Qed.
Lemma Tdata i : (i < length centers)%nat -> exists c fa fb fh m, tr i c fa fb fh m /\ coords M (C i) /\
  c_prim cl i = Ok (Cylinder c fa fb fh m i) /\ c_box cl i = Ok (@cylinder_box _ FN c fa fb fh m) /\ c_center cl i = Ok c /\ box i = @cylinder_box _ FN c fa fb fh m.
Proof.
  intros Hi. destruct (ts_tubes _ _ _ _ _ _ _ _ _ _ _ _ _ _ _ _ _ _ _ _ _ _ _ Hray i Hi) as (c & x & y & z & m & E1 & E2 & E3 & E4 & E5 & H1 & H2).
  destruct (stored_tube centers sa sb hs rots cs Hmake i c x y z m E1 E2 E3 E4 E5) as (F1 & F2 & F3). exists c, x, y, z, m.
  split; [exact H1|]. split; [exact H2|]. split; [exact F1|]. split; [exact F2|]. split; [exact F3|].
  unfold tube_box_of. cbv zeta. rewrite (nth_error_nth _ _ _ E1), (nth_error_nth _ _ _ E2), (nth_error_nth _ _ _ E3), (nth_error_nth _ _ _ E4), (nth_error_nth _ _ _ E5). reflexivity.
Qed.
Lemma Tsize : c_size cl = length centers. Proof. apply (tubes_size centers sa sb hs rots cs Hmake). Qed.
Lemma Tnum : numbered cl cy_id. Proof. apply cylinders_numbered. Qed.

(** Boxes. *)
Definition axis_tips (k l g c : R) (ext : R) : Prop := l <= c - ext + k /\ c + ext - k <= g.
Lemma tube_box_facts i : (i < length centers)%nat -> exists low high, visF prec emax (fst (box i)) low /\ visF prec emax (snd (box i)) high /\
  box_low (box i) = low /\ box_high (box i) = high /\ coords (3 * M) low /\ coords (3 * M) high /\ in_box low high (C i) /\
  axis_tips (16 * (u * M)) (vx low) (vx high) (vx (C i)) (tip_extent (a i) (b i) (2 * h i) (vx (Q i))) /\
  axis_tips (16 * (u * M)) (vy low) (vy high) (vy (C i)) (tip_extent (a i) (b i) (2 * h i) (vy (Q i))) /\
  axis_tips (16 * (u * M)) (vz low) (vz high) (vz (C i)) (tip_extent (a i) (b i) (2 * h i) (vz (Q i))).
Proof.
  intros Hi. destruct (Tdata i Hi) as (c & x & y & z & m & Hp & (K1 & K2 & K3) & _ & _ & _ & ->).
  destruct (rows_near prec emax M m (Q i) (tu_rot _ _ _ _ _ _ _ _ _ _ _ _ _ _ _ _ _ _ _ _ Hp)) as (R1 & R2 & R3).
  destruct (tu_center _ _ _ _ _ _ _ _ _ _ _ _ _ _ _ _ _ _ _ _ Hp) as (H1 & H2 & H3). destruct (tu_sizes _ _ _ _ _ _ _ _ _ _ _ _ _ _ _ _ _ _ _ _ Hp) as (Sa & Sb & Sh).
  destruct (tu_v _ _ _ _ _ _ _ _ _ _ _ _ _ _ _ _ _ _ _ _ Hp) as (V0 & V2 & _).
  pose proof (tu_a _ _ _ _ _ _ _ _ _ _ _ _ _ _ _ _ _ _ _ _ Hp) as Ha. pose proof (tu_b _ _ _ _ _ _ _ _ _ _ _ _ _ _ _ _ _ _ _ _ Hp) as Hb. pose proof (tu_h _ _ _ _ _ _ _ _ _ _ _ _ _ _ _ _ _ _ _ _ Hp) as Hh.
  destruct (tips_F prec emax Tfmt M Tscale _ _ _ _ _ _ _ _ _ _ R1 H1 K1 Ha Hb Hh ltac:(lra) ltac:(lra) ltac:(lra)) as (l1 & h1 & A1 & A2 & A3 & A4 & A5 & A6 & A7).
  destruct (tips_F prec emax Tfmt M Tscale _ _ _ _ _ _ _ _ _ _ R2 H2 K2 Ha Hb Hh ltac:(lra) ltac:(lra) ltac:(lra)) as (l2 & h2 & B1 & B2 & B3 & B4 & B5 & B6 & B7).
  destruct (tips_F prec emax Tfmt M Tscale _ _ _ _ _ _ _ _ _ _ R3 H3 K3 Ha Hb Hh ltac:(lra) ltac:(lra) ltac:(lra)) as (l3 & h3 & C1 & C2 & C3 & C4 & C5 & C6 & C7).
  rewrite (@tube_axes _ FN). exists (V l1 l2 l3), (V h1 h2 h3). cbn [fst snd].
  split; [split; [|split]; assumption|]. split; [split; [|split]; assumption|].
  split. { unfold box_low, vmap. cbn [fst vx vy vz]. rewrite (proj2 (proj2 A1)), (proj2 (proj2 B1)), (proj2 (proj2 C1)). reflexivity. }
  split. { unfold box_high, vmap. cbn [snd vx vy vz]. rewrite (proj2 (proj2 A2)), (proj2 (proj2 B2)), (proj2 (proj2 C2)). reflexivity. }
  split; [repeat split; assumption|]. split; [repeat split; assumption|]. split; [repeat split; cbn [vx vy vz]; (apply A5 || apply B5 || apply C5)|].
  unfold axis_tips. cbn [vx vy vz]. auto 10.
Qed.
Lemma Tboxes : boxes_areF prec emax cl (fun i => box_low (box i)) (fun i => box_high (box i)).
Proof.
  intros i Hi. rewrite Tsize in Hi. destruct (tube_box_facts i Hi) as (low & high & H1 & H2 & -> & -> & _).
  destruct (Tdata i Hi) as (c & x & y & z & m & _ & _ & _ & E & _ & Eb). rewrite Eb in *. eexists. split; [exact E|]. split; assumption.
Qed.
Lemma Tmoderate : moderate_boxes emax (c_size cl) (fun i => box_low (box i)) (fun i => box_high (box i)).
Proof.
  intros i Hi. rewrite Tsize in Hi. destruct (tube_box_facts i Hi) as (low & high & _ & _ & -> & -> & (A1 & A2 & A3) & (B1 & B2 & B3) & _).
  pose proof (Mk_top prec emax M Tscale 1 ltac:(lia)) as T. rewrite pow_1 in T. destruct Tscale as [V1 _]. split; repeat split; lra.
Qed.
Lemma tlo1_ge : lo * rv_norm D <= lo1 /\ 0 <= lo1.
Proof.
  pose proof Tlo as L0. unfold lo_unit. pose proof (Rmax_l 1 (rv_norm D)). pose proof (Rmax_r 1 (rv_norm D)).
  assert (lo * 1 <= lo * Rmax 1 (rv_norm D)) by (apply Rmult_le_compat_l; assumption). assert (lo * rv_norm D <= lo * Rmax 1 (rv_norm D)) by (apply Rmult_le_compat_l; assumption). lra.
Qed.

(** A deep point of the ray. *)
Lemma deep_near i t : (i < length centers)%nat -> 0 <= t -> deep_in e ez (a i) (b i) (h i) (local (C i) (Q i) (at_t O U t)) ->
  t <= 3 * M /\ 20 * (u * M) <= e / 2 * r /\ e <= 1.
Proof.
  intros Hi T0 [Dr Dz]. destruct (Tdata i Hi) as (c & x & y & z & m & Hp & _). destruct (uM_facts prec emax Tfmt M Tscale) as (U0 & U1 & V1 & UM & UM1 & UM2 & _).
  destruct (k_facts prec emax M r v o _ c x y z m O U (C i) (a i) (b i) (h i) (Q i) (B i) Hp) as (r0 & k0 & k1 & k2 & k3).
  assert (Ee : e = 2048 * (u * (M / r * (M / r)))) by (unfold tube_err; ring).
  assert (E0 : 0 <= e) by (rewrite Ee; apply Rmult_le_pos; [lra|]; apply Rmult_le_pos; [lra|]; apply Rle_0_sqr). assert (E1 : e <= 1) by lra.
  assert (Er : u * M <= e / 2 * r / 1024).
  { replace (e / 2 * r / 1024) with (u * (M / r) * (M / r * r)) by (rewrite Ee; field; lra). replace (M / r * r) with M by (field; lra).
    apply Rmult_le_compat_r; [lra|]. rewrite <- (Rmult_1_r u) at 1. apply Rmult_le_compat_l; [lra|exact k1]. }
  split; [|split; lra].
  rewrite <- (Rabs_pos_eq t T0). destruct (tu_sizes _ _ _ _ _ _ _ _ _ _ _ _ _ _ _ _ _ _ _ _ Hp) as (Sa & Sb & Sh).
  pose proof (PfTubeG.Hp prec emax M r v o _ c x y z m O U (C i) (a i) (b i) (h i) (Q i) (B i) Hp) as Hp0.
  pose proof (PfTubeG.Hd prec emax M r v o _ c x y z m O U (C i) (a i) (b i) (h i) (Q i) (B i) Hp) as Hd0.
  rewrite (local_at O (C i) U (Q i) t) in Dr, Dz.
  assert (Rabs t <= 2.5 * M); [|lra].
  apply (reach prec emax M r v o _ c x y z m O U (C i) (a i) (b i) (h i) (Q i) (B i) Hp (local (C i) (Q i) O) (rv_mul (rv_trans (Q i)) U)).
  - pose proof (L0_norm prec emax M c _ _ m O (C i) 0 0 (Q i) Hp0). lra.
  - rewrite (W_norm prec emax M c _ _ _ m O (C i) U 0 0 (Q i) Hd0 Hp0). lra.
  - lra.
  - assert (0 <= ez) by (unfold cap_err; lra). lra.
Qed.
Lemma seen_boxed i t : (i < length centers)%nat -> seen i t ->
  in_box (box_low (box i)) (box_high (box i)) (at_t O U t).
Proof.
  intros Hi (Hlo & _ & Dp & Bx & _). destruct tlo1_ge as (_ & G3). destruct (deep_near i t Hi ltac:(lra) Dp) as (_ & Er & E1).
  destruct (uM_facts prec emax Tfmt M Tscale) as (U0 & U1 & V1 & UM & UM1 & UM2 & _).
  destruct (tube_box_facts i Hi) as (low & high & _ & _ & -> & -> & _ & _ & _ & B1 & B2 & B3).
  assert (In : in_tips (16 * (u * M)) (C i) (a i) (b i) (h i) (Q i) (at_t O U t)).
  { destruct Bx as [Ax|(H1 & H2 & H3)]; [|split; [|split]; lra].
    destruct (Tdata i Hi) as (c & x & y & z & m & Hp & _).
    destruct (tu_sizes _ _ _ _ _ _ _ _ _ _ _ _ _ _ _ _ _ _ _ _ Hp) as (Sa & Sb & Sh). destruct (tu_v _ _ _ _ _ _ _ _ _ _ _ _ _ _ _ _ _ _ _ _ Hp) as (V0 & V2 & _).
    destruct (tu_rot _ _ _ _ _ _ _ _ _ _ _ _ _ _ _ _ _ _ _ _ Hp) as (HQ & _). destruct (rows_unit (Q i) HQ) as (N1 & N2 & N3).
    pose proof (from_local (C i) (Q i) (at_t O U t) HQ) as Eq. change (to_local (C i) (Q i) (at_t O U t)) with (local (C i) (Q i) (at_t O U t)) in Eq.
    set (X := local (C i) (Q i) (at_t O U t)) in *. destruct Dp as [Dr Dz]. unfold radial in Dr.
    assert (E0 : 0 <= e) by (destruct (Rle_lt_dec 0 e) as [Z|Z]; [exact Z|exfalso; nra]).
    pose proof (Rle_0_sqr (vx X / a i)) as Q1. pose proof (Rle_0_sqr (vy X / b i)) as Q2. unfold Rsqr in Q1, Q2.
    assert (Fx : Rabs (vx X) + 16 * (u * M) <= a i).
    { pose proof (deep_side (a i) e (vx X) ltac:(lra) ltac:(lra) ltac:(lra)). assert (e / 2 * r <= e / 2 * a i) by (apply Rmult_le_compat_l; lra). lra. }
    assert (Fy : Rabs (vy X) + 16 * (u * M) <= b i).
    { pose proof (deep_side (b i) e (vy X) ltac:(lra) ltac:(lra) ltac:(lra)). assert (e / 2 * r <= e / 2 * b i) by (apply Rmult_le_compat_l; lra). lra. }
    assert (Fz : Rabs (vz X) + 16 * (u * M) <= h i) by (unfold cap_err in Dz; lra).
    rewrite Eq. destruct Ax as (A1 & A2 & A3). split; [|split]; unfold rv_add, rv_mul; cbn [vx vy vz];
      match goal with |- Rabs (?p + ?w - ?p) + _ <= _ => replace (p + w - p) with w by ring end; apply row_inside; (assumption || lra). }
  destruct In as (I1 & I2 & I3). unfold axis_tips in B1, B2, B3.
  assert (G : forall w p l g ext, Rabs (w - p) + 16 * (u * M) <= ext -> l <= p - ext + 16 * (u * M) -> p + ext - 16 * (u * M) <= g -> l <= w <= g).
  { intros w p l g ext W1 W2 W3. assert (W4 : Rabs (w - p) <= ext - 16 * (u * M)) by lra. apply Rabs_le_inv in W4. lra. }
  split; [|split]; [apply (G _ _ _ _ _ I1)|apply (G _ _ _ _ _ I2)|apply (G _ _ _ _ _ I3)]; tauto.
Qed.
Lemma tlow_uu : 2 * least emax <= u * u.
Proof. unfold least, ulpf. replace 2 with (bpow radix2 1) by reflexivity. rewrite <- !bpow_plus. apply bpow_le. destruct Tfmt. lia. Qed.
Lemma seen_met i t : (i < length centers)%nat -> seen i t -> exists tau, meets_at prec emax (box_low (box i)) (box_high (box i)) O D lo tmax tau.
Proof.
  intros Hi Ht. pose proof (seen_boxed i t Hi Ht) as Hin. destruct Ht as (Hlo & Hz & Dp & _). destruct tlo1_ge as (G2 & G3).
  destruct (deep_near i t Hi ltac:(lra) Dp) as (Tl & _). destruct (uM_facts prec emax Tfmt M Tscale) as (U0 & U1 & V1 & UM & UM1 & UM2 & LP & LS & T1 & T2).
  set (L := rv_norm D) in *. destruct TL as [L1 L2]. fold L in L1, L2. assert (L0 : 0 < L) by lra.
  exists (t / L). set (tau := t / L). assert (Et : tau * L = t) by (unfold tau; field; lra).
  assert (T0 : 0 <= tau) by (unfold tau, Rdiv; apply Rmult_le_pos; [lra|apply Rlt_le, Rinv_0_lt_compat, L0]).
  assert (Tt : tau * (1 + 4 * u) <= t * (1 + 10 * u)).
  { rewrite <- Et. rewrite Rmult_assoc. apply Rmult_le_compat_l; [lra|].
    apply Rle_trans with ((1 - 4 * u) * (1 + 10 * u)); [|apply Rmult_le_compat_r; lra]. nra. }
  assert (zu : t * u <= 3 * M * u) by (apply Rmult_le_compat_r; lra).
  split; [|split; [|split]].
  - apply Rmult_le_reg_r with L; [exact L0|]. rewrite Et. lra.
  - destruct Hz as [Z|Z]; [left; unfold tau; rewrite Z; unfold Rdiv; ring|right]. split.
    + apply Rmult_le_reg_r with L; [exact L0|]. rewrite Et. apply Rle_trans with (2 * least emax * / u); [apply Rmult_le_compat_l; lra|].
      apply Rmult_le_reg_r with u; [exact U0|]. rewrite Rmult_assoc, Rinv_l by lra. assert (u * u <= t * u) by (apply Rmult_le_compat_r; lra).
      pose proof tlow_uu. lra.
    + assert (tau <= t * (1 + 10 * u)) by nra. lra.
  - unfold tau, L. replace (at_t O D (t / rv_norm D)) with (at_t O U t); [exact Hin|].
    fold L. unfold at_t, unit_of, rv_add, rv_scale. fold L. cbn [vx vy vz]. f_equal; field; lra.
  - destruct Tfar as [F|(w & F & F')]; [left; exact F|right; exists w; split; [exact F|lra]].
Qed.

(** What the routine does with a stored cylinder. *)
Definition tstate_ok (i : cyl_isect spec_float) : Prop := ci_org i = o /\ ci_dir i = @normalize _ FN d.
Lemma apart j : (j < length centers)%nat -> deep_in e ez (a j) (b j) (h j) (local (C j) (Q j) O) -> outside e ez (a j) (b j) (h j) (local (C j) (Q j) O) -> False.
Proof.
  intros Hj [I1 I2] Out.
  assert (E0 : 0 <= ez) by (destruct (uM_facts prec emax Tfmt M Tscale) as (U0 & U1 & V1 & UM & _); unfold cap_err; lra).
  assert (E2 : 0 <= e).
  { unfold tube_err. destruct (uM_facts prec emax Tfmt M Tscale) as (U0 & _). apply Rmult_le_pos; [lra|]. apply Rle_0_sqr. }
  destruct Out; lra.
Qed.
Lemma taccept st j p st' : (j < length centers)%nat -> c_prim cl j = Ok p -> tstate_ok st -> @cylinder_intersect _ FN st p ry = (true, st') ->
  ci_prim st' = Some j /\ exists x, isf (ci_hd st') x /\ met j x /\ facing j x (@normalize _ FN (ci_normal st')).
Proof.
  intros Hj Ep (So & Sd) H. destruct (Tdata j Hj) as (c & x0 & y0 & z0 & m & Hs & _ & E & _). rewrite Ep in E. injection E as ->.
  destruct (ts_place _ _ _ _ _ _ _ _ _ _ _ _ _ _ _ _ _ _ _ _ _ _ _ Hray j Hj) as [Out|Inn].
  - destruct (@tube_from_outside prec emax _ _ M r v o _ c x0 y0 z0 m O U (C j) (a j) (b j) (h j) (Q j) (B j) Hs st ry j st' So Sd H Out) as (E1 & x & X1 & X2 & X3 & X4).
    split; [exact E1|]. exists x. split; [exact X1|]. apply and_comm. split.
    { intros Mu. split; [intros _|intros Inn; exfalso; apply (apart j Hj Inn Out)].
      destruct (@normal_outside prec emax _ _ M r v o _ c x0 y0 z0 m O U (C j) (a j) (b j) (h j) (Q j) (B j) Hs Mu st ry j st' (@new_rayhit _ FN) _ So Sd H Out eq_refl) as (x' & X1' & K).
      cbn [h_distance h_normal] in X1', K. rewrite (isF_fun prec emax _ _ _ X1' X1) in K. exact K. }
    split; [exact X2|]. split; [exact X3|]. split; [intros _; exact X4|].
    intros Inn. exfalso. apply (apart j Hj Inn Out).
  - destruct (@tube_from_inside prec emax _ _ M r v o _ c x0 y0 z0 m O U (C j) (a j) (b j) (h j) (Q j) (B j) Hs st ry j So Sd Inn) as (st2 & x & E2 & E1 & X1 & X2 & X3 & X4).
    rewrite E2 in H. injection H as <-.
    split; [exact E1|]. exists x. split; [exact X1|]. apply and_comm. split.
    { intros Mu. split; [intros Out; exfalso; apply (apart j Hj Inn Out)|intros _].
      destruct (@normal_inside prec emax _ _ M r v o _ c x0 y0 z0 m O U (C j) (a j) (b j) (h j) (Q j) (B j) Hs Mu st ry j So Sd Inn) as (st3 & E3 & K3).
      rewrite E2 in E3. injection E3 as <-. destruct (K3 (@new_rayhit _ FN) _ eq_refl) as (x' & X1' & K).
      cbn [h_distance h_normal] in X1', K. rewrite (isF_fun prec emax _ _ _ X1' X1) in K. exact K. }
    split; [exact X2|]. split; [exact X3|]. split; [|intros _; exact X4].
    intros Out. exfalso. apply (apart j Hj Inn Out).
Qed.
Lemma tseen i p st t : (i < length centers)%nat -> c_prim cl i = Ok p -> tstate_ok st -> seen i t -> fst (@cylinder_intersect _ FN st p ry) = true.
Proof.
  intros Hi Ep (So & Sd) (Hlo & _ & Dp & _ & Vw). destruct tlo1_ge as (_ & G3). destruct (Tdata i Hi) as (c & x0 & y0 & z0 & m & Hs & _ & E & _). rewrite Ep in E. injection E as ->.
  destruct Vw as [Inn|[Cl Rim]].
  - destruct (@tube_from_inside prec emax _ _ M r v o _ c x0 y0 z0 m O U (C i) (a i) (b i) (h i) (Q i) (B i) Hs st ry i So Sd Inn) as (st2 & x & E2 & _). rewrite E2. reflexivity.
  - destruct (@tube_not_missed prec emax _ _ M r v o _ c x0 y0 z0 m O U (C i) (a i) (b i) (h i) (Q i) (B i) Hs st ry i t So Sd Cl ltac:(lra) Dp Rim) as (st2 & x & E2 & _). rewrite E2. reflexivity.
Qed.
Lemma tfar_self : @nltb _ FN tmax tmax = false.
Proof.
  destruct Tfar as [-> | (w & Hb & _)]; [reflexivity|]. rewrite (isF_ltb prec emax _ _ _ _ Hb Hb).
  destruct (Rltb w w) eqn:E; [|reflexivity]. apply Rltb_spec in E. lra.
Qed.
Lemma tfar_over x t : isf x t -> t <= 3 * M -> @nltb _ FN x tmax = true.
Proof.
  intros Hx Ht. destruct Tscale as [V1 _]. destruct Tfar as [-> | (w & Hb & Hge)]; [apply (inf_ltb prec emax _ _ Hx)|].
  rewrite (isF_ltb prec emax _ _ _ _ Hx Hb). apply Rltb_spec. lra.
Qed.

Variable part : (nat -> bool) -> list nat -> list nat * list nat.
Hypothesis Hpart : partition_ok part.
Variable opt : options.
Variables (nodes : list (node spec_float (cylinder spec_float))) (stt : stats).
Hypothesis Hbuild : @build _ FN _ part [] cl opt = Ok (nodes, stt).
Hypothesis Hdepth : forall j d, node_depth nodes j d -> (d <= 26)%nat.

Lemma tube_query_F rh :
  (@traverse _ FN _ _ isx nodes ry rh = Ok (false, rh) /\
   (off_sides prec emax centers sa sb hs rots O D -> forall i t, (i < length centers)%nat -> ~ seen i t)) \/
  (exists rh' j x, @traverse _ FN _ _ isx nodes ry rh = Ok (true, rh') /\ (j < length centers)%nat /\ h_prim rh' = Some j /\
     isf (h_distance rh') x /\ met j x /\ facing j x (h_normal rh')).
Proof.
  pose proof Tsize as Hsize. pose proof Tnum as Hnum. pose proof (p6 prec emax Tfmt) as Hp6.
  pose (bmin := fun i => box_low (box i)). pose (bmax := fun i => box_high (box i)).
  pose proof Tboxes as Hbx. fold bmin bmax in Hbx. pose proof Tmoderate as Hmd. fold bmin bmax in Hmd.
  assert (Htame : tame_ray prec emax o d tmin O D lo) by apply Hray.
  assert (Hrej : rejecting isx ry) by (intros i p i'; exact (proj2 (proj2 (proj2 (@all_reject _ FN (Sphere.Spheres [] [] []) (Trimesh.Mesh [] [] [] [] [] []) ry))) i p i')).
  destruct (built_final cl part Hpart opt nodes stt Hbuild Hdepth isx ry Hrej
    (fun p => off_sides prec emax centers sa sb hs rots O D /\ exists i t, (i < c_size cl)%nat /\ c_prim cl i = Ok p /\ meets_at prec emax (bmin i) (bmax i) O D lo tmax t) rh)
    as (fin & Et & Hfin & Hkeep & Hlate).
  { intros ids mn mx i p Hlt Hb Hi Ei (Hz & j & t & Hj & Ej & Hm) nd E1 E2.
    assert (Hz' : vz D = 0 -> forall i, (i < c_size cl)%nat -> vz O <> vz (bmin i) /\ vz O <> vz (bmax i)) by (rewrite Hsize; exact Hz).
    assert (i = j) by (rewrite <- (Hnum i p Ei); apply (Hnum j p Ej)). subst j.
    apply (group_passes_hd prec emax Hp6 cl bmin bmax Hbx Hmd o d tmin tmax any O D lo Htame Hz' tmax ids mn mx i t Hlt Hb Hi Hm nd E1 E2). }
  rewrite Et. unfold verdict. change (max_hit_distance ry) with tmax.
  assert (Hin : forall p, In p (stored nodes) -> exists j, (j < length centers)%nat /\ c_prim cl j = Ok p).
  { intros p Hp. destruct (@build_stores _ _ FN part Hpart cl opt nodes stt cy_id Hnum Hbuild) as [Q1 Q2].
    exists (cy_id p). split; [|apply Q2, Hp]. rewrite <- Hsize. apply in_map with (f := cy_id) in Hp.
    apply (Permutation.Permutation_in _ Q1), in_seq in Hp. lia. }
  assert (Hall : forall i p, (i < length centers)%nat -> c_prim cl i = Ok p -> In p (stored nodes)).
  { intros i p Hi E. destruct (@build_stores _ _ FN part Hpart cl opt nodes stt cy_id Hnum Hbuild) as [Q1 Q2].
    assert (Hi' : In i (map cy_id (stored nodes))).
    { apply (Permutation.Permutation_in _ (Permutation.Permutation_sym Q1)), in_seq. rewrite Hsize. lia. }
    apply in_map_iff in Hi' as (p' & <- & Hq'). specialize (Q2 p' Hq'). rewrite E in Q2. injection Q2 as ->. exact Hq'. }
  destruct Hfin as [[-> Hq]|(p & j & Hp & Ej & Hj)].
  - left. change (is_hd isx (is_prepare isx ry)) with tmax. rewrite tfar_self. split; [reflexivity|]. intros Hoff i t Hi Hs.
    destruct (seen_met i t Hi Hs) as (tau & Hm). destruct (Tdata i Hi) as (c & x & y & z & m & _ & _ & E & _).
    specialize (Hq _ (Hall i _ Hi E)). cbn [is_prim cylinder_isector] in Hq. rewrite (tseen i _ (is_prepare isx ry) t Hi E ltac:(split; reflexivity) Hs) in Hq. discriminate Hq.
    split; [exact Hoff|]. exists i, tau. rewrite Hsize. split; [exact Hi|]. split; [exact E|]. exact Hm.
  - right. destruct (Hin p Hp) as (j0 & Hk & Ek). cbn [is_prim cylinder_isector] in Ej.
    assert (Ekeep : tstate_ok j).
    { assert (K : tstate_ok fin).
      { apply (Hkeep tstate_ok); [|split; reflexivity].
        intros st p' hh st' [A1 A2] E. destruct (kept_t _ _ _ _ _ E) as (B1 & B2). split; congruence. }
      destruct K as [A1 A2]. destruct (kept_t _ _ _ _ _ Ej) as (B1 & B2). split; congruence. }
    destruct (taccept j j0 p fin Hk Ek Ekeep Ej) as (Ep & x & I1 & I2 & I3).
    change (is_hd isx fin) with (ci_hd fin). rewrite (tfar_over _ _ I1 ltac:(destruct I2; lra)).
    cbn [is_post cylinder_isector cylinder_post bind]. eexists _, j0, x. split; [reflexivity|]. cbn [h_distance h_prim h_normal].
    split; [exact Hk|]. split; [exact Ep|]. split; [exact I1|]. split; [exact I2|exact I3].
Qed.
End F.
