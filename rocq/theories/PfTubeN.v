(** Normals of cylinders with rounding: what the routine stores, and turning it into the given coordinates. *)

From Coq Require Import Reals ZArith Bool Lra Lia Psatz Floats.SpecFloat.
From Flocq Require Import Core IEEE754.BinarySingleNaN.
From Verif Require Import Num NumR NumF Vec Cylinder SpecReal SpecIEEE SpecTriF SpecSphF SpecPlane SpecPlaneF.
From Verif Require Import PfIEEE PfIEEE2 PfIEEE3 PfTriF PfDirF PfX PfSphF PfSphF2 PfSphN PfPlane PfPlaneF PfPlaneF2 PfPlaneF3.

(** The stored normals. *)
Section Forms.
Context {T : Type} {N : num T}.
Local Open Scope num_scope.
Variables (a b h : T) (rot : mat T) (org dir : vec T).
Notation pt t := (vadd org (vscaler dir t)).
Notation T0 := (cyl_t0 a b (vx org) (vy org) (vx dir) (vy dir)).
Notation T1 := (cyl_t1 a b (vx org) (vy org) (vx dir) (vy dir)).
Definition on_side (t : T) : Prop :=
  (cyl_C a b (vx org) (vy org) (vx dir) (vy dir) <? n0) = false /\ (t = T0 \/ t = T1) /\ (n0 <? t) = true /\
  (vz (pt t) <=? h / n2) = true /\ (- h / n2 <=? vz (pt t)) = true.
Definition on_cap (n : vec T) (t : T) : Prop := exists nz zc, ((nz = n1 /\ zc = h / n2) \/ (nz = - n1 /\ zc = - h / n2)) /\
  n = cyl_rot_normal rot (V n0 n0 nz) /\ t = (zc - vz org) / vz dir.
Definition turned (n : vec T) (t : T) : Prop := on_side t /\ n = cyl_rot_normal rot (cyl_side_normal a b (pt t)).
Definition beyond : Prop := (h / n2 <? vz org) = true \/ (vz org <? - h / n2) = true \/
  (a * a * b * b <? vx org * vx org * b * b + vy org * vy org * a * a) = true.
Definition within : Prop := (- h / n2 <=? vz org) = true /\ (vz org <=? h / n2) = true /\
  (vx org * vx org * b * b + vy org * vy org * a * a <=? a * a * b * b) = true.
Definition unturned (n : vec T) (t : T) : Prop := on_side t /\ n = cyl_side_normal a b (pt t) /\ (vz dir =? n0) = false /\ within.

Lemma outside_forms n t : cyl_outside a b h rot org dir = Some (n, t) -> turned n t.
Proof.
  unfold cyl_outside. destruct (_ <? n0) eqn:C; [discriminate|].
  destruct (_ && _ && _ && _)%bool eqn:B1.
  - apply andb_prop in B1 as [B1 B4]. apply andb_prop in B1 as [B1 B3]. apply andb_prop in B1 as [B1 B2]. intros E. injection E as <- <-.
    split; [|reflexivity]. repeat split; auto.
  - destruct (_ && _ && _ && _)%bool eqn:B2 in |- *; [|discriminate].
    apply andb_prop in B2 as [B2 B4]. apply andb_prop in B2 as [B2 B3]. apply andb_prop in B2 as [B2 B5]. intros E. injection E as <- <-.
    split; [|reflexivity]. repeat split; auto.
Qed.
Lemma beyond_forms zc nz n t : (nz = n1 /\ zc = h / n2) \/ (nz = - n1 /\ zc = - h / n2) ->
  cyl_beyond a b h zc nz rot org dir = Some (n, t) -> on_cap n t \/ turned n t.
Proof.
  intros Z. unfold cyl_beyond. destruct (_ =? _); [discriminate|]. destruct (_ <? _); [discriminate|]. destruct (_ <=? _).
  - intros E. injection E as <- <-. left. exists nz, zc. auto.
  - intros E. right. apply outside_forms, E.
Qed.
Lemma caps_forms n t : cyl_caps h rot org dir = Some (n, t) -> on_cap n t.
Proof.
  unfold cyl_caps. destruct (_ <? _); [intros E; injection E as <- <-; exists (- n1), (- h / n2); auto|].
  destruct (_ <? _); [intros E; injection E as <- <-; exists n1, (h / n2); auto|discriminate].
Qed.
Lemma inside_forms turn n t : cyl_inside a b h rot turn org dir = Some (Some (n, t)) ->
  on_side t /\ ((t = T1 /\ n = cyl_rot_normal rot (cyl_side_normal a b (pt t))) \/
                n = (if turn then cyl_rot_normal rot (cyl_side_normal a b (pt t)) else cyl_side_normal a b (pt t))).
Proof.
  unfold cyl_inside. destruct (_ <? n0) eqn:C; [discriminate|].
  destruct (_ && _ && _)%bool eqn:B1.
  - apply andb_prop in B1 as [B1 B3]. apply andb_prop in B1 as [B1 B2]. intros E. injection E as <- <-. split; [repeat split; auto|left; auto].
  - destruct (_ && _ && _)%bool eqn:B2 in |- *; [|discriminate].
    apply andb_prop in B2 as [B2 B4]. apply andb_prop in B2 as [B2 B3]. intros E. injection E as <- <-. split; [repeat split; auto|right; reflexivity].
Qed.
Lemma local_forms n t : cyl_local a b h rot org dir = Some (n, t) ->
  on_cap n t \/ (turned n t /\ (t = T1 \/ (vz dir =? n0) = true \/ beyond)) \/ unturned n t.
Proof.
  unfold cyl_local. set (in4 := (_ && _ && _)%bool).
  assert (G : forall m s, (if in4 then cyl_area4 a b h rot org dir else None) = Some (m, s) ->
    on_cap m s \/ (turned m s /\ (s = T1 \/ (vz dir =? n0) = true \/ beyond)) \/ unturned m s).
  { intros m s. destruct in4 eqn:I; [|discriminate]. unfold in4 in I. apply andb_prop in I as [I I3]. apply andb_prop in I as [I1 I2]. unfold cyl_area4.
    destruct (vz dir =? n0) eqn:El.
    - destruct ((vz org =? - h / n2) || (vz org =? h / n2))%bool; [discriminate|]. destruct (cyl_inside a b h rot true org dir) as [[[m' s']|]|] eqn:E; try discriminate.
      intros F. injection F as <- <-. destruct (inside_forms _ _ _ E) as [S [[_ F]|F]]; right; left; (split; [split; [exact S|exact F]|auto]).
    - destruct ((vx dir =? n0) && (vy dir =? n0))%bool; [destruct (b * b * vx org * vx org + a * a * vy org * vy org =? a * a * b * b); [discriminate|]; intros F; left; apply caps_forms, F|].
      destruct (cyl_inside a b h rot false org dir) as [[[m' s']|]|] eqn:E; [| |discriminate].
      + intros F. injection F as <- <-. destruct (inside_forms _ _ _ E) as [S [[F1 F]|F]]; right; [left; split; [split; [exact S|exact F]|auto]|right].
        split; [exact S|]. split; [exact F|]. split; [exact El|]. split; [exact I1|split; assumption].
      + intros F. left. apply caps_forms, F. }
  destruct (h / n2 <? vz org) eqn:A1.
  { destruct (cyl_beyond _ _ _ (h / n2) _ _ _ _) as [[m s]|] eqn:E; [|apply G]. intros F. injection F as <- <-.
    destruct (beyond_forms _ _ _ _ (or_introl (conj eq_refl eq_refl)) E) as [F|F]; [left; exact F|right; left; split; [exact F|right; right; left; exact A1]]. }
  destruct (vz org <? - h / n2) eqn:A2.
  { destruct (cyl_beyond _ _ _ (- h / n2) _ _ _ _) as [[m s]|] eqn:E; [|apply G]. intros F. injection F as <- <-.
    destruct (beyond_forms _ _ _ _ (or_intror (conj eq_refl eq_refl)) E) as [F|F]; [left; exact F|right; left; split; [exact F|right; right; right; left; exact A2]]. }
  clearbody in4. destruct (_ && _ && _)%bool eqn:A3; [|apply G]. apply andb_prop in A3 as [_ A3].
  destruct (cyl_outside a b h rot org dir) as [[m s]|] eqn:E; [|apply G]. intros F. injection F as <- <-.
  right. left. split; [apply outside_forms, E|right; right; right; right; exact A3].
Qed.
End Forms.

Local Open Scope R_scope.
Section F.
Variables prec emax : Z.
Context {Hprec : Prec_gt_0 prec} {Hmax : Prec_lt_emax prec emax}.
Hypothesis Hfmt : usual_format prec emax.
Notation FN := (Fnum prec emax).
Notation isf := (isF prec emax).
Notation rd := (rnd prec emax).
Notation u := (ulpf prec).
Notation low0 := (least emax).
Notation hi0 := (top emax).
Notation q := (/ 1000000).

(** The length. *)
Lemma norm_rel d D : visF prec emax d D -> 4096 * u <= rv_norm D <= / u ->
  exists n, isf (@norm _ FN d) n /\ Rabs (n - rv_norm D) <= 2.52 * (u * rv_norm D).
Proof.
  intros (H1 & H2 & H3) [HL HH]. set (L := rv_norm D) in *.
  pose proof (u_pos prec) as U0. pose proof (u_small prec emax Hfmt) as U1. pose proof (top_u prec emax Hfmt) as Ht. pose proof (low_u prec emax Hfmt) as Hl.
  assert (U2 : 1000000 <= / u). { rewrite <- (Rinv_inv 1000000). apply Rinv_le_contravar; lra. }
  assert (L0 : 0 < L) by lra.
  assert (LL : vx D * vx D + vy D * vy D + vz D * vz D = L * L).
  { unfold L, rv_norm. rewrite sqrt_sqrt; [reflexivity|]. unfold rv_dot. pose proof (Rle_0_sqr (vx D)). pose proof (Rle_0_sqr (vy D)). pose proof (Rle_0_sqr (vz D)). unfold Rsqr in *. lra. }
  assert (L1 : 4096 * u * (4096 * u) <= L * L) by (apply Rmult_le_compat; lra).
  assert (L3 : 0 < L * L) by (apply Rmult_lt_0_compat; lra).
  assert (L2 : L * L <= / u * / u) by (apply Rmult_le_compat; lra).
  pose proof (Rle_0_sqr (vx D)) as X0. pose proof (Rle_0_sqr (vy D)) as Y0. pose proof (Rle_0_sqr (vz D)) as Z0. unfold Rsqr in *.
  assert (ST : forall a, Rabs a <= 1.1 * (L * L) -> Rabs (rd a) < top emax /\ Rabs (rd a - a) <= u * Rabs a + / 1000000 * u * (1.1 * (L * L))).
  { intros a Ha. pose proof (rd_abs prec emax Hfmt a) as E. pose proof (rd_low prec emax a) as E'. split.
    - pose proof (Rabs_triang (rd a - a) a) as Q. replace (rd a - a + a) with (rd a) in Q by ring. pose proof (Rabs_pos a).
      assert (u * Rabs a <= / 1000000 * Rabs a) by (apply Rmult_le_compat_r; lra). assert (1000000 * 1000000 <= / u * / u) by (apply Rmult_le_compat; lra). lra.
    - pose proof (low_uuu prec emax Hfmt) as LU. assert (/ 1000000 * u * (4096 * u * (4096 * u)) <= / 1000000 * u * (L * L)) by (apply Rmult_le_compat_l; lra).
      assert (0 <= / 1000000 * u * (L * L)) by (apply Rmult_le_pos; [|apply Rmult_le_pos]; lra). lra. }
  assert (MU : forall x a, isf x a -> a * a <= L * L -> exists p, isf (@nmul _ FN x x) p /\ Rabs (p - a * a) <= u * (a * a) + / 1000000 * u * (1.1 * (L * L))).
  { intros x a Hx Ha. pose proof (Rle_0_sqr a) as A0. unfold Rsqr in A0. destruct (ST (a * a)) as [S1 S2]; [rewrite Rabs_pos_eq; lra|].
    exists (rd (a * a)). split; [apply (isF_mul prec emax); assumption|]. rewrite (Rabs_pos_eq (a * a)) in S2 by lra. exact S2. }
  destruct (MU _ _ H1 ltac:(lra)) as (p1 & I1 & E1). destruct (MU _ _ H2 ltac:(lra)) as (p2 & I2 & E2). destruct (MU _ _ H3 ltac:(lra)) as (p3 & I3 & E3).
  apply Rabs_le_inv in E1. apply Rabs_le_inv in E2. apply Rabs_le_inv in E3.
  assert (V1 : u * (L * L) <= / 1000000 * (L * L)) by (apply Rmult_le_compat_r; lra).
  assert (V2 : 0 < u * (L * L)) by (apply Rmult_lt_0_compat; lra).
  assert (VX : u * (vx D * vx D) <= / 1000000 * (vx D * vx D)) by (apply Rmult_le_compat_r; lra).
  assert (VY : u * (vy D * vy D) <= / 1000000 * (vy D * vy D)) by (apply Rmult_le_compat_r; lra).
  assert (VZ : u * (vz D * vz D) <= / 1000000 * (vz D * vz D)) by (apply Rmult_le_compat_r; lra).
  assert (WL : u * (u * (L * L)) <= / 1000000 * (u * (L * L))) by (apply Rmult_le_compat_r; lra).
  destruct (ST (p1 + p2)) as [A1 A2]; [apply Rabs_le; lra|].
  assert (I12 := isF_add prec emax _ _ _ _ I1 I2 A1). set (s1 := rd (p1 + p2)) in *.
  assert (B12 : Rabs (p1 + p2) <= (1 + 3 * / 1000000) * (L * L)) by (apply Rabs_le; lra).
  assert (C12 : Rabs (p1 + p2) <= vx D * vx D + vy D * vy D + 2 * (u * (L * L))).
  { apply Rabs_le. assert (u * (vx D * vx D) + u * (vy D * vy D) <= u * (L * L)) by (rewrite <- Rmult_plus_distr_l; apply Rmult_le_compat_l; lra).
    assert (0 <= u * (vx D * vx D)) by (apply Rmult_le_pos; lra). assert (0 <= u * (vy D * vy D)) by (apply Rmult_le_pos; lra). split; lra. }
  assert (A3 : Rabs (s1 - (p1 + p2)) <= u * (vx D * vx D + vy D * vy D) + 0.00001 * (u * (L * L))).
  { eapply Rle_trans; [exact A2|]. assert (u * Rabs (p1 + p2) <= u * (vx D * vx D + vy D * vy D + 2 * (u * (L * L)))) by (apply Rmult_le_compat_l; lra). lra. }
  apply Rabs_le_inv in A3.
  assert (UX : 0 <= u * (vx D * vx D)) by (apply Rmult_le_pos; lra).
  assert (UY : 0 <= u * (vy D * vy D)) by (apply Rmult_le_pos; lra).
  assert (UZ : 0 <= u * (vz D * vz D)) by (apply Rmult_le_pos; lra).
  assert (UL : u * (vx D * vx D) + u * (vy D * vy D) + u * (vz D * vz D) = u * (L * L)) by (rewrite <- LL; ring).
  destruct (ST (s1 + p3)) as [G1 G2]; [apply Rabs_le; lra|].
  assert (I123 := isF_add prec emax _ _ _ _ I12 I3 G1). set (s2 := rd (s1 + p3)) in *.
  assert (C3 : Rabs (s1 + p3) <= L * L + 5 * (u * (L * L))) by (apply Rabs_le; split; lra).
  assert (G3 : Rabs (s2 - (s1 + p3)) <= 1.0001 * (u * (L * L))).
  { eapply Rle_trans; [exact G2|]. assert (u * Rabs (s1 + p3) <= u * (L * L + 5 * (u * (L * L)))) by (apply Rmult_le_compat_l; lra). lra. }
  apply Rabs_le_inv in G3.
  assert (S2 : Rabs (s2 - L * L) <= 3.01 * (u * (L * L))) by (apply Rabs_le; split; lra).
  apply Rabs_le_inv in S2. assert (S0 : 0 <= s2) by lra.
  pose proof (isF_sqrt prec emax _ _ I123 S0) as Isq.
  assert (Q1 : sqrt s2 <= L * (1 + 1.51 * u)).
  { rewrite <- (sqrt_Rsqr (L * (1 + 1.51 * u))) by (apply Rmult_le_pos; lra). apply sqrt_le_1_alt. unfold Rsqr.
    apply Rle_trans with (L * L + 3.01 * (u * (L * L))); [lra|]. replace (L * (1 + 1.51 * u) * (L * (1 + 1.51 * u))) with (L * L + 2 * 1.51 * (u * (L * L)) + 1.51 * 1.51 * (u * (u * (L * L)))) by ring.
    assert (0 <= u * (u * (L * L))) by (apply Rmult_le_pos; lra). lra. }
  assert (Q2 : L * (1 - 1.51 * u) <= sqrt s2).
  { rewrite <- (sqrt_Rsqr (L * (1 - 1.51 * u))) by (apply Rmult_le_pos; lra). apply sqrt_le_1_alt. unfold Rsqr.
    apply Rle_trans with (L * L - 3.01 * (u * (L * L))); [|lra]. replace (L * (1 - 1.51 * u) * (L * (1 - 1.51 * u))) with (L * L - 2 * 1.51 * (u * (L * L)) + 1.51 * 1.51 * (u * (u * (L * L)))) by ring. lra. }
  assert (UL1 : u * L <= / 1000000 * L) by (apply Rmult_le_compat_r; lra).
  assert (UL0 : 0 < u * L) by (apply Rmult_lt_0_compat; lra).
  assert (UUL : u * (u * L) <= / 1000000 * (u * L)) by (apply Rmult_le_compat_r; lra).
  pose proof (rd_rel prec emax (sqrt s2)) as R. rewrite Rabs_pos_eq in R by lra. specialize (R ltac:(lra)). apply Rabs_le_inv in R.
  assert (R' : u * sqrt s2 <= u * (L * (1 + 1.51 * u))) by (apply Rmult_le_compat_l; lra).
  set (n := rd (sqrt s2)) in *.
  assert (N1 : Rabs (n - L) <= 2.52 * (u * L)) by (apply Rabs_le; split; lra).
  exists n. split; [exact Isq|exact N1].
Qed.

(** A unit vector turned. *)
Lemma turned_near m Q g D : rot_near prec emax m Q -> visF prec emax g D -> 4096 * u <= rv_norm D <= / u ->
  exists K, visF prec emax (@cyl_rot_normal _ FN m g) K /\ coords (25 * u) (rv_sub K (rv_mul Q (unit_of D))).
Proof.
  intros (HQ & A & (A1 & A2 & A3) & E1 & E2 & E3) Hg HL. destruct (norm_rel g D Hg HL) as (n & Hn & En).
  pose proof (u_pos prec) as U0. pose proof (u_small prec emax Hfmt) as U1. pose proof (top_u prec emax Hfmt) as Tp.
  assert (Iu : 1000000 <= / u). { rewrite <- (Rinv_inv 1000000). apply Rinv_le_contravar; lra. }
  destruct (comp_norm D) as (D1 & D2 & D3). destruct (rows_unit Q HQ) as (R1 & R2 & R3). destruct Hg as (G1 & G2 & G3). set (l := rv_norm D) in *.
  assert (uL : 0 < u * l) by (apply Rmult_lt_0_compat; lra). assert (uL' : u * l <= q * l) by (apply Rmult_le_compat_r; lra).
  assert (Lw : 2 * low0 <= q * (u * l)).
  { pose proof (low_uuu prec emax Hfmt) as X. eapply Rle_trans; [exact X|]. rewrite Rmult_assoc. apply Rmult_le_compat_l; [lra|].
    apply Rmult_le_compat_l; [lra|]. apply Rle_trans with (4096 * u * 1); [apply Rmult_le_compat_l; lra|lra]. }
  assert (Tl : 1000 * l <= hi0 / 2).
  { apply Rle_trans with (1000 * (/ u)); [lra|]. assert (/ u * 1 <= / u * / u) by (apply Rmult_le_compat_l; lra). lra. }
  apply Rabs_le_inv in En.
  assert (ST : forall x, Rabs x <= 4 * l -> Rabs (rd x) < hi0 /\ Rabs (rd x - x) <= u * Rabs x + q * (u * l)).
  { intros x Hx. split; [apply (rd_half_top prec emax (p6 prec emax Hfmt)); lra|]. pose proof (rd_low prec emax x). lra. }
  assert (MU : forall x y p v w, isf x p -> isf y v -> Rabs (p - w) <= 4 * u -> Rabs w <= 1 -> Rabs v <= l ->
    exists s, isf (@nmul _ FN x y) s /\ Rabs (s - w * v) <= 5.01 * (u * l) /\ Rabs s <= 1.001 * l).
  { intros x y p v w Hx Hy Hp Hw Hv.
    assert (Ap : Rabs p <= 1.0001) by (apply Rabs_le_inv in Hp, Hw; apply Rabs_le; lra).
    assert (Pp : Rabs (p * v) <= 1.0001 * l) by (apply Rabs_mul_le2; assumption).
    destruct (ST (p * v) ltac:(lra)) as [S1 S2]. exists (rd (p * v)). split; [apply (isF_mul prec emax); assumption|].
    assert (u * Rabs (p * v) <= u * (1.0001 * l)) by (apply Rmult_le_compat_l; lra).
    assert (X : Rabs ((p - w) * v) <= 4 * u * l) by (apply Rabs_mul_le2; assumption).
    split.
    - replace (rd (p * v) - w * v) with ((rd (p * v) - p * v) + (p - w) * v) by ring. eapply Rle_trans; [apply Rabs_two; [exact S2|exact X]|]. lra.
    - pose proof (Rabs_triang (rd (p * v) - p * v) (p * v)) as Y. replace (rd (p * v) - p * v + p * v) with (rd (p * v)) in Y by ring. lra. }
  assert (RW : forall row P W, visF prec emax row P -> coords (4 * u) (rv_sub P W) -> rv_norm W = 1 ->
    exists k, isf (@ndiv _ FN (@dot _ FN row g) (@norm _ FN g)) k /\ Rabs (k - rv_dot W (unit_of D)) <= 25 * u).
  { intros row P W (H1 & H2 & H3) (F1 & F2 & F3) HW. destruct (comp_norm W) as (W1 & W2 & W3). rewrite HW in W1, W2, W3. cbn [rv_sub vx vy vz] in F1, F2, F3.
    destruct (MU _ _ _ _ _ H1 G1 F1 W1 D1) as (s1 & I1 & X1 & Y1). destruct (MU _ _ _ _ _ H2 G2 F2 W2 D2) as (s2 & I2 & X2 & Y2). destruct (MU _ _ _ _ _ H3 G3 F3 W3 D3) as (s3 & I3 & X3 & Y3).
    assert (Y4 : Rabs (s1 + s2) <= 2.002 * l) by (eapply Rle_trans; [apply Rabs_two; eassumption|]; lra).
    destruct (ST (s1 + s2) ltac:(lra)) as [S1 S2]. assert (I4 := isF_add prec emax _ _ _ _ I1 I2 S1). set (s4 := rd (s1 + s2)) in *.
    assert (u * Rabs (s1 + s2) <= u * (2.002 * l)) by (apply Rmult_le_compat_l; lra).
    assert (X4 : Rabs (s4 - (s1 + s2)) <= 2.01 * (u * l)) by lra.
    assert (Y5 : Rabs (s4 + s3) <= 3.1 * l).
    { replace (s4 + s3) with ((s4 - (s1 + s2)) + ((s1 + s2) + s3)) by ring. eapply Rle_trans; [apply Rabs_two; [exact X4|apply Rabs_two; eassumption]|]. lra. }
    destruct (ST (s4 + s3) ltac:(lra)) as [S3 S4]. assert (I5 := isF_add prec emax _ _ _ _ I4 I3 S3). set (s5 := rd (s4 + s3)) in *.
    assert (u * Rabs (s4 + s3) <= u * (3.1 * l)) by (apply Rmult_le_compat_l; lra).
    assert (X5 : Rabs (s5 - (s4 + s3)) <= 3.11 * (u * l)) by lra.
    assert (X6 : Rabs (s5 - rv_dot W D) <= 20.2 * (u * l)).
    { unfold rv_dot. replace (s5 - (vx W * vx D + vy W * vy D + vz W * vz D)) with
        ((s5 - (s4 + s3)) + ((s4 - (s1 + s2)) + ((s1 - vx W * vx D) + ((s2 - vy W * vy D) + (s3 - vz W * vz D))))) by ring.
      eapply Rle_trans; [apply Rabs_two; [exact X5|apply Rabs_two; [exact X4|apply Rabs_two; [exact X1|apply Rabs_two; [exact X2|exact X3]]]]|]. lra. }
    assert (CS : Rabs (rv_dot W D) <= l). { pose proof (rv_dot_abs W D) as X. rewrite HW, Rmult_1_l in X. exact X. }
    assert (N0 : 0 < n) by lra.
    set (w := rv_dot W D) in *. assert (EU : rv_dot W (unit_of D) = w / l).
    { unfold w, unit_of, rv_dot, rv_scale. fold l. cbn [vx vy vz]. field. lra. }
    assert (Z1 : Rabs (s5 / n - w / l) <= 23 * u).
    { replace (s5 / n - w / l) with ((s5 - w) / n + (w / l) * ((l - n) / n)) by (field; lra).
      assert (IN : / n <= 1.001 * / l). { apply Rmult_le_reg_r with (n * l); [apply Rmult_lt_0_compat; lra|]. replace (/ n * (n * l)) with l by (field; lra). replace (1.001 * / l * (n * l)) with (1.001 * n) by (field; lra). lra. }
      assert (J0 : 0 < / n) by (apply Rinv_0_lt_compat; lra). assert (J1 : 0 < / l) by (apply Rinv_0_lt_compat; lra).
      assert (P1 : Rabs ((s5 - w) / n) <= 20.2 * (u * l) * (1.001 * / l)).
      { unfold Rdiv. rewrite Rabs_mult, (Rabs_pos_eq (/ n)) by lra. apply Rmult_le_compat; [apply Rabs_pos|lra|exact X6|exact IN]. }
      assert (P2 : Rabs (w / l) <= 1).
      { unfold Rdiv. rewrite Rabs_mult, (Rabs_pos_eq (/ l)) by lra. apply Rmult_le_reg_r with l; [lra|]. rewrite Rmult_assoc, Rinv_l by lra. lra. }
      assert (P3 : Rabs ((l - n) / n) <= 2.52 * (u * l) * (1.001 * / l)).
      { unfold Rdiv. rewrite Rabs_mult, (Rabs_pos_eq (/ n)) by lra. apply Rmult_le_compat; [apply Rabs_pos|lra| |exact IN]. apply Rabs_le. lra. }
      replace (20.2 * (u * l) * (1.001 * / l)) with (20.2 * 1.001 * u * (l * / l)) in P1 by ring. replace (2.52 * (u * l) * (1.001 * / l)) with (2.52 * 1.001 * u * (l * / l)) in P3 by ring. rewrite Rinv_r in P1, P3 by lra.
      eapply Rle_trans; [apply Rabs_two; [exact P1|apply (Rabs_mul_le2 _ _ _ _ P2 P3)]|]. lra. }
    assert (Z2 : Rabs (s5 / n) <= 1.001).
    { pose proof (Rabs_triang (s5 / n - w / l) (w / l)) as Y. replace (s5 / n - w / l + w / l) with (s5 / n) in Y by ring.
      assert (P2 : Rabs (w / l) <= 1).
      { unfold Rdiv. rewrite Rabs_mult, (Rabs_pos_eq (/ l)) by (apply Rlt_le, Rinv_0_lt_compat; lra). apply Rmult_le_reg_r with l; [lra|]. rewrite Rmult_assoc, Rinv_l by lra. lra. }
      lra. }
    pose proof (rd_abs prec emax Hfmt (s5 / n)) as Z3. assert (u * Rabs (s5 / n) <= u * 1.001) by (apply Rmult_le_compat_l; lra).
    exists (rd (s5 / n)). split.
    - apply (isF_div prec emax); [exact I5|exact Hn|lra|]. apply (rd_half_top prec emax (p6 prec emax Hfmt)). assert (/ u * 1 <= / u * / u) by (apply Rmult_le_compat_l; lra). lra.
    - rewrite EU. replace (rd (s5 / n) - w / l) with ((rd (s5 / n) - s5 / n) + (s5 / n - w / l)) by ring. eapply Rle_trans; [apply Rabs_two; [exact Z3|exact Z1]|]. lra. }
  destruct (RW _ _ _ A1 E1 R1) as (k1 & K1 & L1). destruct (RW _ _ _ A2 E2 R2) as (k2 & K2 & L2). destruct (RW _ _ _ A3 E3 R3) as (k3 & K3 & L3).
  exists (V k1 k2 k3). split; (split; [|split]); assumption.
Qed.
Lemma unit_norm D : 0 < rv_norm D -> rv_norm (unit_of D) = 1.
Proof. intros H. unfold unit_of. rewrite rv_norm_scale, Rabs_pos_eq by (apply Rlt_le, Rinv_0_lt_compat, H). apply Rinv_l. lra. Qed.
Lemma unit_same w : rv_norm w = 1 -> unit_of w = w.
Proof. intros H. unfold unit_of, rv_scale. rewrite H, Rinv_1. destruct w as [w1 w2 w3]. cbn [vx vy vz]. f_equal; ring. Qed.
(** The final normalisation. *)
Lemma renormalized n K w : visF prec emax n K -> coords (25 * u) (rv_sub K w) -> rv_norm w = 1 ->
  exists N, visF prec emax (@normalize _ FN n) N /\ coords (80 * u) (rv_sub N w).
Proof.
  intros Hn Hk Hw. pose proof (u_pos prec) as U0. pose proof (u_small prec emax Hfmt) as U1. destruct Hk as (E1 & E2 & E3).
  assert (Nd : rv_norm (rv_sub K w) <= 44 * u) by (eapply Rle_trans; [apply (norm_const (25 * u)); [lra|assumption..]|]; lra).
  pose proof (norm_sub_le K w) as N1. pose proof (norm_sub_le w K) as N2. rewrite norm_sub_sym in N2. rewrite Hw in N1, N2.
  assert (Iu : 1000000 <= / u). { rewrite <- (Rinv_inv 1000000). apply Rinv_le_contravar; lra. }
  destruct (normalize_near prec emax Hfmt n K Hn ltac:(split; lra)) as (_ & N & HN & G1 & G2 & G3).
  destruct (unit_close K w (25 * u) (44 * u) ltac:(lra) ltac:(lra) ltac:(split; [|split]; assumption) Nd) as (F1 & F2 & F3).
  rewrite (unit_same w Hw) in F1, F2, F3. rewrite Hw in F1, F2, F3.
  exists N. split; [exact HN|].
  assert (J : forall x y z, Rabs (x - y) <= 5 * u -> Rabs (y - z) <= (25 * u + 44 * u) / 1 -> Rabs (x - z) <= 80 * u).
  { intros x y z H1 H2. replace (x - z) with ((x - y) + (y - z)) by ring. eapply Rle_trans; [apply Rabs_two; eassumption|]. lra. }
  unfold coords, rv_sub in *. cbn [vx vy vz] in *. split; [|split]; eapply J; eassumption.
Qed.
End F.
