(** The cylinder routine with rounding: from the cylinder's own coordinates to the given ones. *)

From Coq Require Import Reals ZArith Bool Lra Lia Psatz Floats.SpecFloat.
From Flocq Require Import Core IEEE754.BinarySingleNaN Mult_error.
From Verif Require Import Num NumR NumF Vec Ray Cylinder SpecReal SpecIEEE SpecTri SpecTriF SpecSphF SpecPlane SpecPlaneF SpecTubeF.
From Verif Require Import PfIEEE PfIEEE2 PfIEEE3 PfTriF PfDirF PfX PfSphF PfSphF2 PfPlane PfPlaneF PfPlaneF2 PfPlaneF3 PfTubeF PfTubeF2 PfTubeF3 PfTubeF6 PfTubeF7 PfTubeF8 PfTubeF9.
Local Open Scope R_scope.

(** Points close to each other. *)
Lemma rr_move a b r x y x' y' m d : 0 < r -> r <= a -> r <= b -> 0 <= m -> 0 <= d -> rr a b x y <= m * m -> Rabs (x' - x) <= d * r -> Rabs (y' - y) <= d * r ->
  rr a b x' y' <= rr a b x y + 4 * (m * d) + 2 * (d * d).
Proof.
  intros R0 Ra Rb M0 D0 Hm Hx Hy. unfold rr in *.
  assert (G : forall c z z', r <= c -> (z / c) * (z / c) <= m * m -> Rabs (z' - z) <= d * r -> (z' / c) * (z' / c) <= (z / c) * (z / c) + 2 * (m * d) + d * d).
  { intros c z z' Hc Hz Hd. set (w := z / c) in *. set (g := (z' - z) / c). assert (Ed : z' / c = w + g) by (unfold w, g; field; lra). rewrite Ed.
    assert (Ag : Rabs g <= d).
    { unfold g, Rdiv. rewrite Rabs_mult, (Rabs_pos_eq (/ c)) by (apply Rlt_le, Rinv_0_lt_compat; lra). apply Rmult_le_reg_r with c; [lra|]. rewrite Rmult_assoc, Rinv_l by lra.
      assert (d * r <= d * c) by (apply Rmult_le_compat_l; lra). lra. }
    assert (Aw : Rabs w <= m) by (apply Rabs_le; split; nra).
    assert (P1 : Rabs (w * g) <= m * d) by (rewrite Rabs_mult; apply Rmult_le_compat; try apply Rabs_pos; assumption).
    assert (P2 : Rabs (g * g) <= d * d) by (rewrite Rabs_mult; apply Rmult_le_compat; try apply Rabs_pos; assumption).
    apply Rabs_le_inv in P1, P2. nra. }
  pose proof (Rle_0_sqr (x / a)) as S1. pose proof (Rle_0_sqr (y / b)) as S2. unfold Rsqr in S1, S2.
  pose proof (G a x x' Ra ltac:(lra) Hx). pose proof (G b y y' Rb ltac:(lra) Hy). lra.
Qed.
Lemma rr_small a b r x y n : 0 < r -> r <= a -> r <= b -> x * x + y * y <= n * n -> rr a b x y <= n / r * (n / r).
Proof.
  intros R0 Ra Rb H. unfold rr.
  assert (G : forall c z, r <= c -> (z / c) * (z / c) <= z * z * (/ r * / r)).
  { intros c z Hc. replace (z / c * (z / c)) with (z * z * (/ c * / c)) by (field; lra). apply Rmult_le_compat_l; [apply Rle_0_sqr|].
    assert (/ c <= / r) by (apply Rinv_le; lra). assert (0 < / c) by (apply Rinv_0_lt_compat; lra). apply Rmult_le_compat; lra. }
  pose proof (G a x Ra). pose proof (G b y Rb). replace (n / r * (n / r)) with (n * n * (/ r * / r)) by (field; lra).
  assert (0 < / r) by (apply Rinv_0_lt_compat; lra). assert ((x * x + y * y) * (/ r * / r) <= n * n * (/ r * / r)) by (apply Rmult_le_compat_r; [apply Rmult_le_pos; lra|exact H]). lra.
Qed.
Lemma rr_wide a b N x y : 0 < a <= N -> 0 < b <= N -> x * x + y * y <= rr a b x y * (N * N).
Proof.
  intros Ha Hb. unfold rr.
  assert (G : forall c z, 0 < c <= N -> z * z <= (z / c) * (z / c) * (N * N)).
  { intros c z Hc. replace (z * z) with (z / c * (z / c) * (c * c)) at 1 by (field; lra). apply Rmult_le_compat_l; [apply Rle_0_sqr|]. apply Rmult_le_compat; lra. }
  pose proof (G a x Ha). pose proof (G b y Hb). lra.
Qed.

Lemma sq_abs w s : 0 <= s -> w * w <= s * s -> Rabs w <= s.
Proof. intros S H. rewrite <- (Rabs_pos_eq s S). apply Rsqr_le_abs_0. exact H. Qed.

Lemma at_0 (o d : vec R) : at_t o d 0 = o.
Proof. destruct o as [p1 p2 p3]. unfold at_t, rv_add, rv_scale. cbn [vx vy vz]. f_equal; ring. Qed.

Section F.
Variables prec emax : Z.
Context {Hprec : Prec_gt_0 prec} {Hmax : Prec_lt_emax prec emax}.
Notation FN := (Fnum prec emax).
Notation isf := (isF prec emax).
Notation rd := (rnd prec emax).
Notation u := (ulpf prec).
Notation low0 := (least emax).
Notation hi0 := (top emax).
Notation q := (/ 1000000).

Lemma half_exact fh h : isf fh (2 * h) -> low0 <= h -> rd h = h.
Proof.
  intros Hh Lh. apply round_generic; [typeclasses eauto|]. replace h with (2 * h * bpow radix2 (-1)) by (cbn; lra).
  apply (mult_bpow_exact_FLT radix2 (SpecFloat.emin prec emax) prec).
  - change (generic_format radix2 (SpecFloat.fexp prec emax) (2 * h)). rewrite <- (rd_id prec emax _ _ Hh). apply generic_format_round; typeclasses eauto.
  - assert (4 - emax <= Raux.mag radix2 (2 * h))%Z; [|unfold SpecFloat.emin; lia]. apply mag_ge_bpow.
    replace (4 - emax - 1)%Z with (3 - emax - 1 + 1)%Z by ring. rewrite bpow_plus. fold (least emax). pose proof (low_pos emax). rewrite Rabs_pos_eq by lra.
    replace (bpow radix2 1) with 2 by reflexivity. lra.
Qed.

Variables (M r v : R) (o d c : vec spec_float) (fa fb fh : spec_float) (m : mat spec_float) (O U C : vec R) (a b h : R) (Q : mat R) (B : vec R).
Hypothesis Ht : tube_ray prec emax M r v o d c fa fb fh m O U C a b h Q B.
Definition Hfmt := tu_format _ _ _ _ _ _ _ _ _ _ _ _ _ _ _ _ _ _ _ _ Ht.
Definition HM := tu_scale _ _ _ _ _ _ _ _ _ _ _ _ _ _ _ _ _ _ _ _ Ht.
Definition Ho := tu_org _ _ _ _ _ _ _ _ _ _ _ _ _ _ _ _ _ _ _ _ Ht.
Definition Hd := tu_dir _ _ _ _ _ _ _ _ _ _ _ _ _ _ _ _ _ _ _ _ Ht.
Notation z := (@n0 _ FN).
Lemma Hp : plane_isF prec emax M O c z z m C 0 0 Q.
Proof.
  assert (1 <= M) by apply HM. split; [apply Ht|]. split; [apply zero_isF|]. split; [apply zero_isF|]. split; [apply Ht|]. split; [lra|]. split; [lra|apply Ht].
Qed.
Notation L := (local C Q O).
Notation W := (rv_mul (rv_trans Q) U).
Definition forg := @mulmv _ FN (trans m) (@vsub _ FN o c).
Definition fdir := @mulmv _ FN (trans m) d.

Definition sizes := uM_facts prec emax Hfmt M HM.
Lemma k_facts : 0 < r /\ 0 < M / r /\ 1 <= M / r /\ 8192 * (u * (M / r * (M / r))) <= 1 /\ u * (M / r) <= u * (M / r * (M / r)).
Proof.
  destruct sizes as (U0 & U1 & V1 & UM & _). destruct (tu_v _ _ _ _ _ _ _ _ _ _ _ _ _ _ _ _ _ _ _ _ Ht) as (V0 & V2 & _). destruct (tu_sizes _ _ _ _ _ _ _ _ _ _ _ _ _ _ _ _ _ _ _ _ Ht) as (A & _).
  assert (r0 : 0 < r) by lra. assert (k1 : 1 <= M / r) by (apply Rmult_le_reg_r with r; [exact r0|]; unfold Rdiv; rewrite Rmult_assoc, Rinv_l by lra; lra).
  split; [exact r0|]. split; [lra|]. split; [exact k1|]. pose proof (tu_large _ _ _ _ _ _ _ _ _ _ _ _ _ _ _ _ _ _ _ _ Ht) as Lg. split.
  - replace (8192 * (u * (M / r * (M / r)))) with (8192 * u * (M * M) * / (r * r)) by (field; lra).
    apply Rmult_le_reg_r with (r * r); [apply Rmult_lt_0_compat; lra|]. rewrite Rmult_assoc, Rinv_l by (apply Rgt_not_eq, Rmult_lt_0_compat; lra). lra.
  - apply Rmult_le_compat_l; [lra|]. rewrite <- (Rmult_1_l (M / r)) at 1. apply Rmult_le_compat_r; lra.
Qed.
Lemma dir_off : off (19 * u) B W /\ rv_norm (rv_sub B W) <= 33 * u /\ 1 - 33 * u <= rv_norm B <= 1 + 33 * u.
Proof.
  destruct sizes as (U0 & U1 & _). destruct (dir_F prec emax Hfmt M HM c d z z m O C U 0 0 Q Hd Hp) as (B' & (B1 & B2 & B3) & E).
  destruct (tu_local _ _ _ _ _ _ _ _ _ _ _ _ _ _ _ _ _ _ _ _ Ht) as (C1 & C2 & C3).
  assert (EB : B' = B). { destruct B' as [p1 p2 p3], B as [q1 q2 q3]. cbn [vx vy vz] in *. f_equal; [apply (isF_fun prec emax _ _ _ B1 C1)|apply (isF_fun prec emax _ _ _ B2 C2)|apply (isF_fun prec emax _ _ _ B3 C3)]. }
  subst B'. split; [exact E|]. destruct E as (E1 & E2 & E3).
  assert (NB : rv_norm (rv_sub B W) <= 33 * u) by (eapply Rle_trans; [apply (norm_const (19 * u)); [lra|assumption..]|]; lra).
  split; [exact NB|]. pose proof (norm_sub_le B W) as N1. pose proof (norm_sub_le W B) as N2. rewrite norm_sub_sym in N2.
  rewrite (W_norm prec emax M c d z z m O C U 0 0 Q Hd Hp) in N1, N2. lra.
Qed.
Lemma org_off : exists A, visF prec emax forg A /\ off (11 * (u * M)) A L /\ rv_norm A <= 1.001 * M.
Proof.
  destruct sizes as (U0 & U1 & V1 & UM & UM1 & UM2 & _). destruct (org_F prec emax Hfmt M HM o c z z m O C 0 0 Q Ho Hp) as (A & HA & E1 & E2 & E3).
  exists A. split; [exact HA|]. split; [split; [exact E1|split; assumption]|].
  assert (NA : rv_norm (rv_sub A L) <= 1.7321 * (11 * (u * M))) by (apply (norm_const (11 * (u * M))); [lra|assumption..]).
  pose proof (norm_sub_le A L) as N1. pose proof (L0_norm prec emax M c z z m O C 0 0 Q Hp). lra.
Qed.
Definition Rm := 1.002 * (M / r).
Definition WW := 1.01 * (M * M / r).
Lemma sq_norm (w : vec R) n : rv_norm w <= n -> vx w * vx w + vy w * vy w + vz w * vz w <= n * n.
Proof.
  intros H. pose proof (rv_norm_sq w) as E. unfold rv_dot in E. pose proof (rv_norm_nonneg w). rewrite <- E. apply Rmult_le_compat; lra.
Qed.
Lemma tame_here A : visF prec emax forg A -> rv_norm A <= 1.001 * M ->
  tame_local prec emax v WW a b h (vx A) (vy A) (vz A) (vx B) (vy B) (vz B) Rm fa fb fh (vx forg) (vy forg) (vz forg) (vx fdir) (vy fdir) (vz fdir).
Proof.
  intros HA NA. destruct sizes as (U0 & U1 & V1 & UM & UM1 & UM2 & LP & LS & T1 & T2). destruct k_facts as (r0 & k0 & k1 & k2 & k3).
  destruct (tu_v _ _ _ _ _ _ _ _ _ _ _ _ _ _ _ _ _ _ _ _ Ht) as (V0 & V2 & V3). destruct (tu_sizes _ _ _ _ _ _ _ _ _ _ _ _ _ _ _ _ _ _ _ _ Ht) as (Sa & Sb & Sh).
  destruct dir_off as (_ & _ & NB). pose proof (sq_norm A _ NA) as SA. pose proof (sq_norm B _ (proj2 NB)) as SB.
  assert (MW : M <= M * M / r) by (replace (M * M / r) with (M * (M / r)) by (field; lra); rewrite <- (Rmult_1_r M) at 1; apply Rmult_le_compat_l; lra).
  assert (KW : M / r <= M * M / r) by (replace (M * M / r) with (M * (M / r)) by (field; lra); rewrite <- (Rmult_1_l (M / r)) at 1; apply Rmult_le_compat_r; lra).
  destruct (comp_norm A) as (A1 & A2 & A3). destruct (comp_norm B) as (B1 & B2 & B3).
  pose proof (Rle_0_sqr (vx A)) as Q1. pose proof (Rle_0_sqr (vy A)) as Q2. pose proof (Rle_0_sqr (vz A)) as Q3. unfold Rsqr in Q1, Q2, Q3.
  pose proof (Rle_0_sqr (vx B)) as P1. pose proof (Rle_0_sqr (vy B)) as P2. pose proof (Rle_0_sqr (vz B)) as P3. unfold Rsqr in P1, P2, P3.
  assert (low1 : low0 <= v). { apply Rle_trans with (v ^ 4); [exact V3|]. pose proof (v_pow v V0) as (X1 & X2 & X3 & X4). lra. }
  assert (HW1 : 1 <= WW) by (unfold WW; lra).
  pose proof (tu_h _ _ _ _ _ _ _ _ _ _ _ _ _ _ _ _ _ _ _ _ Ht) as Hh.
  pose proof (half_exact fh h Hh ltac:(lra)) as Eh.
  unfold WW, Rm in *. set (k := M / r) in *.
  assert (ak : forall x, r <= x <= M -> x * (1.002 * k) <= 1.01 * (M * M / r)).
  { intros x Hx. assert (x * k <= M * k) by (apply Rmult_le_compat_r; lra). assert (0 <= M * k) by (apply Rmult_le_pos; lra). replace (M * M / r) with (M * k) by (unfold k; field; lra). lra. }
  constructor.
  - lra.
  - exact HW1.
  - exact V3.
  - pose proof (tu_top _ _ _ _ _ _ _ _ _ _ _ _ _ _ _ _ _ _ _ _ Ht) as Tp. rewrite Rpow_mult_distr. assert (P : 0 <= (M * M / r) ^ 4) by (apply pow_le; lra). set (p := (M * M / r) ^ 4) in *.
    assert (E : 1.01 ^ 4 <= 2) by (cbn [pow]; lra). assert (1.01 ^ 4 * p <= 2 * p) by (apply Rmult_le_compat_r; assumption). lra.
  - lra.
  - lra.
  - lra.
  - lra.
  - lra.
  - apply ak, Sa.
  - apply ak, Sb.
  - eapply Rle_trans; [apply (rr_small a b r _ _ (1.001 * M)); lra|]. replace (1.001 * M / r) with (1.001 * k) by (unfold k; field; lra).
    assert (0 <= k * k) by (apply Rmult_le_pos; lra). lra.
  - assert (0 <= u * (k * k)) by (apply Rmult_le_pos; [lra|apply Rmult_le_pos; lra]). lra.
  - destruct (tu_across _ _ _ _ _ _ _ _ _ _ _ _ _ _ _ _ _ _ _ _ Ht) as [Z|D]; [left; exact Z|right]. fold k in D.
    assert (Rp : 0 < rr a b (vx B) (vy B)).
    { unfold rr. pose proof (Rle_0_sqr (vx B / a)) as Y1. pose proof (Rle_0_sqr (vy B / b)) as Y2. unfold Rsqr in Y1, Y2.
      assert (vk : 0 < v * k) by (apply Rmult_lt_0_compat; lra).
      destruct D as [D|D]; [assert (0 < vx B / a * (vx B / a))|assert (0 < vy B / b * (vy B / b))]; try lra; apply Rsqr_pos_lt; intros E;
        [assert (vx B = 0) by (replace (vx B) with (vx B / a * a) by (field; lra); rewrite E; ring)|assert (vy B = 0) by (replace (vy B) with (vy B / b * b) by (field; lra); rewrite E; ring)];
        match goal with X : _ = 0 |- _ => rewrite X, Rabs_R0 in D end; lra. }
    set (s := sqrt (rr a b (vx B) (vy B))). assert (s0 : 0 < s) by (apply sqrt_lt_R0, Rp). assert (ss : rr a b (vx B) (vy B) = s * s) by (symmetry; apply sqrt_sqrt; lra).
    assert (sl : v * / r <= s).
    { assert (G : forall x, r <= x <= M -> forall w, v * k <= Rabs w -> w / x * (w / x) <= s * s -> v * / r <= s).
      { intros x Hx w Hw Hs. assert (Aw : Rabs (w / x) <= s) by (apply sq_abs; [lra|exact Hs]). eapply Rle_trans; [|exact Aw].
        unfold Rdiv. rewrite Rabs_mult, (Rabs_pos_eq (/ x)) by (apply Rlt_le, Rinv_0_lt_compat; lra).
        apply Rle_trans with (v * k * / M); [right; unfold k; field; lra|]. apply Rmult_le_compat; [apply Rmult_le_pos; lra|apply Rlt_le, Rinv_0_lt_compat; lra|exact Hw|]. apply Rinv_le; lra. }
      pose proof (Rle_0_sqr (vx B / a)) as Y1. pose proof (Rle_0_sqr (vy B / b)) as Y2. unfold Rsqr in Y1, Y2. unfold rr in ss.
      destruct D as [D|D]; [apply (G a Sa _ D)|apply (G b Sb _ D)]; lra. }
    assert (sh : s <= 1.001 * / r).
    { assert (Hs : s * s <= 1.001 * / r * (1.001 * / r)).
      { rewrite <- ss. eapply Rle_trans; [apply (rr_small a b r _ _ (1 + 33 * u)); lra|]. unfold Rdiv. assert (0 < / r) by (apply Rinv_0_lt_compat, r0).
        apply Rmult_le_compat; try (apply Rmult_le_pos; lra); apply Rmult_le_compat_r; lra. }
      assert (0 < / r) by (apply Rinv_0_lt_compat, r0). pose proof (sq_abs s (1.001 * / r) ltac:(lra) Hs) as K. rewrite Rabs_pos_eq in K by lra. exact K. }
    exists s. split; [exact s0|]. split; [exact ss|].
    assert (G : forall x, r <= x <= M -> v <= x * s <= 1.01 * (M * M / r)).
    { intros x Hx. split.
      - replace v with (r * (v * / r)) by (field; lra). apply Rmult_le_compat; [lra|apply Rmult_le_pos; [lra|apply Rlt_le, Rinv_0_lt_compat, r0]|lra|exact sl].
      - apply Rle_trans with (M * (1.001 * / r)); [apply Rmult_le_compat; lra|]. replace (M * (1.001 * / r)) with (1.001 * k) by (unfold k, Rdiv; lra). lra. }
    split; apply G; assumption.
  - apply (tu_along _ _ _ _ _ _ _ _ _ _ _ _ _ _ _ _ _ _ _ _ Ht).
  - lra.
  - apply Ht.
  - apply Ht.
  - apply HA.
  - apply HA.
  - apply HA.
  - apply Ht.
  - apply Ht.
  - apply Ht.
  - rewrite <- Eh. replace h with (2 * h / 2) by lra. apply (isF_div prec emax); [exact Hh|apply (two_isF prec emax Hfmt)|lra|]. replace (2 * h / 2) with h by lra. rewrite Eh, Rabs_pos_eq; lra.
  - rewrite <- Eh, <- (rd_opp prec emax). replace (- h) with (- (2 * h) / 2) by lra. apply (isF_div prec emax); [apply (isF_opp prec emax), Hh|apply (two_isF prec emax Hfmt)|lra|].
    replace (- (2 * h) / 2) with (- h) by lra. rewrite (rd_opp prec emax), Rabs_Ropp, Eh, Rabs_pos_eq; lra.
Qed.

Notation e := (tube_err prec M r).
Notation ez := (cap_err prec M).
Notation X t := (local C Q (at_t O U t)).
Notation k := (M / r).
Definition near3 (P Y : vec R) : Prop := Rabs (vx Y - vx P) <= 200 * (u * M) /\ Rabs (vy Y - vy P) <= 200 * (u * M) /\ Rabs (vz Y - vz P) <= 200 * (u * M).
Lemma near3_sym P Y : near3 P Y -> near3 Y P.
Proof. intros (H1 & H2 & H3). split; [|split]; rewrite Rabs_minus_sym; assumption. Qed.
Lemma near_pt A t x : off (11 * (u * M)) A L -> Rabs t <= 3.35 * M -> Rabs (x - t) <= 125 * (u * M) -> near3 (at_t A B t) (X x).
Proof.
  intros (E1 & E2 & E3) Tl Tx. rewrite (local_at O C U Q x). destruct sizes as (U0 & U1 & V1 & UM & UM1 & UM2 & _). destruct dir_off as ((D1 & D2 & D3) & _).
  destruct (W_le prec emax M c d z z m O C U 0 0 Q Hd Hp) as (W1 & W2 & W3).
  assert (G : forall p l g w, Rabs (p - l) <= 11 * (u * M) -> Rabs (g - w) <= 19 * u -> Rabs w <= 1 -> Rabs (l + x * w - (p + t * g)) <= 200 * (u * M)).
  { intros p l g w Hp' Hg Hw. replace (l + x * w - (p + t * g)) with (- (p - l) + (- t * (g - w)) + (x - t) * w) by ring.
    assert (N1 : Rabs (- (p - l)) <= 11 * (u * M)) by (rewrite Rabs_Ropp; exact Hp').
    assert (N2 : Rabs (- t * (g - w)) <= 3.35 * M * (19 * u)) by (apply Rabs_mul_le2; [rewrite Rabs_Ropp; exact Tl|exact Hg]).
    assert (N3 : Rabs ((x - t) * w) <= 125 * (u * M) * 1) by (apply Rabs_mul_le2; assumption).
    eapply Rle_trans; [apply Rabs_two; [apply Rabs_two; [exact N1|exact N2]|exact N3]|]. lra. }
  split; [|split]; cbn [at_t vx vy vz]; apply G; assumption.
Qed.
Lemma rad_move P Y : near3 P Y -> radial a b P <= 1.3 -> radial a b Y <= radial a b P + 960 * (u * (k * k)).
Proof.
  intros (H1 & H2 & _) Hr. destruct k_facts as (r0 & k0 & k1 & k2 & k3). destruct sizes as (U0 & U1 & V1 & UM & _).
  destruct (tu_sizes _ _ _ _ _ _ _ _ _ _ _ _ _ _ _ _ _ _ _ _ Ht) as (Sa & Sb & Sh). set (dd' := 200 * (u * k)).
  assert (D0 : 0 <= u * k) by (apply Rmult_le_pos; lra).
  assert (dr : 200 * (u * M) = dd' * r) by (unfold dd'; field; lra).
  pose proof (rr_move a b r (vx P) (vy P) (vx Y) (vy Y) 1.15 dd' r0 ltac:(lra) ltac:(lra) ltac:(lra) ltac:(unfold dd'; lra) ltac:(unfold rr; unfold radial in Hr; lra) ltac:(lra) ltac:(lra)) as G.
  unfold rr in G. unfold radial. eapply Rle_trans; [exact G|].
  assert (dd : dd' * dd' <= 5 * (u * k)). { unfold dd'. replace (200 * (u * k) * (200 * (u * k))) with (40000 * (u * k) * (u * k)) by ring. apply Rmult_le_compat_r; lra. }
  unfold dd' in *. lra.
Qed.
Lemma el_le : 192 * u * (Rm * Rm) + 960 * (u * (k * k)) <= e /\ 0 <= e <= 0.25 /\ 0 <= 192 * u * (Rm * Rm) <= 0.03.
Proof.
  destruct k_facts as (r0 & k0 & k1 & k2 & k3). destruct sizes as (U0 & U1 & V1 & UM & _). unfold tube_err, Rm.
  assert (0 <= u * (k * k)) by (apply Rmult_le_pos; [lra|apply Rmult_le_pos; lra]). lra.
Qed.
Lemma ezl_le A : rv_norm A <= 1.001 * M -> 0 <= PfTubeF6.ez prec h (vz A) /\ PfTubeF6.ez prec h (vz A) + 200 * (u * M) <= ez /\ ez <= 0.001 * M.
Proof.
  intros NA. rewrite (ez_is prec h (vz A)). destruct sizes as (U0 & U1 & V1 & UM & UM1 & UM2 & _). destruct (comp_norm A) as (_ & _ & A3). destruct k_facts as (r0 & _).
  destruct (tu_sizes _ _ _ _ _ _ _ _ _ _ _ _ _ _ _ _ _ _ _ _ Ht) as (Sa & Sb & Sh). unfold cap_err. pose proof (Rabs_pos (vz A)).
  assert (0 <= u * (h + Rabs (vz A))) by (apply Rmult_le_pos; lra).
  assert (u * (h + Rabs (vz A)) <= u * (2.001 * M)) by (apply Rmult_le_compat_l; lra). lra.
Qed.
Lemma reach (N' D : vec R) t : rv_norm N' <= 1.001 * M -> 1 - 33 * u <= rv_norm D -> radial a b (at_t N' D t) <= 1.05 -> Rabs (vz (at_t N' D t)) <= 1.002 * M -> Rabs t <= 2.5 * M.
Proof.
  intros HN HD Hr Hz. destruct sizes as (U0 & U1 & V1 & UM & UM1 & UM2 & _). destruct k_facts as (r0 & _).
  destruct (tu_sizes _ _ _ _ _ _ _ _ _ _ _ _ _ _ _ _ _ _ _ _ Ht) as (Sa & Sb & Sh).
  set (P' := at_t N' D t) in *. pose proof (rr_wide a b M (vx P') (vy P') ltac:(lra) ltac:(lra)) as Wd. change (rr a b (vx P') (vy P')) with (radial a b P') in Wd.
  assert (MM : 0 < M * M) by (apply Rmult_lt_0_compat; lra).
  assert (W2 : radial a b P' * (M * M) <= 1.05 * (M * M)) by (apply Rmult_le_compat_r; lra).
  assert (Z2 : vz P' * vz P' <= 1.002 * M * (1.002 * M)).
  { assert (Rabs (vz P') * Rabs (vz P') <= 1.002 * M * (1.002 * M)) as T by (apply Rmult_le_compat; try apply Rabs_pos; assumption). rewrite <- Rabs_mult, Rabs_pos_eq in T; [exact T|apply Rle_0_sqr]. }
  assert (NP : rv_norm P' <= 1.45 * M).
  { pose proof (rv_norm_sq P') as E. unfold rv_dot in E. pose proof (rv_norm_nonneg P') as NN. pose proof (sq_abs (rv_norm P') (1.45 * M) ltac:(lra)) as K. rewrite Rabs_pos_eq in K by exact NN. apply K. lra. }
  assert (Tn : Rabs t * rv_norm D <= 2.452 * M).
  { rewrite <- rv_norm_scale. replace (rv_scale t D) with (rv_sub P' N').
    - pose proof (norm_sub_le (rv_sub P' N') P') as T. replace (rv_norm (rv_sub (rv_sub P' N') P')) with (rv_norm N') in T; [lra|].
      unfold rv_norm, rv_dot, rv_sub. cbn [vx vy vz]. f_equal. ring.
    - unfold P', at_t, rv_add, rv_sub, rv_scale. cbn [vx vy vz]. f_equal; ring. }
  assert (0.999 * Rabs t <= rv_norm D * Rabs t) by (apply Rmult_le_compat_r; [apply Rabs_pos|lra]). lra.
Qed.

(** The answer of the routine. *)
Lemma isect_shape st ray id : ci_org st = o -> ci_dir st = d ->
  @cylinder_intersect _ FN st (Cylinder c fa fb fh m id) ray =
  match @cyl_local _ FN fa fb fh m forg fdir with
  | None => (false, st)
  | Some (n, t) => (true, CylIsect n o d (ci_min st) (ci_uv st) (@norm _ FN (@vscale _ FN t fdir)) (Some id))
  end.
Proof. intros E1 E2. unfold cylinder_intersect. cbn [cy_center cy_a cy_b cy_h cy_rot cy_id]. rewrite E1, E2. reflexivity. Qed.
Lemma V_eta (w : vec spec_float) : V (vx w) (vy w) (vz w) = w. Proof. destruct w. reflexivity. Qed.
Section Here.
Variable A : vec R.
Hypothesis HA : visF prec emax forg A.
Hypothesis OA : off (11 * (u * M)) A L.
Hypothesis NA : rv_norm A <= 1.001 * M.
Notation el := (192 * u * (Rm * Rm)).
Notation ezl := (PfTubeF6.ez prec h (vz A)).
Notation P t := (at_t A B t).
Notation ih := (PfTubeF8.in_hit prec a b h (vx A) (vy A) (vz A) (vx B) (vy B) (vz B) Rm).
Definition TL := tame_here A HA NA.
Lemma X0 : L = X 0. Proof. rewrite at_0. reflexivity. Qed.
Lemma P0 : P 0 = A. Proof. apply at_0. Qed.
Lemma near_0 : near3 A L.
Proof. destruct sizes as (U0 & U1 & V1 & UM & _). rewrite X0, <- P0. apply near_pt; [exact OA|rewrite Rabs_R0; lra|rewrite Rminus_eq_0, Rabs_R0; lra]. Qed.
(** From the routine's coordinates to the exact ones and back. *)
Lemma to_in Y Z : near3 Y Z -> radial a b Y <= 1 + el -> radial a b Z <= 1 + e.
Proof. intros N H. destruct el_le as (E1 & E2 & E3). pose proof (rad_move Y Z N ltac:(lra)). lra. Qed.
Lemma to_deep Y Z : near3 Y Z -> radial a b Y < 1 - e -> radial a b Z < 1 - el.
Proof. intros N H. destruct el_le as (E1 & E2 & E3). pose proof (rad_move Y Z N ltac:(lra)). lra. Qed.
Lemma z_near Y Z : near3 Y Z -> Rabs (vz Z) <= Rabs (vz Y) + 200 * (u * M).
Proof. intros (_ & _ & N). pose proof (Rabs_triang (vz Z - vz Y) (vz Y)) as T. replace (vz Z - vz Y + vz Y) with (vz Z) in T by ring. lra. Qed.
Lemma hit_far t : ih t -> 0 <= t <= 2.5 * M.
Proof.
  intros (T0 & Hr & Hz & _). split; [exact T0|]. rewrite <- (Rabs_pos_eq t T0). destruct el_le as (E1 & E2 & E3). destruct (ezl_le A NA) as (Z0 & Z1 & Z2).
  destruct (tu_sizes _ _ _ _ _ _ _ _ _ _ _ _ _ _ _ _ _ _ _ _ Ht) as (Sa & Sb & Sh). destruct sizes as (U0 & U1 & V1 & UM & _).
  apply (reach A B); [exact NA|apply dir_off|unfold radial; cbn [at_t rv_add rv_scale vx vy vz]; unfold rr in Hr; lra|cbn [at_t rv_add rv_scale vx vy vz]; lra].
Qed.
Lemma hit_on t x : ih t -> near3 (P t) (X x) -> on_tube e ez a b h (X x).
Proof.
  intros (T0 & Hr & Hz & Hs) N. destruct el_le as (E1 & E2 & E3). destruct (ezl_le A NA) as (Z0 & Z1 & Z2).
  change (radial a b (P t) <= 1 + el) in Hr. change (Rabs (vz (P t)) <= h + ezl) in Hz. change (1 - el <= radial a b (P t) \/ h - ezl <= Rabs (vz (P t))) in Hs.
  pose proof (z_near _ _ N). split; [split; [apply (to_in _ _ N Hr)|lra]|]. pose proof (z_near _ _ (near3_sym _ _ N)).
  destruct Hs as [Hs|Hs]; [left|right; lra]. apply Rnot_lt_le. intros Lt. pose proof (to_deep _ _ (near3_sym _ _ N) Lt). lra.
Qed.
Lemma deep_back t x : near3 (P t) (X x) -> deep_in e ez a b h (X x) -> radial a b (P t) < 1 - el /\ Rabs (vz (P t)) < h - ezl.
Proof.
  intros N (Hr & Hz). destruct (ezl_le A NA) as (Z0 & Z1 & Z2). split; [apply (to_deep _ _ (near3_sym _ _ N) Hr)|]. pose proof (z_near _ _ (near3_sym _ _ N)). lra.
Qed.
Lemma in_forth t x : near3 (P t) (X x) -> radial a b (P t) <= 1 + el -> Rabs (vz (P t)) <= h + ezl -> in_tube e ez a b h (X x).
Proof.
  intros N Hr Hz. destruct (ezl_le A NA) as (Z0 & Z1 & Z2). split; [apply (to_in _ _ N Hr)|]. pose proof (z_near _ _ N). lra.
Qed.
Lemma out_org : outside e ez a b h L -> h < Rabs (vz A) \/ 1 + el < rr a b (vx A) (vy A).
Proof.
  intros [H|H]; destruct (ezl_le A NA) as (Z0 & Z1 & Z2); [left; pose proof (z_near _ _ near_0); lra|right]. apply Rnot_le_lt. intros Le.
  pose proof (to_in _ _ near_0 Le). lra.
Qed.
Lemma clear_org : clear_outside e ez a b h L -> h < Rabs (vz A) \/ (Rabs (vz A) < h /\ 1 + el < rr a b (vx A) (vy A)).
Proof.
  intros [H|[Hz H]]; destruct (ezl_le A NA) as (Z0 & Z1 & Z2); [left; pose proof (z_near _ _ near_0); lra|right]. split; [pose proof (z_near _ _ (near3_sym _ _ near_0)); lra|].
  apply Rnot_le_lt. intros Le. pose proof (to_in _ _ near_0 Le). lra.
Qed.
Lemma deep_org : deep_in e ez a b h L -> Rabs (vz A) <= h /\ rr a b (vx A) (vy A) < 1 - el /\ Rabs (vz A) < h.
Proof.
  intros (Hr & Hz). destruct (ezl_le A NA) as (Z0 & Z1 & Z2). pose proof (z_near _ _ (near3_sym _ _ near_0)). split; [lra|]. split; [|lra].
  apply (to_deep _ _ (near3_sym _ _ near_0) Hr).
Qed.
(** Between the origin and the hit. *)
Lemma clamp t x t' : 0 <= t -> Rabs (x - t) <= 125 * (u * M) -> 0 <= t' <= x -> exists t2, 0 <= t2 <= t /\ Rabs (t' - t2) <= 125 * (u * M).
Proof.
  intros T0 Tx Ht'. destruct sizes as (U0 & U1 & V1 & UM & _). apply Rabs_le_inv in Tx. destruct (Rle_lt_dec t' t) as [Le|Gt].
  - exists t'. split; [lra|]. rewrite Rminus_eq_0, Rabs_R0. lra.
  - exists t. split; [lra|]. apply Rabs_le. lra.
Qed.
Lemma far_here ft t : isf ft t -> 0 <= t <= 2.5 * M -> exists x, isf (@norm _ FN (@vscale _ FN ft fdir)) x /\ 0 <= x <= 3 * M /\ Rabs (x - t) <= 125 * (u * M).
Proof.
  intros Hft Tl. destruct sizes as (U0 & U1 & V1 & UM & UM1 & UM2 & _).
  destruct (far_F prec emax Hfmt M HM c d z z m O C U 0 0 Q Hd Hp ft t Hft) as (x & Hx & X0' & Ex); [rewrite Rabs_pos_eq; lra|].
  rewrite (Rabs_pos_eq t) in Ex by lra. exists x. split; [exact Hx|]. split; [|exact Ex]. apply Rabs_le_inv in Ex. lra.
Qed.
Lemma X_dist t t2 : t2 <= 2.5 * M -> 0 <= t2 -> Rabs (t - t2) <= 125 * (u * M) -> near3 (P t2) (X t).
Proof. intros. destruct sizes as (U0 & U1 & V1 & UM & _). apply near_pt; [exact OA|rewrite Rabs_pos_eq; lra|assumption]. Qed.
End Here.

Lemma tube_from_outside st ray id st' : ci_org st = o -> ci_dir st = d -> @cylinder_intersect _ FN st (Cylinder c fa fb fh m id) ray = (true, st') ->
  outside e ez a b h L ->
  ci_prim st' = Some id /\ exists x, isf (ci_hd st') x /\ 0 <= x <= 3 * M /\ on_tube e ez a b h (X x) /\ forall t, 0 <= t <= x -> ~ deep_in e ez a b h (X t).
Proof.
  intros So Sd. rewrite (isect_shape st ray id So Sd). destruct (@cyl_local _ FN fa fb fh m forg fdir) as [[n ft]|] eqn:E; [|discriminate].
  intros I Out. apply (f_equal snd) in I. cbn [snd] in I. rewrite <- I. cbn [ci_prim ci_hd]. split; [reflexivity|].
  destruct org_off as (A & HA & OA & NA). rewrite <- (V_eta forg), <- (V_eta fdir) in E.
  destruct (local_out prec emax Hfmt v WW a b h (vx A) (vy A) (vz A) (vx B) (vy B) (vz B) Rm fa fb fh _ _ _ _ _ _ (tame_here A HA NA) m n ft (out_org A OA NA Out) E) as (t & Htt & Hit & Bef).
  pose proof (hit_far A NA t Hit) as Tl. destruct (far_here ft t Htt Tl) as (x & Hx & Xl & Ex).
  exists x. split; [exact Hx|]. split; [exact Xl|]. split; [apply (hit_on A NA t x Hit); apply X_dist; [exact OA|lra..|exact Ex]|].
  intros t' Ht' Dp. destruct (clamp t x t' (proj1 Tl) Ex Ht') as (t2 & T2 & E2). pose proof (X_dist A OA t' t2 ltac:(lra) ltac:(lra) E2) as N.
  apply (Bef t2 T2). apply (deep_back A NA t2 t' N Dp).
Qed.
Lemma tube_from_inside st ray id : ci_org st = o -> ci_dir st = d -> deep_in e ez a b h L ->
  exists st' x, @cylinder_intersect _ FN st (Cylinder c fa fb fh m id) ray = (true, st') /\ ci_prim st' = Some id /\ isf (ci_hd st') x /\ 0 <= x <= 3 * M /\
    on_tube e ez a b h (X x) /\ forall t, 0 <= t <= x -> in_tube e ez a b h (X t).
Proof.
  intros So Sd Dp. rewrite (isect_shape st ray id So Sd). destruct org_off as (A & HA & OA & NA). destruct (deep_org A OA NA Dp) as (D1 & D2 & D3).
  destruct dir_off as (_ & _ & NB). destruct sizes as (U0 & U1 & V1 & UM & UM1 & UM2 & _).
  destruct (local_in prec emax Hfmt v WW a b h (vx A) (vy A) (vz A) (vx B) (vy B) (vz B) Rm fa fb fh _ _ _ _ _ _ (tame_here A HA NA) m D1 D2) as (n & ft & t & E & Htt & Hit).
  { intros [Z [Z1|[Z1 Z2]]]; [lra|]. assert (N0 : rv_norm B = 0) by (unfold rv_norm, rv_dot; rewrite Z, Z1, Z2; replace (0 * 0 + 0 * 0 + 0 * 0) with 0 by ring; apply sqrt_0). lra. }
  rewrite !V_eta in E. rewrite E.
  pose proof (hit_far A NA t Hit) as Tl. destruct (far_here ft t Htt Tl) as (x & Hx & Xl & Ex).
  eexists _, x. split; [reflexivity|]. cbn [ci_prim ci_hd]. split; [reflexivity|]. split; [exact Hx|]. split; [exact Xl|].
  split; [apply (hit_on A NA t x Hit); apply X_dist; [exact OA|lra..|exact Ex]|].
  intros t' Ht'. destruct (clamp t x t' (proj1 Tl) Ex Ht') as (t2 & T2 & E2). pose proof (X_dist A OA t' t2 ltac:(lra) ltac:(lra) E2) as N.
  destruct Hit as (T0 & Hr & Hz & _). destruct el_le as (E1 & E2' & E3). destruct (ezl_le A NA) as (Z0 & Z1 & Z2). destruct k_facts as (r0 & _).
  destruct (tu_sizes _ _ _ _ _ _ _ _ _ _ _ _ _ _ _ _ _ _ _ _ Ht) as (Sa & Sb & Sh).
  apply (in_forth A NA t2 t' N).
  - apply (rr_convex a b (vx A) (vy A) (vx B) (vy B) _ t t2); [lra|lra| |exact Hr|lra]. lra.
  - apply Rabs_le. apply (lin_between (vz A) (vz B) t t2); [|apply Rabs_le_inv, Hz|lra]. apply Rabs_le_inv in D1. lra.
Qed.
Lemma tube_not_missed st ray id t' : ci_org st = o -> ci_dir st = d -> clear_outside e ez a b h L -> 0 <= t' -> deep_in e ez a b h (X t') ->
  (forall t, 0 <= t <= t' -> ~ near_rim e ez a b h (X t)) ->
  exists st' x, @cylinder_intersect _ FN st (Cylinder c fa fb fh m id) ray = (true, st') /\ isf (ci_hd st') x /\ x < t'.
Proof.
  intros So Sd Cl T0 Dp Rim. destruct org_off as (A & HA & OA & NA).
  destruct sizes as (U0 & U1 & V1 & UM & UM1 & UM2 & _). destruct el_le as (E1 & E2 & E3). destruct (ezl_le A NA) as (Z0 & Z1 & Z2). destruct k_facts as (r0 & _).
  destruct (tu_sizes _ _ _ _ _ _ _ _ _ _ _ _ _ _ _ _ _ _ _ _ Ht) as (Sa & Sb & Sh).
  assert (Tl : t' <= 2.5 * M).
  { rewrite <- (Rabs_pos_eq t' T0). destruct Dp as [Dr Dz]. rewrite (local_at O C U Q t') in Dr, Dz. apply (reach L W).
    - pose proof (L0_norm prec emax M c z z m O C 0 0 Q Hp). lra.
    - rewrite (W_norm prec emax M c d z z m O C U 0 0 Q Hd Hp). lra.
    - lra.
    - lra. }
  assert (Nr : forall t, 0 <= t <= t' -> near3 (at_t A B t) (X t)) by (intros t Htt; apply X_dist; [exact OA|lra|lra|rewrite Rminus_eq_0, Rabs_R0; lra]).
  destruct (deep_back A NA t' t' (Nr t' ltac:(lra)) Dp) as [Dr Dz].
  destruct (local_hits prec emax Hfmt v WW a b h (vx A) (vy A) (vz A) (vx B) (vy B) (vz B) Rm fa fb fh _ _ _ _ _ _ (tame_here A HA NA) m t' (clear_org A OA NA Cl) T0 Dr Dz) as (n & ft & E).
  { intros t Htt [Rr Rz]. apply (Rim t Htt). specialize (Nr t Htt). change (rr a b (vx A + t * vx B) (vy A + t * vy B)) with (radial a b (at_t A B t)) in Rr. change (vz A + t * vz B) with (vz (at_t A B t)) in Rz.
    apply Rabs_le_inv in Rr, Rz. split; apply Rabs_le.
    - split.
      + apply Rnot_lt_le. intros Lt. pose proof (to_deep _ _ (near3_sym _ _ Nr) ltac:(lra)). lra.
      + assert (radial a b (X t) <= 1 + e) by (apply (to_in _ _ Nr); lra). lra.
    - pose proof (z_near _ _ Nr). pose proof (z_near _ _ (near3_sym _ _ Nr)). lra. }
  rewrite !V_eta in E.
  assert (I : exists st', @cylinder_intersect _ FN st (Cylinder c fa fb fh m id) ray = (true, st')) by (rewrite (isect_shape st ray id So Sd), E; eauto).
  destruct I as (st' & I). destruct (tube_from_outside st ray id st' So Sd I) as (_ & x & Hx & Xl & _ & Bef).
  { destruct Cl as [Cl|[_ Cl]]; [left|right]; exact Cl. }
  exists st', x. split; [exact I|]. split; [exact Hx|]. apply Rnot_le_lt. intros Le. apply (Bef t'); [lra|exact Dp].
Qed.
End F.
