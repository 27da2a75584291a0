(** The plane routine in IEEE arithmetic: accepted hits are near, clear hits are accepted. *)

From Coq Require Import Reals ZArith Bool Lra Lia Psatz Floats.SpecFloat.
From Flocq Require Import Core IEEE754.BinarySingleNaN.
From Verif Require Import Num NumR NumF Vec Ray Plane SpecReal SpecIEEE SpecTriF SpecSphF SpecPlane SpecPlaneF.
From Verif Require Import PfIEEE PfIEEE2 PfIEEE3 PfTriF PfTriF2 PfDirF PfX PfSphF PfSphF2 PfSphN PfPlane PfPlaneF PfPlaneF2 PfPlaneF3.
Local Open Scope R_scope.

Lemma well_inside X l h D k e : Rabs (X - l) <= k -> Rabs l + e <= D -> D < h + (e - k) -> Rabs X < h.
Proof. intros H1 H2 H3. pose proof (Rabs_triang (X - l) l) as T. replace (X - l + l) with X in T by ring. lra. Qed.
Lemma same_sign s a l k e : (s = -1 \/ s = 1) -> Rabs (a - l) <= k -> k < e -> e <= Rabs l -> 0 < s * a -> 0 < s * l.
Proof. intros Hs H1 H2 H3 H4. apply Rabs_le_inv in H1. unfold Rabs in H3. destruct Hs as [-> | ->], (Rcase_abs l); lra. Qed.

Section F.
Variables prec emax : Z.
Context {Hprec : Prec_gt_0 prec} {Hmax : Prec_lt_emax prec emax}.
Hypothesis Hfmt : usual_format prec emax.
Notation FN := (Fnum prec emax).
Notation isf := (isF prec emax).
Notation rd := (rnd prec emax).
Notation u := (ulpf prec).
Notation low0 := (least emax).
Notation hi0 := (top emax).
Notation q := (/ 1000000).
Variable M : R.
Hypothesis HM : scale_ok prec emax M.
Variables (o c d : vec spec_float) (fdx fdy : spec_float) (m : mat spec_float) (O C U : vec R) (dx dy : R) (Q : mat R).
Hypothesis Ho : visF prec emax o O.
Hypothesis Hd : unit_near prec emax d U.
Hypothesis Hp : plane_isF prec emax M O c fdx fdy m C dx dy Q.
Notation L0 := (local C Q O).
Notation W := (rv_mul (rv_trans Q) U).
Variables (st : plane_isect spec_float) (ray0 : ray spec_float) (id : nat).
Hypothesis Hst : pi_org st = o /\ pi_dir st = d.
Notation go := (@plane_intersect _ FN st (Plane c fdx fdy m id) ray0).

Lemma org_eq : @p_org _ FN st c m = forg prec emax o c m. Proof. unfold p_org, forg. rewrite (proj1 Hst). reflexivity. Qed.
Lemma dir_eq : @p_dir _ FN st m = fdir prec emax d m. Proof. unfold p_dir, fdir. rewrite (proj2 Hst). reflexivity. Qed.

(** Signs. *)
Lemma rd_1 : rd 1 = 1. Proof. apply (rd_id prec emax _ _ (one_isF prec emax (p6 prec emax Hfmt))). Qed.
Lemma sign_F x a : isf x a -> a <> 0 -> exists s, isf (@ndiv _ FN x (@nabs _ FN x)) s /\ (s = -1 \/ s = 1) /\ 0 < s * a.
Proof.
  intros Hx Ha. pose proof (isF_abs prec emax _ _ Hx) as Hb. assert (N : Rabs a <> 0) by (apply Rabs_no_R0, Ha).
  pose proof (hi0_big prec emax (p6 prec emax Hfmt)) as T. pose proof rd_1 as E1. assert (E2 : rd (-1) = -1) by (replace (-1) with (- (1)) by lra; rewrite (rd_opp prec emax), E1; reflexivity).
  exists (rd (a / Rabs a)). destruct (Rlt_le_dec a 0) as [L|L].
  - assert (E : a / Rabs a = -1) by (rewrite Rabs_left by lra; field; lra). rewrite E, E2. split; [|split; [auto|lra]].
    rewrite <- E2, <- E. apply (isF_div prec emax); try assumption. rewrite E, E2, Rabs_left; lra.
  - assert (E : a / Rabs a = 1) by (rewrite Rabs_pos_eq by lra; field; lra). rewrite E, E1. split; [|split; [auto|lra]].
    rewrite <- E1, <- E. apply (isF_div prec emax); try assumption. rewrite E, E1, Rabs_pos_eq; lra.
Qed.
Lemma flip_F x s fs a : isf fs s -> s = -1 \/ s = 1 -> isf x a -> isf (@nmul _ FN fs x) (s * a).
Proof.
  intros Hs Hv Hx. pose proof (rd_id prec emax _ _ Hx) as E.
  assert (E' : rd (s * a) = s * a).
  { destruct Hv as [-> | ->]; [replace (-1 * a) with (- a) by ring; rewrite (rd_opp prec emax), E; reflexivity|rewrite Rmult_1_l; exact E]. }
  rewrite <- E'. apply (isF_mul prec emax); [assumption..|]. rewrite E', Rabs_mult.
  replace (Rabs s) with 1 by (destruct Hv as [-> | ->]; [rewrite Rabs_left|rewrite Rabs_pos_eq]; lra). rewrite Rmult_1_l.
  apply (isF_B prec emax) in Hx as (b & _ & _ & <-). apply abs_B2R_lt_emax.
Qed.

(** Normals. *)
Lemma small_norm a b s : (a = -1 \/ a = 0 \/ a = 1) -> (b = -1 \/ b = 0 \/ b = 1) -> (s = -1 \/ s = 1) -> 1 <= rv_norm (V a b s) <= 1.7321.
Proof.
  intros Ha Hb Hs. assert (Sa : 0 <= a * a <= 1) by (destruct Ha as [-> | [-> | ->]]; lra). assert (Sb : 0 <= b * b <= 1) by (destruct Hb as [-> | [-> | ->]]; lra).
  assert (Ss : s * s = 1) by (destruct Hs as [-> | ->]; lra). pose proof (rv_norm_nonneg (V a b s)) as N0.
  pose proof (rv_norm_sq (V a b s)) as E. unfold rv_dot in E. cbn [vx vy vz] in E. split; apply sq_le_abs; lra.
Qed.
Lemma product_F fa fb fs a b s : isf fa a -> isf fb b -> isf fs s -> rv_norm (V a b s) <= 1.7321 ->
  exists K, visF prec emax (@mulmv _ FN m (V fa fb fs)) K /\ coords (17.3 * u) (rv_sub K (rv_mul Q (V a b s))).
Proof.
  intros Ha Hb Hs Hn. destruct (rows_near prec emax M m Q (proj1 (proj2 (proj2 (proj2 Hp))))) as (K1 & K2 & K3).
  assert (S : vn prec emax M 0 1.7321 0 (V fa fb fs) (V a b s)).
  { split; [rewrite pow_O; lra|]. exists (V a b s). split; [split; [|split]; assumption|]. rewrite pow_O.
    replace (rv_sub (V a b s) (V a b s)) with (V 0 0 0) by (unfold rv_sub; cbn [vx vy vz]; f_equal; ring).
    unfold rv_norm, rv_dot. cbn [vx vy vz]. replace (0 * 0 + 0 * 0 + 0 * 0) with 0 by ring. rewrite sqrt_0. lra. }
  assert (G : forall x v, vn prec emax M 0 1 6.93 x v -> exists k, isf (@dot _ FN x (V fa fb fs)) k /\ Rabs (k - rv_dot v (V a b s)) <= 17.3 * u).
  { intros x v K. destruct (vn_dot prec emax Hfmt M HM 0 0 1 6.93 1.7321 0 17.3 _ _ _ _ K S ltac:(lia) ltac:(lra) ltac:(lra) ltac:(lra) ltac:(lra) ltac:(lra) ltac:(lra) ltac:(lra)) as (_ & k & Hk & E).
    exists k. split; [exact Hk|]. cbn [Nat.add] in E. rewrite pow_O in E. lra. }
  destruct (G _ _ K1) as (k1 & I1 & E1). destruct (G _ _ K2) as (k2 & I2 & E2). destruct (G _ _ K3) as (k3 & I3 & E3).
  exists (V k1 k2 k3). split; (split; [|split]); assumption.
Qed.
Lemma normalized_F n K w : visF prec emax n K -> coords (17.3 * u) (rv_sub K w) -> 1 <= rv_norm w <= 1.7321 ->
  exists N, visF prec emax (@normalize _ FN n) N /\ coords (64 * u) (rv_sub N (unit_of w)).
Proof.
  intros Hn Hk Hw. pose proof (u_pos prec) as U0. pose proof (u_small prec emax Hfmt) as U1. destruct Hk as (E1 & E2 & E3).
  assert (Nd : rv_norm (rv_sub K w) <= 30 * u) by (eapply Rle_trans; [apply (norm_const (17.3 * u)); [lra|assumption..]|]; lra).
  pose proof (norm_sub_le K w) as N1. pose proof (norm_sub_le w K) as N2. rewrite norm_sub_sym in N2.
  assert (Iu : 2 <= / u).
  { apply Rmult_le_reg_r with u; [exact U0|]. rewrite Rinv_l; lra. }
  destruct (normalize_near prec emax Hfmt n K Hn ltac:(split; lra)) as (_ & N & HN & G1 & G2 & G3).
  destruct (unit_close K w (17.3 * u) (30 * u) ltac:(lra) ltac:(lra) ltac:(split; [|split]; assumption) Nd) as (F1 & F2 & F3).
  assert (I : (17.3 * u + 30 * u) / rv_norm w <= 48 * u).
  { apply Rmult_le_reg_r with (rv_norm w); [lra|]. unfold Rdiv. rewrite Rmult_assoc, Rinv_l by lra.
    assert (48 * u * 1 <= 48 * u * rv_norm w) by (apply Rmult_le_compat_l; lra). lra. }
  exists N. split; [exact HN|].
  assert (J : forall x y z, Rabs (x - y) <= 5 * u -> Rabs (y - z) <= (17.3 * u + 30 * u) / rv_norm w -> Rabs (x - z) <= 64 * u).
  { intros x y z H1 H2. replace (x - z) with ((x - y) + (y - z)) by ring. eapply Rle_trans; [apply Rabs_two; eassumption|]. lra. }
  unfold coords, rv_sub in *. cbn [vx vy vz] in *. split; [|split]; eapply J; eassumption.
Qed.

(** The sides. *)
Lemma placed_F x X h a fx sd : isf (@ndiv _ FN fx (@n2 _ FN)) h -> isf (@ndiv _ FN (@nopp _ FN fx) (@n2 _ FN)) (- h) ->
  @placed _ FN x fx a (@nopp _ FN fx) -> sd = fx ->
  is_finite_SF x = true /\ (isf x X -> - h <= X <= h /\ exists v, isf a v /\ (v = -1 \/ v = 0 \/ v = 1) /\ (Rabs X < h -> v = 0)).
Proof.
  intros H1 H2 Hpl _.
  assert (one : isf (@n1 _ FN) 1) by apply (one_isF prec emax (p6 prec emax Hfmt)).
  assert (zero : isf (@n0 _ FN) 0) by apply (zero_isF prec emax).
  destruct Hpl as [(-> & A & B)|[(-> & A & B)|(-> & A & B)]].
  - split; [exact (between_fin prec emax _ _ _ _ H2 A B)|]. intros Hx. rewrite (isF_ltb prec emax _ _ _ _ H2 Hx) in A. rewrite (isF_ltb prec emax _ _ _ _ Hx H1) in B.
    apply Rltb_spec in A, B. split; [lra|]. exists 0. auto.
  - split; [exact (eqb_fin prec emax _ _ _ H2 A)|]. intros Hx. pose proof (isF_eqb prec emax _ _ _ _ Hx H2 A) as E. rewrite (isF_ltb prec emax _ _ _ _ Hx H1) in B.
    apply Rltb_spec in B. split; [lra|]. exists (-1). split; [apply (isF_opp prec emax), one|]. split; [auto|].
    intros K. rewrite E, Rabs_Ropp, Rabs_pos_eq in K; lra.
  - split; [exact (eqb_fin prec emax _ _ _ H1 B)|]. intros Hx. pose proof (isF_eqb prec emax _ _ _ _ Hx H1 B) as E. rewrite (isF_ltb prec emax _ _ _ _ H2 Hx) in A.
    apply Rltb_spec in A. split; [lra|]. exists 1. split; [exact one|]. split; [auto|].
    intros K. rewrite E, Rabs_pos_eq in K; lra.
Qed.

(** An accepted hit. *)
Lemma plane_sound2 st' lo : isf (pi_min st) lo -> 0 <= lo -> go = (true, st') ->
  pi_org st' = o /\ pi_dir st' = d /\ pi_min st' = pi_min st /\ pi_prim st' = Some id /\
  exists t x, isf (pi_hd st') x /\ 0 <= x <= 3.2 * M /\ Rabs (x - t) <= 125 * (u * M) /\ lo < t <= 3.1 * M /\
    near_patch (patch_err prec M) C dx dy Q (at_t O U x) /\ (forall h, isf (pi_hd st) h -> t < h) /\
    patch_normal prec emax M C dx dy Q O (at_t O U x) (@normalize _ FN (pi_normal st')) /\
    patch_normal prec emax M C dx dy Q O (at_t O U x) (@vscale _ FN (@p_s _ FN st c m) (@mulmv _ FN m (V (@n0 _ FN) (@n0 _ FN) (@n1 _ FN)))).
Proof.
  intros Hlo Hlo0 Hgo. destruct (plane_accepts (N := FN) _ _ _ _ _ _ _ _ Hgo) as (n & -> & Hinr & fa & fb & Pa & Pb & Hn).
  unfold p_done. cbn [pi_org pi_dir pi_min pi_prim pi_hd pi_normal]. destruct Hst as [So Sd].
  split; [exact So|]. split; [exact Sd|]. split; [reflexivity|]. split; [reflexivity|].
  destruct (uM_facts prec emax Hfmt M HM) as (U0 & U1 & V1 & UM & UM1 & UM2 & LP & LS & T1 & T2).
  destruct (org_F prec emax Hfmt M HM o c fdx fdy m O C dx dy Q Ho Hp) as (A & (A1 & A2 & A3) & (EA1 & EA2 & EA3)).
  destruct (dir_F prec emax Hfmt M HM c d fdx fdy m O C U dx dy Q Hd Hp) as (B & (B1 & B2 & B3) & (EB1 & EB2 & EB3)).
  destruct (L0_le prec emax M c fdx fdy m O C dx dy Q Hp) as (GL1 & GL2 & GL3).
  destruct (W_le prec emax M c d fdx fdy m O C U dx dy Q Hd Hp) as (GW1 & GW2 & GW3).
  pose proof Hp as (_ & Hdx & Hdy & _ & Bdx & Bdy & _).
  destruct (half_F prec emax Hfmt M HM _ _ Hdx Bdx) as (hx & X1 & X2 & X3 & X4).
  destruct (half_F prec emax Hfmt M HM _ _ Hdy Bdy) as (hy & Y1 & Y2 & Y3 & Y4).
  apply andb_true_iff in Hinr as [R1 R2].
  pose proof (far_F prec emax Hfmt M HM c d fdx fdy m O C U dx dy Q Hd Hp) as Far.
  unfold p_ic, p_s in *. set (ft := @p_t _ FN st c m) in *. assert (Eft : ft = @ndiv _ FN (@nopp _ FN (vz (@p_org _ FN st c m))) (vz (@p_dir _ FN st m))) by reflexivity.
  clearbody ft. rewrite org_eq in *. rewrite dir_eq in *. set (fo := forg prec emax o c m) in *. set (fd := fdir prec emax d m) in *.
  (* the parameter *)
  assert (Ff : is_finite_SF ft = true) by exact (between_fin prec emax _ _ _ _ Hlo R1 R2).
  rewrite Eft in Ff. destruct (div_fin prec emax _ _ _ _ (isF_opp prec emax _ _ A3) B3 Ff) as [Bz Ht]. rewrite <- Eft in Ht, Ff.
  set (t := rd (- vz A / vz B)) in *. clearbody fo fd.
  assert (SA : forall x y, Rabs (x - y) <= 11 * (u * M) -> Rabs y <= M -> Rabs x <= 1.001 * M).
  { intros x y H1 H2. replace x with ((x - y) + y) by ring. eapply Rle_trans; [apply Rabs_two; eassumption|]. lra. }
  assert (SB : forall x y, Rabs (x - y) <= 19 * u -> Rabs y <= 1 -> Rabs x <= 1.0001).
  { intros x y H1 H2. replace x with ((x - y) + y) by ring. eapply Rle_trans; [apply Rabs_two; eassumption|]. lra. }
  assert (Ez : Rabs (vz A + t * vz B) <= 1.01 * (u * M)).
  { pose proof (rd_low prec emax (- vz A / vz B)) as E. fold t in E.
    replace (vz A + t * vz B) with ((t - - vz A / vz B) * vz B) by (field; exact Bz). rewrite Rabs_mult.
    pose proof (Rabs_pos (vz B)) as P. pose proof (Rmult_le_compat_r _ _ _ P E) as E'. rewrite Rmult_plus_distr_r in E'.
    replace (u * Rabs (- vz A / vz B) * Rabs (vz B)) with (u * Rabs (vz A)) in E'.
    2: { rewrite Rmult_assoc, <- Rabs_mult. replace (- vz A / vz B * vz B) with (- vz A) by (field; exact Bz). rewrite Rabs_Ropp. reflexivity. }
    assert (u * Rabs (vz A) <= u * (1.001 * M)) by (apply Rmult_le_compat_l; [lra|apply (SA _ _ EA3 GL3)]).
    assert (2 * low0 * Rabs (vz B) <= 2 * low0 * 1.0001) by (apply Rmult_le_compat_l; [lra|apply (SB _ _ EB3 GW3)]). lra. }
  (* the coordinates *)
  cbn [vadd vmap2 vscale vmap vx vy vz] in Pa, Pb.
  destruct (placed_F _ (vx A) hx _ _ fdx X1 X2 Pa eq_refl) as [Fx _]. destruct (placed_F _ (vx A) hy _ _ fdy Y1 Y2 Pb eq_refl) as [Fy _].
  destruct (coord_F prec emax Hfmt M HM _ _ _ _ _ _ hx A1 B1 Ht (SA _ _ EA1 GL1) X4 Fx) as (X & IX & HX).
  destruct (coord_F prec emax Hfmt M HM _ _ _ _ _ _ hy A2 B2 Ht (SA _ _ EA2 GL2) Y4 Fy) as (Y & IY & HY).
  destruct (placed_F _ X hx _ _ fdx X1 X2 Pa eq_refl) as [_ PX]. destruct (PX IX) as (RX & va & Iva & Hva & Zva). destruct (HX RX) as [TX EX].
  destruct (placed_F _ Y hy _ _ fdy Y1 Y2 Pb eq_refl) as [_ PY]. destruct (PY IY) as (RY & vb & Ivb & Hvb & Zvb). destruct (HY RY) as [TY EY].
  assert (TZ : Rabs (t * vz B) <= 1.01 * M).
  { replace (t * vz B) with ((vz A + t * vz B) + - vz A) by ring. pose proof (SA _ _ EA3 GL3) as S. rewrite <- (Rabs_Ropp (vz A)) in S.
    eapply Rle_trans; [apply Rabs_two; [exact Ez|exact S]|]. lra. }
  assert (Bt : Rabs t <= 3.1 * M).
  { assert (NB : 0.999 <= rv_norm B).
    { pose proof (norm_sub_le W B) as N2. rewrite norm_sub_sym in N2. rewrite (W_norm prec emax M c d fdx fdy m O C U dx dy Q Hd Hp) in N2.
      assert (rv_norm (rv_sub B W) <= 33 * u) by (eapply Rle_trans; [apply (norm_const (19 * u)); [lra|assumption..]|]; lra). lra. }
    assert (NT : rv_norm (rv_scale t B) <= 3.03 * M).
    { apply sq_le_abs; [lra|]. rewrite rv_norm_sq. unfold rv_dot, rv_scale. cbn [vx vy vz].
      assert (Sq : forall x k, Rabs x <= k -> x * x <= k * k).
      { intros x k H. assert (Rabs x * Rabs x <= k * k) as K by (apply Rmult_le_compat; try apply Rabs_pos; assumption). rewrite <- Rabs_mult, Rabs_pos_eq in K by apply Rle_0_sqr. exact K. }
      pose proof (Sq _ _ TX). pose proof (Sq _ _ TY). pose proof (Sq _ _ TZ). assert (0 <= M * M) by apply Rle_0_sqr. lra. }
    rewrite rv_norm_scale in NT. assert (Rabs t * 0.999 <= Rabs t * rv_norm B) by (apply Rmult_le_compat_l; [apply Rabs_pos|exact NB]). lra. }
  rewrite (isF_ltb prec emax _ _ _ _ Hlo Ht) in R1. apply Rltb_spec in R1.
  destruct (Far ft t Ht ltac:(lra)) as (x & Hx & X0 & Ex).
  rewrite (Rabs_pos_eq t) in Ex by lra. rewrite (Rabs_pos_eq t) in Bt by lra.
  exists t, x. unfold patch_err.
  pose proof Ex as Ex'. apply Rabs_le_inv in Ex'.
  (* local coordinates at x *)
  assert (Lx : forall a l b w, Rabs (a - l) <= 11 * (u * M) -> Rabs (b - w) <= 19 * u -> Rabs w <= 1 -> Rabs (a + t * b - (l + x * w)) <= 195 * (u * M)).
  { intros a l b w H1 H2 H3. replace (a + t * b - (l + x * w)) with ((a - l) + (t * (b - w) + (t - x) * w)) by ring.
    assert (K1 : Rabs (t * (b - w)) <= 3.1 * M * (19 * u)) by (apply Rabs_mul_le2; [rewrite Rabs_pos_eq; lra|exact H2]).
    assert (K2 : Rabs ((t - x) * w) <= 125 * (u * M) * 1) by (apply Rabs_mul_le2; [rewrite Rabs_minus_sym; exact Ex|exact H3]).
    eapply Rle_trans; [apply Rabs_two; [exact H1|apply Rabs_two; [exact K1|exact K2]]|]. lra. }
  pose proof (Lx _ _ _ _ EA1 EB1 GW1) as LX. pose proof (Lx _ _ _ _ EA2 EB2 GW2) as LY. pose proof (Lx _ _ _ _ EA3 EB3 GW3) as LZ.
  assert (DX : Rabs (X - (vx L0 + x * vx W)) <= 199 * (u * M)).
  { replace (X - (vx L0 + x * vx W)) with ((X - (vx A + t * vx B)) + (vx A + t * vx B - (vx L0 + x * vx W))) by ring.
    eapply Rle_trans; [apply Rabs_two; [exact EX|exact LX]|]. lra. }
  assert (DY : Rabs (Y - (vy L0 + x * vy W)) <= 199 * (u * M)).
  { replace (Y - (vy L0 + x * vy W)) with ((Y - (vy A + t * vy B)) + (vy A + t * vy B - (vy L0 + x * vy W))) by ring.
    eapply Rle_trans; [apply Rabs_two; [exact EY|exact LY]|]. lra. }
  apply Rabs_le_inv in X3, Y3.
  assert (SX : dx / 2 < hx + (256 * u * M - 199 * (u * M))) by lra. assert (SY : dy / 2 < hy + (256 * u * M - 199 * (u * M))) by lra.
  assert (SZ : 11 * (u * M) < 256 * u * M) by lra.
  split; [exact Hx|]. split; [lra|]. split; [exact Ex|]. split; [lra|]. split; [|split].
  - unfold near_patch. rewrite local_at. destruct (at_parts L0 W x) as (-> & -> & ->). split; [|split].
    + apply Rabs_le_inv in DX. apply Rabs_le. lra.
    + apply Rabs_le_inv in DY. apply Rabs_le. lra.
    + apply Rabs_le_inv in LZ, Ez. apply Rabs_le. lra.
  - intros h Hh. rewrite (isF_ltb prec emax _ _ _ _ Ht Hh) in R2. apply Rltb_spec in R2. exact R2.
  - assert (Az : vz A <> 0).
    { intros E. assert (t = 0); [|lra]. unfold t. rewrite E. replace (- 0 / vz B) with 0 by (field; exact Bz). apply (rd_0 prec emax). }
    destruct (sign_F _ _ A3 Az) as (s & Is & Hs & Ps).
    assert (one : isf (@n1 _ FN) 1) by apply (one_isF prec emax (p6 prec emax Hfmt)). assert (zero : isf (@n0 _ FN) 0) by apply (zero_isF prec emax).
    assert (UP : exists K, visF prec emax (@vscale _ FN (@ndiv _ FN (vz fo) (@nabs _ FN (vz fo))) (@mulmv _ FN m (V (@n0 _ FN) (@n0 _ FN) (@n1 _ FN)))) K /\
      coords (17.3 * u) (rv_sub K (rv_mul Q (V 0 0 s)))).
    { destruct (product_F _ _ _ _ _ _ zero zero one ltac:(rewrite (proj2 (proj2 axis_norm)); lra)) as (K & (I1 & I2 & I3) & (E1 & E2 & E3)).
      exists (rv_scale s K). split; [split; [|split]; apply flip_F; assumption|].
      assert (Fl : forall k v w, Rabs (k - v) <= 17.3 * u -> w = s * v -> Rabs (s * k - w) <= 17.3 * u).
      { intros k v w H1 ->. replace (s * k - s * v) with (s * (k - v)) by ring. rewrite Rabs_mult.
        replace (Rabs s) with 1 by (destruct Hs as [-> | ->]; [rewrite Rabs_left|rewrite Rabs_pos_eq]; lra). lra. }
      unfold coords, rv_sub, rv_scale, rv_mul in *. cbn [vx vy vz] in *. unfold rv_dot in *. cbn [vx vy vz] in *.
      split; [|split]; (eapply Fl; [eassumption|]; ring). }
    assert (HK : exists K a b, visF prec emax n K /\ coords (17.3 * u) (rv_sub K (rv_mul Q (V a b s))) /\
      (a = -1 \/ a = 0 \/ a = 1) /\ (b = -1 \/ b = 0 \/ b = 1) /\ (Rabs X < hx -> a = 0) /\ (Rabs Y < hy -> b = 0)).
    { destruct Hn as [(Na & Nb & ->)| ->].
      - destruct UP as (K & IK & EK). exists K, 0, 0. auto 10.
      - destruct (product_F _ _ _ _ _ _ Iva Ivb Is (proj2 (small_norm _ _ _ Hva Hvb Hs))) as (K & IK & EK). exists K, va, vb. auto 10. }
    destruct HK as (K & a & b & IK & EK & Ha & Hb & Z1 & Z2).
    assert (Nw : 1 <= rv_norm (rv_mul Q (V a b s)) <= 1.7321).
    { rewrite (orth_norm Q _ (proj1 (proj1 (proj2 (proj2 (proj2 Hp)))))). apply small_norm; assumption. }
    destruct (normalized_F n K _ IK EK Nw) as (NN & IN & EN). split.
    2: { destruct UP as (K' & IK' & EK'). exists K', 0, 0, s. split; [exact IK'|]. split.
      - assert (Nu : rv_norm (rv_mul Q (V 0 0 s)) = 1).
        { rewrite (orth_norm Q _ (proj1 (proj1 (proj2 (proj2 (proj2 Hp)))))). unfold rv_norm, rv_dot. cbn [vx vy vz].
          replace (0 * 0 + 0 * 0 + s * s) with 1 by (destruct Hs as [-> | ->]; ring). apply sqrt_1. }
        replace (unit_of (rv_mul Q (V 0 0 s))) with (rv_mul Q (V 0 0 s)).
        2: { unfold unit_of. rewrite Nu, Rinv_1. unfold rv_scale. destruct (rv_mul Q (V 0 0 s)) as [w1 w2 w3]. cbn [vx vy vz]. f_equal; ring. }
        destruct EK' as (K1 & K2 & K3). assert (Lu : 17.3 * u <= 64 * u) by (clear - U0; lra).
        split; [|split]; (eapply Rle_trans; [eassumption|exact Lu]).
      - split; [auto|]. split; [auto|]. split; [exact Hs|]. unfold patch_err. split; [auto|]. split; [auto|].
        intros H. apply (same_sign _ _ _ _ (256 * u * M) Hs EA3 SZ H Ps). }
    exists NN, a, b, s. split; [exact IN|]. split; [exact EN|]. split; [exact Ha|]. split; [exact Hb|]. split; [exact Hs|]. unfold patch_err.
    rewrite local_at. destruct (at_parts L0 W x) as (-> & -> & _). split; [|split].
    + intros H. apply Z1. apply (well_inside _ _ _ _ _ _ DX H SX).
    + intros H. apply Z2. apply (well_inside _ _ _ _ _ _ DY H SY).
    + intros H. apply (same_sign _ _ _ _ (256 * u * M) Hs EA3 SZ H Ps).
Qed.
Lemma plane_sound st' lo : isf (pi_min st) lo -> 0 <= lo -> go = (true, st') ->
  pi_org st' = o /\ pi_dir st' = d /\ pi_min st' = pi_min st /\ pi_prim st' = Some id /\
  exists t x, isf (pi_hd st') x /\ 0 <= x <= 3.2 * M /\ Rabs (x - t) <= 125 * (u * M) /\ lo < t <= 3.1 * M /\
    near_patch (patch_err prec M) C dx dy Q (at_t O U x) /\ (forall h, isf (pi_hd st) h -> t < h) /\
    patch_normal prec emax M C dx dy Q O (at_t O U x) (@normalize _ FN (pi_normal st')).
Proof.
  intros H1 H2 H3. destruct (plane_sound2 st' lo H1 H2 H3) as (A & B & E & F & t & x & G1 & G2 & G3 & G4 & G5 & G6 & G7 & _).
  repeat (split; [assumption|]). exists t, x. auto 10.
Qed.
End F.
