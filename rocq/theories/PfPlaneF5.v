(** The plane routine in IEEE arithmetic: clear hits are accepted. *)

From Coq Require Import Reals ZArith Bool Lra Lia Psatz Floats.SpecFloat.
From Flocq Require Import Core IEEE754.BinarySingleNaN.
From Verif Require Import Num NumR NumF Vec Ray Plane SpecReal SpecIEEE SpecTriF SpecSphF SpecPlane SpecPlaneF.
From Verif Require Import PfIEEE PfIEEE2 PfIEEE3 PfTriF PfTriF2 PfDirF PfX PfSphF PfSphF2 PfSphN PfPlane PfPlaneF PfPlaneF2 PfPlaneF3 PfPlaneF4.
Local Open Scope R_scope.

Section F.
Variables prec emax : Z.
Context {Hprec : Prec_gt_0 prec} {Hmax : Prec_lt_emax prec emax}.
Hypothesis Hfmt : usual_format prec emax.
Notation FN := (Fnum prec emax).
Notation isf := (isF prec emax).
Notation rd := (rnd prec emax).
Notation u := (ulpf prec).
Notation low0 := (least emax).
Notation hi0 := (top emax).
Notation q := (/ 1000000).
Variable M : R.
Hypothesis HM : scale_ok prec emax M.
Variables (o c d : vec spec_float) (fdx fdy : spec_float) (m : mat spec_float) (O C U : vec R) (dx dy : R) (Q : mat R).
Hypothesis Ho : visF prec emax o O.
Hypothesis Hd : unit_near prec emax d U.
Hypothesis Hp : plane_isF prec emax M O c fdx fdy m C dx dy Q.
Notation L0 := (local C Q O).
Notation W := (rv_mul (rv_trans Q) U).
Notation k := (steepness Q U).

Lemma steep_W : k = Rabs (vz W).
Proof. unfold steepness. rewrite normal_local. reflexivity. Qed.
(** The unit of length for the margins: r = u M / k. *)
Lemma margin_facts lo t0 : pierces (patch_err prec M) C dx dy Q O U lo t0 -> 0 <= lo ->
  exists r, u * M = r * k /\ 0 < k <= 1 /\ u * M <= r /\ 256 * r <= M /\ 256 * u <= k /\ patch_err prec M / k = 256 * r /\
    vz L0 + t0 * vz W = 0 /\ Rabs (vx L0 + t0 * vx W) + 256 * r <= dx / 2 /\ Rabs (vy L0 + t0 * vy W) + 256 * r <= dy / 2 /\ lo + 256 * r <= t0 /\ 0 <= t0 <= 3 * M.
Proof.
  intros (Hz & Hx & Hy & Hl) Hlo. destruct (uM_facts prec emax Hfmt M HM) as (U0 & U1 & V1 & UM & UM1 & UM2 & LP & LS & T1 & T2).
  rewrite local_at in *. destruct (at_parts L0 W t0) as (E1 & E2 & E3). rewrite E1, E2, E3 in *. clear E1 E2 E3.
  pose proof Hp as (_ & _ & _ & _ & Bdx & Bdy & _). unfold patch_err in *.
  assert (K1 : k <= 1) by (rewrite steep_W; apply (W_le prec emax M c d fdx fdy m O C U dx dy Q Hd Hp)).
  assert (K0 : 0 <= k) by apply Rabs_pos.
  pose proof (Rabs_pos (vx L0 + t0 * vx W)) as Px. pose proof (Rabs_pos (vy L0 + t0 * vy W)) as Py.
  assert (K2 : 256 * u * M <= k * M) by (eapply Rle_trans; [exact Hx|]; apply Rmult_le_compat_l; lra).
  assert (K3 : 256 * u <= k) by (apply Rmult_le_reg_r with M; lra).
  assert (Kp : 0 < k) by lra. set (r := u * M / k). assert (Er : u * M = r * k) by (unfold r; field; lra).
  assert (Div : forall x, 256 * u * M <= k * x -> 256 * r <= x).
  { intros x H. apply Rmult_le_reg_r with k; [exact Kp|]. lra. }
  apply Div in Hx, Hy, Hl.
  assert (R1 : u * M <= r).
  { apply Rmult_le_reg_r with k; [exact Kp|]. rewrite <- Er. rewrite <- (Rmult_1_r (u * M)) at 2. apply Rmult_le_compat_l; lra. }
  exists r. split; [exact Er|]. split; [lra|]. split; [exact R1|]. split; [lra|]. split; [exact K3|]. split.
  { replace (256 * u * M) with (256 * r * k) by lra. field. lra. }
  split; [exact Hz|]. split; [lra|]. split; [lra|]. split; [lra|]. split; [lra|].
  (* t0 *)
  assert (N1 : rv_norm (at_t L0 W t0) <= 2 * M).
  { apply sq_le_abs; [lra|]. rewrite rv_norm_sq. unfold rv_dot. destruct (at_parts L0 W t0) as (-> & -> & ->). rewrite Hz.
    assert (Sq : forall x, Rabs x <= M -> x * x <= M * M).
    { intros x H. assert (Rabs x * Rabs x <= M * M) as K by (apply Rmult_le_compat; try apply Rabs_pos; assumption). rewrite <- Rabs_mult, Rabs_pos_eq in K by apply Rle_0_sqr. exact K. }
    pose proof (Sq (vx L0 + t0 * vx W) ltac:(lra)). pose proof (Sq (vy L0 + t0 * vy W) ltac:(lra)). assert (0 <= M * M) by apply Rle_0_sqr. lra. }
  assert (N2 : Rabs t0 <= 3 * M).
  { replace (Rabs t0) with (rv_norm (rv_scale t0 W)) by (rewrite rv_norm_scale, (W_norm prec emax M c d fdx fdy m O C U dx dy Q Hd Hp); ring).
    replace (rv_scale t0 W) with (rv_sub (at_t L0 W t0) L0) by (unfold at_t, rv_sub, rv_add, rv_scale; cbn [vx vy vz]; f_equal; ring).
    pose proof (L0_norm prec emax M c fdx fdy m O C dx dy Q Hp) as NL.
    replace (rv_sub (at_t L0 W t0) L0) with (rv_add (at_t L0 W t0) (rv_scale (-1) L0)) by (unfold at_t, rv_sub, rv_add, rv_scale; cbn [vx vy vz]; f_equal; ring).
    eapply Rle_trans; [apply rv_norm_triangle|]. rewrite (rv_norm_scale (-1)). replace (Rabs (-1)) with 1 by (rewrite Rabs_left; lra). lra. }
  pose proof (Rle_abs t0). lra.
Qed.

Variables (st : plane_isect spec_float) (ray0 : ray spec_float) (id : nat).
Hypothesis Hst : pi_org st = o /\ pi_dir st = d.
Notation go := (@plane_intersect _ FN st (Plane c fdx fdy m id) ray0).

Lemma inside_ltb x X h fx l r D : isf (@ndiv _ FN fx (@n2 _ FN)) h -> isf (@ndiv _ FN (@nopp _ FN fx) (@n2 _ FN)) (- h) -> isf x X ->
  Rabs (X - l) <= 160 * r -> Rabs l + 256 * r <= D -> D <= h + 2 * r -> 0 < r ->
  @nltb _ FN (@ndiv _ FN (@nopp _ FN fx) (@n2 _ FN)) x = true /\ @nltb _ FN x (@ndiv _ FN fx (@n2 _ FN)) = true.
Proof.
  intros H1 H2 Hx E Hl HD Hr. pose proof (Rabs_triang (X - l) l) as T. replace (X - l + l) with X in T by ring.
  assert (A : Rabs X < h) by lra. apply Rabs_lt_inv in A.
  rewrite (isF_ltb prec emax _ _ _ _ H2 Hx), (isF_ltb prec emax _ _ _ _ Hx H1). split; apply Rltb_spec; lra.
Qed.

(** The parameter is close, and the routine accepts it if it is in the interval. *)
Lemma plane_pierced lo l1 t0 : isf (pi_min st) lo -> 0 <= lo -> lo <= l1 -> pierces (patch_err prec M) C dx dy Q O U l1 t0 ->
  (at_least prec emax (pi_hd st) (t0 + patch_err prec M / k) -> fst go = true) /\
  (forall st', go = (true, st') -> exists x, isf (pi_hd st') x /\ x <= t0 + patch_err prec M / k).
Proof.
  intros Hlo Hlo0 Hl1 Hpi. destruct (margin_facts l1 t0 Hpi ltac:(lra)) as (r & Er & K & R1 & R2 & R3 & Em & Hz & Hx & Hy & Hl & Ht0). rewrite Em.
  destruct (uM_facts prec emax Hfmt M HM) as (U0 & U1 & V1 & UM & UM1 & UM2 & LP & LS & T1 & T2).
  destruct (org_F prec emax Hfmt M HM o c fdx fdy m O C dx dy Q Ho Hp) as (A & (A1 & A2 & A3) & (EA1 & EA2 & EA3)).
  destruct (dir_F prec emax Hfmt M HM c d fdx fdy m O C U dx dy Q Hd Hp) as (B & (B1 & B2 & B3) & (EB1 & EB2 & EB3)).
  destruct (L0_le prec emax M c fdx fdy m O C dx dy Q Hp) as (GL1 & GL2 & GL3).
  destruct (W_le prec emax M c d fdx fdy m O C U dx dy Q Hd Hp) as (GW1 & GW2 & GW3).
  pose proof Hp as (_ & Hdx & Hdy & _ & Bdx & Bdy & _).
  destruct (half_F prec emax Hfmt M HM _ _ Hdx Bdx) as (hx & X1 & X2 & X3 & X4).
  destruct (half_F prec emax Hfmt M HM _ _ Hdy Bdy) as (hy & Y1 & Y2 & Y3 & Y4).
  pose proof (far_F prec emax Hfmt M HM c d fdx fdy m O C U dx dy Q Hd Hp) as Far.
  pose proof (plane_inside (N := FN) st c fdx fdy m id ray0) as Inside.
  pose proof (plane_accepts (N := FN) st c fdx fdy m id ray0) as Accepts.
  unfold p_inr, p_done, p_ic in Inside, Accepts.
  set (ft := @p_t _ FN st c m) in *. assert (Eft : ft = @ndiv _ FN (@nopp _ FN (vz (@p_org _ FN st c m))) (vz (@p_dir _ FN st m))) by reflexivity.
  clearbody ft. rewrite (org_eq prec emax o c d m st Hst) in *. rewrite (dir_eq prec emax o d m st Hst) in *.
  set (fo := forg prec emax o c m) in *. set (fd := fdir prec emax d m) in *. clearbody fo fd.
  cbn [vadd vmap2 vscale vmap vx vy vz] in Inside, Accepts.
  (* the parameter *)
  assert (Wz : Rabs (vz W) = k) by (symmetry; apply steep_W).
  assert (Bk : 237 / 256 * k <= Rabs (vz B)).
  { pose proof (Rabs_triang (vz B) (vz W - vz B)) as T. replace (vz B + (vz W - vz B)) with (vz W) in T by ring. rewrite (Rabs_minus_sym (vz W)) in T. lra. }
  assert (Bz : vz B <> 0) by (intros E; rewrite E, Rabs_R0 in Bk; lra).
  set (s := - vz A / vz B).
  assert (Es : Rabs (s - t0) <= 73.5 * r).
  { apply Rmult_le_reg_r with (Rabs (vz B)); [lra|]. rewrite <- Rabs_mult.
    replace ((s - t0) * vz B) with (- ((vz A - vz L0) + t0 * (vz B - vz W)) - (vz L0 + t0 * vz W)) by (unfold s; field; exact Bz).
    rewrite Hz, Rminus_0_r, Rabs_Ropp.
    assert (Z : Rabs (t0 * (vz B - vz W)) <= 3 * M * (19 * u)) by (apply Rabs_mul_le2; [rewrite Rabs_pos_eq; lra|exact EB3]).
    eapply Rle_trans; [apply Rabs_two; [exact EA3|exact Z]|]. apply Rle_trans with (68 * (r * k)); [lra|].
    apply Rle_trans with (73.5 * r * (237 / 256 * k)); [|apply Rmult_le_compat_l; lra]. assert (0 < r * k) by lra. lra. }
  assert (Bs : Rabs s <= 3.3 * M).
  { replace s with ((s - t0) + t0) by ring. eapply Rle_trans; [apply Rabs_two; [exact Es|rewrite Rabs_pos_eq by lra; apply Ht0]|]. lra. }
  pose proof (rd_low prec emax s) as Er1. assert (u * Rabs s <= u * (3.3 * M)) by (apply Rmult_le_compat_l; lra).
  assert (Ht : isf ft (rd s)).
  { rewrite Eft. apply (isF_div prec emax); [apply (isF_opp prec emax), A3|exact B3|exact Bz|]. apply (rd_half_top prec emax (p6 prec emax Hfmt)). fold s. lra. }
  set (t := rd s) in *.
  assert (Et : Rabs (t - t0) <= 77 * r).
  { replace (t - t0) with ((t - s) + (s - t0)) by ring. eapply Rle_trans; [apply Rabs_two; [exact Er1|exact Es]|]. lra. }
  pose proof Et as Et'. apply Rabs_le_inv in Et'.
  assert (Bt : Rabs t <= 3.35 * M).
  { replace t with ((t - t0) + t0) by ring. eapply Rle_trans; [apply Rabs_two; [exact Et|rewrite Rabs_pos_eq by lra; apply Ht0]|]. lra. }
  (* the coordinates *)
  assert (SA : forall x y, Rabs (x - y) <= 11 * (u * M) -> Rabs y <= M -> Rabs x <= 1.001 * M).
  { intros x y H1 H2. replace x with ((x - y) + y) by ring. eapply Rle_trans; [apply Rabs_two; eassumption|]. lra. }
  assert (SB : forall x y, Rabs (x - y) <= 19 * u -> Rabs y <= 1 -> Rabs x <= 1.001).
  { intros x y H1 H2. replace x with ((x - y) + y) by ring. eapply Rle_trans; [apply Rabs_two; eassumption|]. lra. }
  assert (Cd : forall fa fb a l b w, isf fa a -> isf fb b -> Rabs (a - l) <= 11 * (u * M) -> Rabs l <= M -> Rabs (b - w) <= 19 * u -> Rabs w <= 1 ->
    exists X, isf (@nadd _ FN fa (@nmul _ FN ft fb)) X /\ Rabs (X - (l + t0 * w)) <= 160 * r).
  { intros fa fb a l b w Ia Ib Ea Bl Eb Bw.
    destruct (coord_small prec emax Hfmt M HM fa fb ft a b t Ia Ib Ht (SA _ _ Ea Bl) (SB _ _ Eb Bw) Bt) as (X & IX & EX).
    exists X. split; [exact IX|]. replace (X - (l + t0 * w)) with ((X - (a + t * b)) + ((a - l) + (t * (b - w) + (t - t0) * w))) by ring.
    assert (K1 : Rabs (t * (b - w)) <= 3.35 * M * (19 * u)) by (apply Rabs_mul_le2; assumption).
    assert (K2 : Rabs ((t - t0) * w) <= 77 * r * 1) by (apply Rabs_mul_le2; assumption).
    eapply Rle_trans; [apply Rabs_two; [exact EX|apply Rabs_two; [exact Ea|apply Rabs_two; [exact K1|exact K2]]]|]. lra. }
  destruct (Cd _ _ _ _ _ _ A1 B1 EA1 GL1 EB1 GW1) as (X & IX & EX). destruct (Cd _ _ _ _ _ _ A2 B2 EA2 GL2 EB2 GW2) as (Y & IY & EY).
  apply Rabs_le_inv in X3, Y3.
  destruct (inside_ltb _ X hx fdx _ r _ X1 X2 IX EX Hx ltac:(lra) ltac:(lra)) as [J1 J2].
  destruct (inside_ltb _ Y hy fdy _ r _ Y1 Y2 IY EY Hy ltac:(lra) ltac:(lra)) as [J3 J4].
  split.
  - intros Hh. assert (Hi : (@nltb _ FN (pi_min st) ft && @nltb _ FN ft (pi_hd st))%bool = true).
    { rewrite (isF_ltb prec emax _ _ _ _ Hlo Ht). apply andb_true_iff. split; [apply Rltb_spec; lra|].
      destruct Hh as [-> | (h & Hh & Lh)]; [apply (inf_ltb prec emax _ _ Ht)|]. rewrite (isF_ltb prec emax _ _ _ _ Ht Hh). apply Rltb_spec. lra. }
    destruct (Inside Hi J1 J2 J3 J4) as (n & ->). reflexivity.
  - intros st' Hg. destruct (Accepts st' Hg) as (n & -> & _). cbn [pi_hd].
    destruct (Far ft t Ht Bt) as (x & Ix & X0 & Ex). rewrite (Rabs_pos_eq t) in Ex by lra. exists x. split; [exact Ix|]. apply Rabs_le_inv in Ex. lra.
Qed.
End F.
