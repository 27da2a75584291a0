(** The operations of [Fnum] round the exact result (from Flocq). *)

From Coq Require Import Reals ZArith Bool Lra Lia Floats.SpecFloat.
From Flocq Require Import Core Relative Plus_error IEEE754.BinarySingleNaN.
From Verif Require Import Num NumR NumF Vec SpecIEEE.
Local Open Scope R_scope.

Section F.
Variables prec emax : Z.
Context {Hprec : Prec_gt_0 prec} {Hmax : Prec_lt_emax prec emax}.
Notation FN := (Fnum prec emax).
Notation isf := (isF prec emax).
Notation rd := (rnd prec emax).
Notation binary := (binary_float prec emax).
Local Instance fexp_ok : Valid_exp (SpecFloat.fexp prec emax) := fexp_correct prec emax Hprec.

Lemma nearest_even s m l : SpecFloat.round_nearest_even m l = choice_mode mode_NE s m l.
Proof.
  destruct l as [|c]; [reflexivity|]. destruct c; [|reflexivity..]. cbn. unfold Round.cond_incr. destruct (Z.even m); reflexivity.
Qed.
Lemma round_aux sx mx ex lx :
  SpecFloat.binary_round_aux prec emax sx mx ex lx = binary_round_aux prec emax mode_NE sx mx ex lx.
Proof.
  unfold SpecFloat.binary_round_aux, binary_round_aux. destruct (shr_fexp _ _ _) as [m e]. cbn.
  rewrite (nearest_even sx). reflexivity.
Qed.
Lemma round_eq s m e : SpecFloat.binary_round prec emax s m e = binary_round prec emax mode_NE s m e.
Proof.
  unfold SpecFloat.binary_round, binary_round, shl_align_fexp. destruct (shl_align _ _ _). apply round_aux.
Qed.
Lemma normalize_eq m e z :
  SpecFloat.binary_normalize prec emax m e z = B2SF (binary_normalize prec emax Hprec Hmax mode_NE m e z).
Proof. destruct m; [reflexivity|..]; cbn; rewrite B2SF_SF2B; apply round_eq. Qed.

Lemma add_eq (x y : binary) : SFadd prec emax (B2SF x) (B2SF y) = B2SF (Bplus mode_NE x y).
Proof.
  destruct x, y; try reflexivity; try (cbn; destruct (Bool.eqb _ _); reflexivity). apply normalize_eq.
Qed.
Lemma sub_eq (x y : binary) : SFsub prec emax (B2SF x) (B2SF y) = B2SF (Bminus mode_NE x y).
Proof.
  destruct x as [sx|sx| |sx mx ex Bx], y as [sy|sy| |sy my ey By]; try reflexivity;
    try (cbn; destruct sx, sy; reflexivity).
  cbn. unfold Zminus. rewrite <- cond_Zopp_negb. apply normalize_eq.
Qed.
Lemma mul_eq (x y : binary) : SFmul prec emax (B2SF x) (B2SF y) = B2SF (Bmult mode_NE x y).
Proof. destruct x, y; try reflexivity. cbn. rewrite B2SF_SF2B. apply round_aux. Qed.
Lemma div_eq (x y : binary) : SFdiv prec emax (B2SF x) (B2SF y) = B2SF (Bdiv mode_NE x y).
Proof.
  destruct x, y; try reflexivity. cbn. rewrite B2SF_SF2B.
  destruct (SFdiv_core_binary _ _ _ _ _ _) as [[mz ez] lz]. apply round_aux.
Qed.
Lemma sqrt_eq (x : binary) : SFsqrt prec emax (B2SF x) = B2SF (Bsqrt mode_NE x).
Proof.
  destruct x as [s|s| |s m e B]; try reflexivity; destruct s; try reflexivity. cbn. rewrite B2SF_SF2B.
  destruct (SFsqrt_core_binary _ _ _ _) as [[mz ez] lz]. apply round_aux.
Qed.

(** A finite number as Flocq's. *)
Lemma isF_B x a : isf x a -> exists b : binary, x = B2SF b /\ is_finite b = true /\ B2R b = a.
Proof.
  intros (V & Fi & E). exists (SF2B x V). rewrite B2SF_SF2B, is_finite_SF2B, B2R_SF2B. auto.
Qed.
Lemma B_isF (b : binary) : is_finite b = true -> isf (B2SF b) (B2R b).
Proof.
  intros H. split; [apply valid_binary_B2SF|]. split; [now destruct b|]. destruct b; reflexivity.
Qed.
Lemma isF_fun x a b : isf x a -> isf x b -> a = b.
Proof. intros (_ & _ & <-) (_ & _ & E). exact E. Qed.
Lemma isF_val x : valid_binary prec emax x = true -> is_finite_SF x = true -> isf x (SF2R radix2 x).
Proof. intros; split; auto. Qed.

Lemma isF_add x y a b : isf x a -> isf y b -> Rabs (rd (a + b)) < top emax -> isf (@nadd _ FN x y) (rd (a + b)).
Proof.
  intros Hx Hy Hn. apply isF_B in Hx as (bx & -> & Fx & <-). apply isF_B in Hy as (by_ & -> & Fy & <-).
  cbn [nadd Fnum]. rewrite add_eq. pose proof (Bplus_correct prec emax _ _ mode_NE bx by_ Fx Fy) as C.
  rewrite Rlt_bool_true in C by exact Hn. destruct C as (C1 & C2 & _).
  unfold rnd. cbn [round_mode] in C1. rewrite <- C1. apply B_isF, C2.
Qed.
Lemma isF_sub x y a b : isf x a -> isf y b -> Rabs (rd (a - b)) < top emax -> isf (@nsub _ FN x y) (rd (a - b)).
Proof.
  intros Hx Hy Hn. apply isF_B in Hx as (bx & -> & Fx & <-). apply isF_B in Hy as (by_ & -> & Fy & <-).
  cbn [nsub Fnum]. rewrite sub_eq. pose proof (Bminus_correct prec emax _ _ mode_NE bx by_ Fx Fy) as C.
  rewrite Rlt_bool_true in C by exact Hn. destruct C as (C1 & C2 & _).
  unfold rnd. cbn [round_mode] in C1. rewrite <- C1. apply B_isF, C2.
Qed.
Lemma isF_mul x y a b : isf x a -> isf y b -> Rabs (rd (a * b)) < top emax -> isf (@nmul _ FN x y) (rd (a * b)).
Proof.
  intros Hx Hy Hn. apply isF_B in Hx as (bx & -> & Fx & <-). apply isF_B in Hy as (by_ & -> & Fy & <-).
  cbn [nmul Fnum]. rewrite mul_eq. pose proof (Bmult_correct prec emax _ _ mode_NE bx by_) as C.
  rewrite Rlt_bool_true in C by exact Hn. destruct C as (C1 & C2 & _). rewrite Fx, Fy in C2.
  unfold rnd. cbn [round_mode] in C1. rewrite <- C1. apply B_isF, C2.
Qed.
Lemma isF_div x y a b : isf x a -> isf y b -> b <> 0 -> Rabs (rd (a / b)) < top emax -> isf (@ndiv _ FN x y) (rd (a / b)).
Proof.
  intros Hx Hy Hb Hn. apply isF_B in Hx as (bx & -> & Fx & <-). apply isF_B in Hy as (by_ & -> & Fy & <-).
  cbn [ndiv Fnum]. rewrite div_eq. pose proof (Bdiv_correct prec emax _ _ mode_NE bx by_ Hb) as C.
  rewrite Rlt_bool_true in C by exact Hn. destruct C as (C1 & C2 & _). rewrite Fx in C2.
  unfold rnd. cbn [round_mode] in C1. rewrite <- C1. apply B_isF, C2.
Qed.
Lemma isF_mul_over x y a b : isf x a -> isf y b -> top emax <= Rabs (rd (a * b)) ->
  exists s, @nmul _ FN x y = S754_infinity s /\ (s = true <-> a * b < 0).
Proof.
  intros Hx Hy Hn. apply isF_B in Hx as (bx & -> & Fx & <-). apply isF_B in Hy as (by_ & -> & Fy & <-).
  cbn [nmul Fnum]. rewrite mul_eq. pose proof (Bmult_correct prec emax _ _ mode_NE bx by_) as C.
  rewrite Rlt_bool_false in C by exact Hn. rewrite C.
  assert (Hz : B2R bx * B2R by_ <> 0).
  { intros E. unfold rnd in Hn. rewrite E, round_0, Rabs_R0 in Hn by auto with typeclass_instances.
    unfold top in Hn. pose proof (bpow_gt_0 radix2 emax). lra. }
  assert (Sg : forall z : binary, B2R z <> 0 -> is_finite z = true -> (Bsign z = true <-> B2R z < 0) /\ (Bsign z = false <-> 0 < B2R z)).
  { intros [s|s| |s m e B] Hzz Hf; try discriminate; [now elim Hzz|]. cbn [Bsign B2R].
    destruct s.
    - assert (F2R (Float radix2 (cond_Zopp true (Z.pos m)) e) < 0) by (apply F2R_lt_0; reflexivity).
      split; split; intros; try discriminate; auto; lra.
    - assert (0 < F2R (Float radix2 (cond_Zopp false (Z.pos m)) e)) by (apply F2R_gt_0; reflexivity).
      split; split; intros; try discriminate; auto; lra. }
  assert (Hx0 : B2R bx <> 0) by (intros E; apply Hz; rewrite E; ring).
  assert (Hy0 : B2R by_ <> 0) by (intros E; apply Hz; rewrite E; ring).
  destruct (Sg bx Hx0 Fx) as [X1 X2], (Sg by_ Hy0 Fy) as [Y1 Y2].
  exists (xorb (Bsign bx) (Bsign by_)). split; [reflexivity|].
  destruct (Bsign bx), (Bsign by_); cbn [xorb].
  - pose proof (proj1 X1 eq_refl). pose proof (proj1 Y1 eq_refl). split; [discriminate|intros; exfalso; nra].
  - pose proof (proj1 X1 eq_refl). pose proof (proj1 Y2 eq_refl). split; [intros _; nra|reflexivity].
  - pose proof (proj1 X2 eq_refl). pose proof (proj1 Y1 eq_refl). split; [intros _; nra|reflexivity].
  - pose proof (proj1 X2 eq_refl). pose proof (proj1 Y2 eq_refl). split; [discriminate|intros; exfalso; nra].
Qed.
Lemma isF_ofZ z : Rabs (rd (IZR z)) < top emax -> isf (@nofZ _ FN z) (rd (IZR z)).
Proof.
  intros Hn. cbn [nofZ Fnum]. rewrite normalize_eq.
  pose proof (binary_normalize_correct prec emax Hprec Hmax mode_NE z 0 false) as C. cbv zeta in C.
  unfold F2R in C. cbn [Defs.Fnum Fexp bpow] in C. rewrite Rmult_1_r in C.
  rewrite Rlt_bool_true in C by exact Hn. destruct C as (C1 & C2 & _).
  unfold rnd. cbn [round_mode] in C1. rewrite <- C1. apply B_isF, C2.
Qed.
Lemma isF_ltb x y a b : isf x a -> isf y b -> @nltb _ FN x y = Rltb a b.
Proof.
  intros Hx Hy. apply isF_B in Hx as (bx & -> & Fx & <-). apply isF_B in Hy as (by_ & -> & Fy & <-).
  cbn [nltb Fnum]. change (SFltb (B2SF bx) (B2SF by_)) with (Bltb bx by_). rewrite Bltb_correct by assumption.
  unfold Rltb. destruct (Rlt_dec _ _); [apply Rlt_bool_true|apply Rlt_bool_false]; lra.
Qed.
Lemma isF_leb x y a b : isf x a -> isf y b -> @nleb _ FN x y = Rleb a b.
Proof.
  intros Hx Hy. apply isF_B in Hx as (bx & -> & Fx & <-). apply isF_B in Hy as (by_ & -> & Fy & <-).
  cbn [nleb Fnum]. change (SFleb (B2SF bx) (B2SF by_)) with (Bleb bx by_). rewrite Bleb_correct by assumption.
  unfold Rleb. destruct (Rle_dec _ _); [apply Rle_bool_true|apply Rle_bool_false]; lra.
Qed.

(** Rounding. *)
Lemma rd_mono a b : a <= b -> rd a <= rd b.
Proof. intros H. apply round_le; auto with typeclass_instances. Qed.
Lemma rd_0 : rd 0 = 0.
Proof. apply round_0; auto with typeclass_instances. Qed.
Lemma rd_id x a : isf x a -> rd a = a.
Proof.
  intros H. apply isF_B in H as (b & -> & _ & <-). apply round_generic; auto with typeclass_instances.
  apply generic_format_B2R.
Qed.
Lemma rd_pos a : 0 <= a -> 0 <= rd a.
Proof. intros H. rewrite <- rd_0. apply rd_mono, H. Qed.
Lemma rd_neg a : a <= 0 -> rd a <= 0.
Proof. intros H. rewrite <- rd_0. apply rd_mono, H. Qed.
Lemma rd_opp a : rd (- a) = - rd a.
Proof. apply round_NE_opp. Qed.
Lemma rd_rel a : least emax <= Rabs a -> Rabs (rd a - a) <= ulpf prec * Rabs a.
Proof.
  intros H. pose proof (relative_error_N_FLT radix2 (SpecFloat.emin prec emax) prec Hprec (fun x => negb (Z.even x)) a) as E.
  unfold ulpf. replace (/ 2 * bpow radix2 (- prec + 1)) with (bpow radix2 (- prec)) in E.
  2: { rewrite bpow_plus. cbn. lra. }
  apply E. replace (SpecFloat.emin prec emax + prec - 1)%Z with (3 - emax - 1)%Z by (unfold SpecFloat.emin; lia). exact H.
Qed.
(** Sums and differences never underflow. *)
Lemma rd_add_rel x y a b : isf x a -> isf y b -> Rabs (rd (a + b) - (a + b)) <= ulpf prec * Rabs (a + b).
Proof.
  intros Hx Hy. destruct (Rle_lt_dec (least emax) (Rabs (a + b))) as [H|H]; [apply rd_rel, H|].
  assert (E : rd (a + b) = a + b).
  { apply isF_B in Hx as (bx & -> & _ & <-). apply isF_B in Hy as (by_ & -> & _ & <-).
    apply round_generic; auto with typeclass_instances.
    apply (FLT_format_plus_small radix2 (SpecFloat.emin prec emax) prec); try apply generic_format_B2R; auto.
    apply Rlt_le, Rlt_le_trans with (1 := H). apply bpow_le. unfold SpecFloat.emin. unfold Prec_gt_0 in Hprec. lia. }
  rewrite E. unfold Rminus. rewrite Rplus_opp_r, Rabs_R0. apply Rmult_le_pos; [apply bpow_ge_0|apply Rabs_pos].
Qed.
Lemma isF_opp x a : isf x a -> isf (@nopp _ FN x) (- a).
Proof.
  intros H. apply isF_B in H as (b & -> & Fb & <-). cbn [nopp Fnum].
  replace (SFopp (B2SF b)) with (B2SF (Bopp b)) by (destruct b; reflexivity).
  rewrite <- B2R_Bopp. apply B_isF. rewrite is_finite_Bopp. exact Fb.
Qed.
Lemma rd_sub_rel x y a b : isf x a -> isf y b -> Rabs (rd (a - b) - (a - b)) <= ulpf prec * Rabs (a - b).
Proof. intros Hx Hy. apply isF_opp in Hy. exact (rd_add_rel _ _ _ _ Hx Hy). Qed.
End F.
