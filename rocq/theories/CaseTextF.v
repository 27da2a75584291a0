(** Concrete C library functions in IEEE arithmetic, and numbers read with them. *)

From Coq Require Import Reals ZArith Strings.String List Lia Lra Floats.SpecFloat.
From Flocq Require Import Core Relative Plus_error IEEE754.BinarySingleNaN.
From Verif Require Import Num NumR NumF SpecIEEE ObjText SpecText SpecTextF PfIEEE PfIEEE2 PfIEEE3 PfText PfText6.
Import ListNotations.
Local Open Scope string_scope.
Local Open Scope R_scope.
Local Instance p53 : Prec_gt_0 53 := eq_refl.
Local Instance m1024 : Prec_lt_emax 53 1024 := eq_refl.

Definition sig (s : bool) (m : positive) : Z := if s then Zneg m else Zpos m.
(** Powers with at least 100 correct bits, rounded. *)
Definition ieee_pow (b e : Z) : spec_float :=
  if (0 <=? e)%Z then SpecFloat.binary_normalize 53 1024 (b ^ e) 0 false
  else SpecFloat.binary_normalize 53 1024 (2 ^ 500 / b ^ (- e)) (-500) false.
Definition ieee_ldexp (x : spec_float) (e : Z) : spec_float :=
  match x with S754_finite s m e' => SpecFloat.binary_normalize 53 1024 (sig s m) (e' + e) s | _ => x end.
Definition ieee_float (x : spec_float) : spec_float :=
  match x with
  | S754_finite s m e =>
      match SpecFloat.binary_normalize 24 128 (sig s m) e s with
      | S754_finite s m e => SpecFloat.binary_normalize 53 1024 (sig s m) e s
      | y => y
      end
  | _ => x
  end.

Lemma sig_value s m e : IZR (sig s m) * bpow radix2 e = F2R (Float radix2 (cond_Zopp s (Zpos m)) e).
Proof. destruct s; reflexivity. Qed.
Lemma norm_isF prec emax {H1 : Prec_gt_0 prec} {H2 : Prec_lt_emax prec emax} m e s :
  Rabs (rnd prec emax (IZR m * bpow radix2 e)) < top emax ->
  isF prec emax (SpecFloat.binary_normalize prec emax m e s) (rnd prec emax (IZR m * bpow radix2 e)).
Proof.
  intros Hn. rewrite (normalize_eq prec emax).
  pose proof (binary_normalize_correct prec emax H1 H2 mode_NE m e s) as C. cbv zeta in C.
  unfold F2R in C. cbn [Defs.Fnum Fexp] in C.
  rewrite Rlt_bool_true in C by exact Hn. destruct C as (C1 & C2 & _).
  unfold rnd. cbn [round_mode] in C1. rewrite <- C1. apply B_isF, C2.
Qed.

(** Any normal value of up to 53 bits is a double. *)
Lemma scale_format (a : R) e : generic_format radix2 (SpecFloat.fexp 53 1024) a -> least 1024 <= Rabs (a * bpow radix2 e) ->
  rnd 53 1024 (a * bpow radix2 e) = a * bpow radix2 e.
Proof.
  intros Ha Hl. apply round_generic; auto with typeclass_instances.
  unfold generic_format in Ha. pose proof (bpow_gt_0 radix2 e) as Be.
  assert (A0 : a <> 0) by (intros ->; rewrite Rmult_0_l, Rabs_R0 in Hl; pose proof (bpow_gt_0 radix2 (3 - 1024 - 1)); unfold least in Hl; lra).
  unfold F2R in Ha. cbn [Defs.Fnum Fexp] in Ha.
  set (z := Ztrunc (scaled_mantissa radix2 (SpecFloat.fexp 53 1024) a)) in *.
  set (c := cexp radix2 (SpecFloat.fexp 53 1024) a) in *.
  apply generic_format_F2R' with (f := Float radix2 z (c + e)).
  - unfold F2R. cbn [Defs.Fnum Fexp]. rewrite bpow_plus. rewrite Ha at 1. ring.
  - intros _. cbn [Fexp]. unfold cexp. rewrite mag_mult_bpow by exact A0.
    assert (M : (3 - 1024 - 1 < mag radix2 a + e)%Z).
    { rewrite <- (mag_mult_bpow radix2 a e A0). apply mag_gt_bpow. exact Hl. }
    unfold c, cexp, SpecFloat.fexp, SpecFloat.emin. lia.
Qed.
Lemma isF_format x a : isF 53 1024 x a -> generic_format radix2 (SpecFloat.fexp 53 1024) a.
Proof. intros H. apply isF_B in H as (b & -> & _ & <-). apply generic_format_B2R. Qed.
Lemma ldexp_case : ldexp_right ieee_ldexp.
Proof.
  intros x a e Hx Ha. pose proof (isF_format _ _ Hx) as F. destruct Hx as (V & Fi & E). destruct x as [s|s| |s m e']; try discriminate Fi.
  - cbn [ieee_ldexp]. cbn in E. subst a. rewrite Rmult_0_l. split; [reflexivity|]. split; reflexivity.
  - cbn [ieee_ldexp]. cbn [SF2R] in E. rewrite <- sig_value in E.
    assert (G : IZR (sig s m) * bpow radix2 (e' + e) = a * bpow radix2 e) by (rewrite bpow_plus, <- E; ring).
    destruct Ha as [Z|[L1 L2]].
    + exfalso. subst a. pose proof (bpow_gt_0 radix2 e'). apply Rmult_integral in Z. destruct Z as [Z|Z]; [|lra].
      apply (eq_IZR _ 0) in Z. destruct s; discriminate Z.
    + pose proof (scale_format a e F L1) as R. pose proof (@norm_isF 53 1024 eq_refl eq_refl (sig s m) (e' + e) s) as N.
      rewrite G, R in N. apply N. exact L2.
Qed.
Lemma format_24_53 a : generic_format radix2 (SpecFloat.fexp 24 128) a -> generic_format radix2 (SpecFloat.fexp 53 1024) a.
Proof.
  apply generic_inclusion_mag. intros _. unfold SpecFloat.fexp, SpecFloat.emin. lia.
Qed.
Lemma float_case : float_right ieee_float.
Proof.
  intros x a Hx Ha. destruct Hx as (V & Fi & E). destruct x as [s|s| |s m e]; try discriminate Fi.
  - cbn [ieee_float]. cbn in E. subst a. rewrite (@rd_0 24 128). split; [reflexivity|]. split; reflexivity.
  - cbn [ieee_float]. cbn [SF2R] in E. rewrite <- sig_value in E.
    pose proof (@norm_isF 24 128 eq_refl eq_refl (sig s m) e s) as N. rewrite E in N. specialize (N Ha).
    destruct (SpecFloat.binary_normalize 24 128 (sig s m) e s) as [s'|s'| |s' m' e'] eqn:Q;
      try (destruct N as (_ & N & _); discriminate N).
    + destruct N as (_ & _ & N). cbn in N. rewrite <- N. split; [reflexivity|]. split; reflexivity.
    + assert (G : rnd 53 1024 (rnd 24 128 a) = rnd 24 128 a).
      { apply round_generic; auto with typeclass_instances. apply format_24_53. apply generic_format_round; auto with typeclass_instances.
        apply (fexp_correct 24 128). reflexivity. }
      pose proof (@norm_isF 53 1024 eq_refl eq_refl (sig s' m') e' s') as N'.
      destruct N as (_ & _ & N). cbn [SF2R] in N. rewrite <- sig_value in N. rewrite N, G in N'. apply N'.
      eapply Rlt_trans; [exact Ha|]. apply bpow_lt. lia.
Qed.

Lemma pow_up b n : b = 5%Z \/ b = 10%Z -> (1 <= b ^ Z.of_nat n <= 2 ^ (4 * Z.of_nat n))%Z.
Proof.
  intros Hb. replace (2 ^ (4 * Z.of_nat n))%Z with (16 ^ Z.of_nat n)%Z by (rewrite Z.pow_mul_r by lia; reflexivity).
  split; [apply (Zlt_le_succ 0), Z.pow_pos_nonneg; lia|]. apply Z.pow_le_mono_l. lia.
Qed.
Lemma rd_near r v d : 0 < v -> bpow radix2 (-1000) <= v <= bpow radix2 1000 -> 0 <= d <= bpow radix2 (-90) -> Rabs (r - v) <= d * v ->
  Rabs (rnd 53 1024 r) < top 1024 /\ Rabs (rnd 53 1024 r - v) <= bpow radix2 (-52) * v.
Proof.
  intros Hv [L H] Hd Hr. assert (D : bpow radix2 (-90) <= / 4 * bpow radix2 (-53)) by (cbn; lra).
  assert (U : bpow radix2 (-53) <= / 4) by (cbn; lra).
  pose proof (bpow_gt_0 radix2 (-53)) as U0.
  assert (R1 : 1 / 2 * v <= r <= 2 * v) by (apply Rabs_le_inv in Hr; split; nra).
  pose proof (rd_good r) as G. specialize (G ltac:(lra)).
  assert (A1 : bpow radix2 (-1022) <= r).
  { apply Rle_trans with (1 / 2 * bpow radix2 (-1000)); [|lra].
    replace (1 / 2) with (bpow radix2 (-1)) by (cbn; lra). rewrite <- bpow_plus. apply bpow_le. lia. }
  assert (A2 : r <= bpow radix2 1022).
  { apply Rle_trans with (2 * bpow radix2 1000); [lra|]. change 2 with (bpow radix2 1). rewrite <- bpow_plus. apply bpow_le. lia. }
  destruct (G (or_intror A1) A2) as [G1 G2]. split; [exact G2|].
  replace (rnd 53 1024 r - v) with ((rnd 53 1024 r - r) + (r - v)) by ring. eapply Rle_trans; [apply Rabs_triang|].
  replace (bpow radix2 (-52)) with (2 * bpow radix2 (-53)) by (change (-52)%Z with (1 + -53)%Z; rewrite bpow_plus; reflexivity).
  assert (X1 : d * v <= / 4 * bpow radix2 (-53) * v) by (apply Rmult_le_compat_r; lra).
  assert (X2 : r <= (1 + d) * v) by (apply Rabs_le_inv in Hr; lra).
  assert (X3 : r <= 5 / 4 * v) by nra.
  assert (X4 : bpow radix2 (-53) * r <= bpow radix2 (-53) * (5 / 4 * v)) by (apply Rmult_le_compat_l; lra).
  assert (X5 : 0 <= bpow radix2 (-53) * v) by (apply Rmult_le_pos; lra). lra.
Qed.
Lemma pow_case : pow_near ieee_pow.
Proof.
  split.
  - apply small_isF. reflexivity.
  - intros b e Hb He. unfold ieee_pow. destruct (0 <=? e)%Z eqn:Q; [apply Z.leb_le in Q|apply Z.leb_gt in Q].
    + rewrite <- (Z2Nat.id e Q) in *. set (n := Z.to_nat e) in *. rewrite <- pow_powerRZ, pow_IZR.
      destruct (pow_up b n Hb) as [P1 P2]. set (z := (b ^ Z.of_nat n)%Z) in *.
      assert (B1 : 1 <= IZR z) by (apply IZR_le; exact P1).
      assert (B2 : IZR z <= bpow radix2 1000).
      { apply Rle_trans with (IZR (2 ^ (4 * Z.of_nat n))); [apply IZR_le, P2|]. change 2%Z with (radix_val radix2).
        rewrite IZR_Zpower by lia. apply bpow_le. lia. }
      pose proof (@norm_isF 53 1024 eq_refl eq_refl z 0 false) as N. change (bpow radix2 0) with 1 in N. rewrite Rmult_1_r in N.
      destruct (rd_near (IZR z) (IZR z) 0) as [G1 G2].
      * lra.
      * split; [|exact B2]. apply Rle_trans with 1; [|exact B1]. change 1 with (bpow radix2 0). apply bpow_le. lia.
      * split; [lra|apply bpow_ge_0].
      * rewrite Rminus_eq_0, Rabs_R0. lra.
      * exists (rnd 53 1024 (IZR z)). split; [apply N, G1|exact G2].
    + replace e with (- Z.of_nat (Z.to_nat (- e)))%Z in * by lia. set (n := Z.to_nat (- e)) in *.
      rewrite Z.opp_involutive. rewrite powerRZ_neg'. rewrite <- pow_powerRZ, pow_IZR.
      destruct (pow_up b n Hb) as [P1 P2]. set (z := (b ^ Z.of_nat n)%Z) in *. clearbody z.
      assert (B1 : 1 <= IZR z) by (apply IZR_le; exact P1).
      assert (B2 : IZR z <= bpow radix2 400).
      { apply Rle_trans with (IZR (2 ^ (4 * Z.of_nat n))); [apply IZR_le, P2|]. change 2%Z with (radix_val radix2).
        rewrite IZR_Zpower by lia. apply bpow_le. lia. }
      set (q := (2 ^ 500 / z)%Z).
      assert (D : (z * q <= 2 ^ 500 < z * q + z)%Z).
      { unfold q. pose proof (Z.mul_div_le (2 ^ 500) z ltac:(lia)). pose proof (Z.mul_succ_div_gt (2 ^ 500) z ltac:(lia)). lia. }
      assert (D1 : IZR z * IZR q <= bpow radix2 500 < IZR z * IZR q + IZR z).
      { rewrite <- (IZR_Zpower radix2 500) by lia. rewrite <- mult_IZR, <- plus_IZR. split; [apply IZR_le|apply IZR_lt]; apply D. }
      pose proof (@norm_isF 53 1024 eq_refl eq_refl q (-500) false) as N.
      assert (BB : bpow radix2 500 * bpow radix2 (-500) = 1) by (rewrite <- bpow_plus; reflexivity).
      pose proof (bpow_gt_0 radix2 (-500)) as B5.
      assert (I0 : 0 < / IZR z) by (apply Rinv_0_lt_compat; lra).
      assert (I1 : IZR z * / IZR z = 1) by (apply Rinv_r; lra).
      destruct (rd_near (IZR q * bpow radix2 (-500)) (/ IZR z) (bpow radix2 (-100))) as [G1 G2].
      * exact I0.
      * split.
        -- apply Rle_trans with (/ bpow radix2 400); [rewrite <- bpow_opp; apply bpow_le; lia|apply Rinv_le; [lra|exact B2]].
        -- apply Rle_trans with 1; [rewrite <- Rinv_1; apply Rinv_le; lra|]. change 1 with (bpow radix2 0). apply bpow_le. lia.
      * split; [apply bpow_ge_0|apply bpow_le; lia].
      * (* 0 <= 1/z - q 2^-500 < 2^-500 <= 2^-100 / z *)
        assert (T : bpow radix2 (-500) <= bpow radix2 (-100) * / IZR z).
        { replace (bpow radix2 (-500)) with (bpow radix2 (-100) * / bpow radix2 400) by (rewrite <- bpow_opp, <- bpow_plus; reflexivity).
          apply Rmult_le_compat_l; [apply bpow_ge_0|]. apply Rinv_le; [lra|exact B2]. }
        assert (E : / IZR z - IZR q * bpow radix2 (-500) = (bpow radix2 500 - IZR z * IZR q) * (bpow radix2 (-500) * / IZR z)).
        { rewrite <- (Rmult_1_l (/ IZR z)) at 1. rewrite <- BB.
          replace (IZR q * bpow radix2 (-500)) with (IZR z * / IZR z * (IZR q * bpow radix2 (-500))) by (rewrite I1; ring). ring. }
        rewrite Rabs_minus_sym, E, Rabs_pos_eq.
        -- eapply Rle_trans; [|exact T]. apply Rle_trans with (IZR z * (bpow radix2 (-500) * / IZR z)).
           ++ apply Rmult_le_compat_r; [apply Rmult_le_pos; lra|lra].
           ++ right. replace (IZR z * (bpow radix2 (-500) * / IZR z)) with (IZR z * / IZR z * bpow radix2 (-500)) by ring. rewrite I1. ring.
        -- apply Rmult_le_pos; [lra|apply Rmult_le_pos; lra].
      * exists (rnd 53 1024 (IZR q * bpow radix2 (-500))). split; [apply N, G1|exact G2].
Qed.

(** "0.1" and "-160.25e-1". *)
Definition tenth : decimal := Decimal (Integer NoSign [D0]) (Some [D1]) None.
Definition minus_16 : decimal := Decimal (Integer Minus [D1; D6; D0]) (Some [D2; D5]) (Some (false, Integer Minus [D1])).
Lemma minus_16_case : decimal_text minus_16 = "-160.25e-1" /\ decimal_ok minus_16 /\ usual minus_16 /\ roundings minus_16 = 14%nat /\
  decimal_value minus_16 = (-(16025 / 1000))%R /\ bpow radix2 (-125) <= Rabs (decimal_value minus_16) <= bpow radix2 126.
Proof.
  assert (V : decimal_value minus_16 = (-(16025 / 1000))%R) by (cbv -[IZR Rdiv Rmult Rplus Rinv Rminus Ropp]; cbn; lra).
  assert (P : Rabs (decimal_value minus_16) = (16025 / 1000)%R) by (rewrite V, Rabs_Ropp; apply Rabs_pos_eq; lra).
  split; [reflexivity|]. split; [|split; [|split; [reflexivity|]]].
  - split; [discriminate|]. intros c e E. injection E as <- <-. split; [discriminate|]. split; vm_compute; discriminate.
  - split; [cbn; lia|]. split; [cbn; lia|]. vm_compute. discriminate.
  - split; [exact V|]. rewrite P. split; cbn; lra.
Qed.
(** "16777215", the largest integer below 2^24. *)
Definition largest : decimal := Decimal (Integer Plus [D1; D6; D7; D7; D7; D2; D1; D5]) None None.
Lemma largest_case : decimal_text largest = "+16777215" /\ decimal_ok largest /\ frac_digits largest = [] /\ exponent largest = 0%Z /\
  (natural (i_digits (d_whole largest)) < 2 ^ 24)%Z.
Proof. split; [reflexivity|]. split; [split; [discriminate|discriminate]|]. split; [reflexivity|]. split; reflexivity. Qed.

(** "0.3" is read as 0.30000000000000004. *)
Definition three_tenths : decimal := Decimal (Integer NoSign [D0]) (Some [D3]) None.
Definition nearest_tenth : spec_float := f64 7205759403792794 (-56).
Lemma three_tenths_off pow_ ldexp_ : pow_ 10%Z (-1)%Z = nearest_tenth -> pow_ 5%Z 0%Z = f64 1 0 -> (forall x, ldexp_ x 0%Z = x) ->
  exists x a, @tryParseDouble _ F64 pow_ ldexp_ (decimal_text three_tenths) = Ok (Some x) /\ isF 53 1024 x a /\
    a <> rnd 53 1024 (decimal_value three_tenths).
Proof.
  intros H1 H2 H3. exists (f64 5404319552844596 (-54)), (5404319552844596 * bpow radix2 (-54)).
  assert (V : decimal_value three_tenths = 3 / 10) by (cbv -[IZR Rdiv Rmult Rplus Rinv Rminus Ropp]; cbn; lra).
  split; [|split].
  - rewrite (number_any pow_ ldexp_ three_tenths).
    + unfold number_of, three_tenths, assemble. cbn [d_whole d_frac d_exp frac_digits exponent i_sgn i_digits frac_of whole_of sgn_char].
      change (- (1))%Z with (-1)%Z. rewrite H1, H2, H3. vm_compute. reflexivity.
    + split; [discriminate|]. discriminate.
  - apply (isF_lit 53 1024 ltac:(lia)); [reflexivity|lia].
  - rewrite V. intros E.
    assert (I3 : isF 53 1024 (f64 3 0) 3) by (apply (small_isF 3); reflexivity).
    assert (I10 : isF 53 1024 (f64 10 0) 10) by (apply (small_isF 10); reflexivity).
    assert (D : isF 53 1024 (f64 5404319552844595 (-54)) (rnd 53 1024 (3 / 10))).
    { replace (f64 5404319552844595 (-54)) with (@ndiv _ F64 (f64 3 0) (f64 10 0)) by (vm_compute; reflexivity).
      apply (isF_div 53 1024); [exact I3|exact I10|lra|].
      destruct (rd_good (3 / 10)) as [_ G]; [lra|right|..|exact G].
      - apply Rle_trans with (bpow radix2 (-2)); [apply bpow_le; lia|cbn; lra].
      - apply Rle_trans with (bpow radix2 0); [cbn; lra|apply bpow_le; lia]. }
    assert (L : isF 53 1024 (f64 5404319552844595 (-54)) (5404319552844595 * bpow radix2 (-54))) by (apply (isF_lit 53 1024 ltac:(lia)); [reflexivity|lia]).
    pose proof (isF_fun _ _ _ _ _ D L) as Q. rewrite <- E in Q. cbn in Q. lra.
Qed.
Lemma three_tenths_case : ieee_pow 10%Z (-1)%Z = nearest_tenth /\ ieee_pow 5%Z 0%Z = f64 1 0 /\ nearest_tenth = @ndiv _ F64 (f64 1 0) (f64 10 0).
Proof. split; [|split]; vm_compute; reflexivity. Qed.
