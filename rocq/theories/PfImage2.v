(** The conversion of a colour to a byte in IEEE arithmetic. *)

From Coq Require Import Reals ZArith List Bool Arith Lra Lia Floats.SpecFloat.
From Flocq Require Import Core Relative Plus_error IEEE754.BinarySingleNaN.
From Verif Require Import Num NumR NumF Vec Datatypes PathTracer Image SpecReal SpecIEEE SpecImage PfIEEE PfIEEE2 PfIEEE3.
Import ListNotations.
Local Open Scope R_scope.

Section F.
Variables prec emax : Z.
Context {Hprec : Prec_gt_0 prec} {Hmax : Prec_lt_emax prec emax}.
Hypothesis Hp8 : (8 <= prec)%Z.
Notation FN := (Fnum prec emax).
Notation isf := (isF prec emax).
Notation rd := (rnd prec emax).
Local Notation isF_mul := (@PfIEEE.isF_mul prec emax Hprec Hmax).
Local Notation isF_mul_over := (@PfIEEE.isF_mul_over prec emax Hprec Hmax).
Local Notation isF_ltb := (PfIEEE.isF_ltb prec emax).

Lemma trunc_F x a : isf x a -> 0 <= a -> sf_trunc x = Some (Zfloor a).
Proof.
  intros (Hv & Hf & <-) Ha. destruct x as [s|s| |s m e]; try discriminate.
  - cbn. now rewrite Zfloor_IZR.
  - destruct s.
    + exfalso. revert Ha. cbn [SF2R]. apply Rlt_not_le. apply F2R_lt_0. reflexivity.
    + cbn [sf_trunc SF2R cond_Zopp]. unfold F2R. cbn [Fnum Fexp].
      f_equal. destruct (Z.leb_spec 0 e) as [He|He].
      * rewrite <- IZR_Zpower by exact He. rewrite <- mult_IZR. symmetry. apply Zfloor_IZR.
      * replace (bpow radix2 e) with (/ IZR (2 ^ (- e))).
        -- symmetry. apply (Zfloor_div (Zpos m) (2 ^ (- e))). apply Z.pow_nonzero; lia.
        -- change (2 ^ (- e))%Z with (Zpower radix2 (- e)). rewrite IZR_Zpower by lia.
           rewrite <- bpow_opp. f_equal. lia.
Qed.

Lemma const_isF z : (0 <= z < 256)%Z -> isf (@nofZ _ FN z) (IZR z).
Proof.
  intros Hz. assert (isf (SpecFloat.binary_normalize prec emax z 0 false) (IZR z * bpow radix2 0)) as H.
  { apply (@isF_lit prec emax Hprec Hmax ltac:(lia)).
    - assert (2 ^ 8 <= 2 ^ prec)%Z by (apply Z.pow_le_mono_r; lia). lia.
    - unfold Prec_lt_emax in Hmax. unfold Prec_gt_0 in Hprec. lia. }
  cbn [bpow] in H. rewrite Rmult_1_r in H. exact H.
Qed.

Lemma pos_shape x a : isf x a -> 0 < a -> exists m e, x = S754_finite false m e.
Proof.
  intros (_ & Hf & <-) Ha. destruct x as [s|s| |[] m e]; try discriminate.
  - cbn in Ha. lra.
  - exfalso. revert Ha. cbn [SF2R]. apply Rle_not_lt. apply F2R_le_0. discriminate.
  - eauto.
Qed.

Lemma clamp_floor p : Zfloor (if Rltb 0 (if Rltb 255 p then 255 else p) then (if Rltb 255 p then 255 else p) else 0) =
  Z.max 0 (Z.min 255 (Zfloor p)).
Proof.
  pose proof (Zfloor_lb p) as H1. pose proof (Zfloor_ub p) as H2.
  unfold Rltb. destruct (Rlt_dec 255 p) as [Hp|Hp].
  - destruct (Rlt_dec 0 255); [|lra]. rewrite Zfloor_IZR.
    assert (255 <= Zfloor p)%Z by (apply Zfloor_lub; lra). lia.
  - destruct (Rlt_dec 0 p) as [H0|H0].
    + assert (0 <= Zfloor p)%Z by (apply Zfloor_lub; lra).
      assert (Zfloor p <= 255)%Z by (apply le_IZR; lra). lia.
    + rewrite Zfloor_IZR. assert (Zfloor p <= 0)%Z by (apply le_IZR; lra). lia.
Qed.

Local Notation c0 := (@nofZ _ FN 0).
Local Notation c255 := (@nofZ _ FN 255).
Local Notation prod v := (@nmul _ FN v c255).

Lemma u8_F x z : sf_trunc x = Some z -> (0 <= z <= 255)%Z -> sf_u8 x = Some z.
Proof.
  intros E H. unfold sf_u8. rewrite E. destruct (Z.leb_spec 0 z); [|lia]. destruct (Z.leb_spec z 255); [|lia]. reflexivity.
Qed.
Lemma zero_u8 : sf_u8 c0 = Some 0%Z.
Proof. reflexivity. Qed.
Lemma top_u8 : sf_u8 c255 = Some 255%Z.
Proof. apply u8_F; [|lia]. rewrite (trunc_F _ 255) by ((apply (const_isF 255); lia) || lra). now rewrite Zfloor_IZR. Qed.

(** The clamped product. *)
Lemma clamp_F v p : isf (prod v) p ->
  isf (@smax _ FN c0 (@smin _ FN (prod v) c255))
    (if Rltb 0 (if Rltb 255 p then 255 else p) then (if Rltb 255 p then 255 else p) else 0) /\
  isf (@smax _ FN (@smin _ FN (prod v) c255) c0)
    (if Rltb (if Rltb 255 p then 255 else p) 0 then 0 else (if Rltb 255 p then 255 else p)).
Proof.
  intros Hp. pose proof (const_isF 255 ltac:(lia)) as H255. pose proof (const_isF 0 ltac:(lia)) as H0.
  assert (Hm : isf (@smin _ FN (prod v) c255) (if Rltb 255 p then 255 else p)).
  { unfold smin. rewrite (isF_ltb _ _ _ _ H255 Hp). destruct (Rltb 255 p); assumption. }
  unfold smax. rewrite (isF_ltb _ _ _ _ H0 Hm), (isF_ltb _ _ _ _ Hm H0).
  split; match goal with |- isf (if ?c then _ else _) _ => destruct c end; assumption.
Qed.
Lemma clamp_same p : (if Rltb (if Rltb 255 p then 255 else p) 0 then 0 else (if Rltb 255 p then 255 else p)) =
  (if Rltb 0 (if Rltb 255 p then 255 else p) then (if Rltb 255 p then 255 else p) else 0).
Proof.
  set (q := if Rltb 255 p then 255 else p). unfold Rltb. destruct (Rlt_dec q 0), (Rlt_dec 0 q); lra.
Qed.
Lemma clamp_nonneg p : 0 <= (if Rltb 0 (if Rltb 255 p then 255 else p) then (if Rltb 255 p then 255 else p) else 0).
Proof. set (q := if Rltb 255 p then 255 else p). unfold Rltb. destruct (Rlt_dec 0 q); lra. Qed.

Lemma inf_byte v s : prod v = S754_infinity s ->
  png_byte (N := FN) sf_u8 v = Some (if s then 0 else 255)%Z /\ ppm_byte (N := FN) sf_u8 v = Some (if s then 0 else 255)%Z.
Proof.
  intros E. unfold png_byte, ppm_byte, smin, smax. rewrite E.
  destruct (pos_shape _ _ (const_isF 255 ltac:(lia)) ltac:(lra)) as (m & e & S255).
  assert (L : forall s', @nltb _ FN c255 (S754_infinity s') = negb s').
  { intros s'. rewrite S255. now destruct s'. }
  rewrite L. destruct s; cbn [negb].
  - split; reflexivity.
  - assert (L1 : @nltb _ FN c0 c255 = true) by (rewrite S255; reflexivity).
    assert (L2 : @nltb _ FN c255 c0 = false) by (rewrite S255; reflexivity).
    rewrite L1, L2, top_u8. split; reflexivity.
Qed.

Lemma number_byte v : valid_binary prec emax v = true -> v <> S754_nan ->
  png_byte (N := FN) sf_u8 v = Some (byte_of prec emax v) /\ ppm_byte (N := FN) sf_u8 v = Some (byte_of prec emax v).
Proof.
  intros Hv Hn.
  assert (K : forall a, isf v a ->
    png_byte (N := FN) sf_u8 v = Some (Z.max 0 (Z.min 255 (Zfloor (rd (a * 255))))) /\
    ppm_byte (N := FN) sf_u8 v = Some (Z.max 0 (Z.min 255 (Zfloor (rd (a * 255)))))).
  { intros a Ha. destruct (Rlt_le_dec (Rabs (rd (a * 255))) (top emax)) as [Hlt|Hge].
    - pose proof (isF_mul _ _ _ _ Ha (const_isF 255 ltac:(lia)) Hlt) as Hp.
      destruct (clamp_F v _ Hp) as [C1 C2]. rewrite clamp_same in C2.
      unfold png_byte, ppm_byte. rewrite <- clamp_floor.
      split; (apply u8_F; [apply trunc_F; [assumption|apply clamp_nonneg]|]);
        rewrite clamp_floor; lia.
    - destruct (isF_mul_over _ _ _ _ Ha (const_isF 255 ltac:(lia)) Hge) as (s & E & Hs).
      destruct (inf_byte v s E) as [-> ->].
      assert (Ht : 256 <= top emax).
      { unfold top. change 256 with (bpow radix2 8). apply bpow_le. unfold Prec_lt_emax in Hmax. lia. }
      replace (Z.max 0 (Z.min 255 (Zfloor (rd (a * 255))))) with (if s then 0 else 255)%Z; [tauto|].
      destruct s.
      + assert (a * 255 < 0) by tauto.
        assert (R0 : rd (a * 255) <= 0) by (apply (@PfIEEE.rd_neg prec emax Hprec); lra).
        pose proof (Zfloor_lb (rd (a * 255))).
        assert (Zfloor (rd (a * 255)) <= 0)%Z by (apply le_IZR; lra). lia.
      + assert (Hge0 : 0 <= a * 255).
        { destruct (Rlt_le_dec (a * 255) 0) as [H|H]; [|exact H]. apply Hs in H. discriminate. }
        assert (R0 : 0 <= rd (a * 255)) by (apply (@PfIEEE.rd_pos prec emax Hprec); lra).
        rewrite Rabs_pos_eq in Hge by exact R0.
        assert (255 <= Zfloor (rd (a * 255)))%Z by (apply Zfloor_lub; lra). lia. }
  destruct v as [s|s| |s m e].
  - exact (K _ (isF_val prec emax (S754_zero s) Hv eq_refl)).
  - destruct (pos_shape _ _ (const_isF 255 ltac:(lia)) ltac:(lra)) as (m & e & S255).
    apply (inf_byte (S754_infinity s) s). rewrite S255. cbn. now rewrite xorb_false_r.
  - congruence.
  - exact (K _ (isF_val prec emax (S754_finite s m e) Hv eq_refl)).
Qed.

Lemma nan_png : png_byte (N := FN) sf_u8 S754_nan = Some 0%Z.
Proof.
  unfold png_byte, smin, smax. change (prod S754_nan) with S754_nan.
  rewrite (nan_l prec emax), (nan_l prec emax). reflexivity.
Qed.
Lemma nan_ppm : ppm_byte (N := FN) sf_u8 S754_nan = None.
Proof.
  unfold ppm_byte, smin, smax. change (prod S754_nan) with S754_nan.
  rewrite (nan_l prec emax), (nan_r prec emax). reflexivity.
Qed.

(** C68: always defined. *)
Lemma png_byte_ok v : valid_binary prec emax v = true ->
  png_byte (N := FN) sf_u8 v = Some (byte_of prec emax v).
Proof.
  intros Hv. destruct v as [s|s| |s m e].
  - now apply number_byte.
  - now apply number_byte.
  - apply nan_png.
  - now apply number_byte.
Qed.
Lemma ppm_byte_ok v : valid_binary prec emax v = true -> v <> S754_nan ->
  ppm_byte (N := FN) sf_u8 v = Some (byte_of prec emax v).
Proof. intros. now apply number_byte. Qed.

Lemma byte_range v : (0 <= byte_of prec emax v <= 255)%Z.
Proof. destruct v as [s|[]| |s m e]; cbn [byte_of]; lia. Qed.

Lemma byte_isF v a : isf v a -> byte_of prec emax v = Z.max 0 (Z.min 255 (Zfloor (rd (a * 255)))).
Proof. intros (_ & Hf & <-). destruct v as [s|s| |s m e]; try discriminate; reflexivity. Qed.

(** A brighter colour has no darker byte. *)
Lemma byte_mono v w a b : isf v a -> isf w b -> a <= b -> (byte_of prec emax v <= byte_of prec emax w)%Z.
Proof.
  intros Hv Hw Hab. rewrite (byte_isF v a Hv), (byte_isF w b Hw).
  assert (rd (a * 255) <= rd (b * 255)) by (apply (@PfIEEE.rd_mono prec emax Hprec); lra).
  assert (Zfloor (rd (a * 255)) <= Zfloor (rd (b * 255)))%Z by (now apply Zfloor_le). lia.
Qed.
Lemma byte_black v a : isf v a -> a <= 0 -> byte_of prec emax v = 0%Z.
Proof.
  intros Hv Ha. rewrite (byte_isF v a Hv).
  assert (rd (a * 255) <= 0) by (apply (@PfIEEE.rd_neg prec emax Hprec); lra).
  pose proof (Zfloor_lb (rd (a * 255))). assert (Zfloor (rd (a * 255)) <= 0)%Z by (apply le_IZR; lra). lia.
Qed.
Lemma byte_full v a : isf v a -> 1 <= a -> byte_of prec emax v = 255%Z.
Proof.
  intros Hv Ha. rewrite (byte_isF v a Hv).
  assert (H : rd 255 <= rd (a * 255)) by (apply (@PfIEEE.rd_mono prec emax Hprec); lra).
  rewrite (PfIEEE.rd_id prec emax c255 255 (const_isF 255 ltac:(lia))) in H.
  assert (255 <= Zfloor (rd (a * 255)))%Z by (apply Zfloor_lub; lra). lia.
Qed.
(** Between them it is 255 times the value, up to one and the rounding. *)
Lemma byte_near v a : isf v a -> 0 <= a <= 1 ->
  rd (a * 255) - 1 < IZR (byte_of prec emax v) <= rd (a * 255).
Proof.
  intros Hv Ha. rewrite (byte_isF v a Hv).
  assert (H : rd (a * 255) <= rd 255) by (apply (@PfIEEE.rd_mono prec emax Hprec); lra).
  rewrite (PfIEEE.rd_id prec emax c255 255 (const_isF 255 ltac:(lia))) in H.
  assert (0 <= rd (a * 255)) by (apply (@PfIEEE.rd_pos prec emax Hprec); lra).
  pose proof (Zfloor_lb (rd (a * 255))). pose proof (Zfloor_ub (rd (a * 255))).
  assert (0 <= Zfloor (rd (a * 255)))%Z by (apply Zfloor_lub; lra).
  assert (Zfloor (rd (a * 255)) <= 255)%Z by (apply le_IZR; lra).
  rewrite Z.min_r, Z.max_r by lia. lra.
Qed.
End F.
