(** product_sign keeps the magnitude and multiplies the signs. *)

From Coq Require Import Reals ZArith Bool Lia Lra Floats.SpecFloat.
From Flocq Require Import Core IEEE754.Binary IEEE754.Bits.
From Verif Require Import NumF ProductSign SpecSign.
Local Open Scope Z_scope.

Lemma xor_top k low s t : 0 <= k -> 0 <= low < 2 ^ k ->
  Z.lxor (Z.b2z s * 2 ^ k + low) (Z.b2z t * 2 ^ k) = Z.b2z (xorb s t) * 2 ^ k + low.
Proof.
  intros Hk Hl.
  assert (H0 : Z.land (2 ^ k) low = 0).
  { apply Z.bits_inj'. intros n Hn. rewrite Z.land_spec, Z.bits_0.
    destruct (Z.eq_dec n k) as [->|Hne].
    - replace (Z.testbit low k) with false; [apply andb_false_r|]. symmetry.
      rewrite Z.testbit_false by lia. rewrite Z.div_small by lia. reflexivity.
    - rewrite Z.pow2_bits_false by lia. reflexivity. }
  assert (H1 : 2 ^ k + low = Z.lxor (2 ^ k) low) by (apply Z.add_nocarry_lxor; exact H0).
  destruct s, t; cbn [Z.b2z xorb]; rewrite ?Z.mul_1_l, ?Z.mul_0_l, ?Z.add_0_l, ?Z.lxor_0_r; try reflexivity.
  - rewrite H1, (Z.lxor_comm (2 ^ k) low), Z.lxor_assoc, Z.lxor_nilpotent, Z.lxor_0_r. reflexivity.
  - rewrite H1. apply Z.lxor_comm.
Qed.

Lemma land_top k v s low : 0 <= k -> 0 <= low < 2 ^ k -> v = Z.b2z s * 2 ^ k + low ->
  Z.land v (2 ^ k) = Z.b2z s * 2 ^ k.
Proof.
  intros Hk Hl ->. apply Z.bits_inj'. intros n Hn. rewrite Z.land_spec.
  destruct (Z.eq_dec n k) as [->|Hne].
  - rewrite Z.pow2_bits_true by lia. rewrite andb_true_r.
    rewrite Z.mul_comm, Z.add_comm, Z.add_comm.
    assert (E : Z.testbit (2 ^ k * Z.b2z s + low) k = s).
    { rewrite Z.testbit_eqb by lia. rewrite Z.mul_comm, Z.div_add_l by lia. rewrite (Z.div_small low) by lia.
      destruct s; reflexivity. }
    rewrite E. rewrite Z.mul_comm. destruct s; cbn [Z.b2z].
    + rewrite Z.mul_1_l, Z.pow2_bits_true by lia. reflexivity.
    + rewrite Z.mul_0_l, Z.bits_0. reflexivity.
  - rewrite Z.pow2_bits_false by lia. rewrite andb_false_r. symmetry. destruct s; cbn [Z.b2z].
    + rewrite Z.mul_1_l. apply Z.pow2_bits_false. lia.
    + rewrite Z.mul_0_l. apply Z.bits_0.
Qed.

Section Gen.
Variables mw ew : Z.
Hypothesis Hmw : 0 < mw.
Hypothesis Hew : 0 < ew.
Notation prec := (mw + 1).
Notation emax := (2 ^ (ew - 1)).
Hypothesis Hmax : prec < emax.
Notation bf := (binary_float prec emax).
Notation bits := (bits_of_binary_float mw ew).
Notation of_bits := (binary_float_of_bits mw ew Hmw Hew Hmax).

Lemma join_top s m e : join_bits mw ew s m e = Z.b2z s * 2 ^ (mw + ew) + (e * 2 ^ mw + m).
Proof.
  unfold join_bits. rewrite Z.shiftl_mul_pow2 by lia. rewrite Z.pow_add_r by lia.
  destruct s; cbn [Z.b2z]; ring.
Qed.

Lemma bits_low (x : bf) : exists low, 0 <= low < 2 ^ (mw + ew) /\
  forall s, bits (with_sign s x) = Z.b2z s * 2 ^ (mw + ew) + low.
Proof.
  assert (H : exists low, forall s, bits (with_sign s x) = Z.b2z s * 2 ^ (mw + ew) + low).
  { destruct x as [s0|s0|s0 pl H|s0 m e H]; unfold bits_of_binary_float, with_sign.
    - eexists. intros s. apply join_top.
    - eexists. intros s. apply join_top.
    - eexists. intros s. apply join_top.
    - cbv zeta. destruct (0 <=? Z.pos m - 2 ^ mw); eexists; intros s; apply join_top. }
  destruct H as (low & H). exists low. split; [|exact H].
  pose proof (bits_of_binary_float_range mw ew Hmw Hew (with_sign false x)) as R0.
  pose proof (bits_of_binary_float_range mw ew Hmw Hew (with_sign true x)) as R1.
  rewrite H in R0, R1. cbn [Z.b2z] in R0, R1. rewrite (Z.pow_add_r 2 (mw + ew) 1) in R1 by lia. lia.
Qed.

Lemma with_sign_id (x : bf) : with_sign (Bsign _ _ x) x = x.
Proof. destruct x; reflexivity. Qed.

Lemma gen_sign (x y : bf) :
  of_bits (Z.lxor (bits x) (Z.land (bits y) (2 ^ (mw + ew)))) = with_sign (xorb (Bsign _ _ x) (Bsign _ _ y)) x.
Proof.
  destruct (bits_low x) as (lx & Rx & Hx). destruct (bits_low y) as (ly & Ry & Hy).
  pose proof (Hx (Bsign _ _ x)) as Ex. pose proof (Hy (Bsign _ _ y)) as Ey. rewrite with_sign_id in Ex, Ey.
  rewrite (land_top (mw + ew) _ _ ly ltac:(lia) Ry Ey). rewrite Ex.
  rewrite (xor_top (mw + ew) lx _ _ ltac:(lia) Rx).
  rewrite <- Hx. apply binary_float_of_bits_of_binary_float.
Qed.

Lemma gen_bits x y n : 0 <= x < 2 ^ (mw + ew + 1) -> 0 <= y < 2 ^ (mw + ew + 1) -> 0 <= n ->
  0 <= Z.lxor x (Z.land y (2 ^ (mw + ew))) < 2 ^ (mw + ew + 1) /\
  Z.testbit (Z.lxor x (Z.land y (2 ^ (mw + ew)))) n =
  if n =? mw + ew then xorb (Z.testbit x n) (Z.testbit y n) else Z.testbit x n.
Proof.
  intros Rx Ry Hn.
  assert (D : forall v, 0 <= v < 2 ^ (mw + ew + 1) -> exists s low, 0 <= low < 2 ^ (mw + ew) /\ v = Z.b2z s * 2 ^ (mw + ew) + low).
  { intros v Hv. exists (2 ^ (mw + ew) <=? v), (v mod 2 ^ (mw + ew)). split; [apply Z.mod_pos_bound; lia|].
    rewrite (Z.pow_add_r 2 (mw + ew) 1) in Hv by lia. change (2 ^ 1) with 2 in Hv.
    destruct (Z.leb_spec (2 ^ (mw + ew)) v); cbn [Z.b2z].
    - rewrite (Z.mod_eq v) by lia. replace (v / 2 ^ (mw + ew)) with 1; [lia|].
      apply (Z.div_unique v _ 1 (v - 2 ^ (mw + ew))); lia.
    - rewrite Z.mod_small by lia. lia. }
  split.
  - destruct (D x Rx) as (s & lx & Lx & Ex), (D y Ry) as (t & ly & Ly & Ey).
    rewrite (land_top (mw + ew) y t ly) by (auto; lia). rewrite Ex, xor_top by (auto; lia).
    rewrite (Z.pow_add_r 2 (mw + ew) 1) by lia. change (2 ^ 1) with 2.
    destruct (xorb s t); cbn [Z.b2z]; lia.
  - rewrite Z.lxor_spec, Z.land_spec. destruct (Z.eqb_spec n (mw + ew)) as [->|Hne].
    + rewrite Z.pow2_bits_true, andb_true_r by lia. reflexivity.
    + rewrite Z.pow2_bits_false, andb_false_r, xorb_false_r by lia. reflexivity.
Qed.
End Gen.

Lemma sign32_is (x y : binary32) : product_sign32 x y = with_sign (xorb (Bsign _ _ x) (Bsign _ _ y)) x.
Proof. exact (gen_sign 23 8 eq_refl eq_refl eq_refl x y). Qed.
Lemma sign64_is (x y : binary64) : product_sign64 x y = with_sign (xorb (Bsign _ _ x) (Bsign _ _ y)) x.
Proof. exact (gen_sign 52 11 eq_refl eq_refl eq_refl x y). Qed.

Lemma bits32_is x y n : 0 <= x < 2 ^ 32 -> 0 <= y < 2 ^ 32 -> 0 <= n ->
  0 <= product_sign_bits32 x y < 2 ^ 32 /\
  Z.testbit (product_sign_bits32 x y) n = if n =? 31 then xorb (Z.testbit x n) (Z.testbit y n) else Z.testbit x n.
Proof. exact (gen_bits 23 8 eq_refl eq_refl x y n). Qed.
Lemma bits64_is x y n : 0 <= x < 2 ^ 64 -> 0 <= y < 2 ^ 64 -> 0 <= n ->
  0 <= product_sign_bits64 x y < 2 ^ 64 /\
  Z.testbit (product_sign_bits64 x y) n = if n =? 63 then xorb (Z.testbit x n) (Z.testbit y n) else Z.testbit x n.
Proof. exact (gen_bits 52 11 eq_refl eq_refl x y n). Qed.

Lemma with_sign_real prec emax s (x : binary_float prec emax) :
  B2R _ _ (with_sign (xorb (Bsign _ _ x) s) x) = (if s then (- B2R _ _ x)%R else B2R _ _ x).
Proof.
  destruct x as [s0|s0|s0 pl H|s0 m e H]; cbn [with_sign B2R Bsign];
    try (destruct s; [rewrite Ropp_0|]; reflexivity).
  destruct s; [|rewrite xorb_false_r; reflexivity].
  rewrite xorb_true_r, cond_Zopp_negb. apply F2R_Zopp.
Qed.

Lemma sign32_real (x y : binary32) :
  B2R _ _ (product_sign32 x y) = (if Bsign _ _ y then - B2R _ _ x else B2R _ _ x)%R.
Proof. rewrite sign32_is. apply with_sign_real. Qed.
Lemma sign64_real (x y : binary64) :
  B2R _ _ (product_sign64 x y) = (if Bsign _ _ y then - B2R _ _ x else B2R _ _ x)%R.
Proof. rewrite sign64_is. apply with_sign_real. Qed.

(** The operation used by the model of the triangle test. *)
Lemma with_sign_sf prec emax (x y : binary_float prec emax) : is_nan _ _ y = false ->
  B2SF _ _ (with_sign (xorb (Bsign _ _ x) (Bsign _ _ y)) x) = sf_psign (B2SF _ _ x) (B2SF _ _ y).
Proof. intros H. destruct x, y; try discriminate; reflexivity. Qed.
Lemma sign32_model (x y : binary32) : is_nan _ _ y = false ->
  B2SF _ _ (product_sign32 x y) = sf_psign (B2SF _ _ x) (B2SF _ _ y).
Proof. intros H. rewrite sign32_is. apply with_sign_sf, H. Qed.
Lemma sign64_model (x y : binary64) : is_nan _ _ y = false ->
  B2SF _ _ (product_sign64 x y) = sf_psign (B2SF _ _ x) (B2SF _ _ y).
Proof. intros H. rewrite sign64_is. apply with_sign_sf, H. Qed.

(** -0.0f and -inf: 0x80000000 and 0xff800000 give +0. *)
Lemma sign_case : bits_of_b32 (product_sign32 (B754_zero _ _ true) (B754_infinity _ _ true)) = 0 /\
  product_sign_bits32 0x3f800000 0x80000000 = 0xbf800000.
Proof. split; vm_compute; reflexivity. Qed.
