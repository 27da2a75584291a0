(** Bits, codes and the bit buffer. *)

From Coq Require Import ZArith List Bool Lia.
From Verif Require Import Num PathTracer Zlib SpecZlib.
Import ListNotations.
Local Open Scope Z_scope.

Lemma low_length n : forall v, length (low_first n v) = n.
Proof. induction n as [|n IH]; intros v; cbn; [|rewrite IH]; reflexivity. Qed.
Lemma high_length n v : length (high_first n v) = n.
Proof. unfold high_first. rewrite rev_length. apply low_length. Qed.
Lemma low_value n : forall v, from_low (low_first n v) = v mod 2 ^ Z.of_nat n.
Proof.
  induction n as [|n IH]; intros v; [cbn; rewrite Z.mod_1_r; reflexivity|].
  cbn [low_first from_low]. rewrite IH, Nat2Z.inj_succ, Z.pow_succ_r by lia.
  rewrite Z.rem_mul_r by lia. rewrite Zmod_odd. destruct (Z.odd v); reflexivity.
Qed.
Lemma high_value n v : from_high (high_first n v) = v mod 2 ^ Z.of_nat n.
Proof. unfold from_high, high_first. rewrite rev_involutive. apply low_value. Qed.
Lemma low_app n m : forall v, low_first (n + m) v = low_first n v ++ low_first m (v / 2 ^ Z.of_nat n).
Proof.
  induction n as [|n IH]; intros v; [cbn; rewrite Z.div_1_r; reflexivity|].
  cbn [Nat.add low_first app]. rewrite IH, Nat2Z.inj_succ, Z.pow_succ_r, Z.div_div by lia. reflexivity.
Qed.
Lemma low_mod n : forall v, low_first n (v mod 2 ^ Z.of_nat n) = low_first n v.
Proof.
  induction n as [|n IH]; intros v; [reflexivity|]. cbn [low_first]. rewrite Nat2Z.inj_succ, Z.pow_succ_r by lia.
  rewrite Z.rem_mul_r by lia. f_equal.
  - rewrite Zmod_odd. destruct (Z.odd v); rewrite Z.add_comm, Z.odd_add_mul_2 || rewrite Z.odd_add; rewrite ?Z.odd_mul; reflexivity.
  - rewrite Z.add_comm, (Z.mul_comm 2), Z.div_add_l by lia.
    rewrite (Z.div_small (v mod 2)) by (apply Z.mod_pos_bound; lia). rewrite Z.add_0_r. apply IH.
Qed.

Lemma lor_add a b c : 0 <= c -> 0 <= a < 2 ^ c -> Z.lor a (Z.shiftl b c) = a + b * 2 ^ c.
Proof.
  intros Hc Ha. rewrite Z.shiftl_mul_pow2 by exact Hc. apply Z.bits_inj'. intros k Hk.
  rewrite Z.lor_spec. destruct (Z.lt_ge_cases k c) as [L|L].
  - rewrite Z.mul_pow2_bits_low by exact L. rewrite orb_false_r.
    rewrite <- (Z.mod_pow2_bits_low a c k) by exact L. rewrite <- (Z.mod_pow2_bits_low (a + b * 2 ^ c) c k) by exact L.
    rewrite Z.mod_add by (apply Z.pow_nonzero; lia). reflexivity.
  - replace (Z.testbit a k) with false.
    + rewrite orb_false_l. rewrite Z.mul_pow2_bits by exact Hc.
      replace k with (k - c + c) at 2 by lia. rewrite <- Z.div_pow2_bits by lia.
      rewrite Z.div_add, (Z.div_small a) by (try exact Ha; apply Z.pow_nonzero; lia). reflexivity.
    + symmetry. destruct (Z.eq_dec a 0) as [->|Hn]; [apply Z.bits_0|]. apply Z.bits_above_log2; [lia|].
      apply Z.lt_le_trans with c; [|exact L]. apply Z.log2_lt_pow2; lia.
Qed.
Lemma div_small_pow v n : 0 <= v < 2 ^ Z.of_nat n -> v / 2 ^ Z.of_nat n = 0.
Proof. apply Z.div_small. Qed.
Lemma bits_app a b : bits_of (a ++ b) = bits_of a ++ bits_of b.
Proof. unfold bits_of. apply flat_map_app. Qed.
Lemma bits_length l : length (bits_of l) = (8 * length l)%nat.
Proof. induction l as [|b l IH]; [reflexivity|]. unfold bits_of in *. cbn [flat_map]. rewrite app_length, low_length, IH. cbn [length]. lia. Qed.

(** Reversing a code. *)
Lemma bitrev_bits n : forall k code res, 0 <= res < 2 ^ Z.of_nat k ->
  0 <= bitrev_ n code res < 2 ^ Z.of_nat (n + k) /\ low_first (n + k) (bitrev_ n code res) = rev (low_first n code) ++ low_first k res.
Proof.
  induction n as [|n IH]; intros k code res H; [split; [exact H|reflexivity]|].
  cbn [bitrev_ low_first rev].
  assert (E : Z.lor (Z.shiftl res 1) (Z.land code 1) = Z.b2z (Z.odd code) + res * 2 ^ 1).
  { assert (L : Z.land code 1 = Z.b2z (Z.odd code)).
    { change (Z.land code 1) with (Z.land code (Z.ones 1)). rewrite Z.land_ones by lia. change (2 ^ 1) with 2. rewrite Zmod_odd. destruct (Z.odd code); reflexivity. }
    rewrite L, Z.lor_comm. apply lor_add; [lia|]. destruct (Z.odd code); cbn; lia. }
  rewrite E. destruct (IH (S k) (Z.shiftr code 1) (Z.b2z (Z.odd code) + res * 2 ^ 1)) as [B L].
  { rewrite Nat2Z.inj_succ, Z.pow_succ_r by lia. destruct (Z.odd code); cbn [Z.b2z]; lia. }
  replace (S n + k)%nat with (n + S k)%nat by lia. split; [exact B|]. rewrite L, Z.shiftr_div_pow2 by lia.
  change (2 ^ 1) with 2. rewrite <- app_assoc. cbn [app low_first]. f_equal. f_equal.
  - rewrite Z.add_comm, (Z.mul_comm res), Z.odd_add, Z.odd_mul. destruct (Z.odd code); reflexivity.
  - rewrite Z.div_add by lia. destruct (Z.odd code); reflexivity.
Qed.
Lemma bitrev_ok code n : 0 <= bitrev code n < 2 ^ Z.of_nat n /\ low_first n (bitrev code n) = high_first n code.
Proof.
  destruct (bitrev_bits n 0 code 0) as [B L]; [cbn; lia|]. rewrite Nat.add_0_r in *. split; [exact B|].
  unfold bitrev. rewrite L, app_nil_r. reflexivity.
Qed.

(** What has been written so far. *)
Definition stream (s : zs) (bs : list bool) : Prop :=
  0 <= z_cnt s < 8 /\ 0 <= z_buf s < 2 ^ z_cnt s /\ bs = bits_of (z_out s) ++ low_first (Z.to_nat (z_cnt s)) (z_buf s).
Lemma flush_ok fuel : forall s, 0 <= z_cnt s <= Z.of_nat fuel -> 0 <= z_buf s < 2 ^ z_cnt s ->
  exists s', flush fuel s = Ok s' /\ stream s' (bits_of (z_out s) ++ low_first (Z.to_nat (z_cnt s)) (z_buf s)) /\ exists more, z_out s' = z_out s ++ more.
Proof.
  induction fuel as [|fuel IH]; intros s H B; cbn [flush]; destruct (8 <=? z_cnt s) eqn:E.
  - apply Z.leb_le in E. lia.
  - exists s. split; [reflexivity|]. split; [|exists []; symmetry; apply app_nil_r]. split; [apply Z.leb_gt in E; lia|]. split; [exact B|reflexivity].
  - apply Z.leb_le in E. destruct (IH (Zs (z_out s ++ [u8 (z_buf s)]) (Z.shiftr (z_buf s) 8) (z_cnt s - 8))) as (s' & E' & S' & more & O').
    + cbn [z_cnt]. lia.
    + cbn [z_cnt z_buf]. rewrite Z.shiftr_div_pow2 by lia. split; [apply Z.div_pos; lia|]. apply Z.div_lt_upper_bound; [lia|]. rewrite <- Z.pow_add_r by lia.
      replace (8 + (z_cnt s - 8)) with (z_cnt s) by lia. apply B.
    + exists s'. split; [exact E'|]. cbn [z_out z_cnt z_buf] in S'. split; [|exists (u8 (z_buf s) :: more); rewrite O'; cbn [z_out]; rewrite <- app_assoc; reflexivity].
      replace (bits_of (z_out s) ++ low_first (Z.to_nat (z_cnt s)) (z_buf s)) with
        (bits_of (z_out s ++ [u8 (z_buf s)]) ++ low_first (Z.to_nat (z_cnt s - 8)) (Z.shiftr (z_buf s) 8)); [exact S'|].
      rewrite bits_app, <- app_assoc. f_equal. replace (Z.to_nat (z_cnt s)) with (8 + Z.to_nat (z_cnt s - 8))%nat by lia.
      rewrite low_app. f_equal; [|rewrite Z.shiftr_div_pow2 by lia; reflexivity].
      unfold bits_of, u8. cbn [flat_map]. rewrite app_nil_r. exact (low_mod 8 (z_buf s)).
  - exists s. split; [reflexivity|]. split; [|exists []; symmetry; apply app_nil_r]. split; [apply Z.leb_gt in E; lia|]. split; [exact B|reflexivity].
Qed.
(** Appending a code of at most 13 bits. *)
Lemma zadd_ok s bs code n : stream s bs -> (n <= 13)%nat -> 0 <= code < 2 ^ Z.of_nat n ->
  exists s', zadd s code n = Ok s' /\ stream s' (bs ++ low_first n code) /\ exists more, z_out s' = z_out s ++ more.
Proof.
  intros (Hc & Hb & ->) Hn H. unfold zadd. rewrite lor_add by lia.
  assert (B : 0 <= z_buf s + code * 2 ^ z_cnt s < 2 ^ (z_cnt s + Z.of_nat n)).
  { rewrite Z.pow_add_r by lia. nia. }
  assert (L : 2 ^ (z_cnt s + Z.of_nat n) <= 2 ^ 20) by (apply Z.pow_le_mono_r; lia). change (2 ^ 20) with 1048576 in L.
  unfold u32. rewrite Z.mod_small by lia.
  match goal with |- context [flush ?f ?x] => destruct (flush_ok f x) as (s' & E & S' & O') end.
  - cbn [z_cnt]. lia.
  - cbn [z_cnt z_buf]. exact B.
  - exists s'. split; [exact E|]. split; [|exact O']. cbn [z_out z_cnt z_buf] in S'. rewrite <- app_assoc.
    replace (low_first (Z.to_nat (z_cnt s)) (z_buf s) ++ low_first n code) with
      (low_first (Z.to_nat (z_cnt s + Z.of_nat n)) (z_buf s + code * 2 ^ z_cnt s)); [exact S'|].
    replace (Z.to_nat (z_cnt s + Z.of_nat n)) with (Z.to_nat (z_cnt s) + n)%nat by lia. rewrite low_app, Z2Nat.id by lia. f_equal.
    + rewrite <- low_mod, Z2Nat.id, Z.mod_add, Z.mod_small by (try lia; apply Z.pow_nonzero; lia). reflexivity.
    + rewrite Z.div_add, Z.div_small by (try lia; apply Z.pow_nonzero; lia). reflexivity.
Qed.

(** Codes of symbols. *)
Lemma huff_ok s bs n : stream s bs -> 0 <= n < 288 ->
  exists s', huff s n = Ok s' /\ stream s' (bs ++ high_first (code_length n) (code_value n)) /\ exists more, z_out s' = z_out s ++ more.
Proof.
  intros S Hn. unfold huff, huff1, huff2, huff3, huff4, huffa, code_length, code_value.
  assert (K : forall v k, (k <= 13)%nat -> exists s', zadd s (bitrev v k) k = Ok s' /\ stream s' (bs ++ high_first k v) /\ exists more, z_out s' = z_out s ++ more).
  { intros v k Hk. destruct (bitrev_ok v k) as [B L]. rewrite <- L. apply zadd_ok; assumption. }
  destruct (Z.leb_spec n 143); [destruct (Z.ltb_spec n 144); [|lia]; apply K; lia|]. destruct (Z.ltb_spec n 144); [lia|].
  destruct (Z.leb_spec n 255); [destruct (Z.ltb_spec n 256); [|lia]; replace (400 + (n - 144)) with (400 + n - 144) by lia; apply K; lia|].
  destruct (Z.ltb_spec n 256); [lia|].
  destruct (Z.leb_spec n 279); [destruct (Z.ltb_spec n 280); [|lia]; replace (n - 256) with (0 + n - 256) by lia; apply K; lia|].
  destruct (Z.ltb_spec n 280); [lia|]. replace (192 + (n - 280)) with (192 + n - 280) by lia. apply K. lia.
Qed.
Lemma huffb_huff s n : n <= 255 -> huffb s n = huff s n.
Proof. intros H. unfold huffb, huff. destruct (n <=? 143); [reflexivity|]. apply Z.leb_le in H. rewrite H. reflexivity. Qed.

(** The codes can be told apart. *)
Lemma between (P : Z -> Prop) n : (forall k, (k < n)%nat -> P (Z.of_nat k)) -> forall z, 0 <= z < Z.of_nat n -> P z.
Proof. intros H z Hz. rewrite <- (Z2Nat.id z) by lia. apply H. lia. Qed.
Lemma symbol_code n r : 0 <= n < 288 -> symbol_at (high_first (code_length n) (code_value n) ++ r) = Some (n, r).
Proof.
  intros H. revert n H. apply (between _ 288). intros k Hk.
  do 288 (destruct k as [|k]; [vm_compute; reflexivity|]). lia.
Qed.
