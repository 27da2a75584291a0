(** The checksum of a chunk. *)

From Coq Require Import ZArith List Bool Lia.
From Verif Require Import Num PathTracer Zlib Png SpecZlib SpecPng PfBits PfZlib.
Import ListNotations.
Local Open Scope Z_scope.

(** Division with the register added on top. *)
Lemma add_length p : forall l, length (add_poly p l) = length l.
Proof. induction p as [|b p IH]; intros [|c l]; cbn; try reflexivity. rewrite IH. reflexivity. Qed.
Lemma add_add p : forall q l, (length q < length p)%nat -> (length p <= length l)%nat ->
  add_poly p (add_poly q l) = add_poly (add_poly q p) l.
Proof.
  induction p as [|b p IH]; intros q l H1 H2; [cbn in H1; lia|]. destruct l as [|c l]; [cbn in H2; lia|]. destruct q as [|d q]; [reflexivity|].
  cbn [add_poly]. rewrite IH by (cbn in *; lia). f_equal. destruct b, c, d; reflexivity.
Qed.
Lemma gen_length : length generator = 32%nat.
Proof. reflexivity. Qed.
(** One bit into the register. *)
Definition reg_step (reg : list bool) (b : bool) : list bool :=
  match reg with
  | [] => []
  | t :: r => if xorb t b then add_poly r generator else r ++ [false]
  end.
Lemma add_false q l : (length q < length l)%nat -> add_poly (q ++ [false]) l = add_poly q l.
Proof.
  revert l. induction q as [|b q IH]; intros [|c l] H; try (cbn in H; lia).
  - cbn. destruct c, l; reflexivity.
  - cbn. rewrite IH by (cbn in H; lia). reflexivity.
Qed.
Lemma step_length reg b : length reg = 32%nat -> length (reg_step reg b) = 32%nat.
Proof.
  intros H. destruct reg as [|t r]; [discriminate|]. cbn [reg_step]. destruct (xorb t b).
  - rewrite add_length. reflexivity.
  - rewrite app_length. cbn in *. lia.
Qed.
Lemma remainder_reg bs : forall reg tail, length reg = 32%nat -> (32 <= length tail)%nat ->
  remainder (length bs) (add_poly reg (bs ++ tail)) = add_poly (fold_left reg_step bs reg) tail.
Proof.
  induction bs as [|b bs IH]; intros reg tail H Ht; [reflexivity|].
  destruct reg as [|t r] eqn:Er; [discriminate|]. rewrite <- Er in *.
  cbn [length app fold_left]. rewrite <- IH by (try apply step_length; assumption). rewrite Er at 1. cbn [add_poly remainder].
  assert (Hl : (length r < length (bs ++ tail))%nat) by (rewrite app_length; rewrite Er in H; cbn in H; lia).
  rewrite Er. cbn [reg_step]. destruct (xorb t b).
  - rewrite add_add; [reflexivity| |]; rewrite gen_length; [rewrite Er in H; cbn in H; lia|rewrite app_length; lia].
  - rewrite add_false by exact Hl. reflexivity.
Qed.
Lemma add_zeros l : forall n, length l = n -> add_poly l (repeat false n) = l.
Proof. induction l as [|b l IH]; intros n <-; [reflexivity|]. cbn. rewrite IH by reflexivity. rewrite xorb_false_r. reflexivity. Qed.
Lemma reg_length bs : forall reg, length reg = 32%nat -> length (fold_left reg_step bs reg) = 32%nat.
Proof. induction bs as [|b bs IH]; intros reg H; [exact H|]. apply IH, step_length, H. Qed.
Lemma crc_reg l : crc_of l = from_low (map negb (fold_left reg_step (bits_of l) (repeat true 32))).
Proof.
  unfold crc_of. rewrite remainder_reg by (rewrite repeat_length; lia). rewrite add_zeros by (apply reg_length, repeat_length). reflexivity.
Qed.

(** The register as a number. *)
Lemma from_low_testbit l : forall k, Z.testbit (from_low l) (Z.of_nat k) = nth k l false.
Proof.
  induction l as [|b l IH]; intros k; cbn [from_low].
  - rewrite Z.testbit_0_l. destruct k; reflexivity.
  - rewrite (Z.add_comm (Z.b2z b)). destruct k as [|k].
    + rewrite Z.testbit_0_r. reflexivity.
    + rewrite Nat2Z.inj_succ, Z.testbit_succ_r by lia. apply IH.
Qed.
Lemma from_low_nonneg l : 0 <= from_low l.
Proof. induction l as [|b l IH]; cbn [from_low]; [lia|]. destruct b; cbn [Z.b2z]; lia. Qed.
Lemma bits_eq a b : (forall k : nat, Z.testbit a (Z.of_nat k) = Z.testbit b (Z.of_nat k)) -> a = b.
Proof.
  intros H. apply Z.bits_inj. intros k. destruct (Z.ltb_spec k 0); [rewrite !Z.testbit_neg_r by lia; reflexivity|].
  rewrite <- (Z2Nat.id k) by lia. apply H.
Qed.
Lemma add_nth p : forall l k, (length p <= length l)%nat -> nth k (add_poly p l) false = xorb (nth k p false) (nth k l false).
Proof.
  induction p as [|b p IH]; intros [|c l] k H; cbn [length] in H; try lia; cbn [add_poly].
  - destruct k; reflexivity.
  - destruct k; cbn [nth]; rewrite xorb_false_l; reflexivity.
  - destruct k as [|k]; cbn [nth]; [reflexivity|]. apply IH. lia.
Qed.
Lemma from_low_add p l : (length p <= length l)%nat -> from_low (add_poly p l) = Z.lxor (from_low p) (from_low l).
Proof. intros H. apply bits_eq. intros k. rewrite Z.lxor_spec, !from_low_testbit. apply add_nth, H. Qed.
Lemma from_low_false l : from_low (l ++ [false]) = from_low l.
Proof. induction l as [|b l IH]; [reflexivity|]. cbn [app from_low]. rewrite IH. reflexivity. Qed.
Definition zstep (c : Z) : Z := Z.lxor (Z.shiftr c 1) (if Z.odd c then 3988292384 else 0).
Lemma gen_value : from_low generator = 3988292384.
Proof. reflexivity. Qed.
Lemma reg_step_value reg b : length reg = 32%nat -> from_low (reg_step reg b) = zstep (Z.lxor (from_low reg) (Z.b2z b)).
Proof.
  intros H. destruct reg as [|t r]; [discriminate|]. cbn [reg_step from_low].
  assert (E : Z.lxor (Z.b2z t + 2 * from_low r) (Z.b2z b) = Z.b2z (xorb t b) + 2 * from_low r).
  { apply bits_eq. intros k. rewrite Z.lxor_spec. change (Z.b2z t + 2 * from_low r) with (from_low (t :: r)). change (Z.b2z (xorb t b) + 2 * from_low r) with (from_low (xorb t b :: r)).
    replace (Z.b2z b) with (from_low [b]) by (cbn; lia). rewrite !from_low_testbit. destruct k as [|k]; cbn [nth]; [reflexivity|]. destruct k; rewrite xorb_false_r; reflexivity. }
  rewrite E. unfold zstep. rewrite Z.shiftr_div_pow2 by lia. change (2 ^ 1) with 2.
  replace ((Z.b2z (xorb t b) + 2 * from_low r) / 2) with (from_low r).
  2:{ rewrite (Z.mul_comm 2), Z.div_add by lia. destruct (xorb t b); reflexivity. }
  rewrite Z.odd_add_mul_2. destruct (xorb t b); cbn [Z.b2z Z.odd].
  - rewrite from_low_add, gen_value by (rewrite gen_length; cbn in H; lia). reflexivity.
  - rewrite from_low_false, Z.lxor_0_r. reflexivity.
Qed.
Lemma zstep_linear a b : zstep (Z.lxor a b) = Z.lxor (zstep a) (zstep b).
Proof.
  unfold zstep. rewrite Z.shiftr_lxor. rewrite <- !Z.bit0_odd, Z.lxor_spec. destruct (Z.testbit a 0), (Z.testbit b 0); cbn [xorb]; rewrite ?Z.lxor_0_r.
  - apply bits_eq. intros k. rewrite !Z.lxor_spec. destruct (Z.testbit (Z.shiftr a 1) _), (Z.testbit (Z.shiftr b 1) _), (Z.testbit 3988292384 _); reflexivity.
  - apply bits_eq. intros k. rewrite !Z.lxor_spec. destruct (Z.testbit (Z.shiftr a 1) _), (Z.testbit (Z.shiftr b 1) _), (Z.testbit 3988292384 _); reflexivity.
  - rewrite Z.lxor_assoc. reflexivity.
  - reflexivity.
Qed.
Fixpoint zsteps (n : nat) (c : Z) : Z := match n with O => c | S n' => zsteps n' (zstep c) end.
Lemma zsteps_linear n : forall a b, zsteps n (Z.lxor a b) = Z.lxor (zsteps n a) (zsteps n b).
Proof. induction n as [|n IH]; intros a b; [reflexivity|]. cbn [zsteps]. rewrite zstep_linear. apply IH. Qed.
(** A byte at once. *)
Lemma zsteps_high n : forall c, 0 <= c -> zsteps n (Z.shiftl c (Z.of_nat n)) = c.
Proof.
  induction n as [|n IH]; intros c Hc; [apply Z.shiftl_0_r|]. cbn [zsteps]. rewrite Nat2Z.inj_succ.
  replace (zstep (Z.shiftl c (Z.succ (Z.of_nat n)))) with (Z.shiftl c (Z.of_nat n)); [apply IH, Hc|].
  unfold zstep. rewrite <- Z.bit0_odd, Z.shiftl_spec by lia. rewrite Z.testbit_neg_r by lia. rewrite Z.lxor_0_r.
  rewrite Z.shiftr_shiftl_l by lia. f_equal. lia.
Qed.
Lemma reg_bits n : forall v reg, length reg = 32%nat -> from_low (fold_left reg_step (low_first n v) reg) = zsteps n (Z.lxor (from_low reg) (v mod 2 ^ Z.of_nat n)).
Proof.
  induction n as [|n IH]; intros v reg H; [cbn; rewrite Z.mod_1_r, Z.lxor_0_r; reflexivity|].
  cbn [low_first]. cbn [fold_left]. rewrite IH by (apply step_length, H). cbn [zsteps]. rewrite reg_step_value by exact H. f_equal.
  replace (v mod 2 ^ Z.of_nat (S n)) with (Z.lxor (Z.b2z (Z.odd v)) (2 * (v / 2 mod 2 ^ Z.of_nat n))).
  - rewrite <- Z.lxor_assoc, (zstep_linear (Z.lxor (from_low reg) (Z.b2z (Z.odd v))) (2 * _)). f_equal. unfold zstep. rewrite Z.odd_mul. cbn [Z.odd andb]. rewrite Z.lxor_0_r, Z.shiftr_div_pow2 by lia.
    change (2 ^ 1) with 2. rewrite Z.mul_comm, Z.div_mul by lia. reflexivity.
  - apply bits_eq. intros k. rewrite Z.lxor_spec. destruct k as [|k].
    + rewrite Z.mod_pow2_bits_low by lia. rewrite Z.testbit_even_0. rewrite xorb_false_r. change (Z.of_nat 0) with 0. rewrite (Z.bit0_odd v). destruct (Z.odd v); reflexivity.
    + rewrite Nat2Z.inj_succ, Z.double_bits_succ. replace (Z.testbit (Z.b2z (Z.odd v)) (Z.succ (Z.of_nat k))) with false.
      2:{ symmetry. destruct (Z.odd v); [|apply Z.testbit_0_l]. apply (Z.bits_above_log2 1); [lia|]. change (Z.log2 1) with 0. lia. }
      cbn [xorb]. destruct (Nat.ltb_spec k n).
      * rewrite !Z.mod_pow2_bits_low by lia. rewrite <- (Z.div2_bits v) by lia. destruct (Z.testbit (v / 2) (Z.of_nat k)); reflexivity.
      * rewrite !Z.mod_pow2_bits_high by lia. reflexivity.
Qed.
Lemma table_entry b : 0 <= b < 256 -> atZ UBprim crc_table b = Ok (zsteps 8 b).
Proof.
  assert (K : forallb (fun k => match atZ UBprim crc_table (Z.of_nat k) with Ok t => t =? zsteps 8 (Z.of_nat k) | _ => false end) (seq 0 256) = true) by (vm_compute; reflexivity).
  intros H. rewrite forallb_forall in K. specialize (K (Z.to_nat b) ltac:(apply in_seq; lia)). rewrite Z2Nat.id in K by lia. destruct (atZ UBprim crc_table b); try discriminate. apply Z.eqb_eq in K. subst. reflexivity.
Qed.
Lemma split_byte c : 0 <= c -> c = Z.lxor (Z.shiftl (Z.shiftr c 8) 8) (Z.land c 255).
Proof.
  intros Hc. apply bits_eq. intros k. rewrite Z.lxor_spec, Z.land_spec, Z.shiftl_spec by lia. change 255 with (Z.ones 8).
  destruct (Z.ltb_spec (Z.of_nat k) 8).
  - rewrite (Z.testbit_neg_r _ (Z.of_nat k - 8)), Z.ones_spec_low by lia. rewrite andb_true_r, xorb_false_l. reflexivity.
  - rewrite Z.shiftr_spec, Z.ones_spec_high by lia. replace (Z.of_nat k - 8 + 8) with (Z.of_nat k) by lia. rewrite andb_false_r, xorb_false_r. reflexivity.
Qed.
Lemma lxor_byte a b : byte a -> byte b -> byte (Z.lxor a b).
Proof.
  unfold byte. intros Ha Hb. assert (0 <= Z.lxor a b) by (apply Z.lxor_nonneg; lia). split; [assumption|].
  destruct (Z.eq_dec (Z.lxor a b) 0); [lia|]. change 256 with (2 ^ 8). apply Z.log2_lt_pow2; [lia|]. eapply Z.le_lt_trans; [apply Z.log2_lxor; lia|].
  assert (L : forall z, 0 <= z < 256 -> Z.log2 z < 8). { intros z Hz. destruct (Z.eq_dec z 0) as [->|]; [cbn; lia|]. apply Z.log2_lt_pow2; lia. }
  apply Z.max_lub_lt; apply L; lia.
Qed.
Lemma byte_step c v : 0 <= c -> byte v -> 
  exists t, atZ UBprim crc_table (Z.lxor v (Z.land c 255)) = Ok t /\ Z.lxor (Z.shiftr c 8) t = zsteps 8 (Z.lxor c v).
Proof.
  intros Hc Hv. assert (B : byte (Z.lxor v (Z.land c 255))).
  { apply lxor_byte; [exact Hv|]. unfold byte. change 255 with (Z.ones 8). rewrite Z.land_ones by lia. change (2 ^ 8) with 256. apply Z.mod_pos_bound. lia. }
  exists (zsteps 8 (Z.lxor v (Z.land c 255))). split; [apply table_entry, B|].
  assert (Hs : 0 <= Z.shiftr c 8) by (apply Z.shiftr_nonneg; lia).
  rewrite <- (zsteps_high 8 (Z.shiftr c 8) Hs) at 1. rewrite <- zsteps_linear. f_equal. change (Z.of_nat 8) with 8. rewrite (split_byte c Hc) at 3.
  rewrite Z.lxor_assoc. f_equal. apply Z.lxor_comm.
Qed.
Lemma loop_reg l : Forall byte l -> forall reg, length reg = 32%nat -> crc_loop l (from_low reg) = Ok (from_low (fold_left reg_step (bits_of l) reg)).
Proof.
  induction 1 as [|v l Hv Hl IH]; intros reg H; [reflexivity|]. cbn [crc_loop].
  destruct (byte_step (from_low reg) v (from_low_nonneg reg) Hv) as (t & E & Et). rewrite E. cbn [bind]. rewrite Et.
  change (bits_of (v :: l)) with (bits_of ([v] ++ l)). rewrite bits_app, fold_left_app. rewrite <- IH by (apply reg_length, H). f_equal.
  unfold bits_of. cbn [flat_map]. rewrite app_nil_r, reg_bits by exact H. change (2 ^ Z.of_nat 8) with 256. rewrite Z.mod_small by exact Hv. reflexivity.
Qed.
Lemma negb_value reg : length reg = 32%nat -> from_low (map negb reg) = Z.lxor (from_low reg) 4294967295.
Proof.
  intros H. apply bits_eq. intros k. rewrite Z.lxor_spec, !from_low_testbit. change 4294967295 with (Z.ones 32). destruct (Nat.ltb_spec k 32).
  - rewrite Z.ones_spec_low by lia. rewrite xorb_true_r. rewrite (nth_indep _ false (negb false)) by (rewrite map_length; lia). apply map_nth.
  - rewrite Z.ones_spec_high by lia. rewrite !nth_overflow by (rewrite ?map_length; lia). reflexivity.
Qed.
Lemma crc_ok l : Forall byte l -> crc32 l = Ok (crc_of l).
Proof.
  intros H. unfold crc32. change 4294967295 with (from_low (repeat true 32)) at 1. rewrite loop_reg by (try apply repeat_length; exact H). cbn [bind].
  rewrite crc_reg, negb_value by (apply reg_length, repeat_length). reflexivity.
Qed.
Lemma crc_range l : 0 <= crc_of l < 4294967296.
Proof.
  rewrite crc_reg. split; [apply from_low_nonneg|].
  assert (K : forall b, from_low b < 2 ^ Z.of_nat (length b)).
  { induction b as [|x b IH]; [cbn; lia|]. cbn [from_low length]. rewrite Nat2Z.inj_succ, Z.pow_succ_r by lia. destruct x; cbn [Z.b2z]; lia. }
  eapply Z.lt_le_trans; [apply K|]. rewrite map_length, reg_length by (apply repeat_length). apply Z.le_refl.
Qed.
