(** The whole zlib stream. *)

From Coq Require Import ZArith List Bool Lia.
From Verif Require Import Num PathTracer Zlib SpecZlib PfBits PfZlib.
Import ListNotations.
Local Open Scope Z_scope.

(** Only bytes are written. *)
Lemma u8_byte z : byte (u8 z).
Proof. unfold byte, u8. apply Z.mod_pos_bound. lia. Qed.
Lemma flush_bytes fuel : forall s s', flush fuel s = Ok s' -> Forall byte (z_out s) -> Forall byte (z_out s').
Proof.
  induction fuel as [|fuel IH]; intros s s' E H; cbn [flush] in E; destruct (8 <=? z_cnt s); try discriminate; try (injection E as <-; exact H).
  apply IH in E; [exact E|]. cbn [z_out]. apply Forall_app. split; [exact H|]. constructor; [apply u8_byte|constructor].
Qed.
Lemma zadd_bytes s c n s' : zadd s c n = Ok s' -> Forall byte (z_out s) -> Forall byte (z_out s').
Proof. intros E H. apply flush_bytes in E; [exact E|exact H]. Qed.
Lemma huff_bytes s n s' : huff s n = Ok s' -> Forall byte (z_out s) -> Forall byte (z_out s').
Proof. unfold huff, huff1, huff2, huff3, huff4, huffa. repeat destruct (_ <=? _); apply zadd_bytes. Qed.
Lemma huffb_bytes s n s' : huffb s n = Ok s' -> Forall byte (z_out s) -> Forall byte (z_out s').
Proof. unfold huffb, huff1, huff2, huffa. repeat destruct (_ <=? _); apply zadd_bytes. Qed.
Lemma bind_ok {A B} (x : res A) (f : A -> res B) b : bind x f = Ok b -> exists a, x = Ok a /\ f a = Ok b.
Proof. destruct x; cbn; try discriminate. eauto. Qed.
Lemma match_bytes s b d s' : put_match s b d = Ok s' -> Forall byte (z_out s) -> Forall byte (z_out s').
Proof.
  unfold put_match. intros E H. repeat (apply bind_ok in E as (? & ? & E)).
  assert (K : forall e s0 s1 v, (if Nat.eqb e 0 then Ok s0 else zadd s0 v e) = Ok s1 -> Forall byte (z_out s0) -> Forall byte (z_out s1)).
  { intros e s0 s1 v Ea Ha. destruct (Nat.eqb e 0); [injection Ea as <-; exact Ha|]. exact (zadd_bytes _ _ _ _ Ea Ha). }
  apply K in E; [exact E|]. eapply zadd_bytes; [eassumption|]. eapply K; [eassumption|]. eapply huff_bytes; eassumption.
Qed.
Lemma loop_bytes data q fuel : forall t i s i' s', compress_loop data q fuel t i s = Ok (i', s') -> Forall byte (z_out s) -> Forall byte (z_out s').
Proof.
  induction fuel as [|fuel IH]; intros t i s i' s' E H; cbn [compress_loop] in E; destruct (i <? data_len data - 3); try discriminate; try (injection E as _ <-; exact H).
  apply bind_ok in E as (h & _ & E). apply bind_ok in E as ([best loc] & _ & E). apply bind_ok in E as (loc' & _ & E). destruct loc' as [p|].
  - apply bind_ok in E as (s1 & E1 & E). apply IH in E; [exact E|]. exact (match_bytes _ _ _ _ E1 H).
  - apply bind_ok in E as (c & _ & E). apply bind_ok in E as (s1 & E1 & E). apply IH in E; [exact E|]. exact (huffb_bytes _ _ _ E1 H).
Qed.
Lemma rest_bytes data n : forall i s s', put_rest data n i s = Ok s' -> Forall byte (z_out s) -> Forall byte (z_out s').
Proof.
  induction n as [|n IH]; intros i s s' E H; cbn [put_rest] in E; [injection E as <-; exact H|].
  apply bind_ok in E as (c & _ & E). apply bind_ok in E as (s1 & E1 & E). apply IH in E; [exact E|]. exact (huffb_bytes _ _ _ E1 H).
Qed.
Lemma pad_bytes fuel : forall s s', pad fuel s = Ok s' -> Forall byte (z_out s) -> Forall byte (z_out s').
Proof.
  induction fuel as [|fuel IH]; intros s s' E H; cbn [pad] in E; destruct (z_cnt s =? 0); try discriminate; try (injection E as <-; exact H).
  apply bind_ok in E as (s1 & E1 & E). apply IH in E; [exact E|]. exact (zadd_bytes _ _ _ _ E1 H).
Qed.

(** Adler-32. *)
Definition sum (l : list Z) : Z := fold_right Z.add 0 l.
Lemma sum_app a b : sum (a ++ b) = sum a + sum b.
Proof. unfold sum. induction a as [|x a IH]; cbn; [reflexivity|]. unfold sum in IH. rewrite IH. lia. Qed.
Lemma b_sum_app a b : forall s, adler_b_sum (a ++ b) s = adler_b_sum a s + adler_b_sum b (s + sum a).
Proof.
  induction a as [|x a IH]; intros s; [cbn; rewrite Z.add_0_r; reflexivity|]. cbn [app adler_b_sum]. rewrite IH. change (sum (x :: a)) with (x + sum a). replace (s + (x + sum a)) with (s + x + sum a) by lia. lia.
Qed.
Lemma b_sum_mod m l : m <> 0 -> forall s, adler_b_sum l (s mod m) mod m = adler_b_sum l s mod m.
Proof.
  intros Hm s. assert (K : forall l s, adler_b_sum l s = Z.of_nat (length l) * s + adler_b_sum l 0).
  { clear. induction l as [|x l IH]; intros s; [cbn; lia|]. cbn [adler_b_sum]. rewrite (IH (s + x)), (IH (0 + x)). cbn [length]. lia. }
  rewrite (K l (s mod m)), (K l s). rewrite Z.add_mod, Z.mul_mod_idemp_r, <- Z.add_mod by exact Hm. reflexivity.
Qed.
Section Adler.
Variable data : list Z.
Hypothesis Hdata : Forall byte data.
Notation len := (data_len data).
Definition seg (n : nat) (k : Z) : list Z := firstn n (skipn (Z.to_nat k) data).
Lemma seg_cons n k : 0 <= k < len -> seg (S n) k = nth (Z.to_nat k) data 0 :: seg n (k + 1).
Proof.
  unfold seg, data_len. intros H. replace (Z.to_nat (k + 1)) with (S (Z.to_nat k)) by lia. set (j := Z.to_nat k). assert (Hj : (j < length data)%nat) by lia.
  clearbody j. clear - Hj. revert j Hj. induction data as [|x l IH]; intros j Hj; [cbn in Hj; lia|]. destruct j as [|j]; [reflexivity|]. cbn [skipn nth]. rewrite IH by (cbn in Hj; lia). reflexivity.
Qed.
Lemma block_ok n : forall k s1 s2, 0 <= k -> k + Z.of_nat n <= len -> 0 <= s1 -> 0 <= s2 ->
  s1 + 255 * Z.of_nat n < 4294967296 -> 2 * s2 + 2 * Z.of_nat n * s1 + 255 * Z.of_nat n * (Z.of_nat n + 1) < 2 * 4294967296 ->
  adler_block data n k s1 s2 = Ok (s1 + sum (seg n k), s2 + adler_b_sum (seg n k) s1).
Proof.
  induction n as [|n IH]; intros k s1 s2 Hk Hn H1 H2 B1 B2; cbn [adler_block].
  - unfold seg. cbn. rewrite !Z.add_0_r. reflexivity.
  - rewrite (at_dat data) by lia. cbn [bind]. pose proof (dat_byte data Hdata k ltac:(lia)) as [C1 C2]. set (c := nth (Z.to_nat k) data 0) in *.
    rewrite seg_cons by lia. fold c. rewrite Nat2Z.inj_succ in *. set (m := Z.of_nat n) in *. assert (0 <= m) by lia.
    unfold u32. rewrite (Z.mod_small (s1 + c)) by nia. rewrite Z.mod_small by nia. rewrite IH; [|lia|lia|lia|lia|lia|nia].
    f_equal. unfold sum. cbn [fold_right adler_b_sum]. f_equal; lia.
Qed.
Lemma firstn_seg n j : 0 <= j -> firstn (Z.to_nat (j + Z.of_nat n)) data = firstn (Z.to_nat j) data ++ seg n j.
Proof.
  intros H. unfold seg. replace (Z.to_nat (j + Z.of_nat n)) with (Z.to_nat j + n)%nat by lia.
  set (a := Z.to_nat j). clearbody a. clear. revert a. induction data as [|x l IH]; intros a.
  - rewrite skipn_nil, !firstn_nil. reflexivity.
  - destruct a as [|a]; [reflexivity|]. cbn [Nat.add firstn skipn app]. rewrite IH. reflexivity.
Qed.
Definition so_far (j s1 s2 : Z) : Prop :=
  s1 = (1 + sum (firstn (Z.to_nat j) data)) mod 65521 /\ s2 = adler_b_sum (firstn (Z.to_nat j) data) 1 mod 65521.
Lemma block_far n j s1 s2 : 0 <= j -> j + Z.of_nat n <= len -> Z.of_nat n <= 5552 -> so_far j s1 s2 ->
  exists a b, adler_block data n j s1 s2 = Ok (a, b) /\ so_far (j + Z.of_nat n) (a mod 65521) (b mod 65521).
Proof.
  intros Hj Hl Hn [E1 E2]. pose proof (Z.mod_pos_bound (1 + sum (firstn (Z.to_nat j) data)) 65521 ltac:(lia)) as B1.
  pose proof (Z.mod_pos_bound (adler_b_sum (firstn (Z.to_nat j) data) 1) 65521 ltac:(lia)) as B2. rewrite <- E1 in B1. rewrite <- E2 in B2.
  eexists _, _. split; [apply block_ok; try lia; set (m := Z.of_nat n) in *; assert (0 <= m) by lia; assert (m * s1 <= 5552 * 65520) by nia; assert (m * (m + 1) <= 5552 * 5553) by nia; nia|]. unfold so_far. rewrite firstn_seg by exact Hj. split.
  - rewrite sum_app, E1, Z.add_mod_idemp_l by lia. f_equal. lia.
  - rewrite b_sum_app, E2. rewrite Z.add_mod_idemp_l by lia. rewrite Z.add_mod, E1, b_sum_mod, <- Z.add_mod by lia. reflexivity.
Qed.
Lemma adler_loop_ok q : forall fuel j s1 s2, 0 <= j -> len - j = 5552 * Z.of_nat q -> (q <= fuel)%nat -> so_far j s1 s2 ->
  exists a b, adler_loop data fuel j 5552 s1 s2 = Ok (a, b) /\ so_far len a b.
Proof.
  induction q as [|q IH]; intros fuel j s1 s2 Hj Hl Hf H.
  - assert (j = len) as -> by lia. exists s1, s2. split; [|exact H]. destruct fuel; cbn [adler_loop]; rewrite Z.ltb_irrefl; reflexivity.
  - destruct fuel as [|fuel]; [lia|]. cbn [adler_loop]. destruct (Z.ltb_spec j len); [|lia].
    destruct (block_far (Z.to_nat 5552) j s1 s2 Hj) as (a & b & E & H'); [lia|lia|exact H|]. rewrite E. cbn [bind fst snd]. apply IH; [lia|lia|lia|].
    rewrite Z2Nat.id in H' by lia. exact H'.
Qed.
Lemma adler_ok : adler_loop data (S (length data)) 0 (len mod 5552) 1 0 = Ok (adler_a data, adler_b data).
Proof.
  assert (H0 : so_far 0 1 0) by (split; reflexivity).
  assert (F : forall a b, so_far len a b -> a = adler_a data /\ b = adler_b data).
  { intros a b [-> ->]. unfold data_len. rewrite Nat2Z.id, firstn_all. split; reflexivity. }
  cbn [adler_loop]. destruct (Z.ltb_spec 0 len) as [L|L].
  - pose proof (Z.mod_pos_bound len 5552 ltac:(lia)) as B. pose proof (Z.div_mod len 5552 ltac:(lia)) as DM.
    pose proof (Z.div_pos len 5552 ltac:(lia) ltac:(lia)) as DP.
    destruct (block_far (Z.to_nat (len mod 5552)) 0 1 0 ltac:(lia)) as (a & b & E & H'); [lia|lia|exact H0|]. rewrite E. cbn [bind fst snd].
    rewrite Z2Nat.id in H' by lia.
    destruct (adler_loop_ok (Z.to_nat (len / 5552)) (length data) (0 + len mod 5552) (a mod 65521) (b mod 65521)) as (x & y & E' & H''); [lia|lia| |exact H'|].
    { unfold data_len in *. assert (Z.of_nat (length data) / 5552 <= Z.of_nat (length data)) by (apply Z.div_le_upper_bound; lia). lia. }
    rewrite E'. apply F in H'' as [-> ->]. reflexivity.
  - assert (E : data = []) by (unfold data_len in L; destruct data; [reflexivity|cbn in L; lia]). rewrite E. reflexivity.
Qed.
End Adler.

(** The stream. *)
Theorem zlib_ok data quality : Forall byte data ->
  exists out, zlib_compress data quality = Ok out /\ unzlib out = Some data /\ Forall byte out /\ 8 * Z.of_nat (length out) <= 11 * Z.of_nat (length data) + 72.
Proof.
  intros Hd. unfold zlib_compress.
  assert (S0 : stream (Zs [120; 94] 0 0) (bits_of [120; 94])) by (split; [cbn; lia|split; [cbn; lia|reflexivity]]).
  destruct (zadd_ok _ _ 1 1 S0 ltac:(lia) ltac:(cbn; lia)) as (s1 & E1 & S1 & m1 & O1). rewrite E1. cbn [bind].
  destruct (zadd_ok _ _ 1 2 S1 ltac:(lia) ltac:(cbn; lia)) as (s2 & E2 & S2 & m2 & O2). rewrite E2. cbn [bind].
  assert (S2' : stream s2 ((bits_of [120; 94] ++ [true; true; false]) ++ [])) by (rewrite app_nil_r; rewrite <- app_assoc in S2; exact S2).
  set (hd := bits_of [120; 94] ++ [true; true; false]) in *.
  destruct (loop_ok data Hd quality (length data) (fun _ => []) 0 s2 hd []) as (i & s3 & bs & E3 & Bi & S3 & D3 & (m3 & O3) & B3);
    [unfold data_len; lia|unfold data_len; lia|constructor|exact S2'|intros rest; constructor|cbn; lia|]. rewrite E3. cbn [bind].
  destruct (rest_ok data Hd (Z.to_nat (data_len data - i)) i s3 hd bs) as (s4 & bs4 & E4 & S4 & D4 & (m4 & O4) & B4); [lia|lia|exact S3|exact D3|exact B3|].
  rewrite E4. cbn [bind].
  destruct (huff_ok s4 _ 256 S4 ltac:(lia)) as (s5 & E5 & S5 & m5 & O5). rewrite E5. cbn [bind].
  destruct (pad_ok 8 s5 _ S5) as (s6 & k & E6 & Eb & Hk & (m6 & O6) & _). { destruct S5 as (Hc & _). lia. }
  rewrite E6. cbn [bind]. rewrite (adler_ok data Hd). cbn [bind].
  set (tl := [u8 (Z.shiftr (adler_b data) 8); u8 (adler_b data); u8 (Z.shiftr (adler_a data) 8); u8 (adler_a data)]).
  exists (z_out s6 ++ tl). split; [reflexivity|].
  assert (O : exists m, z_out s6 = [120; 94] ++ m).
  { exists (m1 ++ m2 ++ m3 ++ m4 ++ m5 ++ m6). rewrite O6, O5, O4, O3, O2, O1. cbn [z_out]. rewrite <- !app_assoc. reflexivity. }
  destruct O as (m & O). rewrite O, bits_app in Eb. unfold hd in Eb. rewrite <- !app_assoc in Eb. apply app_inv_head in Eb.
  split; [|split].
  - rewrite O. cbn [app]. cbn [unzlib]. change ((120 mod 16 =? 8) && (120 / 16 <=? 7) && ((120 * 256 + 94) mod 31 =? 0) && negb (Z.odd (94 / 32))) with true. cbv iota.
    rewrite bits_app, Eb. cbn [app inflate].
    rewrite (runs_block _ _ (high_first (code_length 256) (code_value 256) ++ repeat false k ++ bits_of tl) data) with (r := repeat false k ++ bits_of tl).
    + cbv zeta.
      replace (Nat.div (length (repeat false k ++ bits_of tl)) 8) with 4%nat.
      2:{ symmetry. rewrite app_length, repeat_length, bits_length. change (length tl) with 4%nat. replace (k + 8 * 4)%nat with (k + 4 * 8)%nat by lia. rewrite Nat.div_add, Nat.div_small by lia. reflexivity. }
      replace (length (m ++ tl) - 4)%nat with (length m) by (rewrite app_length; change (length tl) with 4%nat; lia).
      rewrite skipn_app, skipn_all, Nat.sub_diag. cbn [app skipn].
      change (Nat.eqb (length tl) 4) with true. cbn [andb].
      replace (be32 tl) with (adler32 data); [rewrite Z.eqb_refl; reflexivity|].
      unfold be32, tl, adler32. cbn [fold_left].
      assert (A : 0 <= adler_a data < 65521) by (apply Z.mod_pos_bound; lia). assert (B : 0 <= adler_b data < 65521) by (apply Z.mod_pos_bound; lia).
      unfold u8. rewrite !Z.shiftr_div_pow2 by lia. change (2 ^ 8) with 256. clear - A B.
      rewrite (Z.mod_small (adler_b data / 256)) by (split; [apply Z.div_pos; lia|apply Z.div_lt_upper_bound; lia]).
      rewrite (Z.mod_small (adler_a data / 256)) by (split; [apply Z.div_pos; lia|apply Z.div_lt_upper_bound; lia]).
      pose proof (Z.div_mod (adler_a data) 256 ltac:(lia)). pose proof (Z.div_mod (adler_b data) 256 ltac:(lia)). lia.
    + rewrite <- !app_assoc. apply D4.
    + apply next_end.
    + lia.
  - apply Forall_app. split; [|repeat constructor; apply u8_byte].
    eapply pad_bytes; [exact E6|]. eapply huff_bytes; [exact E5|]. eapply rest_bytes; [exact E4|]. eapply loop_bytes; [exact E3|].
    eapply zadd_bytes; [exact E2|]. eapply zadd_bytes; [exact E1|]. cbn. repeat constructor; unfold byte; lia.
  - rewrite O. apply (f_equal (@length bool)) in Eb. rewrite bits_length, !app_length, high_length, repeat_length in Eb. rewrite !app_length.
    change (length tl) with 4%nat. cbn [length] in *. change (code_length 256) with 7%nat in Eb. unfold data_len in B4. lia.
Qed.
