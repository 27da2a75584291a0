(** A PNG file decodes to the picture it was made of. *)

From Coq Require Import ZArith List Bool Lia.
From Verif Require Import Num Bvh PathTracer Image Zlib Png SpecZlib SpecPng PfBits PfZlib PfZlib2 PfCrc.
Import ListNotations.
Local Open Scope Z_scope.

Lemma mapM_map {A B} (f : A -> res B) g l : (forall a, In a l -> f a = Ok (g a)) -> mapM f l = Ok (map g l).
Proof.
  induction l as [|a l IH]; intros H; [reflexivity|]. cbn [mapM map]. rewrite H by (left; reflexivity). cbn [bind].
  rewrite IH by (intros b Hb; apply H; right; exact Hb). reflexivity.
Qed.
Lemma u8_id z : byte z -> u8 z = z.
Proof. intros H. apply Z.mod_small. exact H. Qed.
Lemma paeth_predict a b c : byte a -> byte b -> byte c -> paeth a b c = predict 4 a b c.
Proof.
  intros Ha Hb Hc. unfold paeth, predict. cbn [Z.eqb Pos.eqb]. cbv zeta. unfold nearer. rewrite !u8_id by assumption. set (p := a + b - c).
  destruct (Z.leb_spec (Z.abs (p - a)) (Z.abs (p - b))), (Z.leb_spec (Z.abs (p - a)) (Z.abs (p - c))), (Z.leb_spec (Z.abs (p - b)) (Z.abs (p - c))); cbn [andb]; destruct (Z.ltb_spec (Z.abs (p - b)) (Z.abs (p - a)));
    repeat match goal with |- context [?u <? ?v] => destruct (Z.ltb_spec u v) end; try reflexivity; try lia.
Qed.
Lemma half z : Z.shiftr z 1 = z / 2.
Proof. rewrite Z.shiftr_div_pow2 by lia. reflexivity. Qed.

Lemma split_app {A} (a b : list A) m : length a = m -> split_at m (a ++ b) = Some (a, b).
Proof.
  intros <-. unfold split_at. rewrite app_length. destruct (Nat.leb_spec (length a) (length a + length b)); [|lia].
  rewrite firstn_app, Nat.sub_diag, firstn_all, skipn_app, skipn_all, Nat.sub_diag. cbn. rewrite app_nil_r. reflexivity.
Qed.
Lemma estimate_ok l : Forall byte l -> forall est, 0 <= est -> est + 128 * Z.of_nat (length l) <= 2147483647 -> exists e, estimate l est = Ok e.
Proof.
  induction 1 as [|b l Hb Hl IH]; intros est H0 H; cbn [estimate]; [eauto|]. cbn [length] in H. rewrite Nat2Z.inj_succ in H.
  assert (A : 0 <= Z.abs (s8 b) <= 128) by (unfold s8, byte in *; destruct (Z.ltb_spec b 128); lia).
  unfold i32. destruct (Z.leb_spec (-2147483648) (est + Z.abs (s8 b))); [|lia]. destruct (Z.leb_spec (est + Z.abs (s8 b)) 2147483647); [|lia]. cbn [andb bind].
  apply IH; lia.
Qed.

Section Rows.
Variables (pixels : list Z) (stride x y n : Z).
Hypothesis Hpx : Forall byte pixels.
Hypothesis Hn : 1 <= n.
Hypothesis Hs : 0 <= stride.
Hypothesis Hw : x * n <= 16777215.
Hypothesis Hr : stride * (y - 1) + x * n <= Z.of_nat (length pixels).
Definition px (j i : Z) : Z := nth (Z.to_nat (stride * j + i)) pixels 0.
Lemma px_byte j i : byte (px j i).
Proof.
  unfold px. destruct (nth_in_or_default (Z.to_nat (stride * j + i)) pixels 0) as [H|H]; [|rewrite H; unfold byte; lia].
  rewrite Forall_forall in Hpx. apply Hpx, H.
Qed.
Lemma at_px j i : 0 <= j < y -> 0 <= i < x * n -> atZ UBprim pixels (stride * j + i) = Ok (px j i).
Proof. intros Hj Hi. apply atZ_ok. nia. Qed.
Lemma at_up j i : 1 <= j < y -> 0 <= i < x * n -> atZ UBprim pixels (stride * j + (i - stride)) = Ok (px (j - 1) i).
Proof. intros Hj Hi. replace (stride * j + (i - stride)) with (stride * (j - 1) + i) by lia. apply at_px; lia. Qed.
Definition left_of j i := if i <? n then 0 else px j (i - n).
Definition above j i := if j =? 0 then 0 else px (j - 1) i.
Definition corner j i := if i <? n then 0 else above j (i - n).
Definition entry k j i : Z := u8 (px j i - predict k (left_of j i) (above j i) (corner j i)).
Lemma byte0 : byte 0.
Proof. unfold byte. lia. Qed.
Lemma line_ok k j : 0 <= k <= 4 -> 0 <= j < y ->
  exists t, filter_type j k = Ok t /\ line pixels stride x n t j = Ok (map (entry k j) (upto (x * n))).
Proof.
  intros Hk Hj. unfold line.
  assert (K : forall t, (forall i, 0 <= i < x * n -> line_entry pixels stride n t j i = Ok (entry k j i)) ->
    mapM (line_entry pixels stride n t j) (upto (x * n)) = Ok (map (entry k j) (upto (x * n)))).
  { intros t H. apply mapM_map. intros i Hi. apply H. unfold upto in Hi. apply in_map_iff in Hi as (m & <- & Hm). apply in_seq in Hm. lia. }
  unfold filter_type. assert (Ek : k = 0 \/ k = 1 \/ k = 2 \/ k = 3 \/ k = 4) by lia.
  unfold entry, left_of, corner, above in K |- *. destruct (Z.eqb_spec j 0) as [J|J].
  - destruct Ek as [-> | [-> | [-> | [-> | ->]]]];
      [exists 0|exists 1|exists 0|exists 5|exists 6]; (split; [reflexivity|]); apply K; intros i Hi; unfold line_entry;
      rewrite at_px by lia; cbn [bind]; destruct (Z.ltb_spec i n) as [L|L];
      rewrite ?(at_px j (i - n)) by lia; cbn [bind]; f_equal; f_equal; rewrite ?(paeth_predict (px j (i - n)) 0 0 (px_byte _ _) byte0 byte0);
      unfold predict; cbn [Z.eqb Pos.eqb]; rewrite ?half, ?Z.add_0_r, ?Z.sub_0_r; try reflexivity.
  - destruct Ek as [-> | [-> | [-> | [-> | ->]]]];
      [exists 0|exists 1|exists 2|exists 3|exists 4]; (split; [reflexivity|]); apply K; intros i Hi; unfold line_entry;
      rewrite at_px by lia; cbn [bind]; destruct (Z.ltb_spec i n) as [L|L];
      rewrite ?(at_px j (i - n)), ?(at_up j i) by lia; cbn [bind];
      try replace (stride * j + (i - stride - n)) with (stride * j + (i - n - stride)) by lia; rewrite ?(at_up j (i - n)) by lia; cbn [bind]; f_equal; f_equal;
      rewrite ?(paeth_predict _ _ _ (px_byte _ _) (px_byte _ _) (px_byte _ _)), ?(paeth_predict _ _ _ byte0 (px_byte _ _) byte0);
      unfold predict; cbn [Z.eqb Pos.eqb]; rewrite ?half, ?Z.sub_0_r; try reflexivity.
Qed.
Lemma entry_byte k j i : byte (entry k j i).
Proof. apply u8_byte. Qed.
Lemma choose_ok ks : Forall (fun k => 0 <= k <= 4) ks -> forall j best bv, 0 <= j < y -> 0 <= best <= 4 -> 0 <= x * n ->
  exists b, choose pixels stride x n ks j best bv = Ok b /\ 0 <= b <= 4.
Proof.
  induction 1 as [|k ks Hk Hks IH]; intros j best bv Hj Hb Hxn; cbn [choose]; [eauto|].
  destruct (line_ok k j Hk Hj) as (t & Et & El). rewrite Et. cbn [bind]. rewrite El. cbn [bind].
  destruct (estimate_ok (map (entry k j) (upto (x * n)))) with (est := 0) as (e & Ee); [|lia| |].
  - apply Forall_forall. intros b Hb'. apply in_map_iff in Hb' as (i & <- & _). apply entry_byte.
  - unfold upto. rewrite !map_length, seq_length. lia.
  - rewrite Ee. cbn [bind]. destruct (e <? bv); apply IH; assumption.
Qed.
Lemma row_ok j : 0 <= j < y -> 0 <= x * n -> exists k, 0 <= k <= 4 /\ filter_row pixels stride x n j = Ok (k :: map (entry k j) (upto (x * n))).
Proof.
  intros Hj Hxn. unfold filter_row.
  destruct (choose_ok [0; 1; 2; 3; 4]) with (j := j) (best := 0) (bv := 2147483647) as (b & E & Hb); [repeat constructor; lia|exact Hj|lia|exact Hxn|].
  rewrite E. cbn [bind]. destruct (line_ok b j Hb Hj) as (t & Et & El). rewrite Et. cbn [bind]. rewrite El. cbn [bind].
  exists b. split; [exact Hb|]. rewrite u8_id by (unfold byte; lia). reflexivity.
Qed.

Definition zseq (a m : nat) : list Z := map Z.of_nat (seq a m).
Lemma sample_seq f m i : 0 <= i < Z.of_nat m -> sample (map f (zseq 0 m)) i = f i.
Proof.
  intros H. unfold sample, zseq. destruct (Z.ltb_spec i 0); [lia|]. rewrite map_map.
  rewrite (nth_indep _ 0 (f (Z.of_nat 0))) by (rewrite map_length, seq_length; lia).
  rewrite (map_nth (fun k => f (Z.of_nat k))), seq_nth by lia. f_equal. lia.
Qed.
Definition row (j : Z) : list Z := map (px j) (zseq 0 (Z.to_nat (x * n))).
Definition prior (j : Z) : list Z := if j =? 0 then [] else row (j - 1).
Lemma sample_prior j i : 0 <= i < x * n -> sample (prior j) i = above j i.
Proof.
  intros H. unfold prior, above. destruct (j =? 0); [|apply sample_seq; lia]. unfold sample. destruct (i <? 0); [reflexivity|]. destruct (Z.to_nat i); reflexivity.
Qed.
Lemma sample_neg l i : i < 0 -> sample l i = 0.
Proof. intros H. unfold sample. destruct (Z.ltb_spec i 0); [reflexivity|lia]. Qed.
Lemma unfilter_ok k j m : forall a, Z.of_nat (a + m) <= x * n ->
  unfilter k n (prior j) (map (px j) (zseq 0 a)) (map (entry k j) (zseq a m)) = map (px j) (zseq 0 (a + m)).
Proof.
  induction m as [|m IH]; intros a Ha; [cbn; rewrite Nat.add_0_r; reflexivity|].
  change (zseq a (S m)) with (Z.of_nat a :: zseq (S a) m). cbn [map unfilter].
  assert (El : Z.of_nat (length (map (px j) (zseq 0 a))) = Z.of_nat a) by (unfold zseq; rewrite !map_length, seq_length; reflexivity). rewrite El.
  replace (sample (map (px j) (zseq 0 a)) (Z.of_nat a - n)) with (left_of j (Z.of_nat a)).
  2:{ unfold left_of. destruct (Z.ltb_spec (Z.of_nat a) n); symmetry; [apply sample_neg; lia|apply sample_seq; lia]. }
  rewrite sample_prior by lia.
  replace (sample (prior j) (Z.of_nat a - n)) with (corner j (Z.of_nat a)).
  2:{ unfold corner. destruct (Z.ltb_spec (Z.of_nat a) n); symmetry; [apply sample_neg; lia|apply sample_prior; lia]. }
  replace ((entry k j (Z.of_nat a) + predict k (left_of j (Z.of_nat a)) (above j (Z.of_nat a)) (corner j (Z.of_nat a))) mod 256) with (px j (Z.of_nat a)).
  2:{ unfold entry, u8. rewrite Z.add_mod_idemp_l by lia. rewrite Z.sub_add. symmetry. apply Z.mod_small, px_byte. }
  replace (map (px j) (zseq 0 a) ++ [px j (Z.of_nat a)]) with (map (px j) (zseq 0 (S a))).
  2:{ unfold zseq. rewrite seq_S, !map_app. reflexivity. }
  rewrite IH by lia. f_equal. f_equal. lia.
Qed.
Lemma rows_ok m : 0 <= x * n -> forall j, Z.of_nat (j + m) <= y ->
  exists rows, mapM (filter_row pixels stride x n) (zseq j m) = Ok rows /\
    unrows m (Z.to_nat (x * n)) n (prior (Z.of_nat j)) (concat rows) = Some (map row (zseq j m)) /\
    Forall byte (concat rows) /\ Z.of_nat (length (concat rows)) = Z.of_nat m * (x * n + 1).
Proof.
  intros Hxn. induction m as [|m IH]; intros j Hj.
  - exists []. repeat split. constructor.
  - destruct (row_ok (Z.of_nat j) ltac:(lia) Hxn) as (k & Hk & Ek). destruct (IH (S j) ltac:(lia)) as (rows & Er & Eu & Fb & El).
    exists ((k :: map (entry k (Z.of_nat j)) (upto (x * n))) :: rows). change (zseq j (S m)) with (Z.of_nat j :: zseq (S j) m).
    cbn [mapM]. rewrite Ek. cbn [bind]. rewrite Er. cbn [bind]. split; [reflexivity|].
    assert (Lm : length (map (entry k (Z.of_nat j)) (upto (x * n))) = Z.to_nat (x * n)) by (unfold upto; rewrite !map_length, seq_length; reflexivity).
    split; [|split].
    + cbn [concat app unrows]. destruct (Z.leb_spec 0 k); [|lia]. destruct (Z.leb_spec k 4); [|lia]. cbn [andb].
      rewrite split_app by exact Lm.
      change (upto (x * n)) with (zseq 0 (Z.to_nat (x * n))). pose proof (unfilter_ok k (Z.of_nat j) (Z.to_nat (x * n)) 0 ltac:(lia)) as Uf. change (map (px (Z.of_nat j)) (zseq 0 0)) with (@nil Z) in Uf. cbn [Nat.add] in Uf. rewrite Uf. clear Uf.
      change (map (px (Z.of_nat j)) (zseq 0 (Z.to_nat (x * n)))) with (row (Z.of_nat j)).
      replace (row (Z.of_nat j)) with (prior (Z.of_nat (S j))) at 2.
      2:{ unfold prior. destruct (Z.eqb_spec (Z.of_nat (S j)) 0); [lia|]. f_equal. lia. }
      cbv zeta. rewrite Eu. reflexivity.
    + cbn [concat]. apply Forall_app. split; [|exact Fb]. constructor; [unfold byte; lia|]. apply Forall_forall. intros b Hb. apply in_map_iff in Hb as (i & <- & _). apply entry_byte.
    + cbn [concat]. rewrite app_length. cbn [length]. rewrite Lm. lia.
Qed.
Lemma row_segment j : 0 <= j < y -> row j = firstn (Z.to_nat (x * n)) (skipn (Z.to_nat (stride * j)) pixels).
Proof.
  intros Hj. unfold row, zseq, px. rewrite map_map.
  assert (Hl : (Z.to_nat (stride * j) + Z.to_nat (x * n) <= length pixels)%nat \/ x * n <= 0) by nia.
  destruct Hl as [Hl|Hl]; [|replace (Z.to_nat (x * n)) with 0%nat by lia; reflexivity].
  set (a := Z.to_nat (stride * j)) in *. assert (Ea : stride * j = Z.of_nat a) by (unfold a; nia). set (w := Z.to_nat (x * n)) in *. rewrite Ea. clearbody a w. clear - Hl.
  revert a Hl. induction pixels as [|p l IH]; intros a Hl; [cbn in Hl; destruct w; [reflexivity|lia]|]. destruct a as [|a].
  - cbn [skipn]. apply nth_ext with (d := 0) (d' := 0).
    + rewrite map_length, seq_length, firstn_length. lia.
    + intros i Hi. rewrite map_length, seq_length in Hi. rewrite (nth_indep _ 0 (nth (Z.to_nat (Z.of_nat 0 + Z.of_nat 0)) (p :: l) 0)) by (rewrite map_length, seq_length; lia).
      rewrite (map_nth (fun i => nth (Z.to_nat (Z.of_nat 0 + Z.of_nat i)) (p :: l) 0)), seq_nth by lia.
      rewrite <- (firstn_skipn w (p :: l)) at 1. rewrite app_nth1 by (rewrite firstn_length; lia). f_equal. lia.
  - cbn [skipn]. rewrite <- IH by (cbn in Hl; lia). apply map_ext. intros i. replace (Z.to_nat (Z.of_nat (S a) + Z.of_nat i)) with (S (Z.to_nat (Z.of_nat a + Z.of_nat i))) by lia. reflexivity.
Qed.
End Rows.

(** Chunks. *)
Lemma wp32_bytes v : Forall byte (wp32 v).
Proof. repeat constructor; apply u8_byte. Qed.
Lemma be32_wp32 v : 0 <= v < 4294967296 -> be32 (wp32 v) = v.
Proof.
  intros H. unfold be32, wp32, u8. cbn [fold_left]. rewrite !Z.shiftr_div_pow2 by lia. change (2 ^ 24) with 16777216. change (2 ^ 16) with 65536. change (2 ^ 8) with 256.
  rewrite (Z.mod_small (v / 16777216)) by (split; [apply Z.div_pos; lia|apply Z.div_lt_upper_bound; lia]).
  assert (E3 : v / 16777216 = v / 65536 / 256) by (rewrite Z.div_div by lia; reflexivity). assert (E2 : v / 65536 = v / 256 / 256) by (rewrite Z.div_div by lia; reflexivity). rewrite E3.
  pose proof (Z.div_mod (v / 65536) 256 ltac:(lia)). rewrite E2 in *. pose proof (Z.div_mod (v / 256) 256 ltac:(lia)). pose proof (Z.div_mod v 256 ltac:(lia)). lia.
Qed.
Lemma chunk_ok tag body : length tag = 4%nat -> Forall byte tag -> Forall byte body -> Z.of_nat (length body) < 4294967296 ->
  exists c, chunk tag body = Ok c /\ length c = (length body + 12)%nat /\
    forall fuel rest, chunks (S fuel) (c ++ rest) = match chunks fuel rest with None => None | Some cs => Some ((tag, body) :: cs) end.
Proof.
  intros Ht Bt Bb Hl. unfold chunk. rewrite crc_ok by (apply Forall_app; split; assumption). cbn [bind].
  eexists. split; [reflexivity|]. split; [rewrite !app_length, Ht; cbn; lia|]. intros fuel rest.
  rewrite <- !app_assoc. cbn [chunks].
  set (l := wp32 (Z.of_nat (length body)) ++ tag ++ body ++ wp32 (crc_of (tag ++ body)) ++ rest).
  assert (En : exists a l', l = a :: l') by (unfold l, wp32; cbn [app]; eauto). destruct En as (a & l' & En). rewrite En. rewrite <- En. unfold l.
  rewrite split_app by reflexivity. rewrite split_app by exact Ht. rewrite be32_wp32 by lia. rewrite split_app by lia. rewrite split_app by reflexivity.
  rewrite be32_wp32 by apply crc_range. rewrite Z.eqb_refl. reflexivity.
Qed.
Lemma i32_ok z : -2147483648 <= z <= 2147483647 -> i32 z = Ok z.
Proof. intros H. unfold i32. destruct (Z.leb_spec (-2147483648) z); [|lia]. destruct (Z.leb_spec z 2147483647); [|lia]. reflexivity. Qed.

Definition row_stride (stride_bytes x n : Z) : Z := if stride_bytes =? 0 then x * n else stride_bytes.
Theorem png_ok pixels stride_bytes x y n : Forall byte pixels -> 1 <= n <= 4 -> 1 <= x -> 1 <= y -> 0 <= stride_bytes ->
  x * n <= 16777215 -> y * (x * n + 1) <= 536870912 ->
  row_stride stride_bytes x n * (y - 1) <= 2147483647 -> row_stride stride_bytes x n * (y - 1) + x * n <= Z.of_nat (length pixels) ->
  exists file, png_to_mem pixels stride_bytes x y n = Ok file /\ Forall byte file /\
    png_read file = Some (Raster x y n (rows_of pixels (Z.to_nat (row_stride stride_bytes x n)) (Z.to_nat (x * n)) (Z.to_nat y))).
Proof.
  intros Hpx Hn Hx Hy Hs Hw Ha Hso Hr. unfold png_to_mem. rewrite i32_ok by nia. cbn [bind]. fold (row_stride stride_bytes x n). set (stride := row_stride stride_bytes x n) in *.
  assert (Hs' : 0 <= stride) by (unfold stride, row_stride; destruct (stride_bytes =? 0); nia).
  rewrite i32_ok by nia. cbn [bind]. rewrite i32_ok by nia. cbn [bind].
  destruct (rows_ok pixels stride x y n Hpx (proj1 Hn) Hs' Hw Hr (Z.to_nat y) ltac:(nia) 0 ltac:(lia)) as (rows & Er & Eu & Fb & El).
  unfold filter_rows. change (upto y) with (zseq 0 (Z.to_nat y)). rewrite Er. cbn [bind].
  destruct (zlib_ok (concat rows) 8 Fb) as (z & Ez & Ed & Bz & Lz). rewrite Ez. cbn [bind]. rewrite Z2Nat.id in El by lia. rewrite El in Lz.
  rewrite i32_ok by lia. cbn [bind].
  assert (Et : exists c, atZ UBprim [-1; 0; 4; 2; 6] n = Ok c /\ byte c /\ samples c = Some n).
  { assert (En : n = 1 \/ n = 2 \/ n = 3 \/ n = 4) by lia. destruct En as [-> | [-> | [-> | ->]]]; eexists; repeat split; try lia. }
  destruct Et as (ct & Et & Bc & Ec). rewrite Et. cbn [bind]. rewrite u8_id by exact Bc.
  set (hd := wp32 x ++ wp32 y ++ [8; ct; 0; 0; 0]).
  destruct (chunk_ok [73; 72; 68; 82] hd) as (c1 & E1 & L1 & R1); [reflexivity|repeat constructor; lia| |cbn; lia|].
  { apply Forall_app. split; [apply wp32_bytes|]. apply Forall_app. split; [apply wp32_bytes|]. repeat constructor; try lia; apply Bc. }
  destruct (chunk_ok [73; 68; 65; 84] z) as (c2 & E2 & L2 & R2); [reflexivity|repeat constructor; lia|exact Bz|lia|].
  destruct (chunk_ok [73; 69; 78; 68] []) as (c3 & E3 & L3 & R3); [reflexivity|repeat constructor; lia|constructor|cbn; lia|].
  rewrite E1. cbn [bind]. rewrite E2. cbn [bind]. rewrite E3. cbn [bind]. eexists. split; [reflexivity|]. split.
  { assert (K : forall tag body c, chunk tag body = Ok c -> Forall byte tag -> Forall byte body -> Forall byte c).
    { intros tag body c E Bt Bb. unfold chunk in E. apply bind_ok in E as (v & _ & E). assert (c = wp32 (Z.of_nat (length body)) ++ tag ++ body ++ wp32 v) as -> by congruence. repeat (apply Forall_app; split); try assumption; apply wp32_bytes. }
    apply Forall_app. split; [repeat constructor; lia|]. apply Forall_app. split; [|apply Forall_app; split].
    - apply (K _ _ _ E1); [repeat constructor; lia|]. apply Forall_app. split; [apply wp32_bytes|]. apply Forall_app. split; [apply wp32_bytes|]. repeat constructor; try lia; apply Bc.
    - apply (K _ _ _ E2); [repeat constructor; lia|exact Bz].
    - apply (K _ _ _ E3); [repeat constructor; lia|constructor]. }
  unfold png_read. rewrite split_app by reflexivity. change (same [137; 80; 78; 71; 13; 10; 26; 10] signature) with true. cbv iota.
  assert (F : exists f, length (c1 ++ c2 ++ c3) = S (S (S f))).
  { exists (length (c1 ++ c2 ++ c3) - 3)%nat. rewrite !app_length, L1. lia. }
  destruct F as (f & F). rewrite F. replace (c1 ++ c2 ++ c3) with (c1 ++ c2 ++ c3 ++ []) by (rewrite app_nil_r; reflexivity). rewrite R1, R2, R3.
  replace (chunks f []) with (Some (@nil (list Z * list Z))) by (destruct f; reflexivity).
  unfold hd, wp32. cbn [app].
  change [u8 (Z.shiftr x 24); u8 (Z.shiftr x 16); u8 (Z.shiftr x 8); u8 x] with (wp32 x).
  change [u8 (Z.shiftr y 24); u8 (Z.shiftr y 16); u8 (Z.shiftr y 8); u8 y] with (wp32 y).
  rewrite !be32_wp32 by nia. cbv zeta. change (same [73; 72; 68; 82] IHDR) with true. destruct (Z.ltb_spec 0 x); [|lia]. destruct (Z.ltb_spec 0 y); [|lia].
  cbn [andb Z.eqb Pos.eqb]. rewrite Ec. cbn [image_data]. change (same [73; 68; 65; 84] IEND) with false. change (same [73; 68; 65; 84] IDAT) with true. change (same [73; 69; 78; 68] IEND) with true.
  cbn [option_map]. rewrite app_nil_r, Ed. change (prior pixels stride x n (Z.of_nat 0)) with (@nil Z) in Eu. rewrite Eu. do 2 f_equal.
  unfold rows_of. unfold zseq. rewrite map_map. apply map_ext_in. intros j Hj. apply in_seq in Hj. rewrite (row_segment pixels stride x y n) by (try assumption; lia).
  f_equal. f_equal. nia.
Qed.
