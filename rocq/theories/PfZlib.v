(** What the compressor writes is read back. *)

From Coq Require Import ZArith List Bool Lia.
From Verif Require Import Num PathTracer Zlib SpecZlib PfBits.
Import ListNotations.
Local Open Scope Z_scope.

Lemma atZ_ok {A} w (l : list A) d i : 0 <= i < Z.of_nat (length l) -> atZ w l i = Ok (nth (Z.to_nat i) l d).
Proof.
  intros H. unfold atZ. destruct (Z.leb_spec 0 i); [|lia]. destruct (Z.ltb_spec i (Z.of_nat (length l))); [|lia]. cbn [andb].
  unfold at_. rewrite (nth_error_nth' l d) by lia. reflexivity.
Qed.
Lemma take_app c r n : length c = n -> take_bits n (c ++ r) = Some (c, r).
Proof.
  intros <-. unfold take_bits. rewrite app_length. destruct (Nat.leb_spec (length c) (length c + length r)); [|lia].
  rewrite firstn_app, Nat.sub_diag, firstn_all, firstn_O, app_nil_r. rewrite skipn_app, Nat.sub_diag, skipn_all. reflexivity.
Qed.
Lemma take_length n l a b : take_bits n l = Some (a, b) -> (length b = length l - n)%nat /\ (n <= length l)%nat.
Proof.
  unfold take_bits. destruct (Nat.leb_spec n (length l)); [|discriminate]. intros E. injection E as <- <-. rewrite skipn_length. lia.
Qed.

(** Reading symbol after symbol. *)
Inductive runs : list bool -> list Z -> list bool -> list Z -> Prop :=
| Runs_stop l out : runs l out l out
| Runs_more l out l1 out1 l2 out2 : next l out = Some (More l1 out1) -> runs l1 out1 l2 out2 -> runs l out l2 out2.
Lemma runs_trans l out l1 out1 l2 out2 : runs l out l1 out1 -> runs l1 out1 l2 out2 -> runs l out l2 out2.
Proof. induction 1; [auto|]. intros H'. eapply Runs_more; eauto. Qed.
Definition decoded (bs : list bool) (out : list Z) : Prop := forall rest, runs (bs ++ rest) [] rest out.
Lemma decoded_more bs out c out' : decoded bs out -> (forall rest, next (c ++ rest) out = Some (More rest out')) -> decoded (bs ++ c) out'.
Proof.
  intros H Hn rest. rewrite <- app_assoc. eapply runs_trans; [apply H|]. eapply Runs_more; [apply Hn|constructor].
Qed.
Lemma value_length sym t l v r : value_at sym t l = Some (v, r) -> (length r <= length l)%nat.
Proof.
  unfold value_at. destruct (look_up sym t) as [[eb base]|]; [|discriminate]. destruct (take_bits eb l) as [[e r']|] eqn:E; [|discriminate].
  intros H. injection H as _ <-. apply take_length in E. lia.
Qed.
Lemma symbol_length l s r : symbol_at l = Some (s, r) -> (length r < length l)%nat.
Proof.
  unfold symbol_at. destruct (take_bits 7 l) as [[c r7]|] eqn:E7; [|discriminate]. apply take_length in E7. destruct (_ <? _).
  - intros H. injection H as _ <-. lia.
  - destruct (take_bits 8 l) as [[c8 r8]|] eqn:E8; [|discriminate]. apply take_length in E8.
    destruct (_ <? 192); [intros H; injection H as _ <-; lia|]. destruct (_ <? 200); [intros H; injection H as _ <-; lia|].
    destruct (take_bits 9 l) as [[c9 r9]|] eqn:E9; [|discriminate]. apply take_length in E9. intros H. injection H as _ <-. lia.
Qed.
Lemma next_shorter l out r out' : next l out = Some (More r out') -> (length r < length l)%nat.
Proof.
  unfold next. destruct (symbol_at l) as [[s r1]|] eqn:E1; [|discriminate]. apply symbol_length in E1.
  destruct (s <? 256); [intros H; injection H as <- _; exact E1|]. destruct (s =? 256); [discriminate|].
  destruct (value_at s lengths r1) as [[len r2]|] eqn:E2; [|discriminate]. apply value_length in E2.
  destruct (take_bits 5 r2) as [[d r3]|] eqn:E3; [|discriminate]. apply take_length in E3.
  destruct (value_at (from_high d) distances r3) as [[dist r4]|] eqn:E4; [|discriminate]. apply value_length in E4.
  destruct (_ && _); [|discriminate]. destruct (copy _ _ _); [|discriminate]. intros H. injection H as <- _. lia.
Qed.
Lemma runs_block l out l2 out2 : runs l out l2 out2 -> forall r fuel, next l2 out2 = Some (End r) -> (length l < fuel)%nat ->
  block fuel l out = Some (out2, r).
Proof.
  induction 1 as [l out|l out l1 out1 l2 out2 E R IH]; intros r fuel En Hf; (destruct fuel as [|fuel]; [lia|]); cbn [block].
  - rewrite En. reflexivity.
  - rewrite E. apply IH; [exact En|]. apply next_shorter in E. lia.
Qed.

(** The tables. *)
Lemma find_code_ok fuel : forall table v j, 0 <= j -> nth (Z.to_nat j) table 0 <= v < nth (length table - 1) table 0 ->
  Z.of_nat (length table) - 1 - j <= Z.of_nat fuel -> j < Z.of_nat (length table) - 1 ->
  exists k, find_code fuel table v j = Ok k /\ 0 <= k < Z.of_nat (length table) - 1 /\
    nth (Z.to_nat k) table 0 <= v < nth (Z.to_nat (k + 1)) table 0.
Proof.
  induction fuel as [|fuel IH]; intros table v j Hj Hv Hf Hl; [lia|]. cbn [find_code]. rewrite (atZ_ok _ _ 0) by lia. cbn [bind].
  rewrite Z.gtb_ltb. destruct (Z.ltb_spec (nth (Z.to_nat (j + 1)) table 0 - 1) v) as [L|L].
  - destruct (Z.eq_dec (j + 1) (Z.of_nat (length table) - 1)) as [E|E].
    + exfalso. rewrite E in L. replace (Z.to_nat (Z.of_nat (length table) - 1)) with (length table - 1)%nat in L by lia. lia.
    + apply IH; lia.
  - exists j. split; [reflexivity|]. lia.
Qed.
Definition row_ok (t : list (Z * nat * Z)) (codes : list Z) (ebs : list nat) (first k : Z) : bool :=
  match look_up (k + first) t with
  | Some (eb, base) => Nat.eqb eb (nth (Z.to_nat k) ebs 0%nat) && (base =? nth (Z.to_nat k) codes 0) &&
      (nth (Z.to_nat (k + 1)) codes 0 - base <=? 2 ^ Z.of_nat eb) && Nat.leb eb 13
  | None => false
  end.
Lemma length_row k : 0 <= k < 29 -> row_ok lengths lengthc lengtheb 257 k = true.
Proof. revert k. apply (between _ 29). intros k Hk. do 29 (destruct k as [|k]; [vm_compute; reflexivity|]). lia. Qed.
Lemma dist_row k : 0 <= k < 30 -> row_ok distances distc disteb 0 k = true.
Proof. revert k. apply (between _ 30). intros k Hk. do 30 (destruct k as [|k]; [vm_compute; reflexivity|]). lia. Qed.
Lemma row_value t codes ebs first k v : row_ok t codes ebs first k = true -> nth (Z.to_nat k) codes 0 <= v < nth (Z.to_nat (k + 1)) codes 0 ->
  let eb := nth (Z.to_nat k) ebs 0%nat in let c := nth (Z.to_nat k) codes 0 in
  0 <= v - c < 2 ^ Z.of_nat eb /\ (eb <= 13)%nat /\ forall rest, value_at (k + first) t (low_first eb (v - c) ++ rest) = Some (v, rest).
Proof.
  unfold row_ok, value_at. destruct (look_up (k + first) t) as [[eb base]|]; [|discriminate]. rewrite !andb_true_iff. intros (((E1 & E2) & E3) & E4) Hv.
  apply Nat.eqb_eq in E1. apply Z.eqb_eq in E2. apply Z.leb_le in E3. apply Nat.leb_le in E4. cbv zeta. rewrite <- E1, <- E2 in *.
  assert (B : 0 <= v - base < 2 ^ Z.of_nat eb) by lia. split; [exact B|]. split; [exact E4|]. intros rest.
  rewrite take_app by apply low_length. rewrite low_value, Z.mod_small by exact B. do 2 f_equal. lia.
Qed.

(** Literals and the end. *)
Lemma next_literal c out rest : byte c -> next (high_first (code_length c) (code_value c) ++ rest) out = Some (More rest (out ++ [c])).
Proof. intros [H1 H2]. unfold next. rewrite symbol_code by lia. destruct (Z.ltb_spec c 256); [reflexivity|lia]. Qed.
Lemma next_end out rest : next (high_first (code_length 256) (code_value 256) ++ rest) out = Some (End rest).
Proof. unfold next. rewrite symbol_code by lia. reflexivity. Qed.

Section Compress.
Variable data : list Z.
Hypothesis Hdata : Forall byte data.
Notation len := (data_len data).
Notation dat i := (nth (Z.to_nat i) data 0).

Lemma dat_byte i : 0 <= i < len -> byte (dat i).
Proof. unfold data_len. intros H. apply (proj1 (Forall_forall _ _) Hdata). apply nth_In. lia. Qed.
Lemma at_dat i : 0 <= i < len -> atZ UBprim data i = Ok (dat i).
Proof. apply atZ_ok. Qed.
Lemma firstn_next i : 0 <= i < len -> firstn (Z.to_nat (i + 1)) data = firstn (Z.to_nat i) data ++ [dat i].
Proof.
  unfold data_len. intros H. replace (Z.to_nat (i + 1)) with (S (Z.to_nat i)) by lia.
  assert (K : forall (l : list Z) n, (n < length l)%nat -> firstn (S n) l = firstn n l ++ [nth n l 0]).
  { induction l as [|x l IH]; intros n Hn; [cbn in Hn; lia|]. destruct n as [|n]; [reflexivity|].
    cbn [firstn nth app]. f_equal. apply IH. cbn in Hn. lia. }
  apply K. lia.
Qed.

Lemma countm_ok a b limit : 0 <= a -> 0 <= b -> 0 <= limit -> a + limit <= len -> b + limit <= len ->
  exists m, countm data a b limit = Ok m /\ 0 <= m <= limit /\ m <= 258 /\ forall k, 0 <= k < m -> dat (a + k) = dat (b + k).
Proof.
  intros Ha Hb Hl La Lb. unfold countm.
  assert (K : forall n i, 0 <= i -> i + Z.of_nat n <= Z.min limit 258 -> (forall k, 0 <= k < i -> dat (a + k) = dat (b + k)) ->
    exists m, countm_ data a b n i = Ok m /\ i <= m <= Z.min limit 258 /\ forall k, 0 <= k < m -> dat (a + k) = dat (b + k)).
  { induction n as [|n IH]; intros i Hi Hn He; cbn [countm_].
    - exists i. split; [reflexivity|]. split; [lia|exact He].
    - rewrite !at_dat by lia. cbn [bind]. destruct (Z.eqb_spec (dat (a + i)) (dat (b + i))) as [E|E]; cbn [negb].
      + destruct (IH (i + 1)) as (m & E1 & B & Hm); [lia|lia| |].
        { intros k Hk. destruct (Z.eq_dec k i) as [->|]; [exact E|]. apply He. lia. }
        exists m. split; [exact E1|]. split; [lia|exact Hm].
      + exists i. split; [reflexivity|]. split; [lia|exact He]. }
  destruct (K (Z.to_nat (Z.min limit 258)) 0) as (m & E & B & Hm); [lia|lia|intros; lia|].
  exists m. split; [exact E|]. split; [lia|]. split; [lia|exact Hm].
Qed.
Lemma zhash_ok i : 0 <= i -> i + 3 <= len -> exists h, hash_at data i = Ok h.
Proof. intros H1 H2. unfold hash_at, zhash. rewrite !at_dat by lia. cbn [bind]. eexists. reflexivity. Qed.

Definition good (i m p : Z) : Prop :=
  0 <= p < i /\ i - p <= 32767 /\ 3 <= m <= 258 /\ i + m <= len /\ forall k, 0 <= k < m -> dat (p + k) = dat (i + k).
Lemma best_ok i : 0 <= i <= len -> forall l best loc, Forall (fun p => 0 <= p < i) l ->
  3 <= best -> (forall p, loc = Some p -> good i best p) ->
  exists best' loc', best_match data l i best loc = Ok (best', loc') /\ forall p, loc' = Some p -> good i best' p.
Proof.
  intros Hi. induction l as [|p l IH]; intros best loc HF Hb Hg; cbn [best_match]; [eauto|]. inversion HF as [|? ? Hp HF']; subst.
  rewrite Z.gtb_ltb. destruct (Z.ltb_spec (i - 32768) p) as [L|L]; [|apply IH; assumption].
  destruct (countm_ok p i (len - i)) as (m & E & B1 & B2 & Hm); [lia..|]. rewrite E. cbn [bind]. rewrite Z.geb_leb.
  destruct (Z.leb_spec best m) as [G|G]; [|apply IH; assumption]. apply IH; [assumption|lia|].
  intros q Hq. injection Hq as <-. unfold good. repeat split; try lia. exact Hm.
Qed.
Lemma better_ok i best : 0 <= i -> i + 1 <= len -> forall l, Forall (fun p => 0 <= p < i + 1) l ->
  exists b, better_next data l i best = Ok b.
Proof.
  intros Hi Hl. induction l as [|p l IH]; intros HF; cbn [better_next]; [eauto|]. inversion HF as [|? ? Hp HF']; subst.
  rewrite Z.gtb_ltb. destruct (Z.ltb_spec (i - 32767) p) as [L|L]; [|apply IH; assumption].
  destruct (countm_ok p (i + 1) (len - i - 1)) as (m & E & _); [lia..|]. rewrite E. cbn [bind].
  destruct (m >? best); [eauto|apply IH; assumption].
Qed.
Lemma copy_ok d i : 1 <= d <= i -> 0 <= i -> forall n k, 0 <= k -> i + k + Z.of_nat n <= len ->
  (forall j, 0 <= j < k + Z.of_nat n -> dat (i - d + j) = dat (i + j)) ->
  copy n d (firstn (Z.to_nat (i + k)) data) = Some (firstn (Z.to_nat (i + k + Z.of_nat n)) data).
Proof.
  intros Hd Hi. induction n as [|n IH]; intros k Hk Hl He; cbn [copy].
  - do 3 f_equal. lia.
  - rewrite firstn_length_le by (unfold data_len in Hl; lia).
    assert (E : nth_error (firstn (Z.to_nat (i + k)) data) (Z.to_nat (i + k) - Z.to_nat d) = Some (dat (i + k))).
    { rewrite (nth_error_nth' _ 0) by (rewrite firstn_length_le by (unfold data_len in Hl; lia); lia). f_equal.
      replace (Z.to_nat (i + k) - Z.to_nat d)%nat with (Z.to_nat (i - d + k)) by lia. rewrite <- (He k) by lia.
      rewrite <- (firstn_skipn (Z.to_nat (i + k)) data) at 2. rewrite app_nth1; [reflexivity|]. rewrite firstn_length_le by (unfold data_len in Hl; lia). lia. }
    rewrite E, <- firstn_next by lia. replace (i + k + 1) with (i + (k + 1)) by lia. rewrite IH; [do 3 f_equal; lia|lia|lia|].
    intros j Hj. apply He. lia.
Qed.

Lemma match_ok s hd bs i best p : stream s (hd ++ bs) -> decoded bs (firstn (Z.to_nat i) data) -> 0 <= i -> good i best p ->
  exists s' c, put_match s best (i - p) = Ok s' /\ stream s' (hd ++ bs ++ c) /\ decoded (bs ++ c) (firstn (Z.to_nat (i + best)) data) /\
    (exists more, z_out s' = z_out s ++ more) /\ (length c <= 31)%nat.
Proof.
  intros S D Hi (Hp & Hd & Hm & Hl & He). unfold put_match.
  destruct (find_code_ok (length lengthc) lengthc best 0) as (j & Ej & Bj & Hj); [lia|cbn; lia|cbn; lia|cbn; lia|].
  rewrite Ej. cbn [bind]. change (Z.of_nat (length lengthc) - 1) with 29 in Bj.
  destruct (row_value _ _ _ _ _ best (length_row j Bj) Hj) as (X1 & X2 & X3). cbv zeta in X1, X2, X3.
  destruct (huff_ok s (hd ++ bs) (j + 257)) as (s1 & E1 & S1 & m1 & O1); [exact S|lia|]. rewrite E1. cbn [bind].
  rewrite (atZ_ok _ lengtheb 0%nat) by (cbn; lia). rewrite (atZ_ok _ lengthc 0) by (cbn; lia). cbn [bind].
  set (eb := nth (Z.to_nat j) lengtheb 0%nat) in *. set (c := nth (Z.to_nat j) lengthc 0) in *.
  assert (K : forall s0 b0 n v, stream s0 b0 -> (n <= 13)%nat -> 0 <= v < 2 ^ Z.of_nat n -> exists s', (if Nat.eqb n 0 then Ok s0 else zadd s0 v n) = Ok s' /\
    stream s' (b0 ++ low_first n v) /\ exists more, z_out s' = z_out s0 ++ more).
  { intros s0 b0 n v S0 Hn Hv. destruct (Nat.eqb_spec n 0) as [->|_]; [|apply zadd_ok; assumption].
    exists s0. split; [reflexivity|]. cbn [low_first]. rewrite app_nil_r. split; [exact S0|]. exists []. symmetry. apply app_nil_r. }
  destruct (K s1 _ eb (best - c) S1 X2 X1) as (s2 & E2 & S2 & m2 & O2). rewrite E2. cbn [bind].
  destruct (find_code_ok (length distc) distc (i - p) 0) as (q & Eq & Bq & Hq); [lia|cbn; lia|cbn; lia|cbn; lia|].
  rewrite Eq. cbn [bind]. change (Z.of_nat (length distc) - 1) with 30 in Bq.
  destruct (row_value _ _ _ _ _ (i - p) (dist_row q Bq) Hq) as (Y1 & Y2 & Y3). cbv zeta in Y1, Y2, Y3.
  destruct (bitrev_ok q 5) as [R1 R2].
  destruct (zadd_ok s2 _ (bitrev q 5) 5 S2 ltac:(lia) R1) as (s3 & E3 & S3 & m3 & O3). rewrite E3. cbn [bind].
  rewrite (atZ_ok _ disteb 0%nat) by (cbn; lia). rewrite (atZ_ok _ distc 0) by (cbn; lia). cbn [bind].
  set (eb' := nth (Z.to_nat q) disteb 0%nat) in *. set (c' := nth (Z.to_nat q) distc 0) in *.
  destruct (K s3 _ eb' (i - p - c') S3 Y2 Y1) as (s4 & E4 & S4 & m4 & O4).
  exists s4, (high_first (code_length (j + 257)) (code_value (j + 257)) ++ low_first eb (best - c) ++ high_first 5 q ++ low_first eb' (i - p - c')).
  split; [exact E4|]. rewrite R2 in S4. split; [|split; [|split]].
  - rewrite <- !app_assoc in S4. exact S4.
  - apply (decoded_more _ _ _ _ D). intros rest. rewrite <- !app_assoc. unfold next. rewrite symbol_code by lia.
    destruct (Z.ltb_spec (j + 257) 256); [lia|]. destruct (Z.eqb_spec (j + 257) 256); [lia|]. rewrite X3, take_app by apply high_length.
    rewrite high_value, Z.mod_small by (cbn; lia). replace q with (q + 0) at 1 by lia. rewrite Y3.
    rewrite firstn_length_le by (unfold data_len in Hl; lia).
    destruct (Z.leb_spec (i - p) 32768); [|lia]. destruct (Z.leb_spec (i - p) (Z.of_nat (Z.to_nat i))); [|lia]. cbn [andb].
    pose proof (copy_ok (i - p) i ltac:(lia) Hi (Z.to_nat best) 0 ltac:(lia)) as C. rewrite Z.add_0_r, Z2Nat.id in C by lia.
    rewrite C; [reflexivity|lia|]. intros k Hk. replace (i - (i - p) + k) with (p + k) by lia. apply He. lia.
  - exists (m1 ++ m2 ++ m3 ++ m4). rewrite O4, O3, O2, O1, <- !app_assoc. reflexivity.
  - rewrite !app_length, !high_length, !low_length. assert (eb <= 5)%nat.
    { unfold eb. clear - Bj. revert j Bj. apply (between (fun j => (nth (Z.to_nat j) lengtheb 0 <= 5)%nat) 29). intros k Hk. do 29 (destruct k as [|k]; [vm_compute; lia|]). lia. }
    unfold code_length. destruct (j + 257 <? 144); destruct (j + 257 <? 256) eqn:E; [lia|lia| |]; (destruct (j + 257 <? 280); lia) || (apply Z.ltb_lt in E; lia).
Qed.
Lemma literal_ok s hd bs i : stream s (hd ++ bs) -> decoded bs (firstn (Z.to_nat i) data) -> 0 <= i < len ->
  exists s' c, huffb s (dat i) = Ok s' /\ stream s' (hd ++ bs ++ c) /\ decoded (bs ++ c) (firstn (Z.to_nat (i + 1)) data) /\
    (exists more, z_out s' = z_out s ++ more) /\ (length c <= 9)%nat.
Proof.
  intros S D Hi. pose proof (dat_byte i Hi) as [B1 B2]. rewrite huffb_huff by lia.
  destruct (huff_ok s (hd ++ bs) (dat i) S ltac:(lia)) as (s' & E & S' & M). eexists s', _. split; [exact E|]. rewrite <- app_assoc in S'. split; [exact S'|].
  split; [|split; [exact M|]].
  - apply (decoded_more _ _ _ _ D). intros rest. rewrite firstn_next by exact Hi. apply next_literal. split; assumption.
  - rewrite high_length. unfold code_length. repeat destruct (_ <? _); lia.
Qed.

Lemma push_ok quality l i : Forall (fun p => 0 <= p < i) l -> 0 <= i -> Forall (fun p => 0 <= p < i + 1) (push_entry quality l i).
Proof.
  intros H Hi. unfold push_entry. apply Forall_app. split; [|constructor; [lia|constructor]].
  assert (H' : Forall (fun p => 0 <= p < i + 1) l) by (eapply Forall_impl; [|exact H]; cbn; intros; lia).
  destruct (Nat.eqb _ _); [|exact H']. apply Forall_forall. intros p Hp. apply (proj1 (Forall_forall _ _) H').
  rewrite <- (firstn_skipn quality l). apply in_or_app. right. exact Hp.
Qed.
Lemma loop_ok quality fuel : forall t i s hd bs, 0 <= i <= len -> len - i <= Z.of_nat fuel -> (forall h, Forall (fun p => 0 <= p < i) (t h)) ->
  stream s (hd ++ bs) -> decoded bs (firstn (Z.to_nat i) data) -> Z.of_nat (length bs) <= 11 * i ->
  exists i' s' bs', compress_loop data quality fuel t i s = Ok (i', s') /\ 0 <= i' <= len /\ stream s' (hd ++ bs') /\
    decoded bs' (firstn (Z.to_nat i') data) /\ (exists more, z_out s' = z_out s ++ more) /\ Z.of_nat (length bs') <= 11 * i'.
Proof.
  induction fuel as [|fuel IH]; intros t i s hd bs Hi Hf Ht S D Hb; cbn [compress_loop]; destruct (Z.ltb_spec i (len - 3)) as [L|L].
  - lia.
  - exists i, s, bs. split; [reflexivity|]. split; [exact Hi|]. split; [exact S|]. split; [exact D|]. split; [exists []; symmetry; apply app_nil_r|exact Hb].
  - destruct (zhash_ok i) as (h & Eh); [lia|lia|]. rewrite Eh. cbn [bind].
    destruct (best_ok i ltac:(lia) (t h) 3 None (Ht h) ltac:(lia)) as (best & loc & Em & Hg); [discriminate|]. rewrite Em. cbn [bind].
    set (t' := table_set t h (push_entry quality (t h) i)).
    assert (Ht' : forall k, Forall (fun p => 0 <= p < i + 1) (t' k)).
    { intros k. unfold t', table_set. destruct (k =? h); [apply push_ok; [apply Ht|lia]|]. eapply Forall_impl; [|apply Ht]. cbn. intros; lia. }
    assert (EL : exists loc', match loc with None => Ok None | Some p => do h <- hash_at data (i + 1); do b <- better_next data (t' h) i best; Ok (if b : bool then None else Some p) end = Ok loc' /\
      forall p, loc' = Some p -> good i best p).
    { destruct loc as [p|]; [|exists None; split; [reflexivity|discriminate]]. destruct (zhash_ok (i + 1)) as (h' & Eh'); [lia|lia|]. rewrite Eh'. cbn [bind].
      destruct (better_ok i best ltac:(lia) ltac:(lia) (t' h') (Ht' h')) as (b & Eb). rewrite Eb. cbn [bind]. eexists. split; [reflexivity|].
      destruct b; [discriminate|exact Hg]. }
    destruct EL as (loc' & EL & Hg'). rewrite EL. cbn [bind]. destruct loc' as [p|].
    + specialize (Hg' p eq_refl). pose proof Hg' as (_ & _ & Hm & Hl & _). destruct (match_ok s hd bs i best p S D ltac:(lia) Hg') as (s1 & c & E1 & S1 & D1 & (m1 & O1) & L1).
      rewrite E1. cbn [bind]. destruct (IH t' (i + best) s1 hd (bs ++ c)) as (i' & s' & bs' & E & Bi & S' & D' & (m2 & O2) & B'); [lia|lia| |exact S1|exact D1| |].
      * intros k. eapply Forall_impl; [|apply Ht']. cbn. intros; lia.
      * rewrite app_length. lia.
      * exists i', s', bs'. split; [exact E|]. split; [exact Bi|]. split; [exact S'|]. split; [exact D'|]. split; [|exact B']. exists (m1 ++ m2). rewrite O2, O1, <- app_assoc. reflexivity.
    + rewrite at_dat by lia. cbn [bind]. destruct (literal_ok s hd bs i S D ltac:(lia)) as (s1 & c & E1 & S1 & D1 & (m1 & O1) & L1).
      rewrite E1. cbn [bind]. destruct (IH t' (i + 1) s1 hd (bs ++ c)) as (i' & s' & bs' & E & Bi & S' & D' & (m2 & O2) & B'); [lia|lia|exact Ht'|exact S1|exact D1| |].
      * rewrite app_length. lia.
      * exists i', s', bs'. split; [exact E|]. split; [exact Bi|]. split; [exact S'|]. split; [exact D'|]. split; [|exact B']. exists (m1 ++ m2). rewrite O2, O1, <- app_assoc. reflexivity.
  - exists i, s, bs. split; [reflexivity|]. split; [exact Hi|]. split; [exact S|]. split; [exact D|]. split; [exists []; symmetry; apply app_nil_r|exact Hb].
Qed.
Lemma rest_ok n : forall i s hd bs, 0 <= i -> i + Z.of_nat n = len -> stream s (hd ++ bs) -> decoded bs (firstn (Z.to_nat i) data) -> Z.of_nat (length bs) <= 11 * i ->
  exists s' bs', put_rest data n i s = Ok s' /\ stream s' (hd ++ bs') /\ decoded bs' data /\ (exists more, z_out s' = z_out s ++ more) /\ Z.of_nat (length bs') <= 11 * len.
Proof.
  induction n as [|n IH]; intros i s hd bs Hi Hn S D Hb; cbn [put_rest].
  - exists s, bs. split; [reflexivity|]. split; [exact S|]. split; [|split; [exists []; symmetry; apply app_nil_r|lia]].
    rewrite firstn_all2 in D by (unfold data_len in Hn; lia). exact D.
  - rewrite at_dat by lia. cbn [bind]. destruct (literal_ok s hd bs i S D ltac:(lia)) as (s1 & c & E1 & S1 & D1 & (m1 & O1) & L1). rewrite E1. cbn [bind].
    destruct (IH (i + 1) s1 hd (bs ++ c)) as (s' & bs' & E & S' & D' & (m2 & O2) & B'); [lia|lia|exact S1|exact D1|rewrite app_length; lia|].
    exists s', bs'. split; [exact E|]. split; [exact S'|]. split; [exact D'|]. split; [|exact B']. exists (m1 ++ m2). rewrite O2, O1, <- app_assoc. reflexivity.
Qed.
End Compress.

(** The end of the block is filled up to a whole byte. *)
Lemma pad_ok fuel : forall s bs, stream s bs -> (z_cnt s = 0 \/ 8 - z_cnt s <= Z.of_nat fuel) ->
  exists s' k, pad fuel s = Ok s' /\ bits_of (z_out s') = bs ++ repeat false k /\ (k < 8)%nat /\ (exists more, z_out s' = z_out s ++ more) /\
    (z_cnt s = 0 -> k = 0%nat) /\ (z_cnt s <> 0 -> Z.of_nat k = 8 - z_cnt s).
Proof.
  induction fuel as [|fuel IH]; intros s bs S H; cbn [pad]; destruct (Z.eqb_spec (z_cnt s) 0) as [E|E].
  - exists s, 0%nat. destruct S as (Hc & Hb & ->). split; [reflexivity|]. rewrite E. cbn. rewrite !app_nil_r. repeat split; try lia. exists []. symmetry. apply app_nil_r.
  - destruct S as (Hc & _). lia.
  - exists s, 0%nat. destruct S as (Hc & Hb & ->). split; [reflexivity|]. rewrite E. cbn. rewrite !app_nil_r. repeat split; try lia. exists []. symmetry. apply app_nil_r.
  - destruct (zadd_ok s bs 0 1 S ltac:(lia) ltac:(cbn; lia)) as (s1 & E1 & S1 & m1 & O1). rewrite E1. cbn [bind].
    assert (C : z_cnt s1 = (if z_cnt s =? 7 then 0 else z_cnt s + 1)).
    { destruct S as (Hc & Hb & Eb). destruct S1 as (Hc1 & Hb1 & Eb1). apply (f_equal (@length bool)) in Eb1. rewrite Eb in Eb1.
      rewrite !app_length, !bits_length, !low_length, O1, app_length in Eb1. destruct (Z.eqb_spec (z_cnt s) 7); lia. }
    destruct (IH s1 _ S1) as (s' & k & E' & B' & K' & (m2 & O2) & K0 & K1).
    { destruct S as (Hc & _). destruct (Z.eqb_spec (z_cnt s) 7); lia. }
    exists s', (1 + k)%nat. destruct S as (Hc & _). split; [exact E'|]. split; [rewrite B', <- app_assoc; reflexivity|].
    assert (Z.of_nat (1 + k) = 8 - z_cnt s) by (destruct (Z.eqb_spec (z_cnt s) 7); [rewrite (K0 C); lia|specialize (K1 ltac:(lia)); lia]).
    split; [lia|]. split; [|split; [lia|lia]]. exists (m1 ++ m2). rewrite O2, O1, <- app_assoc. reflexivity.
Qed.
