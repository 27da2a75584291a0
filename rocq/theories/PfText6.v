(** Numbers of OBJ files in IEEE arithmetic: proofs. *)

From Coq Require Import Reals ZArith Strings.String Strings.Ascii List Bool Lia Lra Floats.SpecFloat.
From Flocq Require Import Core Relative Plus_error IEEE754.BinarySingleNaN.
From Verif Require Import Num NumR NumF NumX Vec SpecReal SpecIEEE TinyObj ObjText SpecText SpecTextF PfX PfText PfIEEE PfIEEE2 PfIEEE3.
Import ListNotations.
Local Open Scope string_scope.
Local Open Scope list_scope.

(** ** What is computed, in any arithmetic *)

Section Any.
Context {T : Type} {N : num T}.
Variable pow_ : Z -> Z -> T.
Variable ldexp_ : T -> Z -> T.
Variable to_float : T -> T.

Fixpoint whole_of (m : T) (ds : list dig) : T :=
  match ds with [] => m | d :: ds' => whole_of (nadd (nmul m (nofZ 10)) (nofZ (dig_value d))) ds' end.
Fixpoint frac_of (m : T) (k : Z) (ds : list dig) : T :=
  match ds with [] => m | d :: ds' => frac_of (nadd m (nmul (nofZ (dig_value d)) (pow_ 10 (- k)))) (k + 1) ds' end.
Definition number_of (n : decimal) : T :=
  assemble pow_ ldexp_ (sgn_char (i_sgn (d_whole n)))
    (frac_of (whole_of (nofZ 0) (i_digits (d_whole n))) 1 (frac_digits n)) (exponent n).

Lemma int_loop_any ds t : holds_off is_digit t -> forall m r,
  int_loop m r (digs ds ++ t) = (whole_of m ds, (r + Z.of_nat (length ds))%Z, t).
Proof.
  intros Ht. induction ds as [|d ds IH]; intros m r.
  - cbn [digs map string_of_list_ascii append length whole_of]. apply off_digit in Ht.
    destruct t as [|c t]; cbn [int_loop]; [|rewrite Ht]; rewrite Z.add_0_r; reflexivity.
  - rewrite digs_cons. cbn [append int_loop whole_of length]. rewrite digit_dig, IH. f_equal. f_equal. lia.
Qed.
Lemma frac_loop_any ds t : holds_off is_digit t -> forall m r,
  frac_loop pow_ m r (digs ds ++ t) = (frac_of m r ds, t).
Proof.
  intros Ht. induction ds as [|d ds IH]; intros m r.
  - cbn [digs map string_of_list_ascii append length frac_of]. apply off_digit in Ht.
    destruct t as [|c t]; cbn [frac_loop]; [|rewrite Ht]; reflexivity.
  - rewrite digs_cons. cbn [append frac_loop frac_of]. rewrite digit_dig, IH. reflexivity.
Qed.
Lemma exponent_any o s m :
  (forall c e, o = Some (c, e) -> integer_ok e /\ int_range (integer_value (Integer NoSign (i_digits e)))) ->
  parse_exponent pow_ ldexp_ (sgn_char s) m (exp_text o) = Ok (Some (assemble pow_ ldexp_ (sgn_char s) m (exp_value o))).
Proof.
  intros Ho. destruct o as [[c e]|]; cbn [exp_text exp_value]; [|reflexivity].
  destruct (Ho c e eq_refl) as [Hn Hr]. destruct e as [s' ds]. unfold integer_ok, integer_value in *. cbn [i_sgn i_digits sgn_value] in *.
  rewrite Z.mul_1_l in Hr.
  assert (X : exp_loop 0 0 (digs ds) = Ok (natural ds, Z.of_nat (length ds))).
  { pose proof (exp_loop_digs ds "" I 0 0) as X. rewrite app_nil, Z.mul_0_l, !Z.add_0_l in X. apply X; [lia|exact Hr]. }
  assert (L : (Z.of_nat (length ds) =? 0)%Z = false) by (apply Z.eqb_neq; destruct ds; [contradiction|cbn [length]; lia]).
  assert (Hr' : int_range (natural ds * (-1))) by (pose proof (natural_nonneg ds); destruct Hr; split; lia).
  assert (Hr'' : int_range (natural ds * 1)) by (rewrite Z.mul_1_r; exact Hr).
  replace ((if c then "E" else "e") ++ integer_text (Integer s' ds))%string with
    (String (if c then "E" else "e")%char (integer_text (Integer s' ds))) by (destruct c; reflexivity).
  unfold parse_exponent. replace (is_e (if c then "E" else "e")%char) with true by (destruct c; reflexivity). cbv iota.
  unfold integer_text. cbn [i_sgn i_digits].
  destruct s'; cbn [sgn_text append sgn_value].
  - destruct ds as [|d ds]; [contradiction|]. rewrite digs_cons in *. cbn [first].
    replace (is_sign (dig_char d)) with false by (destruct d; reflexivity). rewrite andb_false_r. cbn [negb andb].
    rewrite digit_dig. cbv iota. rewrite X. cbn [bind]. change (Ascii.eqb "+" "+") with true. cbv iota.
    rewrite int_ok by exact Hr''. cbn [bind]. rewrite L. rewrite Z.mul_1_r, Z.mul_1_l. reflexivity.
  - cbn [first String.length Nat.eqb negb andb is_sign]. change (is_sign "+") with true. cbn [negb andb next].
    rewrite X. cbn [bind]. change (Ascii.eqb "+" "+") with true. cbv iota.
    rewrite int_ok by exact Hr''. cbn [bind]. rewrite L. rewrite Z.mul_1_r, Z.mul_1_l. reflexivity.
  - cbn [first String.length Nat.eqb negb andb is_sign]. change (is_sign "-") with true. cbn [negb andb next].
    rewrite X. cbn [bind]. change (Ascii.eqb "-" "+") with false. cbv iota.
    rewrite int_ok by exact Hr'. cbn [bind]. rewrite L. rewrite Z.mul_comm. reflexivity.
Qed.

Theorem number_any n : decimal_ok n -> tryParseDouble pow_ ldexp_ (decimal_text n) = Ok (Some (number_of n)).
Proof.
  destruct n as [[s ds] fr ex]. unfold decimal_ok, integer_ok, number_of, decimal_text, frac_digits, exponent.
  cbn [d_whole d_frac d_exp i_sgn i_digits]. fold (exp_text ex). fold (exp_value ex). intros [Hn He].
  set (rest := (match fr with None => "" | Some l => "." ++ digs l end ++ exp_text ex)%string).
  assert (Hrest : holds_off is_digit rest).
  { unfold rest. destruct fr; [reflexivity|]. cbn [append]. apply exp_off. }
  pose proof (int_loop_any ds rest Hrest (nofZ 0) 0) as E. rewrite Z.add_0_l in E. set (m := whole_of (nofZ 0) ds) in *.
  assert (L : (Z.of_nat (length ds) =? 0)%Z = false) by (apply Z.eqb_neq; destruct ds; [contradiction|cbn [length]; lia]).
  assert (Ex :
    match rest with
    | "" => Ok (Some (assemble pow_ ldexp_ (sgn_char s) m 0))
    | String c s' => if Ascii.eqb c "." then let (m, s0) := frac_loop pow_ m 1 s' in parse_exponent pow_ ldexp_ (sgn_char s) m s0
                     else parse_exponent pow_ ldexp_ (sgn_char s) m rest
    end = Ok (Some (assemble pow_ ldexp_ (sgn_char s) (frac_of m 1 (match fr with Some l => l | None => [] end)) (exp_value ex)))).
  { unfold rest. destruct fr as [l|].
    - pose proof (frac_loop_any l (exp_text ex) (exp_off ex) m 1) as E'.
      cbn [append]. change (Ascii.eqb "." ".") with true. cbv iota. rewrite E'. apply exponent_any, He.
    - cbn [append frac_of]. pose proof (exponent_any ex s m He) as Ex.
      destruct (exp_text ex) as [|c t] eqn:Q; [|rewrite (exp_point ex c t Q); exact Ex]. exact Ex. }
  unfold integer_text. cbn [i_sgn i_digits]. rewrite app_app.
  destruct s; cbn [sgn_text append sgn_char] in *; unfold tryParseDouble.
  - destruct ds as [|d ds]; [contradiction|]. rewrite digs_cons in *. cbn [append] in *.
    replace (is_sign (dig_char d)) with false by (destruct d; reflexivity). rewrite digit_dig. cbn [negb andb]. cbv iota.
    fold rest. rewrite E. rewrite L. exact Ex.
  - change (is_sign "+") with true. cbn [negb andb]. fold rest. rewrite E. rewrite L. exact Ex.
  - change (is_sign "-") with true. cbn [negb andb]. fold rest. rewrite E. rewrite L. exact Ex.
Qed.
Lemma parseFloat_any a n t : blank a -> decimal_ok n -> stops token_end t ->
  parseFloat pow_ ldexp_ to_float (a ++ decimal_text n ++ t) = Ok (to_float (number_of n), t).
Proof.
  intros Ha Hn Ht.
  unfold parseFloat. rewrite skip_all by (apply blank_space, Ha). rewrite skip_off by (apply decimal_space, Hn).
  fold token_end. rewrite upto_none, after_none by (apply decimal_token || exact Ht). rewrite (number_any n Hn). reflexivity.
Qed.
End Any.

(** ** Accumulated rounding errors *)

Section IEEE.
Local Open Scope R_scope.
Local Instance p53 : Prec_gt_0 53 := eq_refl.
Local Instance m1024 : Prec_lt_emax 53 1024 := eq_refl.
Notation FN := (Fnum 53 1024).
Notation isf := (isF 53 1024).
Notation rd := (rnd 53 1024).
Notation u := (bpow radix2 (-53)).

Lemma u_range : 0 < u <= / 1000000.
Proof. split; [apply bpow_gt_0|]. cbn. lra. Qed.
Definition err (k : nat) : R := (1 + u) ^ k - 1.
Lemma err_pos k : 0 <= err k.
Proof. unfold err. pose proof u_range. pose proof (pow_R1_Rle (1 + u) k ltac:(lra)). lra. Qed.
Lemma err_mono j k : (j <= k)%nat -> err j <= err k.
Proof. intros H. unfold err. pose proof u_range. pose proof (Rle_pow (1 + u) j k ltac:(lra) H). lra. Qed.
Lemma err_add j k : (1 + err j) * (1 + err k) - 1 = err (j + k).
Proof. unfold err. rewrite pow_add. ring. Qed.
Lemma err_S k : (1 + err k) * (1 + u) - 1 = err (S k).
Proof. unfold err. cbn [pow]. ring. Qed.
Lemma err_small k : (k <= 1000)%nat -> err k <= / 4.
Proof.
  intros H. pose proof u_range as [U1 U2].
  assert (G : forall j, (j <= 1000)%nat -> (1 + u) ^ j <= 1 + 2 * INR j * u).
  { induction j as [|j IH]; intros Hj; [cbn [pow INR]; lra|]. specialize (IH ltac:(lia)).
    rewrite S_INR. cbn [pow]. assert (J : 0 <= INR j <= 1000).
    { split; [apply pos_INR|]. replace 1000 with (INR 1000) by (rewrite INR_IZR_INZ; reflexivity). apply le_INR. lia. }
    assert (INR j * u <= / 1000) by nra. nra. }
  specialize (G k H). assert (J : 0 <= INR k <= 1000).
  { split; [apply pos_INR|]. replace 1000 with (INR 1000) by (rewrite INR_IZR_INZ; reflexivity). apply le_INR, H. }
  unfold err. nra.
Qed.

Lemma mul_err a b v w E F : 0 <= v -> 0 <= w -> 0 <= E -> 0 <= F -> Rabs (a - v) <= E * v -> Rabs (b - w) <= F * w ->
  Rabs (a * b - v * w) <= ((1 + E) * (1 + F) - 1) * (v * w).
Proof.
  intros Hv Hw HE HF Ha Hb. replace (a * b - v * w) with ((a - v) * (b - w) + ((a - v) * w + v * (b - w))) by ring.
  eapply Rle_trans; [apply Rabs_triang|]. eapply Rle_trans; [apply Rplus_le_compat_l, Rabs_triang|].
  rewrite !Rabs_mult, (Rabs_pos_eq v), (Rabs_pos_eq w) by assumption.
  pose proof (Rmult_le_compat _ _ _ _ (Rabs_pos _) (Rabs_pos _) Ha Hb).
  pose proof (Rmult_le_compat_r w _ _ Hw Ha). pose proof (Rmult_le_compat_l v _ _ Hv Hb). lra.
Qed.
Lemma rnd_err q r s E : 0 <= s -> 0 <= E -> 0 <= r -> Rabs (r - s) <= E * s -> Rabs (q - r) <= u * r ->
  Rabs (q - s) <= ((1 + E) * (1 + u) - 1) * s.
Proof.
  intros Hs HE Hr H1 H2. replace (q - s) with ((q - r) + (r - s)) by ring.
  eapply Rle_trans; [apply Rabs_triang|]. pose proof (Rle_abs (r - s)). pose proof u_range.
  assert (r <= (1 + E) * s) by lra. nra.
Qed.

(** Zero, or between two powers of two. *)
Definition span (k : Z) (v : R) : Prop := v = 0 \/ bpow radix2 (- k) <= v <= bpow radix2 k.
Lemma span_pos k v : span k v -> 0 <= v.
Proof. intros [-> |[H _]]; [lra|]. pose proof (bpow_gt_0 radix2 (- k)). lra. Qed.
Lemma span_mono j k v : (j <= k)%Z -> span j v -> span k v.
Proof.
  intros H [-> |[H1 H2]]; [left; reflexivity|right]. split.
  - eapply Rle_trans; [|exact H1]. apply bpow_le. lia.
  - eapply Rle_trans; [exact H2|]. apply bpow_le. lia.
Qed.
Lemma span_mul j k v w : span j v -> span k w -> span (j + k) (v * w).
Proof.
  intros [-> |[H1 H2]]; [left; ring|]. intros [-> |[H3 H4]]; [left; ring|]. right.
  replace (- (j + k))%Z with (- j + - k)%Z by lia. rewrite !bpow_plus.
  pose proof (bpow_gt_0 radix2 (- j)). pose proof (bpow_gt_0 radix2 (- k)).
  split; apply Rmult_le_compat; lra.
Qed.
Lemma span_add k v w : span k v -> span k w -> span (k + 1) (v + w).
Proof.
  intros Hv Hw. pose proof (span_pos _ _ Hv). pose proof (span_pos _ _ Hw).
  assert (B : bpow radix2 (k + 1) = 2 * bpow radix2 k) by (rewrite bpow_plus; cbn; lra).
  assert (C : bpow radix2 (- (k + 1)) <= bpow radix2 (- k)) by (apply bpow_le; lia).
  pose proof (bpow_gt_0 radix2 (- k)).
  destruct Hv as [-> |[A1 A2]], Hw as [-> |[A3 A4]]; [left; lra|right; split; lra..].
Qed.

Lemma rd_good r : 0 <= r -> r = 0 \/ bpow radix2 (-1022) <= r -> r <= bpow radix2 1022 ->
  Rabs (rd r - r) <= u * r /\ Rabs (rd r) < top 1024.
Proof.
  intros H0 Hl Ht. pose proof u_range as [U1 U2].
  assert (E : Rabs (rd r - r) <= u * r).
  { destruct Hl as [-> |Hl].
    - rewrite (rd_0 53 1024). rewrite Rminus_0_r, Rabs_R0. lra.
    - pose proof (rd_rel 53 1024 r) as X. unfold ulpf, least in X. rewrite (Rabs_pos_eq r) in X by exact H0.
      apply X. exact Hl. }
  split; [exact E|]. assert (P : 0 <= rd r) by (apply (rd_pos 53 1024); exact H0).
  rewrite Rabs_pos_eq by exact P. pose proof (Rle_abs (rd r - r)).
  unfold top. replace (bpow radix2 1024) with (4 * bpow radix2 1022) by (change 1024%Z with (2 + 1022)%Z; rewrite bpow_plus; reflexivity).
  pose proof (bpow_gt_0 radix2 1022). nra.
Qed.

(** [x] is [v] up to [K] roundings, and [v] is zero or within 2^-k .. 2^k. *)
Definition near (K : nat) (k : Z) (x : spec_float) (v : R) : Prop :=
  span k v /\ exists a, isf x a /\ Rabs (a - v) <= err K * v.
Lemma near_mono J K j k x v : (J <= K)%nat -> (j <= k)%Z -> near J j x v -> near K k x v.
Proof.
  intros H1 H2 [Hs (a & Ha & E)]. split; [apply (span_mono j); assumption|]. exists a. split; [exact Ha|].
  pose proof (err_mono J K H1). pose proof (span_pos _ _ Hs). nra.
Qed.
Lemma near_range K k x v : (K <= 1000)%nat -> near K k x v ->
  exists a, isf x a /\ Rabs (a - v) <= err K * v /\ 3 / 4 * v <= a <= 5 / 4 * v.
Proof.
  intros HK [Hs (a & Ha & E)]. exists a. split; [exact Ha|]. split; [exact E|].
  pose proof (err_small K HK). pose proof (span_pos _ _ Hs). apply Rabs_le_inv in E. split; nra.
Qed.
Lemma low_mul k v : (k <= 1020)%Z -> bpow radix2 (- k) <= v -> bpow radix2 (-1022) <= 9 / 16 * v.
Proof.
  intros H Hv. assert (bpow radix2 (-1022) <= bpow radix2 (- k - 1)) by (apply bpow_le; lia).
  replace (bpow radix2 (- k - 1)) with (/ 2 * bpow radix2 (- k)) in *; [|unfold Zminus; rewrite bpow_plus; cbn; lra].
  pose proof (bpow_gt_0 radix2 (- k)). lra.
Qed.
Lemma high_mul k v : (k <= 1020)%Z -> v <= bpow radix2 k -> 25 / 16 * v <= bpow radix2 1022.
Proof.
  intros H Hv. assert (bpow radix2 (k + 1) <= bpow radix2 1022) by (apply bpow_le; lia).
  rewrite bpow_plus in H0. change (bpow radix2 1) with 2 in H0. pose proof (bpow_gt_0 radix2 k). lra.
Qed.

Lemma near_mul J K j k x y v w : (J + K <= 1000)%nat -> (j + k <= 1020)%Z -> near J j x v -> near K k y w ->
  near (S (J + K)) (j + k) (@nmul _ FN x y) (v * w).
Proof.
  intros HK Hk Hx Hy. pose proof (span_mul _ _ _ _ (proj1 Hx) (proj1 Hy)) as Hs. split; [exact Hs|].
  pose proof (span_pos _ _ (proj1 Hx)) as Pv. pose proof (span_pos _ _ (proj1 Hy)) as Pw.
  destruct (near_range J j x v ltac:(lia) Hx) as (a & Ha & Ea & Ra).
  destruct (near_range K k y w ltac:(lia) Hy) as (b & Hb & Eb & Rb).
  assert (P : 9 / 16 * (v * w) <= a * b <= 25 / 16 * (v * w)).
  { split.
    - replace (9 / 16 * (v * w)) with ((3 / 4 * v) * (3 / 4 * w)) by field. apply Rmult_le_compat; lra.
    - replace (25 / 16 * (v * w)) with ((5 / 4 * v) * (5 / 4 * w)) by field. apply Rmult_le_compat; lra. }
  assert (V0 : 0 <= v * w) by (apply Rmult_le_pos; assumption).
  destruct (rd_good (a * b)) as [G1 G2].
  - lra.
  - destruct Hs as [Z|[L _]]; [left; lra|right]. pose proof (low_mul _ _ Hk L). lra.
  - destruct Hs as [Z|[_ L]]; [pose proof (bpow_gt_0 radix2 1022); lra|]. pose proof (high_mul _ _ Hk L). lra.
  - exists (rd (a * b)). split; [apply (isF_mul 53 1024); assumption|].
    rewrite <- err_S, <- (err_add J K).
    replace (1 + ((1 + err J) * (1 + err K) - 1)) with (1 + (((1 + err J) * (1 + err K) - 1))) by ring.
    apply rnd_err with (r := a * b); [exact V0| |lra| |exact G1].
    + pose proof (err_pos J). pose proof (err_pos K). nra.
    + apply mul_err; try assumption; apply err_pos.
Qed.
Lemma near_add J j x y v w : (J <= 1000)%nat -> (j <= 1019)%Z -> near J j x v -> near J j y w ->
  near (S J) (j + 1) (@nadd _ FN x y) (v + w).
Proof.
  intros HK Hk Hx Hy. pose proof (span_add _ _ _ (proj1 Hx) (proj1 Hy)) as Hs. split; [exact Hs|].
  pose proof (span_pos _ _ (proj1 Hx)) as Pv. pose proof (span_pos _ _ (proj1 Hy)) as Pw.
  destruct (near_range J j x v HK Hx) as (a & Ha & Ea & Ra).
  destruct (near_range J j y w HK Hy) as (b & Hb & Eb & Rb).
  destruct (rd_good (a + b)) as [G1 G2].
  - lra.
  - destruct Hs as [Z|[L _]]; [left; lra|right]. apply (low_mul (j + 1)) in L; [lra|lia].
  - destruct Hs as [Z|[_ L]]; [pose proof (bpow_gt_0 radix2 1022); lra|]. apply (high_mul (j + 1)) in L; [lra|lia].
  - exists (rd (a + b)). split; [apply (isF_add 53 1024); assumption|].
    rewrite <- err_S. apply rnd_err with (r := a + b); [lra|apply err_pos|lra| |exact G1].
    replace (a + b - (v + w)) with ((a - v) + (b - w)) by ring. eapply Rle_trans; [apply Rabs_triang|]. lra.
Qed.

Lemma small_isF z : (Z.abs z < 2 ^ 53)%Z -> isf (@nofZ _ FN z) (IZR z).
Proof.
  intros H. pose proof (isF_lit 53 1024 ltac:(lia) z 0 H ltac:(lia)) as L. change (bpow radix2 0) with 1 in L. rewrite Rmult_1_r in L. exact L.
Qed.
Lemma dig_near d : near 0 4 (@nofZ _ FN (dig_value d)) (IZR (dig_value d)).
Proof.
  split.
  - unfold span. change (bpow radix2 4) with 16. change (bpow radix2 (- (4))) with (/ 16). destruct d; cbn [dig_value]; first [left; reflexivity|right; lra].
  - exists (IZR (dig_value d)). split.
    + apply small_isF. destruct d; reflexivity.
    + rewrite Rminus_eq_0, Rabs_R0. unfold err. cbn [pow]. lra.
Qed.
Lemma ten_near : near 0 4 (@nofZ _ FN 10) 10.
Proof.
  split.
  - unfold span. change (bpow radix2 4) with 16. change (bpow radix2 (- (4))) with (/ 16). right. lra.
  - exists 10. split.
    + apply small_isF. reflexivity.
    + rewrite Rminus_eq_0, Rabs_R0. unfold err. cbn [pow]. lra.
Qed.
Lemma zero_near : near 0 0 (@nofZ _ FN 0) 0.
Proof.
  split; [left; reflexivity|]. exists 0. split.
  - split; [reflexivity|split; reflexivity].
  - rewrite Rminus_eq_0, Rabs_R0. unfold err. cbn [pow]. lra.
Qed.

Lemma whole_near ds : forall K k x v, (K + 2 * length ds <= 900)%nat -> (k + 5 * Z.of_nat (length ds) <= 900)%Z -> (0 <= k)%Z ->
  near K k x v -> near (K + 2 * length ds) (k + 5 * Z.of_nat (length ds)) (@whole_of _ FN x ds) (v * 10 ^ length ds + IZR (natural ds)).
Proof.
  induction ds as [|d ds IH]; intros K k x v HK Hk H0 H.
  - cbn [length natural pow whole_of Nat.mul Nat.add] in *. replace (v * 1 + 0) with v by ring.
    rewrite Nat.add_0_r, Z.add_0_r. exact H.
  - cbn [length whole_of natural pow] in *. rewrite Nat2Z.inj_succ in *.
    pose proof (near_mul K 0 k 4 _ _ _ _ ltac:(lia) ltac:(lia) H ten_near) as M. rewrite Nat.add_0_r in M.
    pose proof (near_add (S K) (k + 4) _ _ _ _ ltac:(lia) ltac:(lia) M (near_mono 0 (S K) 4 (k + 4) _ _ ltac:(lia) ltac:(lia) (dig_near d))) as A.
    specialize (IH (S (S K)) (k + 4 + 1)%Z _ _ ltac:(lia) ltac:(lia) ltac:(lia) A).
    rewrite plus_IZR, mult_IZR, <- pow_IZR.
    replace (v * (10 * 10 ^ length ds) + (IZR (dig_value d) * 10 ^ length ds + IZR (natural ds)))
      with ((v * 10 + IZR (dig_value d)) * 10 ^ length ds + IZR (natural ds)) by ring.
    eapply near_mono; [..|exact IH]; lia.
Qed.

Section Lib.
Variable pow_ : Z -> Z -> spec_float.
Variable ldexp_ : spec_float -> Z -> spec_float.
Variable to_float : spec_float -> spec_float.
Hypothesis Hpow : pow_near pow_.
Hypothesis Hldexp : ldexp_right ldexp_.
Hypothesis Hfloat : float_right to_float.

Lemma pow_span b e : b = 5%Z \/ b = 10%Z -> span (4 * Z.abs e) (powerRZ (IZR b) e).
Proof.
  intros Hb. right.
  assert (B : 1 <= IZR b <= 16) by (destruct Hb as [-> | ->]; lra).
  assert (P : forall n, 1 <= IZR b ^ n <= bpow radix2 (4 * Z.of_nat n)).
  { induction n as [|n IH]; [cbn; lra|]. cbn [pow]. replace (4 * Z.of_nat (S n))%Z with (4 + 4 * Z.of_nat n)%Z by lia.
    rewrite bpow_plus. change (bpow radix2 4) with 16. nra. }
  assert (Q : forall n, bpow radix2 (- (4 * Z.of_nat n)) <= IZR b ^ n) .
  { intros n. destruct (P n) as [P1 _]. eapply Rle_trans; [|exact P1]. change 1 with (bpow radix2 0). apply bpow_le. lia. }
  destruct e as [|p|p]; cbn [powerRZ Z.abs].
  - cbn. lra.
  - rewrite <- (positive_nat_Z p). split; [apply Q|apply P].
  - rewrite <- (positive_nat_Z p). destruct (P (Pos.to_nat p)) as [P1 P2]. split.
    + rewrite bpow_opp. apply Rinv_le; [lra|exact P2].
    + apply Rle_trans with 1; [rewrite <- Rinv_1; apply Rinv_le; lra|]. change 1 with (bpow radix2 0). apply bpow_le. lia.
Qed.
Lemma pow_is_near b e : b = 5%Z \/ b = 10%Z -> (Z.abs e <= 100)%Z -> near 2 (4 * Z.abs e) (pow_ b e) (powerRZ (IZR b) e).
Proof.
  intros Hb He. pose proof (pow_span b e Hb) as S. split; [exact S|].
  destruct (proj2 Hpow b e Hb He) as (p & Hp & E). exists p. split; [exact Hp|]. eapply Rle_trans; [exact E|].
  apply Rmult_le_compat_r; [apply (span_pos _ _ S)|]. unfold err. cbn [pow].
  replace (bpow radix2 (-52)) with (2 * u) by (change (-52)%Z with (1 + -53)%Z; rewrite bpow_plus; reflexivity).
  pose proof u_range. nra.
Qed.

Lemma frac_near ds : forall r K k x v, (3 <= K)%nat -> (K + length ds <= 900)%nat -> (404 <= k)%Z -> (k + Z.of_nat (length ds) <= 1000)%Z ->
  (r + length ds <= 100)%nat -> near K k x v ->
  near (K + length ds) (k + Z.of_nat (length ds)) (@frac_of _ FN pow_ x (Z.of_nat (S r)) ds) (v + IZR (natural ds) / 10 ^ (r + length ds)).
Proof.
  induction ds as [|d ds IH]; intros r K k x v H3 HK H4 Hk Hr H.
  - cbn [length natural frac_of] in *. replace (v + 0 / 10 ^ (r + 0)) with v by (unfold Rdiv; ring).
    rewrite Nat.add_0_r, Z.add_0_r. exact H.
  - cbn [length frac_of] in *. rewrite Nat2Z.inj_succ in Hk.
    pose proof (pow_is_near 10 (- Z.of_nat (S r)) (or_intror eq_refl) ltac:(lia)) as P.
    pose proof (near_mul 0 2 4 (4 * Z.abs (- Z.of_nat (S r))) _ _ _ _ ltac:(lia) ltac:(lia) (dig_near d) P) as M.
    apply (near_mono _ K _ k) in M; [|lia..].
    pose proof (near_add K k _ _ _ _ ltac:(lia) ltac:(lia) H M) as A.
    specialize (IH (S r) (S K) (k + 1)%Z _ _ ltac:(lia) ltac:(lia) ltac:(lia) ltac:(lia) ltac:(lia) A).
    replace (Z.of_nat (S r) + 1)%Z with (Z.of_nat (S (S r))) by lia.
    replace (v + IZR (natural (d :: ds)) / 10 ^ (r + S (length ds)))
      with (v + IZR (dig_value d) * powerRZ 10 (- Z.of_nat (S r)) + IZR (natural ds) / 10 ^ (S r + length ds)).
    + eapply near_mono; [..|exact IH]; lia.
    + rewrite powerRZ_neg'. rewrite <- pow_powerRZ. cbn [natural]. rewrite plus_IZR, mult_IZR, <- pow_IZR.
      replace (r + S (length ds))%nat with (S r + length ds)%nat by lia. rewrite pow_add.
      assert (P1 : 10 ^ S r <> 0) by (apply pow_nonzero; lra). assert (P2 : 10 ^ length ds <> 0) by (apply pow_nonzero; lra).
      revert P1 P2. generalize (10 ^ S r) (10 ^ length ds). intros P' Q' P1 P2. field. split; assumption.
Qed.
Lemma powerRZ_2 e : powerRZ 2 e = bpow radix2 e.
Proof.
  rewrite bpow_powerRZ. reflexivity.
Qed.
Lemma assemble_near s m v e K k : (K <= 900)%nat -> (0 <= k)%Z -> (k <= 610)%Z -> (Z.abs e <= 50)%Z -> near K k m v ->
  within (K + 3) (@assemble _ FN pow_ ldexp_ (sgn_char s) m e) (IZR (sgn_value s) * v * powerRZ 10 e).
Proof.
  intros HK H0 Hk He H. unfold assemble.
  pose proof (pow_is_near 5 e (or_introl eq_refl) ltac:(lia)) as P.
  pose proof (near_mul K 2 k (4 * Z.abs e) _ _ _ _ ltac:(lia) ltac:(lia) H P) as M.
  destruct (near_range (S (K + 2)) _ _ _ ltac:(lia) M) as (a & Ha & Ea & Ra). destruct M as [Sp _].
  set (w := v * powerRZ (IZR 5) e) in *. pose proof (span_pos _ _ Sp) as Pw.
  assert (L : isf (ldexp_ (@nmul _ FN m (pow_ 5%Z e)) e) (a * bpow radix2 e)).
  { apply Hldexp; [exact Ha|]. destruct Sp as [Z|[L1 L2]]; [left; lra|right].
    pose proof (bpow_gt_0 radix2 e) as Be. rewrite Rabs_pos_eq by nra. split.
    - apply Rle_trans with (3 / 4 * bpow radix2 (- (k + 4 * Z.abs e)) * bpow radix2 e); [|apply Rmult_le_compat_r; lra].
      rewrite Rmult_assoc, <- bpow_plus. unfold least.
      apply Rle_trans with (/ 2 * bpow radix2 (- (k + 4 * Z.abs e) + e)); [|pose proof (bpow_gt_0 radix2 (- (k + 4 * Z.abs e) + e)); lra].
      change (/ 2) with (bpow radix2 (-1)). rewrite <- bpow_plus. apply bpow_le. lia.
    - apply Rle_lt_trans with (5 / 4 * bpow radix2 (k + 4 * Z.abs e) * bpow radix2 e); [apply Rmult_le_compat_r; lra|].
      rewrite Rmult_assoc, <- bpow_plus. unfold top.
      apply Rlt_le_trans with (2 * bpow radix2 (k + 4 * Z.abs e + e)); [pose proof (bpow_gt_0 radix2 (k + 4 * Z.abs e + e)); lra|].
      change 2 with (bpow radix2 1). rewrite <- bpow_plus. apply bpow_le. lia. }
  assert (G : IZR (sgn_value s) * v * powerRZ 10 e = IZR (sgn_value s) * (w * bpow radix2 e)).
  { unfold w. replace 10 with (5 * 2) by lra. rewrite powerRZ_mult, powerRZ_2. ring. }
  rewrite G. pose proof (bpow_gt_0 radix2 e) as Be.
  assert (E : Rabs (a * bpow radix2 e - w * bpow radix2 e) <= err (K + 3) * (w * bpow radix2 e)).
  { rewrite <- Rmult_minus_distr_r, Rabs_mult, (Rabs_pos_eq (bpow radix2 e)) by lra.
    replace (K + 3)%nat with (S (K + 2)) by lia. rewrite <- Rmult_assoc. apply Rmult_le_compat_r; [lra|exact Ea]. }
  assert (W : 0 <= w * bpow radix2 e) by nra.
  assert (I : forall z, isf (@nofZ _ FN z) (IZR z) -> (z = 1 \/ z = -1)%Z ->
    isf (@nmul _ FN (@nofZ _ FN z) (ldexp_ (@nmul _ FN m (pow_ 5%Z e)) e)) (IZR z * (a * bpow radix2 e))).
  { intros z Iz Hz.
    assert (Q : rd (IZR z * (a * bpow radix2 e)) = IZR z * (a * bpow radix2 e)).
    { destruct Hz as [-> | ->]; [rewrite Rmult_1_l; apply (rd_id 53 1024 _ _ L)|].
      replace (-1 * (a * bpow radix2 e)) with (- (a * bpow radix2 e)) by ring.
      rewrite (rd_opp 53 1024), (rd_id 53 1024 _ _ L). reflexivity. }
    rewrite <- Q. apply (isF_mul 53 1024); [exact Iz|exact L|]. rewrite Q, Rabs_mult.
    replace (Rabs (IZR z)) with 1 by (destruct Hz as [-> | ->]; rewrite <- abs_IZR; reflexivity). rewrite Rmult_1_l.
    apply isF_B in L as (b & _ & Fb & <-). apply abs_B2R_lt_emax. }
  destruct s; cbn [sgn_char sgn_value].
  - exists (1 * (a * bpow radix2 e)). split; [apply (I 1%Z); [|left; reflexivity]|].
    + apply small_isF. reflexivity.
    + rewrite !Rmult_1_l, (Rabs_pos_eq (w * _)) by exact W. exact E.
  - exists (1 * (a * bpow radix2 e)). split; [apply (I 1%Z); [|left; reflexivity]|].
    + apply small_isF. reflexivity.
    + rewrite !Rmult_1_l, (Rabs_pos_eq (w * _)) by exact W. exact E.
  - exists (-1 * (a * bpow radix2 e)). split; [apply (I (-1)%Z); [|right; reflexivity]|].
    + apply small_isF. reflexivity.
    + replace (-1 * (a * bpow radix2 e) - -1 * (w * bpow radix2 e)) with (- (a * bpow radix2 e - w * bpow radix2 e)) by ring.
      replace (-1 * (w * bpow radix2 e)) with (- (w * bpow radix2 e)) by ring.
      rewrite !Rabs_Ropp, (Rabs_pos_eq (w * _)) by exact W. exact E.
Qed.

Lemma number_within n : usual n -> within (roundings n) (@number_of _ FN pow_ ldexp_ n) (decimal_value n).
Proof.
  intros (H1 & H2 & H3). unfold number_of, decimal_value, roundings.
  set (ds := i_digits (d_whole n)) in *. set (fs := frac_digits n) in *.
  pose proof (whole_near ds 0 0 _ _ ltac:(lia) ltac:(lia) ltac:(lia) zero_near) as W. rewrite Rmult_0_l, Rplus_0_l in W.
  apply (near_mono _ (2 * length ds + 3) _ 500) in W; [|lia..].
  pose proof (frac_near fs 0 (2 * length ds + 3) 500 _ _ ltac:(lia) ltac:(lia) ltac:(lia) ltac:(lia) ltac:(lia) W) as F.
  cbn [Nat.add] in F. change (Z.of_nat 1) with 1%Z in F.
  pose proof (assemble_near (i_sgn (d_whole n)) _ _ (exponent n) (2 * length ds + 3 + length fs) (500 + Z.of_nat (length fs)) ltac:(lia) ltac:(lia) ltac:(lia) H3 F) as A.
  replace (2 * length ds + length fs + 6)%nat with (2 * length ds + 3 + length fs + 3)%nat by lia. exact A.
Qed.
Theorem number_accurate n : decimal_ok n -> usual n ->
  exists x, @tryParseDouble _ FN pow_ ldexp_ (decimal_text n) = Ok (Some x) /\ within (roundings n) x (decimal_value n).
Proof. intros H1 H2. eexists. split; [apply number_any, H1|apply number_within, H2]. Qed.

(** The float. *)
Lemma rd24_rel a : bpow radix2 (-126) <= Rabs a -> Rabs (rnd 24 128 a - a) <= bpow radix2 (-24) * Rabs a.
Proof. intros H. exact (@rd_rel 24 128 eq_refl a H). Qed.
Lemma float_within k x v : (k <= 1000)%nat -> within k x v -> v = 0 \/ bpow radix2 (-125) <= Rabs v <= bpow radix2 126 ->
  within_float k (to_float x) v.
Proof.
  intros Hk (a & Ha & E) Hv. fold (err k) in E. pose proof (err_small k Hk) as Es. pose proof (err_pos k) as Ep.
  assert (Ra : 3 / 4 * Rabs v <= Rabs a <= 5 / 4 * Rabs v).
  { pose proof (Rabs_pos v). pose proof (Rabs_triang (a - v) v) as T1. replace (a - v + v) with a in T1 by ring.
    pose proof (Rabs_triang (v - a) a) as T2. replace (v - a + a) with v in T2 by ring. rewrite (Rabs_minus_sym v a) in T2. nra. }
  assert (B24 : bpow radix2 (-24) <= / 4) by (cbn; lra).
  assert (Q : Rabs (rnd 24 128 a - a) <= bpow radix2 (-24) * Rabs a).
  { destruct Hv as [-> |[L _]].
    - rewrite Rabs_R0 in Ra. assert (A0 : Rabs a = 0) by (pose proof (Rabs_pos a); lra).
      assert (A1 : a = 0) by (destruct (Req_dec a 0) as [Z|Z]; [exact Z|apply Rabs_no_R0 in Z; contradiction]).
      rewrite A1, (@rd_0 24 128), Rminus_0_r, Rabs_R0. lra.
    - apply rd24_rel. change (-125)%Z with (1 + -126)%Z in L. rewrite bpow_plus in L. change (bpow radix2 1) with 2 in L.
      pose proof (bpow_gt_0 radix2 (-126)). lra. }
  pose proof (Rabs_pos v) as V0. pose proof (Rabs_pos a) as A0.
  exists (rnd 24 128 a). split.
  - apply Hfloat; [exact Ha|]. pose proof (Rabs_triang (rnd 24 128 a - a) a) as T. replace (rnd 24 128 a - a + a) with (rnd 24 128 a) in T by ring.
    apply Rle_lt_trans with (2 * Rabs v); [nra|]. unfold top. replace (bpow radix2 128) with (4 * bpow radix2 126) by (change 128%Z with (2 + 126)%Z; rewrite bpow_plus; reflexivity).
    pose proof (bpow_gt_0 radix2 126). destruct Hv as [-> |[_ L]]; [rewrite Rabs_R0; lra|lra].
  - replace ((1 + u) ^ k) with (1 + err k) by (unfold err; ring).
    replace (rnd 24 128 a - v) with ((rnd 24 128 a - a) + (a - v)) by ring.
    eapply Rle_trans; [apply Rabs_triang|].
    assert (Rabs a <= (1 + err k) * Rabs v).
    { pose proof (Rabs_triang (a - v) v) as T1. replace (a - v + v) with a in T1 by ring. lra. }
    pose proof (bpow_gt_0 radix2 (-24)). nra.
Qed.
Theorem number_float_accurate b n t : blank b -> decimal_ok n -> tail t -> usual n ->
  decimal_value n = 0 \/ bpow radix2 (-125) <= Rabs (decimal_value n) <= bpow radix2 126 ->
  exists x, @parseFloat _ FN pow_ ldexp_ to_float (b ++ decimal_text n ++ t) = Ok (x, t) /\ within_float (roundings n) x (decimal_value n).
Proof.
  intros H1 H2 H3 H4 H5. eexists. split; [apply parseFloat_any; [exact H1|exact H2|apply tail_stops, H3]|].
  apply float_within; [|apply number_within, H4|exact H5]. unfold roundings. destruct H4 as (? & ? & ?). lia.
Qed.

(** A vertex line. *)
Ltac tests := repeat match goal with
  | |- context [command ?w (String ?a ?s)] => let b := eval cbn in (command w (String a s)) in change (command w (String a s)) with b; cbv iota
  | |- context [Ascii.eqb (first (String ?a ?s)) ?c] => let b := eval cbn in (Ascii.eqb a c) in change (Ascii.eqb (first (String a s)) c) with b; cbv iota
  end.
Theorem vertex_accurate materials p a b c x y z t : blank p -> gap a -> gap b -> gap c -> tail t ->
  decimal_ok x -> decimal_ok y -> decimal_ok z -> usual x -> usual y -> usual z ->
  (forall n, In n [x; y; z] -> decimal_value n = 0 \/ bpow radix2 (-125) <= Rabs (decimal_value n) <= bpow radix2 126) ->
  exists fx fy fz,
    @parse_line _ FN pow_ ldexp_ to_float materials
      (p ++ "v" ++ a ++ decimal_text x ++ b ++ decimal_text y ++ c ++ decimal_text z ++ t)%string = Ok (OVertex fx fy fz) /\
    within_float (roundings x) fx (decimal_value x) /\ within_float (roundings y) fy (decimal_value y) /\
    within_float (roundings z) fz (decimal_value z).
Proof.
  intros Hp Ha Hb Hc Ht Hx Hy Hz Ux Uy Uz Hr.
  assert (W : forall n, In n [x; y; z] -> usual n -> within_float (roundings n) (to_float (@number_of _ FN pow_ ldexp_ n)) (decimal_value n)).
  { intros n Hn Hu. apply float_within; [|apply number_within, Hu|apply Hr, Hn]. unfold roundings. destruct Hu as (? & ? & ?). lia. }
  eexists _, _, _. split; [|split; [apply W; [left; reflexivity|exact Ux]|split; [apply W; [right; left; reflexivity|exact Uy]|apply W; [right; right; left; reflexivity|exact Uz]]]].
  unfold parse_line. rewrite skip_all by (apply blank_space, Hp). rewrite skip_off by reflexivity.
  destruct (gap_first a Ha) as (e & a' & -> & He & Ha'). apply one_of_in in He.
  assert (E : @parseFloat3 _ FN pow_ ldexp_ to_float (a' ++ decimal_text x ++ b ++ decimal_text y ++ c ++ decimal_text z ++ t)%string =
    Ok (V (to_float (@number_of _ FN pow_ ldexp_ x)) (to_float (@number_of _ FN pow_ ldexp_ y)) (to_float (@number_of _ FN pow_ ldexp_ z)))).
  { unfold parseFloat3. rewrite (parseFloat_any pow_ ldexp_ to_float a' x) by (assumption || apply gap_stops, Hb). cbn [bind].
    rewrite (parseFloat_any pow_ ldexp_ to_float b y) by (exact (proj1 Hb) || assumption || apply gap_stops, Hc). cbn [bind].
    rewrite (parseFloat_any pow_ ldexp_ to_float c z) by (exact (proj1 Hc) || assumption || apply tail_stops, Ht). reflexivity. }
  destruct He as [<-|[<-|[]]]; cbn [append]; tests; cbn [forth next]; rewrite E; reflexivity.
Qed.

(** Integers. *)
Lemma whole_exact ds : forall x z, (0 <= z)%Z -> (z * 10 ^ Z.of_nat (length ds) + natural ds < 2 ^ 53)%Z -> isf x (IZR z) ->
  isf (@whole_of _ FN x ds) (IZR (z * 10 ^ Z.of_nat (length ds) + natural ds)).
Proof.
  induction ds as [|d ds IH]; intros x z Hz Hb Hx.
  - cbn [length natural whole_of] in *. rewrite Z.pow_0_r, Z.mul_1_r, Z.add_0_r. exact Hx.
  - cbn [length natural whole_of] in *. rewrite Nat2Z.inj_succ, Z.pow_succ_r in * by lia.
    pose proof (dig_value_range d) as Hd. pose proof (natural_nonneg ds) as Hn.
    assert (P1 : (1 <= 10 ^ Z.of_nat (length ds))%Z) by (apply (Zlt_le_succ 0), Z.pow_pos_nonneg; lia).
    replace (z * (10 * 10 ^ Z.of_nat (length ds)) + (dig_value d * 10 ^ Z.of_nat (length ds) + natural ds))%Z
      with ((z * 10 + dig_value d) * 10 ^ Z.of_nat (length ds) + natural ds)%Z in * by ring.
    assert (B : (z * 10 + dig_value d < 2 ^ 53)%Z) by nia.
    apply IH; [lia|exact Hb|].
    assert (R : forall y, (0 <= y < 2 ^ 53)%Z -> rd (IZR y) = IZR y /\ Rabs (rd (IZR y)) < top 1024).
    { intros y Hy. assert (E : rd (IZR y) = IZR y) by (apply (rd_id 53 1024 (@nofZ _ FN y)), small_isF; lia).
      split; [exact E|]. rewrite E, Rabs_pos_eq by (apply (IZR_le 0); lia). apply Rlt_trans with (IZR (2 ^ 53)); [apply IZR_lt; lia|].
      change (2 ^ 53)%Z with (Zpower radix2 53). rewrite (IZR_Zpower radix2 53) by lia. unfold top. apply bpow_lt. lia. }
    assert (M : isf (@nmul _ FN x (@nofZ _ FN 10)) (IZR (z * 10))).
    { rewrite mult_IZR. destruct (R (z * 10)%Z ltac:(lia)) as [R1 R2]. rewrite mult_IZR in R1, R2. rewrite <- R1 at 1.
      apply (isF_mul 53 1024); [exact Hx|apply small_isF; reflexivity|exact R2]. }
    rewrite plus_IZR. destruct (R (z * 10 + dig_value d)%Z ltac:(lia)) as [R1 R2]. rewrite plus_IZR in R1, R2. rewrite <- R1 at 1.
    apply (isF_add 53 1024); [exact M|apply small_isF; lia|exact R2].
Qed.
Lemma integer_isF n : frac_digits n = [] -> exponent n = 0%Z -> (natural (i_digits (d_whole n)) < 2 ^ 53)%Z ->
  isf (@number_of _ FN pow_ ldexp_ n) (decimal_value n).
Proof.
  intros Hf He Hb. unfold number_of, decimal_value. rewrite Hf, He. cbn [frac_of length natural powerRZ pow].
  set (z := natural (i_digits (d_whole n))) in *. pose proof (natural_nonneg (i_digits (d_whole n))) as Hz. fold z in Hz.
  assert (W : isf (@whole_of _ FN (@nofZ _ FN 0) (i_digits (d_whole n))) (IZR z)).
  { apply (whole_exact (i_digits (d_whole n)) (@nofZ _ FN 0) 0%Z); [lia|rewrite Z.mul_0_l; exact Hb|apply small_isF; reflexivity]. }
  set (x := whole_of _ _) in *. unfold assemble. set (s := i_sgn (d_whole n)).
  assert (RZ : forall y, (Z.abs y < 2 ^ 53)%Z -> rd (IZR y) = IZR y /\ Rabs (rd (IZR y)) < top 1024).
  { intros y Hy. assert (E : rd (IZR y) = IZR y) by (apply (rd_id 53 1024 (@nofZ _ FN y)), small_isF; lia).
    split; [exact E|]. rewrite E, <- abs_IZR. apply Rlt_trans with (IZR (2 ^ 53)); [apply IZR_lt; lia|].
    change (2 ^ 53)%Z with (Zpower radix2 53). rewrite (IZR_Zpower radix2 53) by lia. unfold top. apply bpow_lt. lia. }
  assert (M : isf (@nmul _ FN x (pow_ 5%Z 0%Z)) (IZR z)).
  { destruct (RZ z ltac:(lia)) as [R1 R2]. rewrite <- R1. rewrite <- (Rmult_1_r (IZR z)).
    apply (isF_mul 53 1024); [exact W|exact (proj1 Hpow)|rewrite Rmult_1_r; exact R2]. }
  assert (L : isf (ldexp_ (@nmul _ FN x (pow_ 5%Z 0%Z)) 0%Z) (IZR z)).
  { rewrite <- (Rmult_1_r (IZR z)). change 1 with (bpow radix2 0). apply Hldexp; [exact M|].
    change (bpow radix2 0) with 1. rewrite Rmult_1_r. destruct (Z.eq_dec z 0) as [-> |Hne]; [left; reflexivity|right].
    destruct (RZ z ltac:(lia)) as [R1 R2]. rewrite R1 in R2. split; [|exact R2]. rewrite Rabs_pos_eq by (apply (IZR_le 0); lia).
    apply Rle_trans with 1; [|apply IZR_le; lia]. change 1 with (bpow radix2 0). apply bpow_le. lia. }
  replace (IZR (sgn_value s) * (IZR z + 0 / 1) * 1) with (IZR (sgn_value s) * IZR z) by field.
  rewrite <- mult_IZR.
  assert (Sv : (Z.abs (sgn_value s * z) < 2 ^ 53)%Z) by (rewrite Z.abs_mul; destruct s; cbn [sgn_value Z.abs]; lia).
  destruct (RZ _ Sv) as [R1 R2]. rewrite <- R1. rewrite mult_IZR in *.
  assert (V : (if Ascii.eqb (sgn_char s) "+" then 1 else -1)%Z = sgn_value s) by (destruct s; reflexivity). rewrite V.
  apply (isF_mul 53 1024); [apply small_isF; destruct s; reflexivity|exact L|exact R2].
Qed.
Theorem integer_exact n : decimal_ok n -> frac_digits n = [] -> exponent n = 0%Z -> (natural (i_digits (d_whole n)) < 2 ^ 53)%Z ->
  exists x, @tryParseDouble _ FN pow_ ldexp_ (decimal_text n) = Ok (Some x) /\ isf x (decimal_value n).
Proof. intros H1 H2 H3 H4. eexists. split; [apply number_any, H1|apply integer_isF; assumption]. Qed.
Theorem integer_float_exact b n t : blank b -> decimal_ok n -> tail t -> frac_digits n = [] -> exponent n = 0%Z ->
  (natural (i_digits (d_whole n)) < 2 ^ 24)%Z ->
  exists x, @parseFloat _ FN pow_ ldexp_ to_float (b ++ decimal_text n ++ t) = Ok (x, t) /\ isf x (decimal_value n).
Proof.
  intros Hb H1 Ht H2 H3 H4. eexists. split; [apply parseFloat_any; [exact Hb|exact H1|apply tail_stops, Ht]|].
  assert (Z : exists z, decimal_value n = IZR z /\ (Z.abs z < 2 ^ 24)%Z).
  { exists (sgn_value (i_sgn (d_whole n)) * natural (i_digits (d_whole n)))%Z. split.
    - unfold decimal_value. rewrite H2, H3, mult_IZR. cbn [natural length pow powerRZ]. field.
    - pose proof (natural_nonneg (i_digits (d_whole n))). rewrite Z.abs_mul. destruct (i_sgn (d_whole n)); cbn [sgn_value Z.abs]; lia. }
  destruct Z as (z & E & Hz).
  pose proof (@isF_lit 24 128 eq_refl eq_refl ltac:(lia) z 0 Hz ltac:(lia)) as L. change (bpow radix2 0) with 1 in L. rewrite Rmult_1_r in L.
  pose proof (rd_id 24 128 _ _ L) as Q. rewrite E.
  rewrite <- Q. apply Hfloat.
  - rewrite <- E. apply integer_isF; [exact H2|exact H3|]. eapply Z.lt_trans; [exact H4|]. reflexivity.
  - rewrite Q, <- abs_IZR. apply Rlt_trans with (IZR (2 ^ 24)); [apply IZR_lt; exact Hz|].
    change (2 ^ 24)%Z with (Zpower radix2 24). rewrite (IZR_Zpower radix2 24) by lia. unfold top. apply bpow_lt. lia.
Qed.
End Lib.
End IEEE.
