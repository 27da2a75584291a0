(** Numbers and lines of OBJ and material files: proofs. *)

From Coq Require Import Reals ZArith Strings.String Strings.Ascii List Bool Lia Lra.
From Verif Require Import Num NumX Vec SpecReal TinyObj ObjText SpecText PfX.
Import ListNotations.
Local Open Scope string_scope.
Local Open Scope list_scope.

(** ** Strings *)

Lemma app_nil (s : string) : (s ++ "")%string = s.
Proof. induction s as [|c s IH]; [reflexivity|]. cbn [append]. rewrite IH. reflexivity. Qed.
Lemma app_app (a b c : string) : ((a ++ b) ++ c)%string = (a ++ b ++ c)%string.
Proof. induction a as [|x a IH]; [reflexivity|]. cbn [append]. rewrite IH. reflexivity. Qed.
Lemma len_app (a b : string) : String.length (a ++ b) = (String.length a + String.length b)%nat.
Proof. induction a as [|x a IH]; [reflexivity|]. cbn [append String.length]. rewrite IH. reflexivity. Qed.
Lemma chars_app (a b : string) c : In c (list_ascii_of_string (a ++ b)) <-> In c (list_ascii_of_string a) \/ In c (list_ascii_of_string b).
Proof. induction a as [|x a IH]; cbn [append list_ascii_of_string In]; tauto. Qed.

(** Every character passes [p]; the first one, if any, passes [p]. *)
Definition all_ (p : ascii -> bool) (s : string) : Prop := forall c, In c (list_ascii_of_string s) -> p c = true.
Definition none_ (p : ascii -> bool) (s : string) : Prop := forall c, In c (list_ascii_of_string s) -> p c = false.
Definition stops (p : ascii -> bool) (s : string) : Prop := match s with "" => True | String c _ => p c = true end.
Definition holds_off (p : ascii -> bool) (s : string) : Prop := match s with "" => True | String c _ => p c = false end.

Lemma skip_all p a b : all_ p a -> skip p (a ++ b) = skip p b.
Proof.
  induction a as [|c a IH]; intros H; [reflexivity|]. cbn [append skip].
  rewrite (H c) by (left; reflexivity). apply IH. intros x Hx. apply H. right. exact Hx.
Qed.
Lemma skip_off p s : holds_off p s -> skip p s = s.
Proof. destruct s as [|c s]; cbn [skip holds_off]; intros H; [reflexivity|]. rewrite H. reflexivity. Qed.
Lemma upto_none p a b : none_ p a -> stops p b -> upto p (a ++ b) = a.
Proof.
  induction a as [|c a IH]; intros H Hb.
  - cbn [append]. destruct b as [|c b]; [reflexivity|]. cbn [upto stops] in *. rewrite Hb. reflexivity.
  - cbn [append upto]. rewrite (H c) by (left; reflexivity). rewrite IH; [reflexivity| |exact Hb].
    intros x Hx. apply H. right. exact Hx.
Qed.
Lemma after_none p a b : none_ p a -> stops p b -> after p (a ++ b) = b.
Proof.
  induction a as [|c a IH]; intros H Hb.
  - cbn [append]. destruct b as [|c b]; [reflexivity|]. cbn [after stops] in *. rewrite Hb. reflexivity.
  - cbn [append after]. rewrite (H c) by (left; reflexivity). apply IH; [|exact Hb].
    intros x Hx. apply H. right. exact Hx.
Qed.
Lemma none_app p a b : none_ p (a ++ b) <-> none_ p a /\ none_ p b.
Proof.
  unfold none_. split.
  - intros H. split; intros c Hc; apply H; apply chars_app; tauto.
  - intros [H1 H2] c Hc. apply chars_app in Hc. destruct Hc; auto.
Qed.

Lemma one_of_in l c : one_of l c = true <-> In c l.
Proof.
  unfold one_of. rewrite existsb_exists. split.
  - intros (x & Hx & He). apply Ascii.eqb_eq in He. subst. exact Hx.
  - intros H. exists c. split; [exact H|]. apply Ascii.eqb_refl.
Qed.
Lemma one_of_out l c : one_of l c = false <-> ~ In c l.
Proof.
  rewrite <- (one_of_in l c). destruct (one_of l c); split; intros H; try congruence.
Qed.

Lemma blank_space s : blank s -> all_ isSpace s.
Proof. intros H c Hc. destruct (H c Hc) as [-> | ->]; reflexivity. Qed.
Lemma gap_first s : gap s -> exists c s', s = String c s' /\ isSpace c = true /\ blank s'.
Proof.
  intros [Hb Hn]. destruct s as [|c s]; [contradiction|]. exists c, s. split; [reflexivity|]. split.
  - apply (blank_space _ Hb). left. reflexivity.
  - intros x Hx. apply Hb. right. exact Hx.
Qed.
Definition token_end : ascii -> bool := one_of [" "%char; TAB; CR].
Lemma space_end c : isSpace c = true -> token_end c = true.
Proof. intros H. apply one_of_in in H. apply one_of_in. destruct H as [<-|[<-|[]]]; cbn; tauto. Qed.
Lemma gap_stops a s : gap a -> stops token_end (a ++ s).
Proof. intros H. destruct (gap_first a H) as (c & a' & -> & Hc & _). cbn [append stops]. apply space_end, Hc. Qed.
Lemma tail_stops t : tail t -> stops token_end t.
Proof. intros [-> |(c & s & -> & [[-> | ->] | ->])]; [exact I|reflexivity..]. Qed.

(** ** Digits *)

Lemma digit_dig d : digit (dig_char d) = Some (dig_value d).
Proof. destruct d; reflexivity. Qed.
Lemma digs_cons d ds : digs (d :: ds) = String (dig_char d) (digs ds).
Proof. reflexivity. Qed.
Lemma digs_chars ds c : In c (list_ascii_of_string (digs ds)) -> exists d, c = dig_char d.
Proof.
  induction ds as [|d ds IH]; intros H; [destruct H|]. rewrite digs_cons in H. destruct H as [<-|H]; [exists d; reflexivity|auto].
Qed.
Definition is_digit (c : ascii) : bool := match digit c with Some _ => true | None => false end.
Lemma dig_value_range d : (0 <= dig_value d <= 9)%Z.
Proof. destruct d; cbn; lia. Qed.
Lemma natural_nonneg ds : (0 <= natural ds)%Z.
Proof.
  induction ds as [|d ds IH]; cbn [natural]; [lia|]. pose proof (dig_value_range d).
  assert (0 < 10 ^ Z.of_nat (length ds))%Z by (apply Z.pow_pos_nonneg; lia). nia.
Qed.
Lemma off_digit t : holds_off is_digit t -> match t with "" => True | String c _ => digit c = None end.
Proof. destruct t as [|c t]; [trivial|]. cbn [holds_off]. unfold is_digit. destruct (digit c); [discriminate|reflexivity]. Qed.

Lemma digits_value_digs ds t : holds_off is_digit t ->
  forall z, digits_value z (digs ds ++ t) = (z * 10 ^ Z.of_nat (length ds) + natural ds)%Z.
Proof.
  intros Ht. induction ds as [|d ds IH]; intros z.
  - cbn [digs map string_of_list_ascii append length natural]. apply off_digit in Ht.
    destruct t as [|c t]; cbn [digits_value]; [|rewrite Ht]; cbn [Z.of_nat]; rewrite Z.pow_0_r; lia.
  - rewrite digs_cons. cbn [append digits_value]. rewrite digit_dig, IH. cbn [length natural].
    rewrite Nat2Z.inj_succ, Z.pow_succ_r by lia. lia.
Qed.

(** A sign is no digit and no white space. *)
Lemma dig_isspace d : isspace (dig_char d) = false.
Proof. destruct d; reflexivity. Qed.
Lemma dig_minus d : Ascii.eqb (dig_char d) "-" = false.
Proof. destruct d; reflexivity. Qed.
Lemma dig_plus d : Ascii.eqb (dig_char d) "+" = false.
Proof. destruct d; reflexivity. Qed.
Lemma int_ok z : int_range z -> int_ z = Ok z.
Proof. intros [H1 H2]. unfold int_. rewrite (proj2 (Z.leb_le _ _) H1), (proj2 (Z.leb_le _ _) H2). reflexivity. Qed.

Lemma atoi_integer i t : integer_ok i -> int_range (integer_value i) -> holds_off is_digit t ->
  atoi (integer_text i ++ t) = Ok (integer_value i).
Proof.
  destruct i as [s ds]. unfold integer_ok, integer_value, integer_text. cbn [i_sgn i_digits].
  intros Hn Hr Ht. rewrite app_app.
  assert (V : forall z, digits_value z (digs ds ++ t) = (z * 10 ^ Z.of_nat (length ds) + natural ds)%Z)
    by (apply digits_value_digs; exact Ht).
  destruct s; cbn [sgn_text sgn_value append] in *; unfold atoi.
  - destruct ds as [|d ds]; [contradiction|]. rewrite digs_cons in *. cbn [append skip]. rewrite dig_isspace, dig_minus, dig_plus.
    cbn [append] in V. rewrite V. rewrite Z.mul_0_l, Z.add_0_l. rewrite Z.mul_1_l in *. apply int_ok, Hr.
  - cbn [skip]. change (isspace "+") with false. cbv iota. change (Ascii.eqb "+" "-") with false. change (Ascii.eqb "+" "+") with true. cbv iota.
    rewrite V. rewrite Z.mul_0_l, Z.add_0_l. rewrite Z.mul_1_l in *. apply int_ok, Hr.
  - cbn [skip]. change (isspace "-") with false. cbv iota. change (Ascii.eqb "-" "-") with true. cbv iota.
    rewrite V. rewrite Z.mul_0_l, Z.add_0_l. replace (-1 * natural ds)%Z with (- natural ds)%Z in * by lia. apply int_ok, Hr.
Qed.

(** The characters of an integer. *)
Lemma integer_chars i c : In c (list_ascii_of_string (integer_text i)) -> (exists d, c = dig_char d) \/ c = "+"%char \/ c = "-"%char.
Proof.
  intros H. apply chars_app in H. destruct H as [H|H].
  - destruct (i_sgn i); cbn in H; [destruct H|destruct H as [<-|[]]; tauto..].
  - left. eapply digs_chars, H.
Qed.
Lemma integer_none p i : (forall d, p (dig_char d) = false) -> p "+"%char = false -> p "-"%char = false -> none_ p (integer_text i).
Proof. intros H1 H2 H3 c Hc. destruct (integer_chars i c Hc) as [(d & ->)|[-> | ->]]; auto. Qed.
Lemma digs_none p ds : (forall d, p (dig_char d) = false) -> none_ p (digs ds).
Proof. intros H c Hc. destruct (digs_chars ds c Hc) as (d & ->). apply H. Qed.
Lemma integer_first i : integer_ok i -> exists c s, integer_text i = String c s /\ In c (list_ascii_of_string (integer_text i)).
Proof.
  destruct i as [s ds]. unfold integer_ok, integer_text. cbn [i_sgn i_digits]. intros H.
  destruct s; cbn [sgn_text append]; [destruct ds as [|d ds]; [contradiction|rewrite digs_cons]|..]; eexists _, _; split; try reflexivity; left; reflexivity.
Qed.

(** ** Numbers *)

Section Numbers.
Context (big tiny eps : R).
Local Instance XN : num xr := Xnum big tiny eps.
Variable pow_ : Z -> Z -> xr.
Variable ldexp_ : xr -> Z -> xr.
Variable to_float : xr -> xr.
Hypothesis Hpow : pow_exact pow_.
Hypothesis Hldexp : ldexp_exact ldexp_.
Hypothesis Hfloat : float_exact to_float.

Local Open Scope R_scope.

Lemma isR_Z z : isR (nofZ z) (IZR z).
Proof. reflexivity. Qed.

Lemma int_loop_digs ds t : holds_off is_digit t -> forall m a r, isR m a ->
  exists m', int_loop m r (digs ds ++ t) = (m', (r + Z.of_nat (length ds))%Z, t) /\
    isR m' (a * 10 ^ length ds + IZR (natural ds)).
Proof.
  intros Ht. induction ds as [|d ds IH]; intros m a r Hm.
  - cbn [digs map string_of_list_ascii append length natural pow]. apply off_digit in Ht.
    exists m. split; [|replace (a * 1 + 0) with a by ring; exact Hm].
    destruct t as [|c t]; cbn [int_loop]; [|rewrite Ht]; rewrite Z.add_0_r; reflexivity.
  - rewrite digs_cons. cbn [append int_loop]. rewrite digit_dig.
    destruct (IH (nadd (nmul m (nofZ 10)) (nofZ (dig_value d))) (a * 10 + IZR (dig_value d)) (r + 1)%Z) as (m' & E & H).
    { apply isR_add; [apply isR_mul; [exact Hm|apply isR_Z]|apply isR_Z]. }
    exists m'. split; [rewrite E; f_equal; f_equal; cbn [length]; lia|].
    cbn [length natural pow]. rewrite plus_IZR, mult_IZR, <- pow_IZR.
    replace (a * (10 * 10 ^ length ds) + (IZR (dig_value d) * 10 ^ length ds + IZR (natural ds)))
      with ((a * 10 + IZR (dig_value d)) * 10 ^ length ds + IZR (natural ds)) by ring. exact H.
Qed.

Lemma frac_loop_digs ds t : holds_off is_digit t -> forall m a k, isR m a ->
  exists m', frac_loop pow_ m (Z.of_nat (S k)) (digs ds ++ t) = (m', t) /\
    isR m' (a + IZR (natural ds) / 10 ^ (k + length ds)).
Proof.
  intros Ht. induction ds as [|d ds IH]; intros m a k Hm.
  - cbn [digs map string_of_list_ascii append length natural pow]. apply off_digit in Ht.
    exists m. split; [|replace (a + 0 / 10 ^ (k + 0)) with a by (unfold Rdiv; ring); exact Hm].
    destruct t as [|c t]; cbn [frac_loop]; [|rewrite Ht]; reflexivity.
  - rewrite digs_cons. cbn [append]. cbn [frac_loop]. rewrite digit_dig.
    replace (Z.of_nat (S k) + 1)%Z with (Z.of_nat (S (S k))) by lia.
    destruct (IH (nadd m (nmul (nofZ (dig_value d)) (pow_ 10%Z (- Z.of_nat (S k))))) (a + IZR (dig_value d) * powerRZ 10 (- Z.of_nat (S k))) (S k)) as (m' & E & H).
    { apply isR_add; [exact Hm|]. apply isR_mul; [apply isR_Z|]. apply (Hpow 10%Z). lia. }
    exists m'. split; [exact E|].
    replace (a + IZR (natural (d :: ds)) / 10 ^ (k + length (d :: ds)))
      with (a + IZR (dig_value d) * powerRZ 10 (- Z.of_nat (S k)) + IZR (natural ds) / 10 ^ (S k + length ds)); [exact H|].
    rewrite powerRZ_neg'. rewrite <- pow_powerRZ. cbn [natural length]. rewrite plus_IZR, mult_IZR, <- pow_IZR.
    replace (k + S (length ds))%nat with (S k + length ds)%nat by lia. rewrite pow_add.
    assert (P1 : 10 ^ S k <> 0) by (apply pow_nonzero; lra). assert (P2 : 10 ^ length ds <> 0) by (apply pow_nonzero; lra).
    revert P1 P2. generalize (10 ^ S k) (10 ^ length ds). intros P Q' P1 P2. field. split; assumption.
Qed.

Lemma exp_loop_digs ds t : holds_off is_digit t -> forall e r, (0 <= e)%Z ->
  int_range (e * 10 ^ Z.of_nat (length ds) + natural ds) ->
  exp_loop e r (digs ds ++ t) = Ok ((e * 10 ^ Z.of_nat (length ds) + natural ds)%Z, (r + Z.of_nat (length ds))%Z).
Proof.
  intros Ht. induction ds as [|d ds IH]; intros e r He Hr.
  - cbn [digs map string_of_list_ascii append length natural]. apply off_digit in Ht.
    rewrite Z.pow_0_r, Z.mul_1_r, !Z.add_0_r.
    destruct t as [|c t]; cbn [exp_loop]; [|rewrite Ht]; reflexivity.
  - rewrite digs_cons. cbn [append exp_loop]. rewrite digit_dig. cbn [length natural] in Hr.
    pose proof (dig_value_range d) as Hd. pose proof (natural_nonneg ds) as Hds.
    assert (H1 : (1 <= 10 ^ Z.of_nat (length ds))%Z) by (apply (Zlt_le_succ 0), Z.pow_pos_nonneg; lia).
    rewrite Nat2Z.inj_succ, Z.pow_succ_r in Hr by lia.
    assert (R : (e * 10 + dig_value d <= 2147483647)%Z) by (destruct Hr; nia).
    rewrite int_ok by (split; lia). cbn [bind]. rewrite int_ok by (split; lia). cbn [bind].
    rewrite IH; [|lia|].
    + f_equal. cbn [length natural]. rewrite Nat2Z.inj_succ, Z.pow_succ_r by lia. f_equal; lia.
    + replace ((e * 10 + dig_value d) * 10 ^ Z.of_nat (length ds) + natural ds)%Z
        with (e * (10 * 10 ^ Z.of_nat (length ds)) + (dig_value d * 10 ^ Z.of_nat (length ds) + natural ds))%Z by ring. exact Hr.
Qed.

Definition sgn_char (s : sgn) : ascii := match s with Minus => "-"%char | _ => "+"%char end.
Lemma assemble_exact s m a e : isR m a ->
  isR (assemble pow_ ldexp_ (sgn_char s) m e) (IZR (sgn_value s) * a * powerRZ 10 e).
Proof.
  intros Hm. unfold assemble.
  replace (IZR (sgn_value s) * a * powerRZ 10 e) with (IZR (sgn_value s) * (a * powerRZ 5 e * powerRZ 2 e)).
  - apply isR_mul; [destruct s; apply isR_Z|]. apply Hldexp. apply isR_mul; [exact Hm|]. apply (Hpow 5%Z). lia.
  - replace 10 with (5 * 2) by lra. rewrite powerRZ_mult. ring.
Qed.

Definition exp_text (o : option (bool * integer)) : string :=
  match o with None => "" | Some (c, e) => (if c : bool then "E" else "e") ++ integer_text e end.
Definition exp_value (o : option (bool * integer)) : Z := match o with Some (_, e) => integer_value e | None => 0%Z end.

Lemma exponent_reads o s m a : isR m a ->
  (forall c e, o = Some (c, e) -> integer_ok e /\ int_range (integer_value (Integer NoSign (i_digits e)))) ->
  exists x, parse_exponent pow_ ldexp_ (sgn_char s) m (exp_text o) = Ok (Some x) /\
    isR x (IZR (sgn_value s) * a * powerRZ 10 (exp_value o)).
Proof.
  intros Hm Ho. destruct o as [[c e]|]; cbn [exp_text exp_value].
  2:{ eexists. split; [reflexivity|]. apply assemble_exact, Hm. }
  destruct (Ho c e eq_refl) as [Hn Hr]. destruct e as [s' ds]. unfold integer_ok, integer_value in *. cbn [i_sgn i_digits sgn_value] in *.
  rewrite Z.mul_1_l in Hr.
  assert (X : exp_loop 0 0 (digs ds) = Ok (natural ds, Z.of_nat (length ds))).
  { pose proof (exp_loop_digs ds "" I 0 0) as X. rewrite app_nil, Z.mul_0_l, !Z.add_0_l in X. apply X; [lia|exact Hr]. }
  assert (L : (Z.of_nat (length ds) =? 0)%Z = false) by (apply Z.eqb_neq; destruct ds; [contradiction|cbn [length]; lia]).
  assert (Hr' : int_range (natural ds * (-1))) by (pose proof (natural_nonneg ds); destruct Hr; split; lia).
  assert (Hr'' : int_range (natural ds * 1)) by (rewrite Z.mul_1_r; exact Hr).
  exists (assemble pow_ ldexp_ (sgn_char s) m (sgn_value s' * natural ds)).
  split; [|apply assemble_exact, Hm].
  replace ((if c then "E" else "e") ++ integer_text (Integer s' ds))%string with
    (String (if c then "E" else "e")%char (integer_text (Integer s' ds))) by (destruct c; reflexivity).
  unfold parse_exponent. replace (is_e (if c then "E" else "e")%char) with true by (destruct c; reflexivity). cbv iota.
  unfold integer_text. cbn [i_sgn i_digits].
  destruct s'; cbn [sgn_text append sgn_value].
  - destruct ds as [|d ds]; [contradiction|]. rewrite digs_cons in *. cbn [first].
    replace (is_sign (dig_char d)) with false by (destruct d; reflexivity). rewrite andb_false_r. cbn [negb andb].
    rewrite digit_dig. cbv iota. rewrite X. cbn [bind]. change (Ascii.eqb "+" "+") with true. cbv iota.
    rewrite int_ok by exact Hr''. cbn [bind]. rewrite L. rewrite Z.mul_1_r, Z.mul_1_l. reflexivity.
  - cbn [first String.length Nat.eqb negb andb is_sign]. change (is_sign "+") with true. cbn [negb andb next].
    rewrite X. cbn [bind]. change (Ascii.eqb "+" "+") with true. cbv iota.
    rewrite int_ok by exact Hr''. cbn [bind]. rewrite L. rewrite Z.mul_1_r, Z.mul_1_l. reflexivity.
  - cbn [first String.length Nat.eqb negb andb is_sign]. change (is_sign "-") with true. cbn [negb andb next].
    rewrite X. cbn [bind]. change (Ascii.eqb "-" "+") with false. cbv iota.
    rewrite int_ok by exact Hr'. cbn [bind]. rewrite L. rewrite Z.mul_comm. reflexivity.
Qed.

Lemma exp_off o : holds_off is_digit (exp_text o).
Proof. destruct o as [[[] e]|]; reflexivity || exact I. Qed.
Lemma exp_point o c s : exp_text o = String c s -> Ascii.eqb c "." = false.
Proof. destruct o as [[[] e]|]; intros H; inversion H; reflexivity. Qed.

Theorem number_reads n : decimal_ok n ->
  exists x, tryParseDouble pow_ ldexp_ (decimal_text n) = Ok (Some x) /\ isR x (decimal_value n).
Proof.
  destruct n as [[s ds] fr ex]. unfold decimal_ok, integer_ok, decimal_value, decimal_text, frac_digits, exponent.
  cbn [d_whole d_frac d_exp i_sgn i_digits]. fold (exp_text ex). fold (exp_value ex). intros [Hn He].
  set (rest := (match fr with None => "" | Some l => "." ++ digs l end ++ exp_text ex)%string).
  assert (Hrest : holds_off is_digit rest).
  { unfold rest. destruct fr; [reflexivity|]. cbn [append]. apply exp_off. }
  destruct (int_loop_digs ds rest Hrest (nofZ 0) 0 0 (isR_Z 0)) as (m & E & Hm).
  rewrite Z.add_0_l in E.
  assert (L : (Z.of_nat (length ds) =? 0)%Z = false) by (apply Z.eqb_neq; destruct ds; [contradiction|cbn [length]; lia]).
  assert (F : exists x,
    match rest with
    | "" => Ok (Some (assemble pow_ ldexp_ (sgn_char s) m 0))
    | String c s' => if Ascii.eqb c "." then let (m, s0) := frac_loop pow_ m 1 s' in parse_exponent pow_ ldexp_ (sgn_char s) m s0
                     else parse_exponent pow_ ldexp_ (sgn_char s) m rest
    end = Ok (Some x) /\
    isR x (IZR (sgn_value s) * (IZR (natural ds) + IZR (natural (match fr with Some l => l | None => [] end)) / 10 ^ length (match fr with Some l => l | None => [] end)) * powerRZ 10 (exp_value ex))).
  { rewrite Rmult_0_l, Rplus_0_l in Hm. unfold rest. destruct fr as [l|].
    - destruct (frac_loop_digs l (exp_text ex) (exp_off ex) m _ 0 Hm) as (m' & E' & Hm').
      change (Z.of_nat 1) with 1%Z in E'. cbn [append]. change (Ascii.eqb "." ".") with true. cbv iota. rewrite E'. cbn [Nat.add] in Hm'.
      apply exponent_reads; [exact Hm'|exact He].
    - cbn [append natural length pow]. destruct (exponent_reads ex s m _ Hm He) as (x & Ex & Hx).
      exists x. split; [|replace (IZR (natural ds) + 0 / 1) with (IZR (natural ds)) by field; exact Hx].
      destruct (exp_text ex) as [|c t] eqn:Q; [|rewrite (exp_point ex c t Q); exact Ex].
      exact Ex. }
  destruct F as (x & Ex & Hx). exists x. split; [|exact Hx].
  unfold integer_text. cbn [i_sgn i_digits]. rewrite app_app.
  destruct s; cbn [sgn_text append sgn_char] in *; unfold tryParseDouble.
  - destruct ds as [|d ds]; [contradiction|]. rewrite digs_cons in *. cbn [append] in *.
    replace (is_sign (dig_char d)) with false by (destruct d; reflexivity). rewrite digit_dig. cbn [negb andb]. cbv iota.
    fold rest. rewrite E. rewrite L. exact Ex.
  - change (is_sign "+") with true. cbn [negb andb]. fold rest. rewrite E. rewrite L. exact Ex.
  - change (is_sign "-") with true. cbn [negb andb]. fold rest. rewrite E. rewrite L. exact Ex.
Qed.

Lemma decimal_none p n : (forall d, p (dig_char d) = false) -> p "+"%char = false -> p "-"%char = false ->
  p "."%char = false -> p "e"%char = false -> p "E"%char = false -> none_ p (decimal_text n).
Proof.
  intros H1 H2 H3 H4 H5 H6. unfold decimal_text. apply none_app. split; [apply integer_none; assumption|].
  apply none_app. split.
  - destruct (d_frac n) as [l|]; [|intros c []]. apply (none_app p "."). split; [intros c [<-|[]]; exact H4|apply digs_none, H1].
  - destruct (d_exp n) as [[b e]|]; [|intros c []]. apply none_app. split; [|apply integer_none; assumption].
    destruct b; intros c [<-|[]]; assumption.
Qed.
Lemma decimal_token n : none_ token_end (decimal_text n).
Proof. apply decimal_none; try reflexivity. destruct d; reflexivity. Qed.
Lemma decimal_space n t : decimal_ok n -> holds_off isSpace (decimal_text n ++ t).
Proof.
  intros [H _]. destruct (integer_first _ H) as (c & s & E & Hc). unfold decimal_text. rewrite E. cbn [append holds_off].
  destruct (integer_chars _ _ Hc) as [(d & ->)|[-> | ->]]; [destruct d|..]; reflexivity.
Qed.

(** A number after a gap. *)
Lemma parseFloat_reads a n t : blank a -> decimal_ok n -> stops token_end t ->
  exists x, parseFloat pow_ ldexp_ to_float (a ++ decimal_text n ++ t) = Ok (x, t) /\ isR x (decimal_value n).
Proof.
  intros Ha Hn Ht. destruct (number_reads n Hn) as (x & E & Hx). exists (to_float x). split; [|apply Hfloat, Hx].
  unfold parseFloat. rewrite skip_all by (apply blank_space, Ha). rewrite skip_off by (apply decimal_space, Hn).
  fold token_end. rewrite upto_none, after_none by (apply decimal_token || exact Ht). rewrite E. reflexivity.
Qed.
Lemma parseFloat3_reads a b c x y z t : blank a -> gap b -> gap c -> tail t -> decimal_ok x -> decimal_ok y -> decimal_ok z ->
  exists v, parseFloat3 pow_ ldexp_ to_float (a ++ decimal_text x ++ b ++ decimal_text y ++ c ++ decimal_text z ++ t) = Ok v /\
    visR v (V (decimal_value x) (decimal_value y) (decimal_value z)).
Proof.
  intros Ha Hb Hc Ht Hx Hy Hz. unfold parseFloat3.
  destruct (parseFloat_reads a x (b ++ decimal_text y ++ c ++ decimal_text z ++ t) Ha Hx (gap_stops _ _ Hb)) as (u & -> & Hu). cbn [bind].
  destruct (parseFloat_reads b y (c ++ decimal_text z ++ t) (proj1 Hb) Hy (gap_stops _ _ Hc)) as (v & -> & Hv). cbn [bind].
  destruct (parseFloat_reads c z t (proj1 Hc) Hz (tail_stops _ Ht)) as (w & -> & Hw). cbn [bind].
  eexists. split; [reflexivity|]. split; [exact Hu|]. split; [exact Hv|exact Hw].
Qed.
Lemma parseFloat2_reads a b x y t : blank a -> gap b -> tail t -> decimal_ok x -> decimal_ok y ->
  exists u v, parseFloat2 pow_ ldexp_ to_float (a ++ decimal_text x ++ b ++ decimal_text y ++ t) = Ok (u, v) /\
    isR u (decimal_value x) /\ isR v (decimal_value y).
Proof.
  intros Ha Hb Ht Hx Hy. unfold parseFloat2.
  destruct (parseFloat_reads a x (b ++ decimal_text y ++ t) Ha Hx (gap_stops _ _ Hb)) as (u & -> & Hu). cbn [bind].
  destruct (parseFloat_reads b y t (proj1 Hb) Hy (tail_stops _ Ht)) as (v & -> & Hv). cbn [bind].
  exists u, v. split; [reflexivity|]. split; assumption.
Qed.
End Numbers.
