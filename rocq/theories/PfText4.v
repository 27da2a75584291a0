(** What the reader of OBJ text gets wrong, and that it ends. *)

From Coq Require Import Reals ZArith Strings.String Strings.Ascii List Bool Lia Lra.
From Verif Require Import Num NumX Vec SpecReal TinyObj SpecObj SpecObjMesh ObjText SpecText PfX PfText PfText2 PfText3.
Import ListNotations.
Local Open Scope string_scope.
Local Open Scope list_scope.

(** ** Lengths *)

Lemma after_len p s : (String.length (after p s) <= String.length s)%nat.
Proof. induction s as [|c s IH]; cbn [after]; [lia|]. destruct (p c); cbn [String.length]; lia. Qed.
Lemma skip_len p s : (String.length (skip p s) <= String.length s)%nat.
Proof. induction s as [|c s IH]; cbn [skip]; [lia|]. destruct (p c); cbn [String.length]; lia. Qed.
Lemma next_len s : (String.length (next s) <= String.length s)%nat.
Proof. destruct s; cbn [next String.length]; lia. Qed.
Lemma skip_stops p s : holds_off p (skip p s).
Proof. induction s as [|c s IH]; cbn [skip]; [exact I|]. destruct (p c) eqn:E; [exact IH|exact E]. Qed.

(** Undefined only where a number is too large or a name is missing or too long. *)
Definition only {A} (l : list ub) (r : res A) : Prop := match r with Ok _ => True | UB w => In w l | NoFuel => False end.
Lemma only_bind {A B} l (r : res A) (f : A -> res B) : only l r -> (forall a, r = Ok a -> only l (f a)) -> only l (bind r f).
Proof. destruct r as [a|w|]; cbn; [intros _ H; apply H; reflexivity|tauto..]. Qed.
Lemma only_int l z : In UBconv l -> only l (int_ z).
Proof. intros H. unfold int_. destruct (_ && _); cbn; auto. Qed.
Lemma only_atoi l s : In UBconv l -> only l (atoi s).
Proof.
  intros H. unfold atoi. destruct (skip isspace s) as [|c s']; [exact I|].
  destruct (Ascii.eqb c "-"); [apply only_int, H|]. destruct (Ascii.eqb c "+"); apply only_int, H.
Qed.

Lemma over_len s : (String.length (over_index s) <= String.length s)%nat.
Proof. apply after_len. Qed.
Lemma corner_shorter c s' co t : token_end c = false -> parse_corner (String c s') = Ok (co, t) ->
  (String.length t <= String.length s')%nat.
Proof.
  intros Hc. unfold parse_corner. destruct (atoi (String c s')) as [v|w|]; cbn [bind]; try discriminate.
  assert (X : over_index (String c s') = String c s' /\ c = "/"%char \/ (String.length (over_index (String c s')) <= String.length s')%nat).
  { unfold over_index. cbn [after]. destruct (one_of ["/"%char; " "%char; TAB; CR] c) eqn:E.
    - left. split; [reflexivity|]. apply one_of_in in E. destruct E as [<-|E]; [reflexivity|].
      apply (one_of_in [" "%char; TAB; CR]) in E. unfold token_end in Hc. congruence.
    - right. apply after_len. }
  assert (L : (String.length (next (over_index (String c s'))) <= String.length s')%nat).
  { destruct X as [[-> _]|X]; [cbn [next]; lia|]. pose proof (next_len (over_index (String c s'))). lia. }
  destruct (is_slash (first (over_index (String c s')))) eqn:Es; cbn [negb].
  2:{ intros H. injection H as _ <-. destruct X as [[-> ->]|X]; [discriminate|exact X]. }
  set (s1 := next (over_index (String c s'))) in *.
  destruct (is_slash (first s1)).
  - destruct (atoi (next s1)) as [k|w|]; cbn [bind]; try discriminate. intros H. injection H as _ <-.
    pose proof (over_len (next s1)). pose proof (next_len s1). lia.
  - destruct (atoi s1) as [j|w|]; cbn [bind]; try discriminate. pose proof (over_len s1) as L1.
    destruct (is_slash (first (over_index s1))); cbn [negb].
    + destruct (atoi (next (over_index s1))) as [k|w|]; cbn [bind]; try discriminate. intros H. injection H as _ <-.
      pose proof (over_len (next (over_index s1))). pose proof (next_len (over_index s1)). lia.
    + intros H. injection H as _ <-. lia.
Qed.
Lemma only_corner l s : In UBconv l -> only l (parse_corner s).
Proof.
  intros H. unfold parse_corner. apply only_bind; [apply only_atoi, H|]. intros v _.
  destruct (negb _); [exact I|]. destruct (is_slash _).
  - apply only_bind; [apply only_atoi, H|]. intros; exact I.
  - apply only_bind; [apply only_atoi, H|]. intros j _. destruct (negb _); [exact I|].
    apply only_bind; [apply only_atoi, H|]. intros; exact I.
Qed.
Lemma only_corners l fuel : In UBconv l -> forall s, (String.length s < fuel)%nat -> holds_off isSpace s -> only l (corners_loop fuel s).
Proof.
  intros H. induction fuel as [|fuel IH]; intros s Hf Hs; [lia|]. cbn [corners_loop].
  destruct (isNewLine (first s)) eqn:En; [exact I|].
  destruct s as [|c s']; [discriminate|]. cbn [first holds_off] in *.
  assert (Hc : token_end c = false).
  { apply one_of_out. apply one_of_out in Hs. apply one_of_out in En. cbn [In] in *. tauto. }
  apply only_bind; [apply only_corner, H|]. intros [co t] E. pose proof (corner_shorter c s' co t Hc E) as L.
  cbn [String.length] in Hf. fold token_end.
  apply only_bind; [|intros; exact I]. apply IH.
  - pose proof (skip_len token_end t). lia.
  - pose proof (skip_stops token_end t) as X. destruct (skip token_end t) as [|d u]; [exact I|]. cbn [holds_off] in *.
    destruct (isSpace d) eqn:E'; [|reflexivity]. apply space_end in E'. congruence.
Qed.
Lemma only_name l s : In UBtext l -> only l (scan_name s).
Proof. intros H. unfold scan_name. destruct (_ =? _)%nat; [exact H|]. destruct (_ <? _)%Z; [exact I|exact H]. Qed.

Section Any.
Context {T : Type} {N : num T}.
Variable pow_ : Z -> Z -> T.
Variable ldexp_ : T -> Z -> T.
Variable to_float : T -> T.
Variable files : string -> option string.

Lemma only_exp l : In UBconv l -> forall s e r, only l (exp_loop e r s).
Proof.
  intros H. induction s as [|c s IH]; intros e r; cbn [exp_loop]; [exact I|]. destruct (digit c); [|exact I].
  apply only_bind; [apply only_int, H|]. intros p _. apply only_bind; [apply only_int, H|]. intros q _. apply IH.
Qed.
Lemma only_exponent l g m s : In UBconv l -> only l (parse_exponent pow_ ldexp_ g m s).
Proof.
  intros H. unfold parse_exponent. destruct s as [|c s]; [exact I|]. destruct (is_e c); [|exact I].
  cbv zeta. destruct (_ && _); [exact I|]. apply only_bind; [apply only_exp, H|]. intros [e r] _.
  apply only_bind; [apply only_int, H|]. intros q _. destruct (r =? 0)%Z; exact I.
Qed.
Lemma only_number l s : In UBconv l -> only l (tryParseDouble pow_ ldexp_ s).
Proof.
  intros H. unfold tryParseDouble. destruct s as [|c s]; [exact I|]. destruct (_ && _); [exact I|]. cbv zeta.
  destruct (int_loop _ _ _) as [[m r] t]. destruct (r =? 0)%Z; [exact I|].
  destruct t as [|d t]; [exact I|]. destruct (Ascii.eqb d "."); [|apply only_exponent, H].
  destruct (frac_loop pow_ m 1 t) as [m' t']. apply only_exponent, H.
Qed.
Lemma only_float l s : In UBconv l -> only l (parseFloat pow_ ldexp_ to_float s).
Proof. intros H. unfold parseFloat. apply only_bind; [apply only_number, H|]. intros; exact I. Qed.
Lemma only_float3 l s : In UBconv l -> only l (parseFloat3 pow_ ldexp_ to_float s).
Proof.
  intros H. unfold parseFloat3. apply only_bind; [apply only_float, H|]. intros [x s1] _.
  apply only_bind; [apply only_float, H|]. intros [y s2] _. apply only_bind; [apply only_float, H|]. intros [z s3] _. exact I.
Qed.
Lemma only_float2 l s : In UBconv l -> only l (parseFloat2 pow_ ldexp_ to_float s).
Proof.
  intros H. unfold parseFloat2. apply only_bind; [apply only_float, H|]. intros [x s1] _.
  apply only_bind; [apply only_float, H|]. intros [y s2] _. exact I.
Qed.

(** A line is read, or a number is out of range or a name missing or too long. *)
Theorem line_total materials s : only [UBconv; UBtext] (parse_line pow_ ldexp_ to_float materials s).
Proof.
  assert (C : In UBconv [UBconv; UBtext]) by (left; reflexivity). assert (X : In UBtext [UBconv; UBtext]) by (right; left; reflexivity).
  unfold parse_line. repeat match goal with |- only _ (if ?b then _ else _) => destruct b end; try exact I;
    (apply only_bind; [first [apply only_float3, C|apply only_float2, C|apply only_name, X|idtac]|intros; try (destruct a); exact I]).
  apply only_corners; [exact C|lia|apply skip_stops].
Qed.
Theorem mline_total s : only [UBconv; UBtext] (parse_mline pow_ ldexp_ to_float s).
Proof.
  assert (C : In UBconv [UBconv; UBtext]) by (left; reflexivity). assert (X : In UBtext [UBconv; UBtext]) by (right; left; reflexivity).
  unfold parse_mline. repeat match goal with |- only _ (if ?b then _ else _) => destruct b end; try exact I;
    (apply only_bind; [first [apply only_float3, C|apply only_float, C|apply only_name, X|idtac]|intros; try (destruct a); exact I]).
  unfold parseInt. apply only_bind; [apply only_atoi, C|intros; exact I].
Qed.

(** Every file is split into lines. *)
Lemma getline_shorter s buf s' : getline s = (buf, Left s') -> (String.length s' < String.length s)%nat.
Proof.
  unfold getline. destruct (_ <? _)%Z; [discriminate|]. intros H. injection H as _ H.
  pose proof (after_len is_lf s) as L. destruct (after is_lf s) as [|c t]; [discriminate|]. injection H as <-. cbn [next String.length] in *. lia.
Qed.
Theorem file_lines_total s : exists ls bad, file_lines s = Ok (ls, bad).
Proof.
  assert (X : forall fuel s, (String.length s < fuel)%nat -> exists ls bad, lines_loop fuel s = Ok (ls, bad)).
  { induction fuel as [|fuel IH]; intros u Hf; [lia|]. destruct u as [|c u]; [exists [], false; reflexivity|].
    rewrite lines_step by discriminate. destruct (getline (String c u)) as [buf st] eqn:G. destruct st as [s'| |].
    - pose proof (getline_shorter _ _ _ G). destruct (IH s') as (ls & bad & ->); [lia|]. cbn [bind]. eauto.
    - eauto.
    - eauto. }
  apply X. lia.
Qed.

(** ** Findings *)

(** A number that starts with its point is read as zero. *)
Theorem point_first ds t : stops token_end t ->
  parseFloat pow_ ldexp_ to_float ("." ++ digs ds ++ t) = Ok (to_float (nofZ 0), t).
Proof.
  intros Ht. unfold parseFloat. cbn [append skip]. change (isSpace ".") with false. cbv iota. fold token_end.
  assert (Nn : none_ token_end (String "." (digs ds))).
  { apply (none_app token_end "."). split; [intros c [<-|[]]; reflexivity|]. apply digs_none. destruct d; reflexivity. }
  pose proof (upto_none token_end (String "." (digs ds)) t Nn Ht) as U. pose proof (after_none token_end (String "." (digs ds)) t Nn Ht) as A.
  cbn [append] in U, A. rewrite U, A. reflexivity.
Qed.
(** An exponent of more than an int is undefined. *)
Lemma exp_overflow ds : forall e r, (0 <= e <= 2147483647)%Z ->
  (2147483647 < e * 10 ^ Z.of_nat (length ds) + natural ds)%Z -> forall t, exp_loop e r (digs ds ++ t) = UB UBconv.
Proof.
  induction ds as [|d ds IH]; intros e r He Hr t.
  - cbn [length natural] in Hr. rewrite Z.pow_0_r in Hr. lia.
  - rewrite digs_cons. cbn [append exp_loop]. rewrite digit_dig. pose proof (dig_value_range d) as Hd. unfold int_.
    destruct (Z.leb_spec (e * 10) 2147483647) as [L|L].
    2:{ rewrite andb_false_r. reflexivity. }
    rewrite (proj2 (Z.leb_le (-2147483648) (e * 10))) by lia. cbn [andb bind].
    destruct (Z.leb_spec (e * 10 + dig_value d) 2147483647) as [L'|L'].
    2:{ rewrite andb_false_r. reflexivity. }
    rewrite (proj2 (Z.leb_le (-2147483648) (e * 10 + dig_value d))) by lia. cbn [andb bind].
    apply IH; [lia|]. cbn [length natural] in Hr. rewrite Nat2Z.inj_succ, Z.pow_succ_r in Hr by lia.
    replace ((e * 10 + dig_value d) * 10 ^ Z.of_nat (length ds) + natural ds)%Z
      with (e * (10 * 10 ^ Z.of_nat (length ds)) + (dig_value d * 10 ^ Z.of_nat (length ds) + natural ds))%Z by ring. exact Hr.
Qed.
Lemma int_loop_any ds t : holds_off is_digit t -> forall (m : T) r,
  exists m', int_loop m r (digs ds ++ t) = (m', (r + Z.of_nat (length ds))%Z, t).
Proof.
  intros Ht. induction ds as [|d ds IH]; intros m r.
  - cbn [digs map string_of_list_ascii append length]. apply off_digit in Ht. exists m.
    destruct t as [|c t]; cbn [int_loop]; [|rewrite Ht]; rewrite Z.add_0_r; reflexivity.
  - rewrite digs_cons. cbn [append int_loop]. rewrite digit_dig.
    destruct (IH (nadd (nmul m (nofZ 10)) (nofZ (dig_value d))) (r + 1)%Z) as (m' & E). exists m'. rewrite E.
    f_equal. f_equal. cbn [length]. lia.
Qed.
Theorem exponent_overflow (w : list dig) ds : w <> [] -> (2147483647 < natural ds)%Z ->
  tryParseDouble pow_ ldexp_ (digs w ++ "e" ++ digs ds) = UB UBconv.
Proof.
  intros Hw Hr. destruct (int_loop_any w ("e" ++ digs ds) eq_refl (nofZ 0) 0) as (m & E).
  assert (L : (0 + Z.of_nat (length w) =? 0)%Z = false) by (apply Z.eqb_neq; destruct w; [contradiction|cbn [length]; lia]).
  destruct w as [|d w]; [contradiction|]. rewrite digs_cons in *. cbn [append] in *. unfold tryParseDouble.
  replace (is_sign (dig_char d)) with false by (destruct d; reflexivity). rewrite digit_dig. cbn [negb andb]. cbv iota.
  rewrite E, L. change (Ascii.eqb "e" ".") with false. cbv iota. unfold parse_exponent. change (is_e "e") with true. cbv iota.
  destruct ds as [|f ds]; [cbn [natural] in Hr; lia|]. rewrite digs_cons. cbn [first].
  replace (is_sign (dig_char f)) with false by (destruct f; reflexivity). rewrite andb_false_r. cbn [negb andb]. rewrite digit_dig. cbv iota.
  rewrite <- digs_cons. pose proof (exp_overflow (f :: ds) 0 0 ltac:(lia) ltac:(lia) "") as X. rewrite app_nil in X. rewrite X. reflexivity.
Qed.
(** An index of more than an int is undefined. *)
Theorem index_overflow i t : integer_ok i -> ~ int_range (integer_value i) -> holds_off is_digit t ->
  parse_corner (integer_text i ++ t) = UB UBconv.
Proof.
  intros Hn Hr Ht. unfold parse_corner. enough (E : atoi (integer_text i ++ t) = UB UBconv) by (rewrite E; reflexivity).
  assert (B : forall z, z = integer_value i -> int_ z = UB UBconv).
  { intros z ->. unfold int_. destruct (Z.leb_spec (-2147483648) (integer_value i)); [|reflexivity].
    destruct (Z.leb_spec (integer_value i) 2147483647); [|reflexivity]. exfalso. apply Hr. split; assumption. }
  destruct i as [s ds]. unfold integer_ok, integer_value, integer_text in *. cbn [i_sgn i_digits] in *. rewrite app_app.
  assert (W : forall z, digits_value z (digs ds ++ t) = (z * 10 ^ Z.of_nat (length ds) + natural ds)%Z)
    by (apply digits_value_digs; exact Ht).
  destruct s; cbn [sgn_text sgn_value append] in *; unfold atoi.
  - destruct ds as [|d ds]; [contradiction|]. rewrite digs_cons in *. cbn [append skip]. rewrite dig_isspace, dig_minus, dig_plus.
    cbn [append] in W. rewrite W. apply B. lia.
  - cbn [skip]. change (isspace "+") with false. cbv iota. change (Ascii.eqb "+" "-") with false. change (Ascii.eqb "+" "+") with true. cbv iota.
    rewrite W. apply B. lia.
  - cbn [skip]. change (isspace "-") with false. cbv iota. change (Ascii.eqb "-" "-") with true. cbv iota.
    rewrite W. apply B. lia.
Qed.
(** usemtl, mtllib and o without a name read what was never written. *)
Theorem nameless w a : In w ["usemtl"; "mtllib"; "o"] -> gap a ->
  parse_line pow_ ldexp_ to_float true (w ++ a) = UB UBtext.
Proof.
  intros Hw Ha. destruct (gap_first a Ha) as (e & a' & -> & He & Hb). apply one_of_in in He.
  assert (E : scan_name a' = UB UBtext).
  { unfold scan_name. assert (B : all_ isspace a') by (intros c Hc; destruct (Hb c Hc) as [-> | ->]; reflexivity).
    pose proof (skip_all isspace a' "" B) as X. rewrite app_nil in X. rewrite X. reflexivity. }
  unfold parse_line.
  destruct Hw as [<-|[<-|[<-|[]]]]; destruct He as [<-|[<-|[]]]; cbn [append]; rewrite skip_off by reflexivity;
    repeat match goal with
    | |- context [Ascii.eqb (first (String ?c ?s)) ?d] =>
        let b := eval vm_compute in (Ascii.eqb c d) in change (Ascii.eqb (first (String c s)) d) with b; cbv iota
    | |- context [command ?w ?s] =>
        first [ replace (command w s) with false by reflexivity | replace (command w s) with true by reflexivity ]; cbn [andb]; cbv iota
    end; cbn [forth next]; rewrite E; reflexivity.
Qed.
(** A line of 8192 characters or more: all that follows is lost. *)
Theorem long_line l s : clean l -> (8192 <= Z.of_nat (String.length l))%Z ->
  exists l', file_lines (l ++ String LF s) = Ok ([l'], true).
Proof.
  intros Hc Hl. unfold file_lines. rewrite lines_step by (destruct l; discriminate).
  unfold getline. rewrite upto_none; [| |reflexivity].
  - rewrite (proj2 (Z.ltb_lt _ _)) by lia. eexists. reflexivity.
  - intros c H. unfold is_lf. apply Ascii.eqb_neq. exact (proj2 (Hc c H)).
Qed.
(** A material file whose last line lacks its end is refused. *)
Theorem open_library name t ls cs : files name = Some t -> file_text t ls false ->
  parse_mlines pow_ ldexp_ to_float ls = Ok cs -> read_mtl pow_ ldexp_ to_float files name = Ok None.
Proof.
  intros E Ht Hc. unfold read_mtl. rewrite E, (file_lines_read _ _ _ Ht). cbn [bind negb]. rewrite Hc. reflexivity.
Qed.
End Any.
