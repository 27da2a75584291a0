(** Reading printed texts as JSON. *)

From Coq Require Import ZArith Strings.String Strings.Ascii List Bool Lia.
From Verif Require Import SpecJson Print Mains SpecMain PfMain.
Import ListNotations.
Local Open Scope char_scope.
Local Open Scope list_scope.

(** Scanning piece by piece. *)
Lemma scan_app p s t : scan p (s ++ t) = match scan p s with
  | None => None | Some (a, q) => match scan q t with None => None | Some (b, r) => Some (a ++ b, r) end end.
Proof.
  revert p. induction s as [|c s IH]; intros p; cbn [scan append].
  - destruct (scan p t) as [[b r]|]; reflexivity.
  - destruct (step p c) as [[a q]|]; [|reflexivity]. rewrite IH. destruct (scan q s) as [[a' q']|]; [|reflexivity].
    destruct (scan q' t) as [[b r]|]; [|reflexivity]. now rewrite app_assoc.
Qed.
Lemma scan_more p s a q l b r : scan p s = Some (a, q) -> scan q (cat l) = Some (b, r) -> scan p (cat (s :: l)) = Some (a ++ b, r).
Proof. intros H K. cbn [cat]. now rewrite scan_app, H, K. Qed.
Lemma scan_list p l a q m b r : scan p (cat l) = Some (a, q) -> scan q (cat m) = Some (b, r) -> scan p (cat (l ++ m)) = Some (a ++ b, r).
Proof.
  revert p a. induction l as [|s l IH]; intros p a H K; cbn [app cat] in *.
  - injection H as <- <-. exact K.
  - rewrite scan_app in *. destruct (scan p s) as [[a1 q1]|]; [|discriminate]. destruct (scan q1 (cat l)) as [[a2 q2]|] eqn:E; [|discriminate].
    injection H as <- ->. rewrite (IH q1 a2 E K). now rewrite app_assoc.
Qed.
Lemma str_nil s : (s ++ "")%string = s.
Proof. induction s as [|c s IH]; [reflexivity|]. cbn. now rewrite IH. Qed.
Lemma str_assoc a b c : ((a ++ b) ++ c)%string = (a ++ (b ++ c))%string.
Proof. induction a as [|x a IH]; [reflexivity|]. cbn. now rewrite IH. Qed.
Lemma scan_inword w s : (forall c, In c (list_ascii_of_string s) -> is_space c = false /\ is_punct c = false /\ is_quote c = false) ->
  scan (InWord w) s = Some ([], InWord (w ++ s)).
Proof.
  revert w. induction s as [|c s IH]; intros w H; cbn [scan].
  - now rewrite str_nil.
  - destruct (H c (or_introl eq_refl)) as (A & B & C). cbn [step]. rewrite A, B, C. rewrite IH by (intros d Hd; apply H; right; exact Hd).
    unfold snoc. now rewrite str_assoc.
Qed.
Lemma scan_word s : word s -> scan Out s = Some ([], InWord s).
Proof.
  intros [H K]. destruct s as [|c s]; [contradiction|]. destruct (K c (or_introl eq_refl)) as (A & B & C).
  cbn [scan step]. rewrite A, B, C. rewrite scan_inword by (intros d Hd; apply K; right; exact Hd). reflexivity.
Qed.
Lemma scan_unique s l m : tokens s l -> tokens s m -> l = m.
Proof. intros [H|(a & w & H & ->)] [K|(b & v & K & ->)]; rewrite H in K; try discriminate K; injection K as <-; congruence. Qed.

(** Decimal numbers are words. *)
Lemma of_codes_word l : l <> [] -> Forall ascii_digit l -> word (of_codes l).
Proof.
  intros Hl Hd. split; [destruct l; [contradiction|discriminate]|]. clear Hl. induction Hd as [|z l Hz _ IH]; [intros c []|].
  intros c [<-|Hc]; [|exact (IH c Hc)]. unfold ascii_digit in Hz.
  assert (E : exists k, (k < 10)%nat /\ z = (48 + Z.of_nat k)%Z) by (exists (Z.to_nat (z - 48)); lia). destruct E as (k & Hk & ->).
  do 10 (destruct k as [|k]; [repeat split; reflexivity|]). lia.
Qed.
Lemma dec_word z : (0 <= z < 18446744073709551616)%Z -> word (dec z).
Proof. intros H. destruct (print_size_ok z H) as (A & B & _). apply of_codes_word; assumption. Qed.
Lemma bit_word b : word (show_bit b).
Proof. destruct b; apply dec_word; lia. Qed.

(** A parser, to find the value of given tokens. *)
Definition is_c (c : ascii) (t : token) : bool := match t with Punct d => Ascii.eqb c d | _ => false end.
Fixpoint parse (fuel : nat) (ts : list token) : option (json * list token) :=
  match fuel with
  | O => None
  | S fuel =>
      match ts with
      | Word s :: ts => Some (JWord s, ts)
      | Quoted s :: ts => Some (JText s, ts)
      | Punct "[" :: Punct "]" :: ts => Some (JArr [], ts)
      | Punct "{" :: Punct "}" :: ts => Some (JObj [], ts)
      | Punct "[" :: ts => match parse_elements fuel ts with Some (l, ts) => Some (JArr l, ts) | None => None end
      | Punct "{" :: ts => match parse_members fuel ts with Some (l, ts) => Some (JObj l, ts) | None => None end
      | _ => None
      end
  end
with parse_elements (fuel : nat) (ts : list token) : option (list json * list token) :=
  match fuel with
  | O => None
  | S fuel =>
      match parse fuel ts with
      | Some (v, Punct "," :: ts) => match parse_elements fuel ts with Some (l, ts) => Some (v :: l, ts) | None => None end
      | Some (v, Punct "]" :: ts) => Some ([v], ts)
      | _ => None
      end
  end
with parse_members (fuel : nat) (ts : list token) : option (list (string * json) * list token) :=
  match fuel with
  | O => None
  | S fuel =>
      match ts with
      | Quoted k :: Punct ":" :: ts =>
          match parse fuel ts with
          | Some (v, Punct "," :: ts) => match parse_members fuel ts with Some (l, ts) => Some ((k, v) :: l, ts) | None => None end
          | Some (v, Punct "}" :: ts) => Some ([(k, v)], ts)
          | _ => None
          end
      | _ => None
      end
  end.
Ltac cases H := repeat match type of H with
  | match ?x with _ => _ end = Some _ => destruct x eqn:?; try discriminate H
  end.
Lemma parse_ok fuel :
  (forall ts v rest, parse fuel ts = Some (v, rest) -> exists a, ts = a ++ rest /\ value a v) /\
  (forall ts l rest, parse_elements fuel ts = Some (l, rest) -> exists a, ts = a ++ Punct "]" :: rest /\ elements a l) /\
  (forall ts l rest, parse_members fuel ts = Some (l, rest) -> exists a, ts = a ++ Punct "}" :: rest /\ members a l).
Proof.
  induction fuel as [|fuel (IH1 & IH2 & IH3)]; [repeat split; discriminate|]. split; [|split].
  - intros ts v rest H. cbn [parse] in H.
    destruct ts as [|[c|s|s] ts]; [discriminate| | |].
    2:{ injection H as <- <-. exists [Quoted s]. split; [reflexivity|constructor]. }
    2:{ injection H as <- <-. exists [Word s]. split; [reflexivity|constructor]. }
    cases H; injection H as <- <-; subst;
      match goal with
      | E : parse_elements _ _ = _ |- _ => destruct (IH2 _ _ _ E) as (a & -> & Ha); eexists (Punct "[" :: a ++ [Punct "]"]);
          split; [cbn [app]; rewrite <- app_assoc; reflexivity|constructor; exact Ha]
      | E : parse_members _ _ = _ |- _ => destruct (IH3 _ _ _ E) as (a & -> & Ha); eexists (Punct "{" :: a ++ [Punct "}"]);
          split; [cbn [app]; rewrite <- app_assoc; reflexivity|constructor; exact Ha]
      | |- exists a, Punct "[" :: _ = _ /\ _ => exists [Punct "["; Punct "]"]; split; [reflexivity|constructor]
      | |- exists a, Punct "{" :: _ = _ /\ _ => exists [Punct "{"; Punct "}"]; split; [reflexivity|constructor]
      end.
  - intros ts l rest H. cbn [parse_elements] in H. cases H; injection H as <- <-; subst;
      match goal with E : parse _ _ = _ |- _ => destruct (IH1 _ _ _ E) as (a & -> & Ha) end.
    + exists a. split; [reflexivity|constructor; exact Ha].
    + match goal with E : parse_elements _ _ = _ |- _ => destruct (IH2 _ _ _ E) as (b & -> & Hb) end.
      exists (a ++ Punct "," :: b). split; [rewrite <- app_assoc; reflexivity|constructor; assumption].
  - intros ts l rest H. cbn [parse_members] in H. cases H; injection H as <- <-; subst;
      match goal with E : parse _ _ = _ |- _ => destruct (IH1 _ _ _ E) as (a & -> & Ha) end.
    + match goal with |- exists z, Quoted ?k :: _ = _ /\ _ => exists (Quoted k :: Punct ":" :: a) end. split; [reflexivity|constructor; exact Ha].
    + match goal with E : parse_members _ _ = _ |- _ => destruct (IH3 _ _ _ E) as (b & -> & Hb) end.
      match goal with |- exists z, Quoted ?k :: _ = _ /\ _ => exists (Quoted k :: Punct ":" :: a ++ Punct "," :: b) end.
      split; [cbn [app]; rewrite <- app_assoc; reflexivity|constructor; assumption].
Qed.
Lemma parse_value fuel ts v : parse fuel ts = Some (v, []) -> value ts v.
Proof. intros H. destruct (proj1 (parse_ok fuel) ts v [] H) as (a & -> & Ha). rewrite app_nil_r. exact Ha. Qed.

(** Neighbouring tokens. *)
Definition opens (t : token) : bool := match t with Punct c => Ascii.eqb c "[" || Ascii.eqb c "{" | _ => true end.
Definition closes (t : token) : bool := match t with Punct c => Ascii.eqb c "]" || Ascii.eqb c "}" | _ => true end.
Definition is_text (t : token) : bool := match t with Quoted _ => true | _ => false end.
Definition adj (a b : token) : bool :=
  match a with
  | Punct c => if Ascii.eqb c "{" then is_text b || is_c "}" b else if Ascii.eqb c "[" then opens b || is_c "]" b
               else if Ascii.eqb c ":" || Ascii.eqb c "," then opens b else is_c "," b || is_c "}" b || is_c "]" b
  | Quoted _ => is_c ":" b || is_c "," b || is_c "}" b || is_c "]" b
  | Word _ => is_c "," b || is_c "}" b || is_c "]" b
  end.
Fixpoint walk (p : token) (ts : list token) : option token :=
  match ts with
  | [] => Some p
  | t :: ts => if adj p t then walk t ts else None
  end.
Lemma walk_app p a b : walk p (a ++ b) = match walk p a with None => None | Some q => walk q b end.
Proof. revert p. induction a as [|t a IH]; intros p; [reflexivity|]. cbn [app walk]. destruct (adj p t); [apply IH|reflexivity]. Qed.
Definition before (p : token) : Prop := is_c "[" p = true \/ is_c ":" p = true \/ is_c "," p = true.
Definition before_key (p : token) : Prop := is_c "{" p = true \/ is_c "," p = true.
Scheme value_mut := Minimality for value Sort Prop
with elements_mut := Minimality for elements Sort Prop
with members_mut := Minimality for members Sort Prop.
Lemma before_open p t : before p -> opens t = true -> adj p t = true.
Proof.
  intros H Ht. destruct p as [c| |]; unfold before in H; cbn [is_c] in H; try (destruct H as [H|[H|H]]; discriminate).
  destruct H as [H|[H|H]]; apply Ascii.eqb_eq in H; subst c; cbn; rewrite Ht; reflexivity.
Qed.
Lemma before_text p k : before_key p -> adj p (Quoted k) = true.
Proof.
  intros H. destruct p as [c| |]; unfold before_key in H; cbn [is_c] in H; try (destruct H as [H|H]; discriminate).
  destruct H as [H|H]; apply Ascii.eqb_eq in H; subst c; reflexivity.
Qed.
Lemma close_next q t : closes q = true -> is_c "," t || is_c "}" t || is_c "]" t = true -> adj q t = true.
Proof.
  intros H Ht. destruct q as [c|s|s]; cbn [closes adj] in *.
  - apply orb_true_iff in H as [H|H]; apply Ascii.eqb_eq in H; subst c; exact Ht.
  - destruct (is_c ":" t); [reflexivity|exact Ht].
  - exact Ht.
Qed.
Lemma value_walk ts v : value ts v -> forall p, before p -> exists q, walk p ts = Some q /\ closes q = true.
Proof.
  revert ts v. apply (value_mut (fun ts _ => forall p, before p -> exists q, walk p ts = Some q /\ closes q = true)
    (fun ts _ => forall p, before p -> exists q, walk p ts = Some q /\ closes q = true)
    (fun ts _ => forall p, before_key p -> exists q, walk p ts = Some q /\ closes q = true)).
  - intros s p H. cbn [walk]. rewrite before_open by (auto; reflexivity). eauto.
  - intros s p H. cbn [walk]. rewrite before_open by (auto; reflexivity). eauto.
  - intros ts l _ IH p H. cbn [walk]. rewrite before_open by (auto; reflexivity). rewrite walk_app.
    destruct (IH (Punct "[") (or_introl eq_refl)) as (q & -> & Hq). cbn [walk]. rewrite close_next by (auto; reflexivity). eauto.
  - intros p H. cbn [walk]. rewrite before_open by (auto; reflexivity). cbn. eauto.
  - intros ts l _ IH p H. cbn [walk]. rewrite before_open by (auto; reflexivity). rewrite walk_app.
    destruct (IH (Punct "{") (or_introl eq_refl)) as (q & -> & Hq). cbn [walk]. rewrite close_next by (auto; reflexivity). eauto.
  - intros p H. cbn [walk]. rewrite before_open by (auto; reflexivity). cbn. eauto.
  - intros ts v _ IH. exact IH.
  - intros ts v us l _ IH1 _ IH2 p H. rewrite walk_app. destruct (IH1 p H) as (q & -> & Hq). cbn [walk].
    rewrite close_next by (auto; reflexivity). apply IH2. right; right; reflexivity.
  - intros k ts v _ IH p H. cbn [walk]. rewrite before_text by exact H. cbn. apply IH. right; left; reflexivity.
  - intros k ts v us l _ IH1 _ IH2 p H. cbn [walk]. rewrite before_text by exact H. cbn [adj is_c]. cbn [Ascii.eqb Bool.eqb orb].
    rewrite walk_app. destruct (IH1 (Punct ":")) as (q & -> & Hq); [right; left; reflexivity|]. cbn [walk].
    rewrite close_next by (auto; reflexivity). apply IH2. right; reflexivity.
Qed.
(** Two neighbours that never occur in JSON. *)
Definition clash (ts : list token) : Prop := exists a b c d, ts = a ++ b :: c :: d /\ adj b c = false.
Lemma clash_value ts v : clash ts -> ~ value ts v.
Proof.
  intros (a & b & c & d & -> & E) H. destruct (value_walk _ _ H (Punct ":")) as (q & W & _); [right; left; reflexivity|].
  rewrite walk_app in W. destruct (walk (Punct ":") a) as [p|]; [|discriminate]. cbn [walk] in W. destruct (adj p b); [|discriminate].
  rewrite E in W. discriminate.
Qed.
Lemma clash_app x ts y : clash ts -> clash (x ++ ts ++ y).
Proof. intros (a & b & c & d & -> & E). exists (x ++ a), b, c, (d ++ y). split; [|exact E]. now rewrite <- !app_assoc. Qed.
Lemma clash_not_json l a q m : scan Out (cat l) = Some (a, q) -> clash a -> not_json (cat (l ++ m)).
Proof.
  intros Hs Hc v (ts & Ht & Hv).
  assert (E : exists b, ts = a ++ b).
  { assert (K : scan Out (cat (l ++ m)) = match scan q (cat m) with None => None | Some (b, r) => Some (a ++ b, r) end).
    { destruct (scan q (cat m)) as [[b r]|] eqn:E; [exact (scan_list _ _ _ _ _ _ _ Hs E)|].
      assert (C : cat (l ++ m) = (cat l ++ cat m)%string) by (clear; induction l as [|s l IH]; [reflexivity|cbn; rewrite IH, str_assoc; reflexivity]).
      now rewrite C, scan_app, Hs, E. }
    destruct Ht as [Ht|(b & w & Ht & ->)]; rewrite K in Ht; destruct (scan q (cat m)) as [[b' r]|]; try discriminate; injection Ht as <- ->.
    - eauto.
    - exists (b' ++ [Word w]). now rewrite app_assoc. }
  destruct E as (b & ->). apply (clash_value (a ++ b) v); [|exact Hv]. exact (clash_app [] a b Hc).
Qed.
