(** Corners, names and lines of OBJ and material files: proofs. *)

From Coq Require Import Reals ZArith Strings.String Strings.Ascii List Bool Lia Lra.
From Verif Require Import Num NumX Vec SpecReal TinyObj ObjText SpecText PfX PfText.
Import ListNotations.
Local Open Scope string_scope.
Local Open Scope list_scope.

(** ** Corners *)

Definition index_end : ascii -> bool := one_of ["/"%char; " "%char; TAB; CR].
Lemma integer_index i : none_ index_end (integer_text i).
Proof. apply integer_none; try reflexivity. destruct d; reflexivity. Qed.
Lemma end_index t : stops token_end t -> stops index_end t.
Proof.
  destruct t as [|c t]; [trivial|]. cbn [stops]. intros H. apply one_of_in in H. apply one_of_in. right. exact H.
Qed.
Lemma end_off t : stops token_end t -> holds_off is_digit t.
Proof.
  destruct t as [|c t]; [trivial|]. cbn [stops holds_off]. intros H. apply one_of_in in H.
  destruct H as [<-|[<-|[<-|[]]]]; reflexivity.
Qed.
Lemma end_no_slash t : stops token_end t -> is_slash (first t) = false.
Proof.
  destruct t as [|c t]; [reflexivity|]. cbn [stops first]. intros H. apply one_of_in in H.
  destruct H as [<-|[<-|[<-|[]]]]; reflexivity.
Qed.
Lemma over_integer i t : stops index_end t -> over_index (integer_text i ++ t) = t.
Proof. intros H. unfold over_index. apply after_none; [apply integer_index|exact H]. Qed.
Lemma integer_no_slash i t : integer_ok i -> is_slash (first (integer_text i ++ t)) = false.
Proof.
  intros H. destruct (integer_first i H) as (c & s & E & Hc). rewrite E. cbn [append first].
  destruct (integer_chars i c Hc) as [(d & ->)|[-> | ->]]; [destruct d|..]; reflexivity.
Qed.

Lemma corner_reads s c t : corner_text s c -> stops token_end t -> parse_corner (s ++ t) = Ok (c, t).
Proof.
  intros H Ht. pose proof (end_index t Ht) as Hi. pose proof (end_off t Ht) as Hd. pose proof (end_no_slash t Ht) as Hs.
  destruct H as [i Hi1 Hr1|i j Hi1 Hi2 Hr1 Hr2|i k Hi1 Hi2 Hr1 Hr2|i j k Hi1 Hi2 Hi3 Hr1 Hr2 Hr3]; unfold parse_corner.
  - rewrite atoi_integer by assumption. cbn [bind]. rewrite over_integer by assumption. rewrite Hs. reflexivity.
  - rewrite !app_app. rewrite atoi_integer; [|assumption|assumption|reflexivity]. cbn [bind].
    rewrite over_integer by reflexivity. cbn [append first negb next]. change (is_slash "/") with true. cbn [negb].
    rewrite integer_no_slash by assumption. rewrite atoi_integer by assumption. cbn [bind].
    rewrite over_integer by assumption. rewrite Hs. reflexivity.
  - rewrite !app_app. rewrite atoi_integer; [|assumption|assumption|reflexivity]. cbn [bind].
    rewrite over_integer by reflexivity. cbn [append first negb next]. change (is_slash "/") with true. cbn [negb].
    rewrite atoi_integer by assumption. cbn [bind]. rewrite over_integer by assumption. reflexivity.
  - rewrite !app_app. rewrite atoi_integer; [|assumption|assumption|reflexivity]. cbn [bind].
    rewrite over_integer by reflexivity. cbn [append first negb next]. change (is_slash "/") with true. cbn [negb].
    rewrite integer_no_slash by assumption. rewrite atoi_integer; [|assumption|assumption|reflexivity]. cbn [bind].
    rewrite over_integer by reflexivity. cbn [append first negb next]. change (is_slash "/") with true. cbn [negb].
    rewrite atoi_integer by assumption. cbn [bind]. rewrite over_integer by assumption. reflexivity.
Qed.

Lemma corner_first s c : corner_text s c -> exists x s', s = String x s' /\ ((exists d, x = dig_char d) \/ x = "+"%char \/ x = "-"%char).
Proof.
  intros H. assert (X : exists i t, integer_ok i /\ s = (integer_text i ++ t)%string).
  { destruct H as [i Hi1|i j Hi1|i k Hi1|i j k Hi1]; exists i; eexists; (split; [exact Hi1|]); [symmetry; apply app_nil|reflexivity..]. }
  destruct X as (i & t & Hi & ->). destruct (integer_first i Hi) as (x & s' & E & Hc). rewrite E.
  exists x, (s' ++ t)%string. split; [reflexivity|]. exact (integer_chars i x Hc).
Qed.
Lemma corners_first s cs : corners_text s cs -> cs <> [] ->
  exists x s', s = String x s' /\ ((exists d, x = dig_char d) \/ x = "+"%char \/ x = "-"%char).
Proof.
  intros H Hn. destruct H as [|s c p Hc Hp|s c p t cs Hc Hp Ht Hcs]; [contradiction|..];
    destruct (corner_first s c Hc) as (x & s' & -> & Hx); eexists x, _; (split; [reflexivity|exact Hx]).
Qed.
Lemma corners_off p s cs : (forall d, p (dig_char d) = false) -> p "+"%char = false -> p "-"%char = false ->
  corners_text s cs -> holds_off p s.
Proof.
  intros H1 H2 H3 H. destruct cs as [|c cs].
  - inversion H. exact I.
  - destruct (corners_first s _ H ltac:(discriminate)) as (x & s' & -> & Hx). cbn [holds_off].
    destruct Hx as [(d & ->)|[-> | ->]]; auto.
Qed.
Lemma blank_skip p s : (forall c, isSpace c = true -> p c = true) -> blank s -> all_ p s.
Proof. intros Hp H c Hc. apply Hp. exact (blank_space s H c Hc). Qed.

Lemma corners_read s cs : corners_text s cs -> forall fuel, (String.length s < fuel)%nat -> corners_loop fuel s = Ok cs.
Proof.
  induction 1 as [|s c p Hc Hp|s c p t cs Hc Hp Ht IH Hcs]; intros fuel Hf.
  - destruct fuel as [|fuel]; [inversion Hf|]. reflexivity.
  - destruct fuel as [|fuel]; [inversion Hf|]. cbn [corners_loop].
    assert (Hs : stops token_end p).
    { destruct p as [|x p]; [exact I|]. cbn [stops]. apply space_end. apply (blank_space _ Hp). left. reflexivity. }
    destruct (corner_first s c Hc) as (x & s' & E & Hx).
    assert (Hnl : isNewLine (first (s ++ p)) = false).
    { rewrite E. cbn [append first]. destruct Hx as [(d & ->)|[-> | ->]]; [destruct d|..]; reflexivity. }
    rewrite Hnl, (corner_reads s c p Hc Hs). cbn [bind]. fold token_end.
    rewrite <- (app_nil p), skip_all by (apply blank_skip; [exact space_end|exact Hp]). cbn [skip].
    destruct fuel as [|fuel]; [|reflexivity]. rewrite len_app, E in Hf. cbn [String.length] in Hf. lia.
  - destruct fuel as [|fuel]; [inversion Hf|]. cbn [corners_loop].
    destruct (corner_first s c Hc) as (x & s' & E & Hx).
    assert (Hnl : isNewLine (first (s ++ p ++ t)) = false).
    { rewrite E. cbn [append first]. destruct Hx as [(d & ->)|[-> | ->]]; [destruct d|..]; reflexivity. }
    rewrite Hnl, (corner_reads s c (p ++ t) Hc (gap_stops _ _ Hp)). cbn [bind]. fold token_end.
    rewrite skip_all by (apply blank_skip; [exact space_end|exact (proj1 Hp)]).
    rewrite skip_off by (eapply corners_off; [..|exact Ht]; try reflexivity; destruct d; reflexivity).
    rewrite IH; [reflexivity|]. rewrite !len_app, E in Hf. cbn [String.length] in Hf. lia.
Qed.
Lemma parse_corners_read s cs : corners_text s cs -> parse_corners s = Ok cs.
Proof. intros H. apply (corners_read s cs H). lia. Qed.

(** ** Names *)

Lemma white_isspace c : isspace c = true <-> white c.
Proof.
  unfold isspace. rewrite one_of_in. unfold white. split.
  - intros [<-|[<-|[<-|[<-|[<-|[<-|[]]]]]]]; [left; reflexivity|right; cbv; lia..].
  - intros [-> |H]; [left; reflexivity|]. right. unfold TAB, LF, VT, FF, CR. rewrite <- (ascii_nat_embedding c).
    assert (X : (nat_of_ascii c = 9 \/ nat_of_ascii c = 10 \/ nat_of_ascii c = 11 \/ nat_of_ascii c = 12 \/ nat_of_ascii c = 13)%nat) by lia.
    destruct X as [-> |[-> |[-> |[-> | ->]]]]; cbn [In]; tauto.
Qed.
Lemma name_reads a n t : blank a -> name_ok n -> tail t -> scan_name (a ++ n ++ t) = Ok n.
Proof.
  intros Ha (Hn & Hl & Hw) Ht. unfold scan_name.
  assert (Hs : none_ isspace n).
  { intros c Hc. destruct (isspace c) eqn:E; [|reflexivity]. exfalso. exact (Hw c Hc (proj1 (white_isspace c) E)). }
  rewrite skip_all.
  2:{ intros c Hc. destruct (Ha c Hc) as [-> | ->]; reflexivity. }
  rewrite skip_off.
  2:{ destruct n as [|c n]; [contradiction|]. cbn [append holds_off]. apply Hs. left. reflexivity. }
  rewrite upto_none; [|exact Hs|].
  2:{ destruct Ht as [-> |(c & s & -> & [[-> | ->] | ->])]; [exact I|reflexivity..]. }
  destruct (String.length n =? 0)%nat eqn:E.
  { apply Nat.eqb_eq in E. destruct n; [contradiction|discriminate]. }
  rewrite (proj2 (Z.ltb_lt _ _)) by lia. reflexivity.
Qed.

(** ** Lines *)

Section Lines.
Context (big tiny eps : R).
Local Instance XN : num xr := Xnum big tiny eps.
Variable pow_ : Z -> Z -> xr.
Variable ldexp_ : xr -> Z -> xr.
Variable to_float : xr -> xr.
Hypothesis Hpow : pow_exact pow_.
Hypothesis Hldexp : ldexp_exact ldexp_.
Hypothesis Hfloat : float_exact to_float.


(** The same arithmetic. *)
Lemma XNE : PfText.XN big tiny eps = XN.
Proof. reflexivity. Qed.
Lemma skip_key p s : blank p -> holds_off isSpace s -> skip isSpace (p ++ s) = s.
Proof. intros H H'. rewrite skip_all by (apply blank_space, H). apply skip_off, H'. Qed.
Lemma skip_blank p : blank p -> skip isSpace p = "".
Proof. intros H. rewrite <- (app_nil p), skip_all by (apply blank_space, H). reflexivity. Qed.

Ltac step := cbn [append first Ascii.eqb Bool.eqb command starts at_len prefix String.length forth next
  isSpace one_of existsb andb orb negb ascii_dec].
(** The tests of [parse_line] and [parse_mline] on a known keyword. *)
Ltac tests := repeat match goal with
  | |- context [Ascii.eqb (first (String ?c ?s)) ?d] =>
      let b := eval vm_compute in (Ascii.eqb c d) in change (Ascii.eqb (first (String c s)) d) with b; cbv iota
  | |- context [command ?w ?s] =>
      first [ replace (command w s) with false by reflexivity | replace (command w s) with true by reflexivity
            | progress (unfold command at 1, starts, at_len; cbn [prefix String.length forth next first]) ]; cbn [andb]; cbv iota
  end.

Theorem line_reads l c : line_says l c ->
  exists c', parse_line pow_ ldexp_ to_float true l = Ok c' /\ parse_line pow_ ldexp_ to_float false l = Ok (plain c') /\ same_cmd c' c.
Proof.
  intros H.
  destruct H as [p a b c x y z t Hp Ha Hb Hc Ht Hx Hy Hz|p a b c x y z t Hp Ha Hb Hc Ht Hx Hy Hz|p a b x y t Hp Ha Hb Ht Hx Hy
    |p a s cs Hp Ha Hs|p a n t Hp Ha Hn Ht|p a n t Hp Ha Hn Ht|p a t Hp Ha|p a n t Hp Ha Hn Ht|p Hp|p t Hp|p a t Hp Ha];
    unfold parse_line;
    try (rewrite !skip_key by (exact Hp || reflexivity));
    try (destruct (gap_first a Ha) as (e & a' & -> & He & Ha'); apply one_of_in in He).
  - destruct (parseFloat3_reads big tiny eps pow_ ldexp_ to_float Hpow Hldexp Hfloat a' b c x y z t Ha' Hb Hc Ht Hx Hy Hz) as (v & E & H1 & H2 & H3).
    exists (OVertex (vx v) (vy v) (vz v)). split; [|split; [|constructor; assumption]].
    all: destruct He as [<-|[<-|[]]]; cbn [append]; tests; cbn [forth next]; rewrite ?XNE in E; rewrite ?E; reflexivity.
  - destruct (parseFloat3_reads big tiny eps pow_ ldexp_ to_float Hpow Hldexp Hfloat a' b c x y z t Ha' Hb Hc Ht Hx Hy Hz) as (v & E & H1 & H2 & H3).
    exists (ONormal (vx v) (vy v) (vz v)). split; [|split; [|constructor; assumption]].
    all: destruct He as [<-|[<-|[]]]; cbn [append]; tests; cbn [forth next]; rewrite ?XNE in E; rewrite ?E; reflexivity.
  - destruct (parseFloat2_reads big tiny eps pow_ ldexp_ to_float Hpow Hldexp Hfloat a' b x y t Ha' Hb Ht Hx Hy) as (u & v & E & H1 & H2).
    exists (OTexcoord u v). split; [|split; [|constructor; assumption]].
    all: destruct He as [<-|[<-|[]]]; cbn [append]; tests; cbn [forth next]; rewrite ?XNE in E; rewrite ?E; reflexivity.
  - assert (E : parse_corners (skip isSpace (a' ++ s)) = Ok cs).
    { rewrite skip_key; [apply parse_corners_read, Hs|exact Ha'|].
      eapply corners_off; [..|exact Hs]; try reflexivity; destruct d; reflexivity. }
    exists (OFace cs). split; [|split; [|constructor]].
    all: destruct He as [<-|[<-|[]]]; cbn [append]; tests; cbn [forth next]; rewrite ?XNE in E; rewrite ?E; reflexivity.
  - pose proof (name_reads a' n t Ha' Hn Ht) as E. exists (OUseMtl n). split; [|split; [|constructor]].
    all: destruct He as [<-|[<-|[]]]; cbn [append]; tests; cbn [forth next]; rewrite ?XNE in E; rewrite ?E; reflexivity.
  - pose proof (name_reads a' n t Ha' Hn Ht) as E. exists (OMtlLib n). split; [|split; [|constructor]].
    all: destruct He as [<-|[<-|[]]]; cbn [append]; tests; cbn [forth next]; rewrite ?XNE in E; rewrite ?E; reflexivity.
  - exists OGroup. split; [|split; [|constructor]].
    all: destruct He as [<-|[<-|[]]]; cbn [append]; tests; reflexivity.
  - pose proof (name_reads a' n t Ha' Hn Ht) as E. exists OObject. split; [|split; [|constructor]].
    all: destruct He as [<-|[<-|[]]]; cbn [append]; tests; cbn [forth next]; rewrite ?XNE in E; rewrite ?E; reflexivity.
  - exists OIgnored. split; [|split; [|constructor]]. all: rewrite (skip_blank p Hp); reflexivity.
  - exists OIgnored. split; [|split; [|constructor]]; reflexivity.
  - exists OIgnored. split; [|split; [|constructor]].
    all: destruct He as [<-|[<-|[]]]; cbn [append]; tests; reflexivity.
Qed.

Theorem mline_reads l c : mline_says l c ->
  exists c', parse_mline pow_ ldexp_ to_float l = Ok c' /\ same_mcmd c' c.
Proof.
  intros H.
  destruct H as [p a n t Hp Ha Hn Ht|w f p a b c x y z t Hw Hp Ha Hb Hc Ht Hx Hy Hz|w f p a x t Hw Hp Ha Ht Hx
    |p a i t Hp Ha Ht Hi Hr|w p a t Hw Hp Ha|p Hp|p t Hp];
    unfold parse_mline;
    try (destruct (gap_first a Ha) as (e & a' & Ea & He & Ha'); apply one_of_in in He).
  - rewrite skip_key by (exact Hp || reflexivity).
    exists (MNew n). split; [|constructor]. pose proof (name_reads a' n t Ha' Hn Ht) as E. rewrite Ea.
    destruct He as [<-|[<-|[]]]; cbn [append]; tests; cbn [forth next]; rewrite ?XNE in E; rewrite E; reflexivity.
  - destruct (parseFloat3_reads big tiny eps pow_ ldexp_ to_float Hpow Hldexp Hfloat a b c x y z t (proj1 Ha) Hb Hc Ht Hx Hy Hz) as (v & E & Hv).
    rewrite Ea in E |- *. cbn [append] in E.
    destruct Hw as [W|[W|[W|[W|[W|[]]]]]]; injection W as <- <-; rewrite skip_key by (exact Hp || reflexivity);
      (eexists; split; [destruct He as [<-|[<-|[]]]; cbn [append]; tests; cbn [forth next]; rewrite ?XNE in E; rewrite E; reflexivity|constructor; exact Hv]).
  - destruct (parseFloat_reads big tiny eps pow_ ldexp_ to_float Hpow Hldexp Hfloat a x t (proj1 Ha) Hx (tail_stops t Ht)) as (v & E & Hv).
    rewrite Ea in E |- *. cbn [append] in E.
    destruct Hw as [W|[W|[W|[W|[]]]]]; injection W as <- <-; rewrite skip_key by (exact Hp || reflexivity);
      (eexists; split; [destruct He as [<-|[<-|[]]]; cbn [append]; tests; cbn [forth next]; rewrite ?XNE in E; rewrite E; reflexivity|constructor; exact Hv]).
  - rewrite skip_key by (exact Hp || reflexivity). exists MOther. split; [|constructor].
    assert (E : exists s', parseInt (a' ++ integer_text i ++ t) = Ok (integer_value i, s')).
    { unfold parseInt. rewrite skip_key; [|exact Ha'|].
      - rewrite atoi_integer; [eexists; reflexivity|exact Hi|exact Hr|apply end_off, tail_stops, Ht].
      - destruct (integer_first i Hi) as (x & s' & Ei & Hc). rewrite Ei. cbn [append holds_off].
        destruct (integer_chars i x Hc) as [(d & ->)|[-> | ->]]; [destruct d|..]; reflexivity. }
    destruct E as (s' & E). rewrite Ea.
    destruct He as [<-|[<-|[]]]; cbn [append]; tests; cbn [forth next]; rewrite ?XNE in E; rewrite E; reflexivity.
  - exists MOther. split; [|constructor]. rewrite Ea.
    destruct Hw as [<-|[<-|[<-|[<-|[<-|[<-|[<-|[<-|[]]]]]]]]]; rewrite skip_key by (exact Hp || reflexivity);
      destruct He as [<-|[<-|[]]]; cbn [append]; tests; reflexivity.
  - exists MOther. split; [|constructor]. rewrite (skip_blank p Hp). reflexivity.
  - rewrite skip_key by (exact Hp || reflexivity). exists MOther. split; [|constructor]. reflexivity.
Qed.
End Lines.
