(** JSON texts.  Numbers are taken loosely: any word without blanks, quotes and punctuation, so that
    addresses and "inf" count too; escapes in strings are left out. *)

From Coq Require Import Strings.String Strings.Ascii List Bool.
Import ListNotations.
Local Open Scope char_scope.
Local Open Scope list_scope.

Inductive token := Punct (c : ascii) | Quoted (s : string) | Word (s : string).

Definition is_space (c : ascii) : bool := existsb (Ascii.eqb c) [" "; "009"; "010"; "013"].
Definition is_punct (c : ascii) : bool := existsb (Ascii.eqb c) ["{"; "}"; "["; "]"; ":"; ","].
Definition is_quote (c : ascii) : bool := Ascii.eqb c """".
Definition snoc (s : string) (c : ascii) : string := (s ++ String c "")%string.

(** Between tokens, inside a quoted text, inside a word. *)
Inductive place := Out | InText (s : string) | InWord (s : string).
Definition step (p : place) (c : ascii) : option (list token * place) :=
  match p with
  | Out => Some (if is_space c then ([], Out) else if is_punct c then ([Punct c], Out)
                 else if is_quote c then ([], InText "") else ([], InWord (String c "")))
  | InText s => if is_quote c then Some ([Quoted s], Out) else if Ascii.eqb c "\" then None else Some ([], InText (snoc s c))
  | InWord s => Some (if is_space c then ([Word s], Out) else if is_punct c then ([Word s; Punct c], Out)
                 else if is_quote c then ([Word s], InText "") else ([], InWord (snoc s c)))
  end.
Fixpoint scan (p : place) (s : string) : option (list token * place) :=
  match s with
  | EmptyString => Some ([], p)
  | String c s =>
      match step p c with
      | None => None
      | Some (a, p) => match scan p s with None => None | Some (b, p) => Some (a ++ b, p) end
      end
  end.
Definition tokens (s : string) (l : list token) : Prop :=
  scan Out s = Some (l, Out) \/ (exists a w, scan Out s = Some (a, InWord w) /\ l = a ++ [Word w]).

Inductive json := JWord (s : string) | JText (s : string) | JArr (l : list json) | JObj (l : list (string * json)).
Inductive value : list token -> json -> Prop :=
| V_word s : value [Word s] (JWord s)
| V_text s : value [Quoted s] (JText s)
| V_arr ts l : elements ts l -> value (Punct "[" :: ts ++ [Punct "]"]) (JArr l)
| V_arr0 : value [Punct "["; Punct "]"] (JArr [])
| V_obj ts l : members ts l -> value (Punct "{" :: ts ++ [Punct "}"]) (JObj l)
| V_obj0 : value [Punct "{"; Punct "}"] (JObj [])
with elements : list token -> list json -> Prop :=
| E_one ts v : value ts v -> elements ts [v]
| E_more ts v us l : value ts v -> elements us l -> elements (ts ++ Punct "," :: us) (v :: l)
with members : list token -> list (string * json) -> Prop :=
| M_one k ts v : value ts v -> members (Quoted k :: Punct ":" :: ts) [(k, v)]
| M_more k ts v us l : value ts v -> members us l -> members (Quoted k :: Punct ":" :: ts ++ Punct "," :: us) ((k, v) :: l).

Definition json_text (s : string) (v : json) : Prop := exists ts, tokens s ts /\ value ts v.
Definition not_json (s : string) : Prop := forall v, ~ json_text s v.

(** A word. *)
Definition word (s : string) : Prop :=
  s <> EmptyString /\ forall c, In c (list_ascii_of_string s) -> is_space c = false /\ is_punct c = false /\ is_quote c = false.
