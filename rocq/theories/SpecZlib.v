(** Reading deflate data with fixed codes (RFC 1951) and zlib streams (RFC 1950). *)

From Coq Require Import ZArith List Bool.
Import ListNotations.
Local Open Scope Z_scope.

Definition byte (b : Z) : Prop := 0 <= b < 256.

(** Bits of a number: lowest first, highest first. *)
Fixpoint low_first (n : nat) (v : Z) : list bool :=
  match n with O => [] | S n' => Z.odd v :: low_first n' (v / 2) end.
Definition high_first (n : nat) (v : Z) : list bool := rev (low_first n v).
Fixpoint from_low (l : list bool) : Z := match l with [] => 0 | b :: l' => Z.b2z b + 2 * from_low l' end.
Definition from_high (l : list bool) : Z := from_low (rev l).
(** A stream of bytes as a stream of bits, RFC 1951, 3.1.1. *)
Definition bits_of (l : list Z) : list bool := flat_map (low_first 8) l.

(** [n] bits, and what follows. *)
Definition take_bits (n : nat) (l : list bool) : option (list bool * list bool) :=
  if Nat.leb n (length l) then Some (firstn n l, skipn n l) else None.

(** The codes of the symbols: lengths as in RFC 1951, 3.2.6; a code is determined by them as in 3.2.2:
    codes of the same length are consecutive, shorter ones come before longer ones. *)
Definition code_length (sym : Z) : nat := if sym <? 144 then 8 else if sym <? 256 then 9 else if sym <? 280 then 7 else 8.
Definition code_value (sym : Z) : Z :=
  if sym <? 144 then 48 + sym else if sym <? 256 then 400 + (sym - 144) else if sym <? 280 then sym - 256 else 192 + (sym - 280).
(** Read one: at most one length of the beginning is a code. *)
Definition symbol_at (l : list bool) : option (Z * list bool) :=
  match take_bits 7 l with
  | None => None
  | Some (c, r) =>
      let v := from_high c in
      if v <? 24 then Some (256 + v, r)
      else match take_bits 8 l with
           | None => None
           | Some (c, r) =>
               let v := from_high c in
               if v <? 192 then Some (v - 48, r)
               else if v <? 200 then Some (280 + (v - 192), r)
               else match take_bits 9 l with None => None | Some (c, r) => Some (from_high c - 400 + 144, r) end
           end
  end.

(** RFC 1951, 3.2.5: symbol, extra bits, least length. *)
Definition lengths : list (Z * nat * Z) :=
  [(257, 0%nat, 3); (258, 0%nat, 4); (259, 0%nat, 5); (260, 0%nat, 6); (261, 0%nat, 7); (262, 0%nat, 8); (263, 0%nat, 9); (264, 0%nat, 10);
   (265, 1%nat, 11); (266, 1%nat, 13); (267, 1%nat, 15); (268, 1%nat, 17); (269, 2%nat, 19); (270, 2%nat, 23); (271, 2%nat, 27); (272, 2%nat, 31);
   (273, 3%nat, 35); (274, 3%nat, 43); (275, 3%nat, 51); (276, 3%nat, 59); (277, 4%nat, 67); (278, 4%nat, 83); (279, 4%nat, 99); (280, 4%nat, 115);
   (281, 5%nat, 131); (282, 5%nat, 163); (283, 5%nat, 195); (284, 5%nat, 227); (285, 0%nat, 258)].
Definition distances : list (Z * nat * Z) :=
  [(0, 0%nat, 1); (1, 0%nat, 2); (2, 0%nat, 3); (3, 0%nat, 4); (4, 1%nat, 5); (5, 1%nat, 7); (6, 2%nat, 9); (7, 2%nat, 13); (8, 3%nat, 17); (9, 3%nat, 25);
   (10, 4%nat, 33); (11, 4%nat, 49); (12, 5%nat, 65); (13, 5%nat, 97); (14, 6%nat, 129); (15, 6%nat, 193); (16, 7%nat, 257); (17, 7%nat, 385);
   (18, 8%nat, 513); (19, 8%nat, 769); (20, 9%nat, 1025); (21, 9%nat, 1537); (22, 10%nat, 2049); (23, 10%nat, 3073); (24, 11%nat, 4097);
   (25, 11%nat, 6145); (26, 12%nat, 8193); (27, 12%nat, 12289); (28, 13%nat, 16385); (29, 13%nat, 24577)].
Definition look_up (sym : Z) (t : list (Z * nat * Z)) : option (nat * Z) :=
  match find (fun e => fst (fst e) =? sym) t with Some (_, eb, base) => Some (eb, base) | None => None end.
(** The number for a symbol: its least value plus the extra bits. *)
Definition value_at (sym : Z) (t : list (Z * nat * Z)) (l : list bool) : option (Z * list bool) :=
  match look_up sym t with
  | None => None
  | Some (eb, base) => match take_bits eb l with None => None | Some (e, r) => Some (base + from_low e, r) end
  end.
(** Repeat what was written [dist] bytes before, byte by byte. *)
Fixpoint copy (len : nat) (dist : Z) (out : list Z) : option (list Z) :=
  match len with
  | O => Some out
  | S n => match nth_error out (length out - Z.to_nat dist) with None => None | Some b => copy n dist (out ++ [b]) end
  end.

(** One symbol: either the end of the block, or more. *)
Inductive event := End (rest : list bool) | More (rest : list bool) (out : list Z).
Definition next (l : list bool) (out : list Z) : option event :=
  match symbol_at l with
  | None => None
  | Some (sym, l) =>
      if sym <? 256 then Some (More l (out ++ [sym]))
      else if sym =? 256 then Some (End l)
      else match value_at sym lengths l with
           | None => None
           | Some (len, l) =>
               match take_bits 5 l with
               | None => None
               | Some (d, l) =>
                   match value_at (from_high d) distances l with
                   | None => None
                   | Some (dist, l) =>
                       if (dist <=? 32768) && (dist <=? Z.of_nat (length out)) then
                         match copy (Z.to_nat len) dist out with None => None | Some out => Some (More l out) end
                       else None
                   end
               end
           end
  end.
(** A block with fixed codes.  Every symbol has bits, so that the number of bits is enough fuel. *)
Fixpoint block (fuel : nat) (l : list bool) (out : list Z) : option (list Z * list bool) :=
  match fuel with
  | O => None
  | S fuel' =>
      match next l out with
      | None => None
      | Some (End r) => Some (out, r)
      | Some (More r out) => block fuel' r out
      end
  end.
(** Deflate data of one block, which is marked as the last and has fixed codes: the bytes, and the
    bits that are left. *)
Definition inflate (l : list bool) : option (list Z * list bool) :=
  match l with
  | true :: true :: false :: l => block (S (length l)) l []
  | _ => None
  end.

(** Adler-32, RFC 1950, 8.2: the sums of the bytes and of the sums, by the largest prime below 65536. *)
Definition adler_a (l : list Z) : Z := (1 + fold_right Z.add 0 l) mod 65521.
Fixpoint adler_b_sum (l : list Z) (a : Z) : Z := match l with [] => 0 | b :: l' => (a + b) + adler_b_sum l' (a + b) end.
Definition adler_b (l : list Z) : Z := adler_b_sum l 1 mod 65521.
Definition adler32 (l : list Z) : Z := adler_b l * 65536 + adler_a l.

(** Four bytes, highest first. *)
Definition be32 (l : list Z) : Z := fold_left (fun v b => v * 256 + b) l 0.
(** A zlib stream, RFC 1950, 2.2: two bytes of header (deflate with a window of at most 32K, no
    dictionary, a multiple of 31), the data padded to whole bytes, the checksum. *)
Definition unzlib (l : list Z) : option (list Z) :=
  match l with
  | cmf :: flg :: l =>
      if (cmf mod 16 =? 8) && (cmf / 16 <=? 7) && ((cmf * 256 + flg) mod 31 =? 0) && negb (Z.odd (flg / 32)) then
        match inflate (bits_of l) with
        | None => None
        | Some (out, r) =>
            let check := skipn (length l - Nat.div (length r) 8) l in
            if Nat.eqb (length check) 4 && (be32 check =? adler32 out) then Some out else None
        end
      else None
  | _ => None
  end.
