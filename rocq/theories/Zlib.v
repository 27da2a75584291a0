(** examples/common/stb_image_write.h: the zlib compressor.

    Growing arrays are lists; allocation succeeds.  Pointers into [data] are offsets.  Bytes are
    integers from 0 to 255.  Loops whose end is not evident take fuel. *)

From Coq Require Import ZArith List Bool.
From Verif Require Import Num PathTracer.
Import ListNotations.
Local Open Scope Z_scope.

(** An int; undefined where the arithmetic leaves the range. *)
Definition i32 (z : Z) : res Z := if (-2147483648 <=? z) && (z <=? 2147483647) then Ok z else UB UBconv.
(** STBIW_UCHAR. *)
Definition u8 (z : Z) : Z := z mod 256.

(** out, bitbuf and bitcount. *)
Record zs := Zs { z_out : list Z; z_buf : Z; z_cnt : Z }.

(** stb_image_write.h:654-661 stbiw__zlib_flushf. *)
Fixpoint flush (fuel : nat) (s : zs) : res zs :=
  if 8 <=? z_cnt s then
    match fuel with
    | O => NoFuel
    | S fuel' => flush fuel' (Zs (z_out s ++ [u8 (z_buf s)]) (Z.shiftr (z_buf s) 8) (z_cnt s - 8))
    end
  else Ok s.
(** 663-670 stbiw__zlib_bitrev. *)
Fixpoint bitrev_ (codebits : nat) (code res : Z) : Z :=
  match codebits with
  | O => res
  | S n => bitrev_ n (Z.shiftr code 1) (Z.lor (Z.shiftl res 1) (Z.land code 1))
  end.
Definition bitrev (code : Z) (codebits : nat) : Z := bitrev_ codebits code 0.
(** 672-678 stbiw__zlib_countm; [n] steps are left. *)
Fixpoint countm_ (data : list Z) (a b : Z) (n : nat) (i : Z) : res Z :=
  match n with
  | O => Ok i
  | S n' =>
      do x <- atZ UBprim data (a + i);
      do y <- atZ UBprim data (b + i);
      if negb (x =? y) then Ok i else countm_ data a b n' (i + 1)
  end.
Definition countm (data : list Z) (a b limit : Z) : res Z := countm_ data a b (Z.to_nat (Z.min limit 258)) 0.
(** 680-689 stbiw__zhash. *)
Definition zhash (data : list Z) (i : Z) : res Z :=
  do a <- atZ UBprim data i;
  do b <- atZ UBprim data (i + 1);
  do c <- atZ UBprim data (i + 2);
  let hash := u32 (a + Z.shiftl b 8 + Z.shiftl c 16) in
  let hash := Z.lxor hash (u32 (Z.shiftl hash 3)) in
  let hash := u32 (hash + Z.shiftr hash 5) in
  let hash := Z.lxor hash (u32 (Z.shiftl hash 4)) in
  let hash := u32 (hash + Z.shiftr hash 17) in
  let hash := Z.lxor hash (u32 (Z.shiftl hash 25)) in
  Ok (u32 (hash + Z.shiftr hash 6)).

(** 692 stbiw__zlib_add. *)
Definition zadd (s : zs) (code : Z) (codebits : nat) : res zs :=
  let cnt := z_cnt s + Z.of_nat codebits in
  flush (Z.to_nat cnt) (Zs (z_out s) (u32 (Z.lor (z_buf s) (Z.shiftl code (z_cnt s)))) cnt).
(** 693-702 stbiw__zlib_huffa to stbiw__zlib_huffb. *)
Definition huffa (s : zs) (b : Z) (c : nat) : res zs := zadd s (bitrev b c) c.
Definition huff1 (s : zs) (n : Z) : res zs := huffa s (48 + n) 8.
Definition huff2 (s : zs) (n : Z) : res zs := huffa s (400 + n - 144) 9.
Definition huff3 (s : zs) (n : Z) : res zs := huffa s (0 + n - 256) 7.
Definition huff4 (s : zs) (n : Z) : res zs := huffa s (192 + n - 280) 8.
Definition huff (s : zs) (n : Z) : res zs :=
  if n <=? 143 then huff1 s n else if n <=? 255 then huff2 s n else if n <=? 279 then huff3 s n else huff4 s n.
Definition huffb (s : zs) (n : Z) : res zs := if n <=? 143 then huff1 s n else huff2 s n.

(** 707-715. *)
Definition lengthc : list Z :=
  [3; 4; 5; 6; 7; 8; 9; 10; 11; 13; 15; 17; 19; 23; 27; 31; 35; 43; 51; 59; 67; 83; 99; 115; 131; 163; 195; 227; 258; 259].
Definition lengtheb : list nat :=
  [0; 0; 0; 0; 0; 0; 0; 0; 1; 1; 1; 1; 2; 2; 2; 2; 3; 3; 3; 3; 4; 4; 4; 4; 5; 5; 5; 5; 0]%nat.
Definition distc : list Z :=
  [1; 2; 3; 4; 5; 7; 9; 13; 17; 25; 33; 49; 65; 97; 129; 193; 257; 385; 513; 769; 1025; 1537; 2049; 3073; 4097; 6145; 8193; 12289; 16385; 24577; 32768].
Definition disteb : list nat :=
  [0; 0; 0; 0; 1; 1; 2; 2; 3; 3; 4; 4; 5; 5; 6; 6; 7; 7; 8; 8; 9; 9; 10; 10; 11; 11; 12; 12; 13; 13]%nat.
(** 771, 776: for (j = 0; v > table[j + 1] - 1; ++j). *)
Fixpoint find_code (fuel : nat) (table : list Z) (v j : Z) : res Z :=
  match fuel with
  | O => NoFuel
  | S fuel' =>
      do c <- atZ UBprim table (j + 1);
      if v >? c - 1 then find_code fuel' table v (j + 1) else Ok j
  end.

Section Compress.
Variable data : list Z.
Definition data_len : Z := Z.of_nat (length data).
Variable quality : nat.
(** stbiw__ZHASH. *)
Definition hash_at (i : Z) : res Z := do h <- zhash data i; Ok (Z.land h 16383).
(** The hash table: one list of offsets per hash. *)
Definition table_set (t : Z -> list Z) (h : Z) (l : list Z) : Z -> list Z := fun k => if k =? h then l else t k.

(** 738-744: the last of the longest matches. *)
Fixpoint best_match (l : list Z) (i best : Z) (loc : option Z) : res (Z * option Z) :=
  match l with
  | [] => Ok (best, loc)
  | p :: l' =>
      if p >? i - 32768 then
        do d <- countm data p i (data_len - i);
        if d >=? best then best_match l' i d (Some p) else best_match l' i best loc
      else best_match l' i best loc
  end.
(** 757-765: is there a longer one at the next byte? *)
Fixpoint better_next (l : list Z) (i best : Z) : res bool :=
  match l with
  | [] => Ok false
  | p :: l' =>
      if p >? i - 32767 then
        do e <- countm data p (i + 1) (data_len - i - 1);
        if e >? best then Ok true else better_next l' i best
      else better_next l' i best
  end.
(** 770-781: length and distance. *)
Definition put_match (s : zs) (best d : Z) : res zs :=
  do j <- find_code (length lengthc) lengthc best 0;
  do s <- huff s (j + 257);
  do eb <- atZ UBprim lengtheb j;
  do c <- atZ UBprim lengthc j;
  do s <- if Nat.eqb eb 0 then Ok s else zadd s (best - c) eb;
  do j <- find_code (length distc) distc d 0;
  do s <- zadd s (bitrev j 5) 5;
  do eb <- atZ UBprim disteb j;
  do c <- atZ UBprim distc j;
  if Nat.eqb eb 0 then Ok s else zadd s (d - c) eb.
(** 746-751: if the list is full, only its second half is kept; the new offset is appended. *)
Definition push_entry (l : list Z) (i : Z) : list Z :=
  (if Nat.eqb (length l) (2 * quality) then skipn quality l else l) ++ [i].
(** 732-786. *)
Fixpoint compress_loop (fuel : nat) (t : Z -> list Z) (i : Z) (s : zs) : res (Z * zs) :=
  if i <? data_len - 3 then
    match fuel with
    | O => NoFuel
    | S fuel' =>
        do h <- hash_at i;
        do m <- best_match (t h) i 3 None;
        let (best, loc) := m in
        let t := table_set t h (push_entry (t h) i) in
        do loc <- match loc with
                  | None => Ok None
                  | Some p => do h <- hash_at (i + 1); do b <- better_next (t h) i best; Ok (if b : bool then None else Some p)
                  end;
        match loc with
        | Some p =>
            do s <- put_match s best (i - p);
            compress_loop fuel' t (i + best) s
        | None =>
            do c <- atZ UBprim data i;
            do s <- huffb s c;
            compress_loop fuel' t (i + 1) s
        end
    end
  else Ok (i, s).
(** 788-789. *)
Fixpoint put_rest (n : nat) (i : Z) (s : zs) : res zs :=
  match n with
  | O => Ok s
  | S n' => do c <- atZ UBprim data i; do s <- huffb s c; put_rest n' (i + 1) s
  end.
(** 792-793. *)
Fixpoint pad (fuel : nat) (s : zs) : res zs :=
  if z_cnt s =? 0 then Ok s
  else match fuel with O => NoFuel | S fuel' => do s <- zadd s 0 1; pad fuel' s end.
(** 801-810: adler32. *)
Fixpoint adler_block (n : nat) (k s1 s2 : Z) : res (Z * Z) :=
  match n with
  | O => Ok (s1, s2)
  | S n' =>
      do c <- atZ UBprim data k;
      let s1 := u32 (s1 + c) in
      adler_block n' (k + 1) s1 (u32 (s2 + s1))
  end.
Fixpoint adler_loop (fuel : nat) (j blocklen s1 s2 : Z) : res (Z * Z) :=
  if j <? data_len then
    match fuel with
    | O => NoFuel
    | S fuel' =>
        do s <- adler_block (Z.to_nat blocklen) j s1 s2;
        adler_loop fuel' (j + blocklen) 5552 (fst s mod 65521) (snd s mod 65521)
    end
  else Ok (s1, s2).
(** 706-820 stbi_zlib_compress, for a quality of at least 5. *)
Definition zlib_compress : res (list Z) :=
  do s <- zadd (Zs [120; 94] 0 0) 1 1;
  do s <- zadd s 1 2;
  do a <- compress_loop (length data) (fun _ => []) 0 s;
  let (i, s) := a in
  do s <- put_rest (Z.to_nat (data_len - i)) i s;
  do s <- huff s 256;
  do s <- pad 8 s;
  do a <- adler_loop (S (length data)) 0 (data_len mod 5552) 1 0;
  let (s1, s2) := a in
  Ok (z_out s ++ [u8 (Z.shiftr s2 8); u8 s2; u8 (Z.shiftr s1 8); u8 s1]).
End Compress.
