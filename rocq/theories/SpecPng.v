(** Reading a PNG file back (PNG specification, second edition), independent of the writer: the
    chunks and their checksums, the header, the scanline filters.  Only what is needed for pictures of
    eight bits per sample that are not interlaced: IHDR, IDAT and IEND. *)

From Coq Require Import ZArith List Bool.
From Verif Require Import Vec SpecZlib.
Import ListNotations.
Local Open Scope Z_scope.

(** The checksum: the bits of the message, each byte's lowest first, are the coefficients of a
    polynomial over GF(2), highest degree first.  Its first 32 coefficients are inverted, it is
    multiplied by x^32 and divided by the generator
    x^32 + x^26 + x^23 + x^22 + x^16 + x^12 + x^11 + x^10 + x^8 + x^7 + x^5 + x^4 + x^2 + x + 1;
    the inverted remainder is the checksum. *)
Definition generator : list bool :=
  map (fun d => existsb (Nat.eqb d) [26; 23; 22; 16; 12; 11; 10; 8; 7; 5; 4; 2; 1; 0]%nat) (rev (seq 0 32)).
(** Add [p] to the leading coefficients of [l]. *)
Fixpoint add_poly (p l : list bool) : list bool :=
  match p, l with
  | b :: p', c :: l' => xorb b c :: add_poly p' l'
  | _, _ => l
  end.
(** [n] steps of long division. *)
Fixpoint remainder (n : nat) (l : list bool) : list bool :=
  match n, l with
  | S n', b :: l' => remainder n' (if b then add_poly generator l' else l')
  | _, _ => l
  end.
Definition crc_of (l : list Z) : Z :=
  let bits := bits_of l in
  from_low (map negb (remainder (length bits) (add_poly (repeat true 32) (bits ++ repeat false 32)))).

(** The first [n] elements and the rest. *)
Definition split_at {A} (n : nat) (l : list A) : option (list A * list A) :=
  if Nat.leb n (length l) then Some (firstn n l, skipn n l) else None.
(** The chunks of a file: tag and data; [None] if one is cut off or its checksum is wrong. *)
Fixpoint chunks (fuel : nat) (l : list Z) : option (list (list Z * list Z)) :=
  match l, fuel with
  | [], _ => Some []
  | _, O => None
  | _, S fuel' =>
      match split_at 4 l with
      | None => None
      | Some (len, l) =>
          match split_at 4 l with
          | None => None
          | Some (tag, l) =>
              match split_at (Z.to_nat (be32 len)) l with
              | None => None
              | Some (body, l) =>
                  match split_at 4 l with
                  | None => None
                  | Some (crc, l) =>
                      if be32 crc =? crc_of (tag ++ body) then
                        match chunks fuel' l with
                        | None => None
                        | Some cs => Some ((tag, body) :: cs)
                        end
                      else None
                  end
              end
          end
      end
  end.
Definition same (a b : list Z) : bool := if list_eq_dec Z.eq_dec a b then true else false.
Definition IHDR : list Z := [73; 72; 68; 82].
Definition IDAT : list Z := [73; 68; 65; 84].
Definition IEND : list Z := [73; 69; 78; 68].
(** The data of the IDAT chunks in a row; then an empty IEND and nothing more. *)
Fixpoint image_data (cs : list (list Z * list Z)) : option (list Z) :=
  match cs with
  | [] => None
  | (tag, body) :: cs' =>
      if same tag IEND then (match body, cs' with [], [] => Some [] | _, _ => None end)
      else if same tag IDAT then option_map (app body) (image_data cs')
      else None
  end.

(** The samples of a pixel: grey, grey and alpha, colour, colour and alpha. *)
Definition samples (colour_type : Z) : option Z :=
  if colour_type =? 0 then Some 1
  else if colour_type =? 4 then Some 2
  else if colour_type =? 2 then Some 3
  else if colour_type =? 6 then Some 4
  else None.

(** The filters, for the byte [a] to the left, [b] above and [c] above to the left. *)
Definition nearer (p u v : Z) : Z := if Z.abs (p - v) <? Z.abs (p - u) then v else u.
Definition predict (filter a b c : Z) : Z :=
  if filter =? 1 then a
  else if filter =? 2 then b
  else if filter =? 3 then (a + b) / 2
  else if filter =? 4 then let p := a + b - c in nearer p (nearer p a b) c
  else 0.
(** Byte [i] of a row, 0 outside. *)
Definition sample (row : list Z) (i : Z) : Z := if i <? 0 then 0 else nth (Z.to_nat i) row 0.
(** The rest of a row, after [done]; [n] bytes to a pixel. *)
Fixpoint unfilter (filter n : Z) (prior done l : list Z) : list Z :=
  match l with
  | [] => done
  | f :: l' =>
      let i := Z.of_nat (length done) in
      unfilter filter n prior
        (done ++ [(f + predict filter (sample done (i - n)) (sample prior i) (sample prior (i - n))) mod 256]) l'
  end.
(** [h] rows of [w] bytes, each after the number of its filter. *)
Fixpoint unrows (h w : nat) (n : Z) (prior l : list Z) : option (list (list Z)) :=
  match h, l with
  | O, [] => Some []
  | S h', filter :: l =>
      if (0 <=? filter) && (filter <=? 4) then
        match split_at w l with
        | None => None
        | Some (row, l) =>
            let row := unfilter filter n prior [] row in
            option_map (cons row) (unrows h' w n row l)
        end
      else None
  | _, _ => None
  end.

Record raster := Raster { r_width : Z; r_height : Z; r_samples : Z; r_rows : list (list Z) }.
Definition signature : list Z := [137; 80; 78; 71; 13; 10; 26; 10].
Definition png_read (file : list Z) : option raster :=
  match split_at 8 file with
  | None => None
  | Some (s, l) =>
      if same s signature then
        match chunks (length l) l with
        | Some ((tag, [w1; w2; w3; w4; h1; h2; h3; h4; depth; colour; compression; filter; interlace]) :: cs) =>
            let w := be32 [w1; w2; w3; w4] in
            let h := be32 [h1; h2; h3; h4] in
            if same tag IHDR && (0 <? w) && (0 <? h) && (depth =? 8) && (compression =? 0) && (filter =? 0) && (interlace =? 0) then
              match samples colour, image_data cs with
              | Some n, Some z =>
                  match unzlib z with
                  | Some l =>
                      match unrows (Z.to_nat h) (Z.to_nat (w * n)) n [] l with
                      | Some rows => Some (Raster w h n rows)
                      | None => None
                      end
                  | None => None
                  end
              | _, _ => None
              end
            else None
        | _ => None
        end
      else None
  end.

(** The [h] rows of [w] bytes of a picture in memory, [stride] bytes apart. *)
Definition rows_of (bytes : list Z) (stride w h : nat) : list (list Z) :=
  map (fun j => firstn w (skipn (stride * j) bytes)) (seq 0 h).

(** The samples of the pixel in column [x] of row [r]. *)
Definition pixel_at (p : raster) (x r : Z) : list Z :=
  firstn (Z.to_nat (r_samples p)) (skipn (Z.to_nat (r_samples p * x)) (nth (Z.to_nat r) (r_rows p) [])).
(** The file is a colour picture of that size with these pixels. *)
Definition png_shows (file : list Z) (width height : Z) (c : Z -> Z -> vec Z) : Prop :=
  exists p, png_read file = Some p /\ r_width p = width /\ r_height p = height /\ r_samples p = 3 /\
    forall x r, 0 <= x < width -> 0 <= r < height -> pixel_at p x r = [vx (c x r); vy (c x r); vz (c x r)].
(** Sizes for which no int overflows in the writer. *)
Definition writable (width height : Z) : Prop :=
  0 < width /\ 0 < height /\ 3 * width <= 16777215 /\ height * (3 * width + 1) <= 536870912.
