(** The images of examples/path_tracer/main.cc, examples/scene_primitives/main.cc and
    examples/renderer/renderer.cc: the pixel loops, the conversion to bytes, and the
    progress bar.

    What a pixel loop computes for one pixel is an argument.  The loops run over a list
    of pixels, so that any order (OpenMP) can be chosen; one pixel is one step.  The
    PNG writer is in [Png], the PPM header in [Mains]; the decimal output of the progress bar is not
    modelled. *)

From Coq Require Import ZArith List Bool Floats.SpecFloat.
From Verif Require Import Num NumF Vec Datatypes PathTracer.
Import ListNotations.
Local Open Scope Z_scope.

(** Conversion to size_t. *)
Definition u64 (z : Z) : Z := z mod 18446744073709551616.

(** [l[i] = a]. *)
Definition setZ {A} (w : ub) (l : list A) (i : Z) (a : A) : res (list A) :=
  if (0 <=? i) && (i <? Z.of_nat (length l)) then Ok (list_set l (Z.to_nat i) a) else UB w.

(** 0, 1, ..., n - 1. *)
Definition upto (n : Z) : list Z := map Z.of_nat (seq 0 (Z.to_nat n)).

(** The pixels in the order of the loops, path_tracer/main.cc:324-325,
    scene_primitives/main.cc:89-90; [rows] and [columns] are width and height. *)
Definition by_rows (width height : Z) : list (Z * Z) :=
  flat_map (fun y => map (fun x => (x, y)) (upto width)) (upto height).
(** renderer.cc:97-98: columns outside. *)
Definition by_columns (width height : Z) : list (Z * Z) :=
  flat_map (fun x => map (fun y => (x, y)) (upto height)) (upto width).

(** path_tracer/main.cc:468-470: 3 * ((height - y - 1) * width + x) + k in unsigned int. *)
Definition rgb_index (width height x y k : Z) : Z :=
  u32 (u32 (3 * u32 (u32 (u32 (u32 (height - y) - 1) * width) + x)) + k).
(** renderer.cc:99: 3 * (width * j + i), and the offsets added to it, in size_t. *)
Definition pixel_index (width x y k : Z) : Z :=
  u64 (u64 (3 * u64 (u64 (width * y) + x)) + k).

(** Three stores. *)
Definition store3 {A} (l : list A) (index : Z -> Z) (c : vec A) : res (list A) :=
  do l <- setZ UBprim l (index 0) (vx c);
  do l <- setZ UBprim l (index 1) (vy c);
  setZ UBprim l (index 2) (vz c).

(** The loop over the pixels [ps].  [f x y] is the colour of a pixel; None: nothing is
    stored (scene_primitives/main.cc:96-108 on a miss). *)
Fixpoint store_pixels {A} (index : Z -> Z -> Z -> Z) (f : Z -> Z -> res (option (vec A)))
    (ps : list (Z * Z)) (l : list A) : res (list A) :=
  match ps with
  | [] => Ok l
  | (x, y) :: ps' =>
      do c <- f x y;
      do l <- match c with None => Ok l | Some c => store3 l (index x y) c end;
      store_pixels index f ps' l
  end.

(** path_tracer/main.cc:317-472, scene_primitives/main.cc:84-110; [black] is 0.0f. *)
Definition rgb_image {A} (black : A) (width height : Z) (f : Z -> Z -> res (option (vec A)))
    (ps : list (Z * Z)) : res (list A) :=
  store_pixels (rgb_index width height) f ps
    (repeat black (Z.to_nat (u32 (u32 (width * height) * 3)))).
(** renderer.cc:85-115 and 137: make_unique<ft[]> zeroes the array. *)
Definition pixel_image {A} (black : A) (width height : Z) (f : Z -> Z -> res (option (vec A))) : res (list A) :=
  store_pixels (pixel_index width) f (by_columns width height)
    (repeat black (Z.to_nat (u64 (u64 (3 * width) * height)))).

Section Bytes.
Context {T : Type} {N : num T}.
Local Open Scope num_scope.
(** Conversion to an unsigned char; None where it is undefined. *)
Variable to_u8 : T -> option Z.

(** path_tracer/main.cc:155-160: (unsigned char) std::max(0.0f, std::min(v * 255.0f, 255.0f)). *)
Definition png_byte (v : T) : option Z :=
  to_u8 (smax (nofZ 0) (smin (v * nofZ 255) (nofZ 255))).
(** renderer.cc:147-149: the arguments of std::max are exchanged. *)
Definition ppm_byte (v : T) : option Z :=
  to_u8 (smax (smin (v * nofZ 255) (nofZ 255)) (nofZ 0)).

Definition conv (o : option Z) : res Z := match o with Some b => Ok b | None => UB UBconv end.

(** path_tracer/main.cc:152-161: the body of the loop; [index] is y * width + x. *)
Definition png_pixel (rgb : list T) (index : Z) (bytes : list Z) (k : Z) : res (list Z) :=
  let i := u32 (u32 (index * 3) + k) in
  do v <- atZ UBprim rgb i;
  do b <- conv (png_byte v);
  setZ UBprim bytes i b.
Fixpoint png_loop (rgb : list T) (width : Z) (ps : list (Z * Z)) (bytes : list Z) : res (list Z) :=
  match ps with
  | [] => Ok bytes
  | (x, y) :: ps' =>
      let index := u32 (u32 (y * width) + x) in
      do bytes <- png_pixel rgb index bytes 0;
      do bytes <- png_pixel rgb index bytes 1;
      do bytes <- png_pixel rgb index bytes 2;
      png_loop rgb width ps' bytes
  end.
(** path_tracer/main.cc:148-164 SaveImagePNG (same text in scene_primitives/main.cc): the
    bytes handed to stbi_write_png.  The array starts uninitialised; zeroes here. *)
Definition png_bytes (rgb : list T) (width height : Z) : res (list Z) :=
  png_loop rgb width (by_rows width height)
    (repeat 0%Z (Z.to_nat (u32 (u32 (width * height) * 3)))).

(** renderer.cc:143-153: the bytes written after the header; [j] is j - 1 of the source. *)
Fixpoint ppm_row (pixels : list T) (width j : Z) (is : list Z) : res (list Z) :=
  match is with
  | [] => Ok []
  | i :: is' =>
      do v0 <- atZ UBprim pixels (pixel_index width i j 0);
      do b0 <- conv (ppm_byte v0);
      do v1 <- atZ UBprim pixels (pixel_index width i j 1);
      do b1 <- conv (ppm_byte v1);
      do v2 <- atZ UBprim pixels (pixel_index width i j 2);
      do b2 <- conv (ppm_byte v2);
      do l <- ppm_row pixels width j is';
      Ok (b0 :: b1 :: b2 :: l)
  end.
Fixpoint ppm_rows (pixels : list T) (width : Z) (js : list Z) : res (list Z) :=
  match js with
  | [] => Ok []
  | j :: js' =>
      do a <- ppm_row pixels width j (upto width);
      do l <- ppm_rows pixels width js';
      Ok (a ++ l)
  end.
Definition ppm_bytes (pixels : list T) (width height : Z) : res (list Z) :=
  ppm_rows pixels width (rev (upto height)).
End Bytes.

(** Truncation toward zero. *)
Definition sf_trunc (x : spec_float) : option Z :=
  match x with
  | S754_zero _ => Some 0
  | S754_finite s m e =>
      let a := if 0 <=? e then Zpos m * 2 ^ e else Zpos m / 2 ^ (- e) in
      Some (if s then - a else a)
  | _ => None
  end.
Definition sf_u8 (x : spec_float) : option Z :=
  match sf_trunc x with
  | Some z => if (0 <=? z) && (z <=? 255) then Some z else None
  | None => None
  end.

(** path_tracer/main.cc:248-255 progressBar: the bar.  The offset [count] is a float,
    converted to ptrdiff_t; advancing beyond the string is undefined, division by zero
    too. *)
Definition bar_count (tick total width : Z) : option spec_float :=
  if total =? 0 then None else Some (@nofZ _ F32 (u64 (width * tick) / total)).
Definition progress_bar (tick total width : Z) : res (list bool) :=
  match bar_count tick total width with
  | None => UB UBconv
  | Some c =>
      match sf_trunc c with
      | None => UB UBconv
      | Some n => if (0 <=? n) && (n <=? width)
                  then Ok (repeat true (Z.to_nat n) ++ repeat false (Z.to_nat (width - n)))
                  else UB UBprim
      end
  end.
