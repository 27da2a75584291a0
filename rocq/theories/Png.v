(** examples/common/stb_image_write.h: the PNG writer, up to the file. *)

From Coq Require Import ZArith List Bool.
From Verif Require Import Num Bvh PathTracer Image Zlib.
Import ListNotations.
Local Open Scope Z_scope.

(** 823-852. *)
Definition crc_table : list Z :=
  [
   0; 1996959894; 3993919788; 2567524794; 124634137; 1886057615; 3915621685; 2657392035;
   249268274; 2044508324; 3772115230; 2547177864; 162941995; 2125561021; 3887607047; 2428444049;
   498536548; 1789927666; 4089016648; 2227061214; 450548861; 1843258603; 4107580753; 2211677639;
   325883990; 1684777152; 4251122042; 2321926636; 335633487; 1661365465; 4195302755; 2366115317;
   997073096; 1281953886; 3579855332; 2724688242; 1006888145; 1258607687; 3524101629; 2768942443;
   901097722; 1119000684; 3686517206; 2898065728; 853044451; 1172266101; 3705015759; 2882616665;
   651767980; 1373503546; 3369554304; 3218104598; 565507253; 1454621731; 3485111705; 3099436303;
   671266974; 1594198024; 3322730930; 2970347812; 795835527; 1483230225; 3244367275; 3060149565;
   1994146192; 31158534; 2563907772; 4023717930; 1907459465; 112637215; 2680153253; 3904427059;
   2013776290; 251722036; 2517215374; 3775830040; 2137656763; 141376813; 2439277719; 3865271297;
   1802195444; 476864866; 2238001368; 4066508878; 1812370925; 453092731; 2181625025; 4111451223;
   1706088902; 314042704; 2344532202; 4240017532; 1658658271; 366619977; 2362670323; 4224994405;
   1303535960; 984961486; 2747007092; 3569037538; 1256170817; 1037604311; 2765210733; 3554079995;
   1131014506; 879679996; 2909243462; 3663771856; 1141124467; 855842277; 2852801631; 3708648649;
   1342533948; 654459306; 3188396048; 3373015174; 1466479909; 544179635; 3110523913; 3462522015;
   1591671054; 702138776; 2966460450; 3352799412; 1504918807; 783551873; 3082640443; 3233442989;
   3988292384; 2596254646; 62317068; 1957810842; 3939845945; 2647816111; 81470997; 1943803523;
   3814918930; 2489596804; 225274430; 2053790376; 3826175755; 2466906013; 167816743; 2097651377;
   4027552580; 2265490386; 503444072; 1762050814; 4150417245; 2154129355; 426522225; 1852507879;
   4275313526; 2312317920; 282753626; 1742555852; 4189708143; 2394877945; 397917763; 1622183637;
   3604390888; 2714866558; 953729732; 1340076626; 3518719985; 2797360999; 1068828381; 1219638859;
   3624741850; 2936675148; 906185462; 1090812512; 3747672003; 2825379669; 829329135; 1181335161;
   3412177804; 3160834842; 628085408; 1382605366; 3423369109; 3138078467; 570562233; 1426400815;
   3317316542; 2998733608; 733239954; 1555261956; 3268935591; 3050360625; 752459403; 1541320221;
   2607071920; 3965973030; 1969922972; 40735498; 2617837225; 3943577151; 1913087877; 83908371;
   2512341634; 3803740692; 2075208622; 213261112; 2463272603; 3855990285; 2094854071; 198958881;
   2262029012; 4057260610; 1759359992; 534414190; 2176718541; 4139329115; 1873836001; 414664567;
   2282248934; 4279200368; 1711684554; 285281116; 2405801727; 4167216745; 1634467795; 376229701;
   2685067896; 3608007406; 1308918612; 956543938; 2808555105; 3495958263; 1231636301; 1047427035;
   2932959818; 3654703836; 1088359270; 936918000; 2847714899; 3736837829; 1202900863; 817233897;
   3183342108; 3401237130; 1404277552; 615818150; 3134207493; 3453421203; 1423857449; 601450431;
   3009837614; 3294710456; 1567103746; 711928724; 3020668471; 3272380065; 1510334235; 755167117].
(** 822-859 stbiw__crc32. *)
Fixpoint crc_loop (buffer : list Z) (crc : Z) : res Z :=
  match buffer with
  | [] => Ok crc
  | b :: buffer' =>
      do t <- atZ UBprim crc_table (Z.lxor b (Z.land crc 255));
      crc_loop buffer' (Z.lxor (Z.shiftr crc 8) t)
  end.
Definition crc32 (buffer : list Z) : res Z := do c <- crc_loop buffer 4294967295; Ok (Z.lxor c 4294967295).
(** 861-864 stbiw__wpng4, stbiw__wp32. *)
Definition wp32 (v : Z) : list Z := [u8 (Z.shiftr v 24); u8 (Z.shiftr v 16); u8 (Z.shiftr v 8); u8 v].

(** 871-878 stbiw__paeth. *)
Definition paeth (a b c : Z) : Z :=
  let p := a + b - c in
  let pa := Z.abs (p - a) in
  let pb := Z.abs (p - b) in
  let pc := Z.abs (p - c) in
  if (pa <=? pb) && (pa <=? pc) then u8 a else if pb <=? pc then u8 b else u8 c.

Section Filter.
Variables (pixels : list Z) (stride x y n : Z).
(** 905-928: entry [i] of line_buffer for row [j], as an unsigned char. *)
Definition line_entry (type j i : Z) : res Z :=
  let z k := atZ UBprim pixels (stride * j + k) in
  do c <- z i;
  if i <? n then
    match type with
    | 2 => do b <- z (i - stride); Ok (u8 (c - b))
    | 3 => do b <- z (i - stride); Ok (u8 (c - Z.shiftr b 1))
    | 4 => do b <- z (i - stride); Ok (u8 (c - paeth 0 b 0))
    | _ => Ok (u8 c)
    end
  else
    match type with
    | 1 => do a <- z (i - n); Ok (u8 (c - a))
    | 2 => do b <- z (i - stride); Ok (u8 (c - b))
    | 3 => do a <- z (i - n); do b <- z (i - stride); Ok (u8 (c - Z.shiftr (a + b) 1))
    | 4 => do a <- z (i - n); do b <- z (i - stride); do d <- z (i - stride - n); Ok (u8 (c - paeth a b d))
    | 5 => do a <- z (i - n); Ok (u8 (c - Z.shiftr a 1))
    | 6 => do a <- z (i - n); Ok (u8 (c - paeth a 0 0))
    | _ => Ok (u8 c)
    end.
Definition line (type j : Z) : res (list Z) := mapM (line_entry type j) (upto (x * n)).
(** 931-932: abs((signed char) line_buffer[i]), summed up in an int. *)
Definition s8 (b : Z) : Z := if b <? 128 then b else b - 256.
Fixpoint estimate (l : list Z) (est : Z) : res Z :=
  match l with
  | [] => Ok est
  | b :: l' => do est <- i32 (est + Z.abs (s8 b)); estimate l' est
  end.
(** 897-899. *)
Definition filter_type (j k : Z) : res Z := atZ UBprim (if j =? 0 then [0; 1; 0; 5; 6] else [0; 1; 2; 3; 4]) k.
(** 901-937, p = 0: the first filter with the least sum. *)
Fixpoint choose (ks : list Z) (j best bestval : Z) : res Z :=
  match ks with
  | [] => Ok best
  | k :: ks' =>
      do t <- filter_type j k;
      do l <- line t j;
      do est <- estimate l 0;
      if est <? bestval then choose ks' j k est else choose ks' j best bestval
  end.
(** 896-942; with p = 1 the line is computed again for the best filter. *)
Definition filter_row (j : Z) : res (list Z) :=
  do best <- choose [0; 1; 2; 3; 4] j 0 2147483647;
  do t <- filter_type j best;
  do l <- line t j;
  Ok (u8 best :: l).
Definition filter_rows : res (list Z) := do rows <- mapM filter_row (upto y); Ok (concat rows).
End Filter.

(** A chunk: length, tag, data and the checksum of the last two (stbiw__wpcrc, 866-869). *)
Definition chunk (tag body : list Z) : res (list Z) :=
  do c <- crc32 (tag ++ body);
  Ok (wp32 (Z.of_nat (length body)) ++ tag ++ body ++ wp32 c).
(** 880-983 stbi_write_png_to_mem. *)
Definition png_to_mem (pixels : list Z) (stride_bytes x y n : Z) : res (list Z) :=
  do xn <- i32 (x * n);
  let stride := if stride_bytes =? 0 then xn else stride_bytes in
  do _ <- i32 ((xn + 1) * y);
  do _ <- i32 (stride * (y - 1));
  do filt <- filter_rows pixels stride x y n;
  do zlib <- zlib_compress filt 8;
  do _ <- i32 (8 + 12 + 13 + 12 + Z.of_nat (length zlib) + 12);
  do ctype <- atZ UBprim [-1; 0; 4; 2; 6] n;
  do ihdr <- chunk [73; 72; 68; 82] (wp32 x ++ wp32 y ++ [8; u8 ctype; 0; 0; 0]);
  do idat <- chunk [73; 68; 65; 84] zlib;
  do iend <- chunk [73; 69; 78; 68] [];
  Ok ([137; 80; 78; 71; 13; 10; 26; 10] ++ ihdr ++ idat ++ iend).
(** path_tracer/main.cc:162, scene_primitives/main.cc:28: the call in SaveImagePNG.  The conversion of
    an unsigned int to int is modulo 2^32. *)
Definition to_int (z : Z) : Z := let w := u32 z in if w <? 2147483648 then w else w - 4294967296.
Definition png_file_of (bytes : list Z) (width height : Z) : res (list Z) :=
  png_to_mem bytes (to_int (width * 3)) (to_int width) (to_int height) 3.
(** A program that ends with SaveImagePNG: the file written, from the bytes it makes; None if it
    stopped before. *)
Definition saved (main : res (option (list Z))) (width height : Z) : res (option (list Z)) :=
  do o <- main;
  match o with
  | None => Ok None
  | Some bytes => do file <- png_file_of bytes width height; Ok (Some file)
  end.
