(** product_sign on bit patterns: blazert/datatypes.h:71-85.

    [as<uint32_t>] and [as<float>] copy the object representation; they are Flocq's
    encoding and decoding of the IEEE 754 interchange formats, NaN sign and payload
    included.  Bit patterns are integers; [^] and [&] are [Z.lxor] and [Z.land]. *)

From Coq Require Import ZArith Bool.
From Flocq Require Import IEEE754.Binary IEEE754.Bits.
Local Open Scope Z_scope.

(** datatypes.h:80 and :84 on the bit patterns. *)
Definition product_sign_bits32 (x y : Z) : Z := Z.lxor x (Z.land y 0x80000000).
Definition product_sign_bits64 (x y : Z) : Z := Z.lxor x (Z.land y 0x8000000000000000).

(** datatypes.h:79-81. *)
Definition product_sign32 (x y : binary32) : binary32 :=
  b32_of_bits (product_sign_bits32 (bits_of_b32 x) (bits_of_b32 y)).
(** datatypes.h:83-85. *)
Definition product_sign64 (x y : binary64) : binary64 :=
  b64_of_bits (product_sign_bits64 (bits_of_b64 x) (bits_of_b64 y)).
