(** Cases for the PNG writer. *)

From Coq Require Import ZArith Strings.String List Bool Lia.
From Verif Require Import Num Vec Image Zlib Png SpecImage SpecZlib SpecPng PfPng2.
Import ListNotations.
Local Open Scope Z_scope.

(** Bytes with repetitions, one of them longer than a match may be. *)
Definition sentence : list Z := [104; 97; 32; 104; 97; 32; 104; 97; 33; 32; 104; 97; 32; 104; 97] ++ repeat 200 300.
Lemma compress_case : exists l, zlib_compress sentence 8 = Ok l /\ length l = 20%nat /\ unzlib l = Some sentence.
Proof. eexists. split; [vm_compute; reflexivity|]. split; vm_compute; reflexivity. Qed.
(** The check value of the literature: the digits from 1 to 9. *)
Lemma crc_case : crc32 [49; 50; 51; 52; 53; 54; 55; 56; 57] = Ok 3421780262.
Proof. vm_compute. reflexivity. Qed.
(** Three pixels by two. *)
Definition flag : list Z := [10; 200; 30; 12; 203; 29; 13; 205; 31; 11; 201; 31; 12; 204; 29; 255; 0; 128].
Definition flag_pixel (x r : Z) : vec Z :=
  let k := (Z.to_nat (9 * r + 3 * x))%Z in V (nth k flag 0) (nth (k + 1) flag 0) (nth (k + 2) flag 0).
Lemma flag_picture : picture 3 2 flag flag_pixel /\ writable 3 2 /\
  (forall x r, 0 <= x < 3 -> 0 <= r < 2 -> byte_vec (flag_pixel x r)).
Proof.
  split; [|split].
  - split; [reflexivity|]. intros x r Hx Hr. assert (Ex : x = 0 \/ x = 1 \/ x = 2) by lia. assert (Er : r = 0 \/ r = 1) by lia.
    destruct Ex as [-> | [-> | ->]], Er as [-> | ->]; (split; [lia|]); repeat split.
  - unfold writable. lia.
  - intros x r Hx Hr. assert (Ex : x = 0 \/ x = 1 \/ x = 2) by lia. assert (Er : r = 0 \/ r = 1) by lia.
    destruct Ex as [-> | [-> | ->]], Er as [-> | ->]; repeat split; vm_compute; congruence.
Qed.
Lemma flag_read : exists file, png_file_of flag 3 2 = Ok file /\ length file = 85%nat /\
  png_read file = Some (Raster 3 2 3 [[10; 200; 30; 12; 203; 29; 13; 205; 31]; [11; 201; 31; 12; 204; 29; 255; 0; 128]]).
Proof. eexists. split; [vm_compute; reflexivity|]. split; vm_compute; reflexivity. Qed.
