(** A small picture of scene_primitives in doubles. *)

From Coq Require Import ZArith List Bool.
From Verif Require Import Num NumF Bvh Image ScenePic SpecImage SpecScene PfImage CaseImage.
Import ListNotations.

(** The bytes that differ from 0, with their places. *)
Definition lit (bytes : list Z) : list (nat * Z) :=
  filter (fun p => negb (snd p =? 0)%Z) (combine (seq 0 (length bytes)) bytes).
Lemma small_picture : covers 18 18 (by_columns 18 18) /\
  mapr lit (@primitives_main _ F64 libstdcxx_partition 18 18 (by_columns 18 18)) =
  Ok [(181, 255%Z); (184, 255%Z); (187, 255%Z); (235, 255%Z); (238, 255%Z); (241, 255%Z);
      (504, 255%Z); (558, 255%Z); (678, 255%Z)].
Proof. split; [apply by_columns_covers|]. vm_compute. reflexivity. Qed.
