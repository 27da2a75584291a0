(** C86: pictures of scenes. *)

From Coq Require Import Reals ZArith List Bool Floats.SpecFloat.
From Verif Require Import Num NumX NumF Vec Ray Bvh Traverse Scene PathTracer Image Camera ScenePic.
From Verif Require Import SpecBvh SpecReal SpecImage SpecScene SpecPic PfImage PfPic PfPic2 CasePic.
Import ListNotations.
Local Open Scope R_scope.

(** Any scene that satisfies the conditions of C37_scene_nearest_partial for all pixels. *)
Theorem C86_scene_picture_partial : forall big tiny eps, 0 <= eps -> 0 <= tiny -> forall part, partition_ok part ->
  forall opt0 cs s l, @run _ (Xnum big tiny eps) part (new_scene opt0) cs = Ok (s, l) -> In Commit cs -> all_shallow opt0 cs l ->
  forall width height, (0 < width)%Z -> (0 < height)%Z ->
  (forall x y g c, (0 <= x < width)%Z -> (0 <= y < height)%Z -> geometry_of cs l g c ->
     call_fine big tiny eye (line_of_sight width height x y) 0 c) ->
  forall ps, (3 * width * height < 4294967296)%Z -> covers width height ps ->
  exists img bytes c, @scene_image _ (Xnum big tiny eps) s width height ps = Ok img /\
    png_bytes (N := F32) sf_u8 img width height = Ok bytes /\ picture width height bytes c /\
    forall x r, (0 <= x < width)%Z -> (0 <= r < height)%Z ->
      scene_shows (4 * eps) cs l eye (unit_of (line_of_sight width height x (height - 1 - r))) (Fin big) (c x r).
Proof. exact scene_picture. Qed.
Print Assumptions C86_scene_picture_partial.

(** scene_primitives, for any size: three of the four solids are shown. *)
Theorem C86_primitives_partial : forall big tiny eps, 100 <= big -> 0 <= eps -> 0 <= tiny -> forall part, partition_ok part ->
  forall width height ps, (0 < width)%Z -> (0 < height)%Z -> (3 * width * height < 4294967296)%Z -> covers width height ps ->
  exists bytes c, @primitives_main _ (Xnum big tiny eps) part width height ps = Ok bytes /\ picture width height bytes c /\
    forall x r, (0 <= x < width)%Z -> (0 <= r < height)%Z ->
      solids_show [(tube1, red); (ball1, red); (ball2, green)] eye (unit_of (line_of_sight width height x (height - 1 - r))) (c x r).
Proof. exact primitives_picture. Qed.
Print Assumptions C86_primitives_partial.
(** The fourth is not: a line of sight through its center, in doubles. *)
Theorem C86_primitives_refuted : exists s width height x y c,
  @primitives_scene _ F64 libstdcxx_partition = Ok s /\ (0 <= x < width)%Z /\ (0 <= y < height)%Z /\
  @scene_pixel _ F64 s width height x y = Ok c /\
  ~ solids_show [(tube1, red); (tube2, green); (ball1, red); (ball2, green)] eye (unit_of (line_of_sight width height x y))
      (bytes_of 24 128 (or_black (@nofZ _ F32 0) c)).
Proof. exact primitives_refute. Qed.
Print Assumptions C86_primitives_refuted.
(** 18 x 18 pixels in doubles: a ball of six green pixels, a cylinder of two red ones, a ball of one. *)
Example C86_case : covers 18 18 (by_columns 18 18) /\
  mapr lit (@primitives_main _ F64 libstdcxx_partition 18 18 (by_columns 18 18)) =
  Ok [(181%nat, 255%Z); (184%nat, 255%Z); (187%nat, 255%Z); (235%nat, 255%Z); (238%nat, 255%Z); (241%nat, 255%Z);
      (504%nat, 255%Z); (558%nat, 255%Z); (678%nat, 255%Z)].
Proof. exact small_picture. Qed.
