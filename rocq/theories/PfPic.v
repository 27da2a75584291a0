(** Pictures of scenes. *)

From Coq Require Import Reals ZArith List Bool Lia Lra Floats.SpecFloat.
From Flocq Require Import Core IEEE754.BinarySingleNaN.
From Verif Require Import Num NumX NumF Vec Ray Bvh Traverse Scene PathTracer Image Camera ScenePic.
From Verif Require Import SpecBvh SpecReal SpecImage SpecScene SpecPic.
From Verif Require Import PfX PfPart PfImage PfImage2 PfImage3 PfCamera PfScene4 CaseImage.
Import ListNotations.
Local Open Scope R_scope.

Lemma colours : bytes_of 24 128 (or_black (@nofZ _ F32 0) None) = black /\
  bytes_of 24 128 red32 = red /\ bytes_of 24 128 green32 = green.
Proof.
  assert (P : Prec_gt_0 24) by (unfold Prec_gt_0; lia).
  assert (M : Prec_lt_emax 24 128) by (unfold Prec_lt_emax; lia).
  assert (E0 : byte_of 24 128 (@nofZ _ F32 0) = 0%Z).
  { apply (@byte_black 24 128 P _ (IZR 0)); [apply (@const_isF 24 128); [exact P|exact M|lia|lia]|lra]. }
  assert (E1 : byte_of 24 128 (@nofZ _ F32 1) = 255%Z).
  { apply (@byte_full 24 128 P M ltac:(lia) _ (IZR 1)); [apply (@const_isF 24 128); [exact P|exact M|lia|lia]|lra]. }
  unfold bytes_of, black, red, green, red32, green32, or_black. cbn [vx vy vz]. rewrite E0, E1. auto.
Qed.
Lemma colours_valid : valid_colour 24 128 (or_black (@nofZ _ F32 0) None) /\ valid_colour 24 128 red32 /\ valid_colour 24 128 green32.
Proof. repeat split. Qed.

Lemma pinhole_sight width height x y : pinhole width height x y = line_of_sight width height x y.
Proof. reflexivity. Qed.
Lemma pinhole_admissible big tiny eps width height x y : (0 < width)%Z -> (0 < height)%Z ->
  admissible (@pinhole_origin _ (Xnum big tiny eps)) (@pinhole_direction _ (Xnum big tiny eps) width height x y) (Fin 0)
    eye (line_of_sight width height x y) 0.
Proof.
  intros Hw Hh. destruct (pinhole_ok big tiny eps width height x y Hw Hh) as [H1 H2 H3 H4 H5 H6 H7 H8].
  constructor; auto.
Qed.

Section Picture.
Variables (big tiny eps : R).
Notation XN := (Xnum big tiny eps).
Hypothesis Heps : 0 <= eps.
Hypothesis Htiny : 0 <= tiny.
Variable part : (nat -> bool) -> list nat -> list nat * list nat.
Hypothesis Hpart : partition_ok part.
Variables (opt0 : options) (cs : list (call xr)) (s : scene xr) (l : list (reply xr)).
Hypothesis Hrun : @run _ XN part (new_scene opt0) cs = Ok (s, l).
Hypothesis Hcommit : In Commit cs.
Hypothesis Hd0 : all_shallow opt0 cs l.
Variables width height : Z.
Hypothesis Hw : (0 < width)%Z.
Hypothesis Hh : (0 < height)%Z.
Hypothesis Hfine : forall x y g c, (0 <= x < width)%Z -> (0 <= y < height)%Z -> geometry_of cs l g c ->
  call_fine big tiny eye (line_of_sight width height x y) 0 c.

Lemma pixel_shows x y : (0 <= x < width)%Z -> (0 <= y < height)%Z ->
  exists c, @scene_pixel _ XN s width height x y = Ok c /\
    scene_shows (4 * eps) cs l eye (unit_of (line_of_sight width height x y)) (Fin big) (bytes_of 24 128 (or_black (@nofZ _ F32 0) c)) /\
    valid_colour 24 128 (or_black (@nofZ _ F32 0) c).
Proof.
  intros Hx Hy. destruct colours as (B0 & B1 & B2). destruct colours_valid as (V0 & V1 & V2).
  destruct (scene_query big tiny eps Heps Htiny part Hpart _ _ _ (Fin big) false _ _ 0 (pinhole_admissible big tiny eps width height x y Hw Hh)
    opt0 cs s l Hrun Hcommit Hd0 (fun g c => Hfine x y g c Hx Hy) (@new_rayhit _ XN)) as (b & rh & E & Q0 & Q1); [intros t H; exact H|].
  unfold scene_pixel, pinhole_ray. change (@n0 _ XN) with (Fin 0). change (@nmaxv _ XN) with (Fin big). rewrite E. cbn [bind].
  eexists. split; [reflexivity|]. destruct b.
  - destruct (Q1 eq_refl) as (g & i & t & (c & Gc & Hc) & _ & Ep & _ & _ & Hmin). rewrite Ep. unfold or_black.
    split.
    + right. exists g, c, i, t. split; [exact Gc|]. split; [exact Hc|]. split.
      * intros g' c' j u Gc' Hu. apply (Hmin eq_refl g' j u). eauto.
      * destruct i; [left|right]; (split; [auto; discriminate|assumption]).
    + destruct i; assumption.
  - destruct (Q0 eq_refl) as [_ Hn]. split; [left; split; [exact B0|]|exact V0].
    intros g k j u Gk Hk. apply (Hn g j u). eauto.
Qed.

Lemma scene_picture ps : (3 * width * height < 4294967296)%Z -> covers width height ps ->
  exists img bytes c, @scene_image _ XN s width height ps = Ok img /\
    png_bytes (N := F32) sf_u8 img width height = Ok bytes /\ picture width height bytes c /\
    forall x r, (0 <= x < width)%Z -> (0 <= r < height)%Z ->
      scene_shows (4 * eps) cs l eye (unit_of (line_of_sight width height x (height - 1 - r))) (Fin big) (c x r).
Proof.
  intros Hs Hc.
  pose (col := fun x y => match @scene_pixel _ XN s width height x y with Ok c => c | _ => None end).
  assert (K : forall x y, (0 <= x < width)%Z -> (0 <= y < height)%Z -> @scene_pixel _ XN s width height x y = Ok (col x y) /\
    scene_shows (4 * eps) cs l eye (unit_of (line_of_sight width height x y)) (Fin big) (bytes_of 24 128 (or_black (@nofZ _ F32 0) (col x y))) /\
    valid_colour 24 128 (or_black (@nofZ _ F32 0) (col x y))).
  { intros x y Hx Hy. destruct (pixel_shows x y Hx Hy) as (c & E & S & Vc). unfold col. rewrite E. auto. }
  destruct (png_file 24 128 ltac:(unfold Prec_gt_0; lia) ltac:(unfold Prec_lt_emax; lia) (@nofZ _ F32 0) width height
    (@scene_pixel _ XN s width height) col ps) as (img & bytes & E1 & E2 & P); try lia; try assumption.
  { intros x y Hx Hy. apply K; assumption. }
  { intros x y Hx Hy. apply K; assumption. }
  exists img, bytes. eexists. split; [exact E1|]. split; [exact E2|]. split; [exact P|].
  intros x r Hx Hr. apply K; lia.
Qed.
End Picture.
