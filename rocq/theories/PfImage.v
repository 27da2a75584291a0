(** The pixel loops fill the image. *)

From Coq Require Import ZArith List Bool Lia Floats.SpecFloat.
From Verif Require Import Num Vec Datatypes PathTracer Image SpecImage PfBuild.
Import ListNotations.
Local Open Scope Z_scope.

Lemma u32_id z : 0 <= z < 4294967296 -> u32 z = z.
Proof. intros. unfold u32. apply Z.mod_small. lia. Qed.
Lemma u64_id z : 0 <= z < 18446744073709551616 -> u64 z = z.
Proof. intros. unfold u64. apply Z.mod_small. lia. Qed.

Lemma upto_in n z : In z (upto n) <-> 0 <= z < n.
Proof.
  unfold upto. rewrite in_map_iff. split.
  - intros (k & <- & Hk). apply in_seq in Hk. lia.
  - intros H. exists (Z.to_nat z). split; [lia|]. apply in_seq. lia.
Qed.
Lemma upto_nodup n : NoDup (upto n).
Proof. unfold upto. apply FinFun.Injective_map_NoDup; [intros a b H; lia | apply seq_NoDup]. Qed.
Lemma upto_length n : length (upto n) = Z.to_nat n.
Proof. unfold upto. now rewrite map_length, seq_length. Qed.

Lemma nodup_grid {A B C} (g : A -> B -> C) (la : list A) (lb : list B) :
  (forall a b a' b', g a b = g a' b' -> a = a' /\ b = b') -> NoDup la -> NoDup lb ->
  NoDup (flat_map (fun a => map (g a) lb) la).
Proof.
  intros Hg Ha Hb. induction Ha as [|a la Hn Ha IH]; [constructor|]. cbn [flat_map].
  assert (Hm : NoDup (map (g a) lb)).
  { apply FinFun.Injective_map_NoDup; [intros x y E; apply Hg in E; tauto | exact Hb]. }
  assert (Hd : forall c, In c (map (g a) lb) -> ~ In c (flat_map (fun a => map (g a) lb) la)).
  { intros c Hc Hc'. apply in_map_iff in Hc as (b & <- & _). apply in_flat_map in Hc' as (a' & Ha' & Hb').
    apply in_map_iff in Hb' as (b' & E & _). apply Hg in E as [-> _]. contradiction. }
  induction Hm as [|c l Hc Hl IHl]; [exact IH|]. cbn. constructor.
  - rewrite in_app_iff. intros [H|H]; [contradiction|]. apply (Hd c); [now left | exact H].
  - apply IHl. intros c' H'. apply Hd. now right.
Qed.

Lemma by_rows_covers width height : covers width height (by_rows width height).
Proof.
  split.
  - unfold by_rows. apply (nodup_grid (fun y x : Z => (x, y))); [|apply upto_nodup|apply upto_nodup].
    intros a b a' b' E. injection E. tauto.
  - intros x y. unfold by_rows. rewrite in_flat_map. split.
    + intros (y' & Hy & Hx). apply in_map_iff in Hx as (x' & E & Hx). injection E as -> ->.
      apply upto_in in Hy, Hx. lia.
    + intros [Hx Hy]. exists y. rewrite upto_in, in_map_iff. split; [lia|]. exists x. now rewrite upto_in.
Qed.
Lemma by_columns_covers width height : covers width height (by_columns width height).
Proof.
  split.
  - unfold by_columns. apply (nodup_grid (fun x y : Z => (x, y))); [|apply upto_nodup|apply upto_nodup].
    intros a b a' b' E. injection E. tauto.
  - intros x y. unfold by_columns. rewrite in_flat_map. split.
    + intros (y' & Hy & Hx). apply in_map_iff in Hx as (x' & E & Hx). injection E as -> ->.
      apply upto_in in Hy, Hx. lia.
    + intros [Hx Hy]. exists x. rewrite upto_in, in_map_iff. split; [lia|]. exists y. now rewrite upto_in.
Qed.

Section Store.
Context {A : Type}.

Lemma setZ_ok w (l : list A) i a : 0 <= i < Z.of_nat (length l) ->
  setZ w l i a = Ok (list_set l (Z.to_nat i) a).
Proof.
  intros H. unfold setZ. destruct (Z.leb_spec 0 i); [|lia]. destruct (Z.ltb_spec i (Z.of_nat (length l))); [|lia].
  reflexivity.
Qed.

(** Entry [m] after a store of [c] into cell [n]. *)
Lemma store3_ok (l : list A) index n c :
  index 0 = 3 * n -> index 1 = 3 * n + 1 -> index 2 = 3 * n + 2 ->
  0 <= n -> 3 * n + 2 < Z.of_nat (length l) ->
  exists l', store3 l index c = Ok l' /\ length l' = length l /\ shows l' n c /\
    forall m, (Z.of_nat m < 3 * n \/ 3 * n + 2 < Z.of_nat m) -> nth_error l' m = nth_error l m.
Proof.
  intros E0 E1 E2 Hn Hl. unfold store3. rewrite E0, E1, E2.
  rewrite setZ_ok by lia. cbn [bind].
  rewrite setZ_ok by (rewrite list_set_length; lia). cbn [bind].
  rewrite setZ_ok by (rewrite !list_set_length; lia).
  eexists. split; [reflexivity|]. rewrite !list_set_length. split; [reflexivity|]. split.
  - split; [exact Hn|]. rewrite !nth_error_list_set, !list_set_length.
    repeat match goal with |- context [Nat.eq_dec ?a ?b] => destruct (Nat.eq_dec a b) end;
    repeat match goal with |- context [(?a =? ?b)%nat] => destruct (Nat.eqb_spec a b) end;
    repeat match goal with |- context [(?a <? ?b)%nat] => destruct (Nat.ltb_spec a b) end;
    try lia; cbn; repeat split; reflexivity.
  - intros m Hm. rewrite !nth_error_list_set, !list_set_length.
    repeat match goal with |- context [Nat.eq_dec ?a ?b] => destruct (Nat.eq_dec a b) end;
    repeat match goal with |- context [(?a =? ?b)%nat] => destruct (Nat.eqb_spec a b) end;
    try lia; cbn; reflexivity.
Qed.

Variable index : Z -> Z -> Z -> Z.
Variable cell : Z -> Z -> Z.
Variable inside : Z -> Z -> Prop.
Variable len : nat.
Hypothesis Hidx : forall x y k, inside x y -> 0 <= k <= 2 -> index x y k = 3 * cell x y + k.
Hypothesis Hcell : forall x y, inside x y -> 0 <= cell x y /\ 3 * cell x y + 2 < Z.of_nat len.
Hypothesis Hinj : forall x y x' y', inside x y -> inside x' y' -> cell x y = cell x' y' -> x = x' /\ y = y'.
Variable f : Z -> Z -> res (option (vec A)).
Variable c : Z -> Z -> option (vec A).
Hypothesis Hf : forall x y, inside x y -> f x y = Ok (c x y).

Lemma store_pixels_ok ps : forall l,
  NoDup ps -> (forall x y, In (x, y) ps -> inside x y) -> length l = len ->
  exists l', store_pixels index f ps l = Ok l' /\ length l' = len /\
    (forall x y v, In (x, y) ps -> c x y = Some v -> shows l' (cell x y) v) /\
    (forall m, (forall x y v, In (x, y) ps -> c x y = Some v ->
        Z.of_nat m < 3 * cell x y \/ 3 * cell x y + 2 < Z.of_nat m) -> nth_error l' m = nth_error l m).
Proof.
  induction ps as [|[x y] ps IH]; intros l Hnd Hin Hl.
  - exists l. repeat split; try assumption; intros; contradiction.
  - apply NoDup_cons_iff in Hnd as [Hno Hnd']. cbn [store_pixels].
    assert (Hxy : inside x y) by (apply Hin; now left).
    rewrite (Hf x y Hxy). cbn [bind].
    assert (Hin' : forall x y, In (x, y) ps -> inside x y) by (intros; apply Hin; now right).
    destruct (Hcell x y Hxy) as [Hc0 Hc2].
    destruct (c x y) as [v|] eqn:Ec.
    + destruct (store3_ok l (index x y) (cell x y) v) as (l1 & E1 & Hl1 & Hs1 & Ho1).
      1-3: rewrite Hidx by (assumption || lia); lia.
      1,2: lia.
      rewrite E1. cbn [bind].
      destruct (IH l1 Hnd' Hin' ltac:(congruence)) as (l' & E & Hl' & Hs & Ho).
      exists l'. split; [exact E|]. split; [exact Hl'|].
      assert (Hkeep : forall m, 3 * cell x y <= Z.of_nat m <= 3 * cell x y + 2 -> nth_error l' m = nth_error l1 m).
      { intros m Hm. apply Ho. intros x' y' v' H' _.
        destruct (Z.eq_dec (cell x' y') (cell x y)) as [e|ne].
        - destruct (Hinj x' y' x y (Hin' _ _ H') Hxy e) as [-> ->]. contradiction.
        - lia. }
      split.
      * intros x' y' v' [H'|H'] E'.
        -- injection H' as <- <-. rewrite Ec in E'. injection E' as <-.
           destruct Hs1 as (H0 & S0 & S1 & S2). repeat split; try exact H0.
           all: rewrite Hkeep by lia; assumption.
        -- now apply Hs.
      * intros m Hm. rewrite Ho, Ho1.
        -- reflexivity.
        -- apply (Hm x y v); [now left | exact Ec].
        -- intros x' y' v' H' E'. apply (Hm x' y' v'); [now right | exact E'].
    + cbn [bind]. destruct (IH l Hnd' Hin' Hl) as (l' & E & Hl' & Hs & Ho).
      exists l'. split; [exact E|]. split; [exact Hl'|]. split.
      * intros x' y' v' [H'|H'] E'; [injection H' as <- <-; congruence|now apply Hs].
      * intros m Hm. apply Ho. intros x' y' v' H' E'. apply (Hm x' y' v'); [now right | exact E'].
Qed.

(** Started on a black image. *)
Lemma store_black black ps :
  NoDup ps -> (forall x y, In (x, y) ps -> inside x y) ->
  exists l', store_pixels index f ps (repeat black len) = Ok l' /\ length l' = len /\
    forall x y, In (x, y) ps -> shows l' (cell x y) (or_black black (c x y)).
Proof.
  intros Hnd Hin.
  destruct (store_pixels_ok ps (repeat black len) Hnd Hin (repeat_length _ _)) as (l' & E & Hl & Hs & Ho).
  exists l'. split; [exact E|]. split; [exact Hl|]. intros x y H.
  destruct (c x y) as [v|] eqn:Ec; [now apply Hs|]. cbn [or_black].
  destruct (Hcell x y (Hin _ _ H)) as [H0 H2].
  assert (K : forall m, 3 * cell x y <= Z.of_nat m <= 3 * cell x y + 2 -> nth_error l' m = Some black).
  { intros m Hm. rewrite Ho.
    - rewrite nth_error_repeat by lia. reflexivity.
    - intros x' y' v' H' E'. destruct (Z.eq_dec (cell x' y') (cell x y)) as [e|ne].
      + destruct (Hinj x' y' x y (Hin _ _ H') (Hin _ _ H) e) as [-> ->]. congruence.
      + lia. }
  repeat split; try exact H0; cbn [vx vy vz]; apply K; lia.
Qed.
End Store.

Lemma grid_inj width height x r x' r' : 0 <= x < width -> 0 <= x' < width -> 0 <= r < height -> 0 <= r' < height ->
  r * width + x = r' * width + x' -> x = x' /\ r = r'.
Proof. intros. assert (r = r') by nia. subst. lia. Qed.
Lemma grid_le width height x r : 0 <= x < width -> 0 <= r < height -> 0 <= r * width + x < width * height.
Proof. intros. nia. Qed.

Lemma rgb_index_eq width height x y k : 3 * width * height < 4294967296 ->
  0 <= x < width -> 0 <= y < height -> 0 <= k <= 2 ->
  rgb_index width height x y k = 3 * ((height - 1 - y) * width + x) + k.
Proof.
  intros Hwh Hx Hy Hk.
  pose proof (grid_le width height x (height - 1 - y) Hx ltac:(lia)).
  assert (height <= width * height) by nia. assert (width <= width * height) by nia.
  unfold rgb_index.
  rewrite (u32_id (height - y)) by lia. rewrite (u32_id (height - y - 1)) by lia.
  replace (height - y - 1) with (height - 1 - y) by lia.
  assert (0 <= (height - 1 - y) * width) by nia.
  rewrite (u32_id ((height - 1 - y) * width)) by lia. rewrite (u32_id (_ + x)) by lia.
  rewrite (u32_id (3 * _)) by lia. rewrite u32_id by lia. lia.
Qed.
Lemma rgb_length width height : 0 <= width -> 0 <= height -> 3 * width * height < 4294967296 ->
  u32 (u32 (width * height) * 3) = 3 * width * height.
Proof. intros. assert (0 <= width * height) by nia. rewrite (u32_id (width * height)) by lia. rewrite u32_id by lia. lia. Qed.

(** C67. *)
Lemma rgb_image_ok A (black : A) width height f c ps :
  0 <= width -> 0 <= height -> 3 * width * height < 4294967296 -> covers width height ps ->
  (forall x y, 0 <= x < width -> 0 <= y < height -> f x y = Ok (c x y)) ->
  exists img, rgb_image black width height f ps = Ok img /\
    picture width height img (fun x r => or_black black (c x (height - 1 - r))).
Proof.
  intros Hw Hh Hwh [Hnd Hc] Hf. unfold rgb_image. rewrite rgb_length by assumption.
  pose (inside := fun x y => 0 <= x < width /\ 0 <= y < height).
  destruct (@store_black A (rgb_index width height) (fun x y => (height - 1 - y) * width + x) inside
    (Z.to_nat (3 * width * height))) with (f := f) (c := c) (black := black) (ps := ps) as (l & E & Hl & Hs).
  - intros x y k [] Hk. now apply rgb_index_eq.
  - intros x y [Hx Hy]. pose proof (grid_le width height x (height - 1 - y) Hx ltac:(lia)). split; lia.
  - intros x y x' y' [] [] E. destruct (grid_inj width height x (height - 1 - y) x' (height - 1 - y')) as []; try lia.
  - intros x y []. now apply Hf.
  - exact Hnd.
  - intros x y H. now apply Hc.
  - exists l. split; [exact E|]. split; [rewrite Hl; rewrite Z2Nat.id by nia; reflexivity|].
    intros x r Hx Hr. assert (Hin : In (x, height - 1 - r) ps) by (apply Hc; lia).
    specialize (Hs x (height - 1 - r) Hin). replace (height - 1 - (height - 1 - r)) with r in Hs by lia. exact Hs.
Qed.

Lemma nth_error_same A : forall (a b : list A), (forall m, nth_error a m = nth_error b m) -> a = b.
Proof.
  induction a as [|x a IH]; intros [|y b] H.
  - reflexivity.
  - discriminate (H O).
  - discriminate (H O).
  - f_equal; [injection (H O); tauto|]. apply IH. intros m. exact (H (S m)).
Qed.
(** Two pictures of the same colours are the same. *)
Lemma picture_unique A width height (a b : list A) c :
  0 <= width -> 0 <= height -> picture width height a c -> picture width height b c -> a = b.
Proof.
  intros Hw Hh [La Ha] [Lb Hb]. apply nth_error_same. intros m.
  destruct (Nat.lt_ge_cases m (length a)) as [Hm|Hm].
  - pose (n := Z.of_nat m / 3). pose (k := Z.of_nat m mod 3).
    assert (Hmk : Z.of_nat m = 3 * n + k) by (apply Z.div_mod; lia).
    assert (Hk : 0 <= k < 3) by (apply Z.mod_pos_bound; lia).
    assert (Hn : 0 <= n < width * height) by lia.
    assert (Hw' : 0 < width) by nia.
    pose (x := n mod width). pose (r := n / width).
    assert (Hx : 0 <= x < width) by (apply Z.mod_pos_bound; lia).
    assert (Hnx : n = width * r + x) by (apply Z.div_mod; lia).
    assert (Hr : 0 <= r < height) by nia.
    destruct (Ha x r Hx Hr) as (_ & A0 & A1 & A2). destruct (Hb x r Hx Hr) as (_ & B0 & B1 & B2).
    replace (r * width + x) with n in * by lia.
    assert (k = 0 \/ k = 1 \/ k = 2) as [K|[K|K]] by lia.
    + replace m with (Z.to_nat (3 * n)) by lia. congruence.
    + replace m with (Z.to_nat (3 * n + 1)) by lia. congruence.
    + replace m with (Z.to_nat (3 * n + 2)) by lia. congruence.
  - assert (Hm' : (length b <= m)%nat) by lia.
    apply nth_error_None in Hm, Hm'. congruence.
Qed.

(** The order does not matter. *)
Lemma rgb_order A (black : A) width height f c ps qs :
  0 <= width -> 0 <= height -> 3 * width * height < 4294967296 -> covers width height ps -> covers width height qs ->
  (forall x y, 0 <= x < width -> 0 <= y < height -> f x y = Ok (c x y)) ->
  rgb_image black width height f ps = rgb_image black width height f qs.
Proof.
  intros Hw Hh Hwh Hp Hq Hf.
  destruct (rgb_image_ok A black width height f c ps Hw Hh Hwh Hp Hf) as (a & -> & Ha).
  destruct (rgb_image_ok A black width height f c qs Hw Hh Hwh Hq Hf) as (b & -> & Hb).
  f_equal. exact (picture_unique A width height a b _ Hw Hh Ha Hb).
Qed.

(** A side of 2^16 wraps the size to zero. *)
Lemma by_rows_first width height : 0 < width -> 0 < height -> exists ps, by_rows width height = (0, 0) :: ps.
Proof.
  intros Hw Hh. unfold by_rows, upto.
  destruct (Z.to_nat width) as [|w] eqn:Ew; [lia|]. destruct (Z.to_nat height) as [|h] eqn:Eh; [lia|].
  cbn [seq map flat_map]. eexists. reflexivity.
Qed.
Lemma rgb_wraps : exists width height, 0 < width < 4294967296 /\ 0 < height < 4294967296 /\
  forall A (black : A) f, (forall x y, exists c, f x y = Ok (Some c)) ->
  rgb_image black width height f (by_rows width height) = UB UBprim.
Proof.
  exists 65536, 65536. split; [lia|]. split; [lia|]. intros A black f Hf.
  destruct (by_rows_first 65536 65536 ltac:(lia) ltac:(lia)) as [ps E]. rewrite E.
  unfold rgb_image. change (u32 (u32 (65536 * 65536) * 3)) with 0. cbn [Z.to_nat repeat store_pixels].
  destruct (Hf 0 0) as [c Hc]. rewrite Hc. cbn [bind]. unfold store3, setZ.
  cbn [length Z.of_nat]. rewrite Bool.andb_comm.
  destruct (Z.ltb_spec (rgb_index 65536 65536 0 0 0) 0) as [H|H].
  - exfalso. revert H. unfold rgb_index, u32. apply Zle_not_lt. now apply Z.mod_pos_bound.
  - reflexivity.
Qed.

(** The renderer's array, 3 * width * height below 2^64. *)
Lemma pixel_index_eq width height x y k : 3 * width * height < 18446744073709551616 ->
  0 <= x < width -> 0 <= y < height -> 0 <= k <= 2 ->
  pixel_index width x y k = 3 * (y * width + x) + k.
Proof.
  intros Hwh Hx Hy Hk. pose proof (grid_le width height x y Hx ltac:(lia)).
  assert (0 <= width * y) by nia. unfold pixel_index.
  rewrite (u64_id (width * y)) by lia. rewrite (u64_id (_ + x)) by lia.
  rewrite (u64_id (3 * _)) by lia. rewrite u64_id by lia. lia.
Qed.
Lemma pixel_length width height : 0 <= width -> 0 <= height -> 3 * width * height < 18446744073709551616 ->
  u64 (u64 (3 * width) * height) = 3 * width * height.
Proof.
  intros. destruct (Z.eq_dec height 0) as [->|].
  - rewrite Z.mul_0_r. rewrite u64_id; lia.
  - assert (3 * width <= 3 * width * height) by nia. rewrite (u64_id (3 * width)) by lia. rewrite u64_id by nia. reflexivity.
Qed.
Lemma pixel_image_ok A (black : A) width height f c :
  0 <= width -> 0 <= height -> 3 * width * height < 18446744073709551616 ->
  (forall x y, 0 <= x < width -> 0 <= y < height -> f x y = Ok (Some (c x y))) ->
  exists img, pixel_image black width height f = Ok img /\ picture width height img c.
Proof.
  intros Hw Hh Hwh Hf. unfold pixel_image. rewrite pixel_length by assumption.
  destruct (by_columns_covers width height) as [Hnd Hc].
  pose (inside := fun x y => 0 <= x < width /\ 0 <= y < height).
  destruct (@store_black A (pixel_index width) (fun x y => y * width + x) inside
    (Z.to_nat (3 * width * height))) with (f := f) (c := fun x y => Some (c x y)) (black := black) (ps := by_columns width height)
    as (l & E & Hl & Hs).
  - intros x y k [] Hk. now apply pixel_index_eq with (height := height).
  - intros x y [Hx Hy]. pose proof (grid_le width height x y Hx Hy). split; lia.
  - intros x y x' y' [] [] E. now apply (grid_inj width height).
  - intros x y []. now apply Hf.
  - exact Hnd.
  - intros x y H. now apply Hc.
  - exists l. split; [exact E|]. split; [rewrite Hl; rewrite Z2Nat.id by nia; reflexivity|].
    intros x r Hx Hr. apply (Hs x r). now apply Hc.
Qed.
