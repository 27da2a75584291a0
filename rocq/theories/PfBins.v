(** Binning in any arithmetic: counts and boxes of the bins. *)

From Coq Require Import ZArith List Bool Arith Lia.
From Verif Require Import Num Vec Datatypes Bvh SpecBvh SpecBins.
From Verif Require Import PfBuild PfBuild2 PfNumbered PfSphere2 PfDefined.
Import ListNotations.

Local Arguments Nat.ltb : simpl never.
Local Arguments Nat.leb : simpl never.
Local Arguments Nat.eqb : simpl never.

Lemma slot_split size j k j' k' : k < size -> k' < size -> j * size + k = j' * size + k' -> j = j' /\ k = k'.
Proof.
  intros H H' E. assert (j = j'); [|subst; lia].
  destruct (Nat.lt_trichotomy j j') as [L|[L|L]]; [exfalso; nia|exact L|exfalso; nia].
Qed.

Section Bins.
Context {T P : Type} {N : num T}.
Variable c : coll T P.
Variable size : nat.
Hypothesis Hsize : 1 <= size.
Hypothesis Hsmall : (3 * Z.of_nat size < 4294967296)%Z.

Definition slot (x : T) : nat :=
  match nround_u x with
  | Some z => Z.to_nat (Z.min (Z.of_nat size - 1) (Z.max 0 z))
  | None => 0
  end.
Definition ncoord (mn inv : vec T) (i : nat) : vec T :=
  match c_center c i with
  | Ok ctr => vscaler (vmulc (vsub ctr mn) inv) (nofZ (usub1 size))
  | _ => vconst n0
  end.
Definition bin_of (mn inv : vec T) (j i : nat) : nat := slot (comp (ncoord mn inv i) j).

Lemma slot_lt x : slot x < size.
Proof. unfold slot. destruct (nround_u x); lia. Qed.

Lemma usub1_size : usub1 size = (Z.of_nat size - 1)%Z.
Proof. unfold usub1. apply Z.mod_small. lia. Qed.

Lemma bbox_snoc : forall S mn mx i b b', bbox_loop c mn mx S = Ok b -> c_box c i = Ok b' ->
  bbox_loop c mn mx (S ++ [i]) = Ok (unity (fst b) (snd b) (fst b') (snd b')).
Proof.
  induction S as [|x S IH]; intros mn mx i b b' H Hb; cbn [app bbox_loop] in *.
  - injection H as <-. rewrite Hb. cbn [bind]. destruct b'; reflexivity.
  - destruct (c_box c x) as [[bm bM]| |]; cbn [bind] in *; try discriminate.
    destruct (unity mn mx bm bM). apply IH; assumption.
Qed.

(** Along axis [j] the list [D j] has been binned by [w j]. *)
Definition binned (w : nat -> nat -> nat) (D : nat -> list nat) (bins : list (bin T)) : Prop :=
  length bins = 3 * size /\
  forall j k, j < 3 -> k < size -> exists b, nth_error bins (j * size + k) = Some b /\
    b_count b = length (filter (fun i => w j i =? k) (D j)) /\
    compute_bounding_box c (filter (fun i => w j i =? k) (D j)) = Ok (b_min b, b_max b).

Lemma bin_add_binned w D j x bmn bmx bins bins' i : j < 3 -> w j i = slot x ->
  c_box c i = Ok (bmn, bmx) -> binned w D bins ->
  bin_add size j x bmn bmx bins = Ok bins' ->
  binned w (fun j' => if j' =? j then D j ++ [i] else D j') bins'.
Proof.
  intros Hj Hw Hb [Hl HD] H. unfold bin_add in H. rewrite usub1_size in H. unfold slot in Hw.
  destruct (nround_u x) as [z|]; [|discriminate].
  set (idx := Z.min (Z.of_nat size - 1) (Z.max 0 z)) in *.
  assert (Hidx : (0 <= idx < Z.of_nat size)%Z) by (subst idx; lia).
  destruct (Z.of_nat (j * size) + idx <? Z.of_nat (length bins))%Z eqn:E; [|discriminate].
  assert (Ek : Z.to_nat (Z.of_nat (j * size) + idx) = j * size + w j i) by (rewrite Hw; lia).
  rewrite Ek in H.
  assert (Hlt : w j i < size) by lia.
  destruct (HD j (w j i) Hj Hlt) as (b & Eb & Cb & Bb).
  rewrite (at_ok _ _ _ _ Eb) in H. cbn [bind] in H.
  destruct (unity (b_min b) (b_max b) bmn bmx) as [um uM] eqn:Eu. injection H as <-.
  split; [rewrite list_set_length; exact Hl|].
  intros j' k Hj' Hk. rewrite nth_error_list_set.
  destruct (j * size + w j i =? j' * size + k) eqn:Es.
  - apply Nat.eqb_eq in Es. destruct (slot_split size _ _ _ _ Hlt Hk Es) as [<- <-].
    rewrite Nat.eqb_refl. replace (_ <? length bins) with true by (symmetry; apply Nat.ltb_lt; nia). eexists. split; [reflexivity|]. cbn [b_count b_min b_max].
    rewrite filter_app. cbn [filter]. rewrite Nat.eqb_refl. split.
    + rewrite app_length. cbn [length]. lia.
    + unfold compute_bounding_box in *. rewrite (bbox_snoc _ _ _ _ _ _ Bb Hb). cbn [fst snd]. rewrite Eu. reflexivity.
  - destruct (HD j' k Hj' Hk) as (b2 & Eb2 & Cb2 & Bb2). exists b2. split; [exact Eb2|].
    destruct (j' =? j) eqn:Ej; [|split; assumption].
    apply Nat.eqb_eq in Ej. subst j'. rewrite filter_app. cbn [filter].
    apply Nat.eqb_neq in Es. replace (w j i =? k) with false by (symmetry; apply Nat.eqb_neq; lia).
    rewrite app_nil_r. split; assumption.
Qed.

Lemma binned_ext w D D' bins : (forall j, j < 3 -> D j = D' j) -> binned w D bins -> binned w D' bins.
Proof.
  intros H [Hl HD]. split; [exact Hl|]. intros j k Hj Hk. rewrite <- (H j Hj). apply HD; assumption.
Qed.

Lemma bins_loop_binned mn inv : forall ids D bins bins',
  binned (bin_of mn inv) D bins ->
  bins_loop c size mn inv ids bins = Ok bins' ->
  binned (bin_of mn inv) (fun j => D j ++ ids) bins' /\
  forall i, In i ids -> exists b v, c_box c i = Ok b /\ c_center c i = Ok v /\
    forall j, j < 3 -> nround_u (comp (ncoord mn inv i) j) <> None.
Proof.
  induction ids as [|i ids IH]; intros D bins bins' HD H; cbn [bins_loop] in H.
  - injection H as <-. split; [|intros i []]. apply binned_ext with D; [|exact HD].
    intros j _. rewrite app_nil_r. reflexivity.
  - destruct (c_box c i) as [[bmn bmx]| |] eqn:Eb; cbn [bind] in H; try discriminate.
    destruct (c_center c i) as [v| |] eqn:Ec; cbn [bind] in H; try discriminate.
    cbv zeta in H.
    destruct (bin_add size 0 _ _ _ bins) as [b1| |] eqn:E1; cbn [bind] in H; try discriminate.
    destruct (bin_add size 1 _ _ _ b1) as [b2| |] eqn:E2; cbn [bind] in H; try discriminate.
    destruct (bin_add size 2 _ _ _ b2) as [b3| |] eqn:E3; cbn [bind] in H; try discriminate.
    assert (Hn : ncoord mn inv i = vscaler (vmulc (vsub v mn) inv) (nofZ (usub1 size)))
      by (unfold ncoord; rewrite Ec; reflexivity).
    assert (W0 : bin_of mn inv 0 i = slot (vx (ncoord mn inv i))) by reflexivity.
    assert (W1 : bin_of mn inv 1 i = slot (vy (ncoord mn inv i))) by reflexivity.
    assert (W2 : bin_of mn inv 2 i = slot (vz (ncoord mn inv i))) by reflexivity.
    rewrite <- Hn in E1, E2, E3.
    assert (L0 : 0 < 3) by lia. assert (L1 : 1 < 3) by lia. assert (L2 : 2 < 3) by lia.
    pose proof (bin_add_binned _ _ 0 _ _ _ _ _ i L0 W0 Eb HD E1) as H1.
    pose proof (bin_add_binned _ _ 1 _ _ _ _ _ i L1 W1 Eb H1 E2) as H2.
    pose proof (bin_add_binned _ _ 2 _ _ _ _ _ i L2 W2 Eb H2 E3) as H3.
    destruct (IH (fun j => D j ++ [i]) b3 bins') as [R1 R2].
    + apply binned_ext with (2 := H3). intros j Hj.
      destruct j as [|[|[|j]]]; try reflexivity. lia.
    + exact H.
    + split.
      * apply binned_ext with (2 := R1). intros j _. rewrite <- app_assoc. reflexivity.
      * intros i' [<-|Hi]; [|auto]. exists (bmn, bmx), v. split; [exact Eb|]. split; [exact Ec|].
        unfold bin_add in E1, E2, E3.
        intros j Hj. destruct j as [|[|[|j]]]; cbn [comp]; [| | |lia].
        -- destruct (nround_u (vx _)); discriminate.
        -- destruct (nround_u (vy _)); discriminate.
        -- destruct (nround_u (vz _)); discriminate.
Qed.

Definition inv_of (mn mx : vec T) : vec T :=
  vmap (fun s => if nltb n0 s then ndiv n1 s else n0) (vsub mx mn).

Lemma sort_binned opt ids mn mx bins : bin_size opt = size ->
  sort_collection_into_bins c ids mn mx opt = Ok bins ->
  binned (bin_of mn (inv_of mn mx)) (fun _ => ids) bins /\
  forall i, In i ids -> exists b v, c_box c i = Ok b /\ c_center c i = Ok v /\
    forall j, j < 3 -> nround_u (comp (ncoord mn (inv_of mn mx) i) j) <> None.
Proof.
  intros Ho H. unfold sort_collection_into_bins in H. rewrite Ho in H. cbv zeta in H.
  fold (inv_of mn mx) in H.
  apply (bins_loop_binned mn (inv_of mn mx) ids (fun _ => []) _ _) in H; [exact H|].
  split; [apply repeat_length|]. intros j k Hj Hk. exists new_bin.
  split; [apply nth_error_repeat; nia|]. split; reflexivity.
Qed.

(** The counts along one axis add up. *)
Definition sum (l : list nat) : nat := fold_right Nat.add 0 l.

Lemma sum_one (f g : nat -> nat) x : (forall k, f k = (if x =? k then 1 else 0) + g k) ->
  forall m a, (a <= x < a + m -> sum (map f (seq a m)) = S (sum (map g (seq a m)))) /\
    (x < a -> sum (map f (seq a m)) = sum (map g (seq a m))).
Proof.
  intros H. induction m as [|m IH]; intros a; [split; [lia|reflexivity]|].
  cbn [seq map sum fold_right]. fold (sum (map f (seq (S a) m))). fold (sum (map g (seq (S a) m))).
  destruct (IH (S a)) as [I1 I2]. rewrite H. destruct (x =? a) eqn:E.
  - apply Nat.eqb_eq in E. rewrite I2 by lia. split; lia.
  - apply Nat.eqb_neq in E. split; intros L; [rewrite I1 by lia; lia|rewrite I2 by lia; lia].
Qed.

Lemma sum_filter (w : nat -> nat) : forall ids n,
  (forall i, In i ids -> w i < n) ->
  sum (map (fun k => length (filter (fun i => w i =? k) ids)) (seq 0 n)) = length ids.
Proof.
  intros ids. induction ids as [|i ids IH]; intros n H.
  - cbn. induction (seq 0 n) as [|k l IHl]; [reflexivity|exact IHl].
  - cbn [length]. rewrite <- (IH n (fun j Hj => H j (or_intror Hj))).
    apply (proj1 (sum_one (fun k => length (filter (fun i0 => w i0 =? k) (i :: ids)))
      (fun k => length (filter (fun i0 => w i0 =? k) ids)) (w i) (fun k => ltac:(cbn [filter]; destruct (w i =? k); reflexivity)) n 0)).
    split; [lia|]. apply H. left. reflexivity.
Qed.

Lemma nth_error_ext {A} : forall (l l' : list A), length l = length l' ->
  (forall k, k < length l -> nth_error l k = nth_error l' k) -> l = l'.
Proof.
  induction l as [|x l IH]; intros [|y l'] Hl H; try discriminate; [reflexivity|].
  assert (E : Some x = Some y) by (apply (H 0); cbn; lia). injection E as ->. f_equal.
  apply IH; [cbn in Hl; lia|]. intros k Hk. apply (H (S k)). cbn. lia.
Qed.

Lemma nth_error_skip {A} : forall o (l : list A) k, nth_error (skipn o l) k = nth_error l (o + k).
Proof. induction o as [|o IH]; intros [|x l] k; cbn; auto. destruct k; reflexivity. Qed.
Lemma nth_error_first {A} : forall n (l : list A) k, k < n -> nth_error (firstn n l) k = nth_error l k.
Proof. induction n as [|n IH]; intros [|x l] [|k] H; cbn; auto; try lia. apply IH. lia. Qed.

Lemma counts_sum w ids bins j : (forall i, In i ids -> w j i < size) -> j < 3 ->
  binned w (fun _ => ids) bins ->
  sum (map b_count (firstn size (skipn (j * size) bins))) = length ids.
Proof.
  intros Hw Hj [Hl HD]. rewrite <- (sum_filter (w j) ids size Hw). f_equal.
  apply nth_error_ext.
  - rewrite !map_length, seq_length, firstn_length, skipn_length. nia.
  - rewrite map_length, firstn_length, skipn_length. intros k Hk.
    assert (Hk' : k < size) by lia.
    destruct (HD j k Hj Hk') as (b & Eb & Cb & _).
    rewrite !nth_error_map, nth_error_first, nth_error_skip, Eb by exact Hk'. cbn [option_map].
    replace (nth_error (seq 0 size) k) with (Some k).
    + cbn [option_map]. rewrite Cb. reflexivity.
    + symmetry. rewrite (nth_error_nth' _ 0) by (rewrite seq_length; exact Hk').
      rewrite seq_nth by exact Hk'. reflexivity.
Qed.
End Bins.

Lemma sort_counts {T P : Type} {N : num T} (c : coll T P) opt ids mn mx bins :
  1 <= bin_size opt -> (3 * Z.of_nat (bin_size opt) < 4294967296)%Z ->
  sort_collection_into_bins c ids mn mx opt = Ok bins ->
  length bins = 3 * bin_size opt /\
  forall j, j < 3 -> fold_right Nat.add 0 (map b_count (firstn (bin_size opt) (skipn (j * bin_size opt) bins))) = length ids.
Proof.
  intros H1 H2 H. destruct (sort_binned c _ H1 H2 opt ids mn mx bins eq_refl H) as [Hb _].
  split; [apply Hb|]. intros j Hj.
  refine (counts_sum c _ H1 H2 _ ids bins j _ Hj Hb).
  intros i _. apply slot_lt; assumption.
Qed.

(** Each primitive is in one bin per axis, and each bin's box encloses its primitives. *)
Lemma sort_boxes {T P : Type} {N : num T} (ok : T -> Prop) (c : coll T P) opt ids mn mx bins :
  weak_order ok -> ok nmaxv -> ok (nopp nmaxv) ->
  (forall i, In i ids -> exists b, c_box c i = Ok b /\ vall ok (fst b) /\ vall ok (snd b)) ->
  1 <= bin_size opt -> (3 * Z.of_nat (bin_size opt) < 4294967296)%Z ->
  sort_collection_into_bins c ids mn mx opt = Ok bins ->
  exists w : nat -> nat -> nat,
    (forall j i, w j i < bin_size opt) /\
    forall j k, j < 3 -> k < bin_size opt ->
      exists b, nth_error bins (j * bin_size opt + k) = Some b /\
        b_count b = length (filter (fun i => w j i =? k) ids) /\
        forall i bx, In i ids -> w j i = k -> c_box c i = Ok bx -> box_in bx (b_min b, b_max b).
Proof.
  intros Hwo Hm Hm' Hok H1 H2 H. destruct (sort_binned c _ H1 H2 opt ids mn mx bins eq_refl H) as [[Hl HD] _].
  exists (bin_of c (bin_size opt) mn (inv_of mn mx)). split; [intros j i; apply slot_lt; assumption|].
  intros j k Hj Hk. destruct (HD j k Hj Hk) as (b & Eb & Cb & Bb). exists b. split; [exact Eb|]. split; [exact Cb|].
  intros i bx Hi Hw Hbx.
  refine (proj1 (proj2 (proj2 (compute_spec c ok Hwo Hm Hm' _ _ _ Bb))) i bx _ Hbx).
  - intros i' Hi'. apply filter_In in Hi'. apply Hok, Hi'.
  - apply filter_In. split; [exact Hi|]. apply Nat.eqb_eq, Hw.
Qed.
