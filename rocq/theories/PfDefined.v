(** Definedness of the builder. *)

From Coq Require Import ZArith List Bool Arith Lia Permutation.
From Verif Require Import Num Vec Datatypes Bvh SpecBvh PfBuild.
Import ListNotations.

Local Arguments Nat.ltb : simpl never.
Local Arguments Nat.leb : simpl never.

Section Defined.
Context {T P : Type} {N : num T}.
Variable part : (nat -> bool) -> list nat -> list nat * list nat.
Hypothesis Hpart : partition_ok part.
Variable c : coll T P.
Variable opt : options.
Notation size := (bin_size opt).
Hypothesis Hsize : 1 <= size.
Hypothesis Hsmall : (3 * Z.of_nat size < 4294967296)%Z.

Lemma usub1_small : usub1 size = (Z.of_nat size - 1)%Z.
Proof. unfold usub1. apply Z.mod_small. lia. Qed.

Lemma at_lt {A} w (l : list A) i : i < length l -> exists a, at_ w l i = Ok a.
Proof.
  intros H. unfold at_. destruct (nth_error l i) eqn:E; [eauto|].
  apply nth_error_None in E. lia.
Qed.

Lemma bbox_ok : forall ids mn mx, (forall i, In i ids -> exists b, c_box c i = Ok b) ->
  exists b, bbox_loop c mn mx ids = Ok b.
Proof.
  induction ids as [|i ids IH]; intros mn mx H; cbn [bbox_loop]; [eauto|].
  destruct (H i (or_introl eq_refl)) as ([bmn bmx] & ->). cbn [bind].
  destruct (unity mn mx bmn bmx). apply IH. intros; apply H; right; assumption.
Qed.

Lemma bin_add_ok j x bmn bmx (bins : list (bin T)) z : j < 3 -> length bins = 3 * size ->
  nround_u x = Some z ->
  exists bins', bin_add size j x bmn bmx bins = Ok bins' /\ length bins' = 3 * size.
Proof.
  intros Hj Hl Hz. unfold bin_add. rewrite Hz, usub1_small.
  set (idx := Z.min (Z.of_nat size - 1) (Z.max 0 z)).
  assert (Hi : (0 <= idx <= Z.of_nat size - 1)%Z) by (unfold idx; lia).
  assert (Hk : (0 <= Z.of_nat (j * size) + idx < 3 * Z.of_nat size)%Z) by nia.
  assert (E : (Z.of_nat (j * size) + idx <? Z.of_nat (length bins))%Z = true)
    by (apply Z.ltb_lt; lia).
  rewrite E. destruct (at_lt UBbin bins (Z.to_nat (Z.of_nat (j * size) + idx))) as (b & Eb); [lia|].
  rewrite Eb. cbn [bind]. destruct (unity _ _ _ _). eexists. split; [reflexivity|].
  rewrite list_set_length. exact Hl.
Qed.

Lemma sweep_left_ok j : j < 3 -> forall i count mn mx bins, i <= size - 1 -> length bins = 3 * size ->
  exists bins', sweep_left size j i count mn mx bins = Ok bins' /\ length bins' = 3 * size.
Proof.
  intros Hj. induction i as [|i IH]; intros count mn mx bins Hi Hl; cbn [sweep_left]; [eauto|].
  destruct (at_lt UBbin bins (j * size + S i)) as (b & Eb); [nia|]. rewrite Eb. cbn [bind].
  destruct (unity _ _ _ _). apply IH; [lia|]. rewrite list_set_length. exact Hl.
Qed.

Lemma sweep_right_ok j : j < 3 -> forall k i count mn mx mc mb (bins : list (bin T)),
  i + k <= size - 1 -> length bins = 3 * size ->
  exists a, sweep_right size j k i count mn mx mc mb bins = Ok a.
Proof.
  intros Hj. induction k as [|k IH]; intros i count mn mx mc mb bins Hi Hl; cbn [sweep_right]; [eauto|].
  destruct (at_lt UBbin bins (j * size + i)) as (b & Eb); [nia|]. rewrite Eb. cbn [bind].
  destruct (at_lt UBbin bins (j * size + i + 1)) as (b' & Eb'); [nia|]. rewrite Eb'. cbn [bind].
  destruct (unity _ _ _ _). destruct (nltb _ _); apply IH; lia || exact Hl.
Qed.

Lemma axis_split_ok j a b (bins : list (bin T)) : j < 3 -> length bins = 3 * size ->
  exists x y bins', axis_split size j a b bins = Ok (x, y, bins') /\ length bins' = 3 * size.
Proof.
  intros Hj Hl. unfold axis_split. rewrite usub1_small.
  destruct (sweep_left_ok j Hj (Z.to_nat (Z.of_nat size - 1)) 0 (vconst nmaxv) (vconst (nopp nmaxv)) bins)
    as (bins' & -> & Hl'); [lia|exact Hl|]. cbn [bind].
  destruct (sweep_right_ok j Hj (Z.to_nat (Z.of_nat size - 1)) 0 0 (vconst nmaxv) (vconst (nopp nmaxv)) nmaxv 1 bins')
    as ([mc mb] & ->); [lia|exact Hl'|]. cbn [bind]. eauto 10.
Qed.

Lemma find_best_ok ids mn mx bins :
  sort_collection_into_bins c ids mn mx opt = Ok bins -> length bins = 3 * size ->
  exists a, find_best_split_binned c ids mn mx opt = Ok a.
Proof.
  intros E Hl. unfold find_best_split_binned. rewrite E. cbn [bind].
  destruct (axis_split_ok 0 (vx mn) (vx mx) bins) as (x0 & y0 & b0 & -> & H0); [lia|exact Hl|]. cbn [bind].
  destruct (axis_split_ok 1 (vy mn) (vy mx) b0) as (x1 & y1 & b1 & -> & H1); [lia|exact H0|]. cbn [bind].
  destruct (axis_split_ok 2 (vz mn) (vz mx) b1) as (x2 & y2 & b2 & -> & H2); [lia|exact H1|]. cbn [bind].
  destruct (nltb x1 x0); eauto.
Qed.

Hypothesis Hbox : forall i, i < c_size c -> exists b, c_box c i = Ok b.
Hypothesis Hctr : forall i, i < c_size c -> exists b, c_center c i = Ok b.
Hypothesis Hprim : forall i, i < c_size c -> exists b, c_prim c i = Ok b.
(** Every bin index is convertible. *)
Hypothesis Hbins : forall ids mn mx, (forall i, In i ids -> i < c_size c) ->
  compute_bounding_box c ids = Ok (mn, mx) ->
  exists bins, sort_collection_into_bins c ids mn mx opt = Ok bins /\ length bins = 3 * size.

Lemma split_defined ids mn mx st : (forall i, In i ids -> i < c_size c) ->
  compute_bounding_box c ids = Ok (mn, mx) ->
  exists a, split part c ids mn mx st opt = Ok a.
Proof.
  intros Hi Hb. destruct (Hbins ids mn mx Hi Hb) as (bins & E & Hl).
  unfold split. destruct (find_best_ok ids mn mx bins E Hl) as ([ax cut] & ->). cbn [bind].
  destruct (mapM_ok (c_center c) ids) as (cs & ->); [auto|]. cbn [bind].
  destruct (split_loop part c 3 ax cut ids [] (st_bad st)) as [[[a1 l1] r1] bad]. eauto.
Qed.

(** The recursion stops at the depth limit, one call deep beyond it at most. *)
Lemma build_recursive_ok : forall fuel nodes ids depth st,
  (forall i, In i ids -> i < c_size c) -> depth <= max_tree_depth opt ->
  max_tree_depth opt < fuel + depth ->
  exists a, build_recursive part fuel nodes c ids depth st opt = Ok a.
Proof.
  induction fuel as [|fuel IH]; intros nodes ids depth st Hi Hd Hf; [lia|]. cbn [build_recursive].
  destruct (bbox_ok ids (vconst nmaxv) (vconst (nopp nmaxv))) as ([mn mx] & Ebb); [auto|].
  assert (Ebb' : compute_bounding_box c ids = Ok (mn, mx)) by exact Ebb.
  rewrite Ebb'. cbn [bind].
  destruct ((length ids <=? min_leaf_primitives opt) || (max_tree_depth opt <=? depth)) eqn:Elf.
  - unfold create_leaf. destruct (mapM_ok (c_prim c) ids) as (ps & ->); [auto|]. cbn [bind]. eauto.
  - apply orb_false_iff in Elf as [_ El2]. apply Nat.leb_gt in El2.
    destruct (split_defined ids mn mx (stat_depth depth st) Hi Ebb') as ([[[ax l] r] st'] & Esp).
    pose proof (split_ok part c opt Hpart _ _ _ _ _ _ _ _ Esp) as (_ & Hperm & _).
    unfold create_branch. rewrite Esp. cbn [bind].
    assert (Hl : forall i, In i l -> i < c_size c).
    { intros i Hin. apply Hi. eapply Permutation_in; [exact Hperm|]. apply in_or_app; auto. }
    assert (Hr : forall i, In i r -> i < c_size c).
    { intros i Hin. apply Hi. eapply Permutation_in; [exact Hperm|]. apply in_or_app; auto. }
    destruct (IH (nodes ++ [Node mn mx false (Some ax) None None []]) l (depth + 1) (stat_branch st') Hl)
      as ([[nodes1 st1] k0] & E0); [lia|lia|].
    rewrite E0. cbn [bind].
    destruct (build_recursive_tree part c opt Hpart _ _ _ _ _ _ _ _ E0) as (t0 & _ & _ & -> & _).
    match goal with |- context [at_ UBnode ?l (length nodes)] => destruct (at_lt UBnode l (length nodes)) as (nd & End) end.
    { rewrite !app_length. cbn. lia. }
    rewrite End. cbn [bind].
    match goal with |- context [build_recursive part fuel ?ns c r ?d ?s opt] =>
      destruct (IH ns r d s Hr) as ([[nodes2 st2] k1] & E1); [lia|lia|] end.
    rewrite E1. cbn [bind].
    destruct (build_recursive_tree part c opt Hpart _ _ _ _ _ _ _ _ E1) as (t1 & _ & _ & -> & _).
    match goal with |- context [at_ UBnode ?l (length nodes)] => destruct (at_lt UBnode l (length nodes)) as (nd1 & End1) end.
    { rewrite app_length, list_set_length, !app_length. cbn. lia. }
    rewrite End1. cbn [bind]. eauto.
Qed.

Lemma build_defined nodes : exists nodes' st, build part nodes c opt = Ok (nodes', st).
Proof.
  unfold build.
  destruct (build_recursive_ok (S (max_tree_depth opt)) nodes (seq 0 (c_size c)) 0 stats0)
    as ([[nodes' st] off] & ->); [|lia|lia|cbn [bind]; eauto].
  intros i Hi. apply in_seq in Hi. lia.
Qed.
End Defined.
