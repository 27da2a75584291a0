(** The builder is defined in ideal arithmetic on well-formed collections. *)

From Coq Require Import Reals ZArith List Bool Arith Lra Lia Permutation.
From Verif Require Import Num NumR NumX Vec Datatypes Bvh SpecBvh SpecReal SpecNearest.
From Verif Require Import PfBuild PfX PfNearest2 PfDefined.
Import ListNotations.

Local Arguments Nat.ltb : simpl never.
Local Arguments Nat.leb : simpl never.

Lemma Rround_range x n : (0 <= x <= IZR n)%R -> (0 <= Rround x <= n)%Z.
Proof.
  intros [H0 H1]. unfold Rround. destruct (Rle_dec 0 x) as [_|Hn]; [|destruct (Hn H0)].
  destruct (base_Int_part (x + / 2)) as [B1 B2].
  split.
  - apply Z.lt_succ_r. apply lt_IZR. unfold Z.succ. rewrite plus_IZR. lra.
  - apply Z.lt_succ_r. apply lt_IZR. unfold Z.succ. rewrite plus_IZR. lra.
Qed.

Section D.
Variables big tiny eps : R.
Notation XN := (Xnum big tiny eps).
Context {P : Type}.
Variable c : coll xr P.
Variables bmin bmax ctr : nat -> vec R.
Hypothesis Hbox : boxes_are c bmin bmax.
Hypothesis Hbd : forall i, i < c_size c -> in_bounds big (bmin i) /\ in_bounds big (bmax i).
Hypothesis Hctr : forall i, i < c_size c -> exists v, c_center c i = Ok v /\ visR v (ctr i) /\
  in_box (bmin i) (bmax i) (ctr i).
Variable opt : options.
Notation size := (bin_size opt).
Hypothesis Hsize : 1 <= size.
Hypothesis Hsmall : (3 * Z.of_nat size < 4294967296)%Z.

Definition rinv (s : R) : R := if Rlt_dec 0 s then (1 / s)%R else 0%R.

Lemma inv_isR s r : isR s r -> isR (if @nltb _ XN (@n0 _ XN) s then @ndiv _ XN (@n1 _ XN) s else @n0 _ XN) (rinv r).
Proof.
  intros H. cbn [nltb ndiv XN Xnum n0 n1 nofZ]. rewrite (isR_ltb _ _ _ _ (isR_fin 0) H).
  unfold rinv, Rltb. destruct (Rlt_dec 0 r) as [Hr|Hr]; [|reflexivity].
  apply isR_div; [reflexivity|exact H|lra].
Qed.

Lemma rinv_range a A x : (a <= x <= A)%R -> (0 <= (x - a) * rinv (A - a) <= 1)%R.
Proof.
  intros [H1 H2]. unfold rinv. destruct (Rlt_dec 0 (A - a)) as [Hp|Hp]; [|lra].
  assert (Hi : (0 < 1 / (A - a))%R) by (apply Rdiv_lt_0_compat; lra).
  split; [apply Rmult_le_pos; lra|].
  apply Rmult_le_reg_r with (A - a)%R; [exact Hp|].
  replace ((x - a) * (1 / (A - a)) * (A - a))%R with (x - a)%R by (field; lra). lra.
Qed.

Lemma round_ok x a A : isR x ((a * A) * IZR (Z.of_nat size - 1)) -> (0 <= a * A <= 1)%R ->
  exists z, @nround_u _ XN x = Some z.
Proof.
  intros H1 H2. cbn [nround_u XN Xnum]. destruct (isR_ex _ _ H1) as (s & ->). unfold xround_u, u32_of_Z.
  assert (Hz : (0 <= IZR (Z.of_nat size - 1))%R) by (apply IZR_le; lia).
  assert (Hr : (0 <= Rround (a * A * IZR (Z.of_nat size - 1)) <= Z.of_nat size - 1)%Z).
  { apply Rround_range. split; [apply Rmult_le_pos; lra|].
    rewrite <- (Rmult_1_l (IZR (Z.of_nat size - 1))) at 2. apply Rmult_le_compat_r; lra. }
  exists (Rround (a * A * IZR (Z.of_nat size - 1))).
  replace (0 <=? _)%Z with true by (symmetry; apply Z.leb_le; lia).
  replace (_ <? 4294967296)%Z with true by (symmetry; apply Z.ltb_lt; lia). reflexivity.
Qed.

Lemma bins_loop_ok mn inv a A : visR mn a ->
  visR inv (V (rinv (vx A - vx a)) (rinv (vy A - vy a)) (rinv (vz A - vz a))) ->
  forall ids bins, length bins = 3 * size -> (forall i, In i ids -> i < c_size c /\ in_box a A (ctr i)) ->
  exists bins', @bins_loop _ XN _ c size mn inv ids bins = Ok bins' /\ length bins' = 3 * size.
Proof.
  intros Hmn Hinv. induction ids as [|i ids IH]; intros bins Hl Hi; cbn [bins_loop]; [eauto|].
  destruct (Hi i (or_introl eq_refl)) as [Hlt (I1 & I2 & I3)].
  destruct (Hbox i Hlt) as ([bmn bmx] & -> & _ & _). cbn [bind].
  destruct (Hctr i Hlt) as (v & -> & Hv & _). cbn [bind].
  rewrite (usub1_small opt Hsize Hsmall).
  destruct Hmn as (M1 & M2 & M3), Hinv as (V1 & V2 & V3), Hv as (C1 & C2 & C3).
  cbn [vx vy vz] in V1, V2, V3.
  assert (Hk : forall cx mx ix cr mr Mr, isR cx cr -> isR mx mr -> isR ix (rinv (Mr - mr)) -> (mr <= cr <= Mr)%R ->
    exists z, @nround_u _ XN (xmul (xmul (xsub cx mx) ix) (Fin (IZR (Z.of_nat size - 1)))) = Some z).
  { intros cx mx ix cr mr Mr Hc Hm Hx Hr.
    apply round_ok with (cr - mr)%R (rinv (Mr - mr)); [|apply rinv_range, Hr].
    apply isR_mul; [|reflexivity]. apply isR_mul; [|exact Hx]. apply isR_sub; assumption. }
  destruct (Hk _ _ _ _ _ _ C1 M1 V1 I1) as (z1 & Z1).
  destruct (Hk _ _ _ _ _ _ C2 M2 V2 I2) as (z2 & Z2).
  destruct (Hk _ _ _ _ _ _ C3 M3 V3 I3) as (z3 & Z3).
  destruct (@bin_add_ok _ XN opt Hsize Hsmall 0 _ bmn bmx bins z1 (Nat.lt_0_succ _) Hl Z1) as (b1 & E1 & L1).
  destruct (@bin_add_ok _ XN opt Hsize Hsmall 1 _ bmn bmx b1 z2 (le_n_S _ _ (le_n_S _ _ (Nat.le_0_l _))) L1 Z2) as (b2 & E2 & L2).
  destruct (@bin_add_ok _ XN opt Hsize Hsmall 2 _ bmn bmx b2 z3 (le_n 3) L2 Z3) as (b3 & E3 & L3).
  match goal with |- context [bind (bin_add _ _ ?x _ _ _)] => change x with (xmul (xmul (xsub (vx v) (vx mn)) (vx inv)) (Fin (IZR (Z.of_nat size - 1)))) end.
  rewrite E1. cbn [bind].
  match goal with |- context [bind (bin_add _ _ ?x _ _ _)] => change x with (xmul (xmul (xsub (vy v) (vy mn)) (vy inv)) (Fin (IZR (Z.of_nat size - 1)))) end.
  rewrite E2. cbn [bind].
  match goal with |- context [bind (bin_add _ _ ?x _ _ _)] => change x with (xmul (xmul (xsub (vz v) (vz mn)) (vz inv)) (Fin (IZR (Z.of_nat size - 1)))) end.
  rewrite E3. cbn [bind].
  apply IH; [exact L3|]. intros; apply Hi; right; assumption.
Qed.

Lemma bins_ok ids mn mx : (forall i, In i ids -> i < c_size c) ->
  @compute_bounding_box _ XN _ c ids = Ok (mn, mx) ->
  exists bins, @sort_collection_into_bins _ XN _ c ids mn mx opt = Ok bins /\ length bins = 3 * size.
Proof.
  intros Hi Hb. unfold sort_collection_into_bins.
  assert (Hl : length (repeat (@new_bin _ XN) (3 * size)) = 3 * size) by apply repeat_length.
  destruct ids as [|i0 ids0]; [cbn [bins_loop]; eauto|].
  destruct (compute_real big tiny eps c bmin bmax Hbox Hbd (i0 :: ids0) mn mx i0 Hi (or_introl eq_refl) Hb)
    as (a & A & Ha & HA & Hall & _).
  apply (bins_loop_ok mn _ a A).
  - exact Ha.
  - destruct Ha as (A1 & A2 & A3), HA as (B1 & B2 & B3).
    repeat split; apply inv_isR; apply isR_sub; assumption.
  - exact Hl.
  - intros i Hin. split; [auto|]. destruct (Hall i Hin) as [(L1 & L2 & L3) (U1 & U2 & U3)].
    destruct (Hctr i (Hi i Hin)) as (v & _ & _ & (X1 & X2 & X3)). unfold in_box. lra.
Qed.

Variable part : (nat -> bool) -> list nat -> list nat * list nat.
Hypothesis Hpart : partition_ok part.
Hypothesis Hprim : forall i, i < c_size c -> exists b, c_prim c i = Ok b.

Lemma build_ok nodes : exists nodes' st, @build _ XN _ part nodes c opt = Ok (nodes', st).
Proof.
  apply (@build_defined _ _ XN part Hpart c opt Hsize Hsmall).
  - intros i Hi. destruct (Hbox i Hi) as (b & E & _). eauto.
  - intros i Hi. destruct (Hctr i Hi) as (b & E & _). eauto.
  - exact Hprim.
  - apply bins_ok.
Qed.
End D.

(** Zero bins: undefined as soon as anything is binned, in any arithmetic. *)
Lemma zero_bins (T P : Type) (N : num T) part (c : coll T P) opt nodes :
  bin_size opt = 0 -> min_leaf_primitives opt < c_size c -> 0 < max_tree_depth opt ->
  (forall i, i < c_size c -> exists b, c_box c i = Ok b) ->
  (forall i, i < c_size c -> exists v, c_center c i = Ok v) ->
  exists w, @build T N P part nodes c opt = UB w.
Proof.
  intros Hb Hm Hd Hbox Hctr. unfold build. cbn [build_recursive].
  rewrite seq_length. replace (c_size c <=? min_leaf_primitives opt) with false by (symmetry; apply Nat.leb_gt; lia).
  replace (max_tree_depth opt <=? 0) with false by (symmetry; apply Nat.leb_gt; lia). cbn [orb].
  assert (Hlt : forall i, In i (seq 0 (c_size c)) -> i < c_size c) by (intros i Hi; apply in_seq in Hi; lia).
  destruct (bbox_ok c (seq 0 (c_size c)) (vconst nmaxv) (vconst (nopp nmaxv))) as ([mn mx] & Ebb); [auto|].
  unfold compute_bounding_box. rewrite Ebb. cbn [bind].
  assert (Hs : exists w, sort_collection_into_bins c (seq 0 (c_size c)) mn mx opt = UB w).
  { unfold sort_collection_into_bins. rewrite Hb. cbn [Nat.mul repeat].
    destruct (c_size c) as [|n] eqn:En; [lia|]. cbn [seq bins_loop].
    destruct (Hbox 0) as ([b1 b2] & ->); [lia|]. cbn [bind].
    destruct (Hctr 0) as (v & ->); [lia|]. cbn [bind].
    unfold bin_add. destruct (nround_u _) as [z|]; [|cbn [bind]; eauto].
    replace (_ <? Z.of_nat (@length (bin T) []))%Z with false; [cbn [bind]; eauto|].
    symmetry. apply Z.ltb_ge. cbn. pose proof (Z.le_max_l 0 z).
    change (usub1 0) with 4294967295%Z. lia. }
  destruct Hs as (w & Hs). exists w.
  unfold create_branch, split, find_best_split_binned. rewrite Hs. reflexivity.
Qed.
