(** The binned cut in exact arithmetic has least cost. *)

From Coq Require Import Reals ZArith List Bool Arith Lra Lia.
From Verif Require Import Num NumR NumX Vec Datatypes Bvh SpecBvh SpecReal SpecNearest SpecBins.
From Verif Require Import PfBuild PfBuild2 PfX PfNumbered PfSphere2 PfDefined PfDefined2 PfBins.
Import ListNotations.
Local Open Scope R_scope.

Local Arguments Nat.ltb : simpl never.
Local Arguments Nat.leb : simpl never.
Local Arguments Nat.eqb : simpl never.

(** Least value of [f] on [S], at most [big]. *)
Section Low.
Variable big : R.
Definition low (f : nat -> R) (S : list nat) : R := fold_right (fun i acc => Rmin (f i) acc) big S.
Lemma low_big f S : low f S <= big.
Proof. induction S as [|i S IH]; cbn; [lra|]. pose proof (Rmin_r (f i) (low f S)). unfold low in *. lra. Qed.
Lemma low_in f S i : In i S -> low f S <= f i.
Proof.
  induction S as [|x S IH]; intros H; [destruct H|]. cbn. fold (low f S). destruct H as [->|H].
  - apply Rmin_l.
  - pose proof (Rmin_r (f x) (low f S)). specialize (IH H). lra.
Qed.
Lemma low_att f S : S <> [] -> (forall i, In i S -> f i <= big) -> exists i, In i S /\ f i = low f S.
Proof.
  induction S as [|x S IH]; intros Hne H; [congruence|]. cbn. fold (low f S).
  destruct (Rle_dec (f x) (low f S)) as [L|L].
  - exists x. split; [left; reflexivity|]. rewrite Rmin_left by lra. reflexivity.
  - assert (S <> []). { intros ->. apply L. cbn. apply H. left. reflexivity. }
    destruct (IH H0 (fun i Hi => H i (or_intror Hi))) as (i & Hi & E).
    exists i. split; [right; exact Hi|]. rewrite Rmin_right by lra. exact E.
Qed.
Lemma low_or f (p q1 q2 : nat -> bool) S : (forall i, p i = q1 i || q2 i) ->
  low f (filter p S) = Rmin (low f (filter q1 S)) (low f (filter q2 S)).
Proof.
  intros H. induction S as [|i S IH]; cbn [filter].
  - cbn. rewrite Rmin_left; lra.
  - rewrite H. destruct (q1 i), (q2 i); cbn [orb low fold_right]; fold (low f (filter p S));
      fold (low f (filter q1 S)); fold (low f (filter q2 S)); rewrite IH; unfold Rmin;
      repeat destruct (Rle_dec _ _); lra.
Qed.
Lemma low_none f p S : (forall i, p i = false) -> low f (filter p S) = big.
Proof. intros H. induction S as [|i S IH]; cbn; [reflexivity|]. rewrite H. exact IH. Qed.
Definition high (f : nat -> R) (S : list nat) : R := - low (fun i => - f i) S.
Lemma high_or f (p q1 q2 : nat -> bool) S : (forall i, p i = q1 i || q2 i) ->
  high f (filter p S) = Rmax (high f (filter q1 S)) (high f (filter q2 S)).
Proof.
  intros H. unfold high. rewrite (low_or _ p q1 q2 S H). unfold Rmin, Rmax.
  repeat destruct (Rle_dec _ _); lra.
Qed.
End Low.

Lemma length_or (p q1 q2 : nat -> bool) S : (forall i, p i = q1 i || q2 i) -> (forall i, q1 i && q2 i = false) ->
  length (filter p S) = (length (filter q1 S) + length (filter q2 S))%nat.
Proof.
  intros H H'. induction S as [|i S IH]; cbn [filter]; [reflexivity|]. rewrite H. specialize (H' i).
  destruct (q1 i), (q2 i); cbn [orb length andb] in *; try discriminate; lia.
Qed.
Lemma length_none (p : nat -> bool) S : (forall i, p i = false) -> filter p S = [].
Proof. intros H. induction S as [|i S IH]; cbn; [reflexivity|]. rewrite H. exact IH. Qed.

Definition rarea (m M : vec R) : R :=
  let x := Rabs (vx M - vx m) in let y := Rabs (vy M - vy m) in let z := Rabs (vz M - vz m) in
  2 * (x * y + y * z + z * x).

Section B.
Variables big tiny eps : R.
Notation XN := (Xnum big tiny eps).
Context {P : Type}.
Variable c : coll xr P.
Variables lo hi : nat -> vec R.
Variable ids : list nat.
Hypothesis Hbox : forall i, In i ids -> exists b, c_box c i = Ok b /\ visR (fst b) (lo i) /\ visR (snd b) (hi i).
Hypothesis Hbd : forall i, In i ids -> in_bounds big (lo i) /\ in_bounds big (hi i).
Hypothesis Hord : forall i j, In i ids -> (j < 3)%nat -> comp (lo i) j <= comp (hi i) j.
Variable size : nat.
Hypothesis Hsize : (1 <= size)%nat.
Hypothesis Hsmall : (3 * Z.of_nat size < 4294967296)%Z.

Definition lowv (S : list nat) : vec R :=
  V (low big (fun i => vx (lo i)) S) (low big (fun i => vy (lo i)) S) (low big (fun i => vz (lo i)) S).
Definition highv (S : list nat) : vec R :=
  V (high big (fun i => vx (hi i)) S) (high big (fun i => vy (hi i)) S) (high big (fun i => vz (hi i)) S).
Definition scost (S : list nat) : R := INR (length S) * rarea (lowv S) (highv S).

Lemma unity_low mn mx bm bM p q1 q2 S : (forall i, p i = q1 i || q2 i) ->
  visR mn (lowv (filter q1 S)) -> visR mx (highv (filter q1 S)) ->
  visR bm (lowv (filter q2 S)) -> visR bM (highv (filter q2 S)) ->
  visR (fst (@unity _ XN mn mx bm bM)) (lowv (filter p S)) /\
  visR (snd (@unity _ XN mn mx bm bM)) (highv (filter p S)).
Proof.
  intros H (A1 & A2 & A3) (B1 & B2 & B3) (C1 & C2 & C3) (D1 & D2 & D3).
  unfold lowv, highv, unity in *. cbn [vx vy vz fst snd] in *.
  split; repeat split; cbn [vx vy vz vmap2].
  1-3: rewrite (low_or big _ p q1 q2 S H); apply isR_smin; assumption.
  all: rewrite (high_or big _ p q1 q2 S H), Rmax_comm; apply isR_smax; assumption.
Qed.

Lemma bbox_low : forall S mn mx a A mn' mx', incl S ids ->
  (vx a <= big /\ vy a <= big /\ vz a <= big) -> (- big <= vx A /\ - big <= vy A /\ - big <= vz A) ->
  visR mn a -> visR mx A -> @bbox_loop _ XN _ c mn mx S = Ok (mn', mx') ->
  visR mn' (V (Rmin (vx a) (vx (lowv S))) (Rmin (vy a) (vy (lowv S))) (Rmin (vz a) (vz (lowv S)))) /\
  visR mx' (V (Rmax (vx A) (vx (highv S))) (Rmax (vy A) (vy (highv S))) (Rmax (vz A) (vz (highv S)))).
Proof.
  induction S as [|i S IH]; intros mn mx a A mn' mx' Hin Ha HA Hmn Hmx H; cbn [bbox_loop] in H.
  - injection H as <- <-. unfold lowv, highv, high, low. cbn [vx vy vz fold_right].
    rewrite !Rmin_left by lra. rewrite !Rmax_left by lra. destruct a, A. split; assumption.
  - destruct (Hbox i (Hin i (or_introl eq_refl))) as ([b1 b2] & Eb & Hb1 & Hb2).
    rewrite Eb in H. cbn [bind fst snd] in *. unfold unity in H.
    set (mn1 := vmap2 smin b1 mn) in H. set (mx1 := vmap2 smax b2 mx) in H.
    assert (H1 : visR mn1 (V (Rmin (vx a) (vx (lo i))) (Rmin (vy a) (vy (lo i))) (Rmin (vz a) (vz (lo i))))).
    { destruct Hmn as (? & ? & ?), Hb1 as (? & ? & ?). repeat split; cbn; apply isR_smin; assumption. }
    assert (H2 : visR mx1 (V (Rmax (vx (hi i)) (vx A)) (Rmax (vy (hi i)) (vy A)) (Rmax (vz (hi i)) (vz A)))).
    { destruct Hmx as (? & ? & ?), Hb2 as (? & ? & ?). repeat split; cbn; apply isR_smax; assumption. }
    pose proof (Rmin_l (vx a) (vx (lo i))). pose proof (Rmin_l (vy a) (vy (lo i))). pose proof (Rmin_l (vz a) (vz (lo i))).
    pose proof (Rmax_r (vx (hi i)) (vx A)). pose proof (Rmax_r (vy (hi i)) (vy A)). pose proof (Rmax_r (vz (hi i)) (vz A)).
    assert (HB : forall x y z, x <= big -> y <= big -> z <= big -> vx (V x y z) <= big /\ vy (V x y z) <= big /\ vz (V x y z) <= big)
      by (intros; cbn; lra).
    assert (HB' : forall x y z, - big <= x -> - big <= y -> - big <= z ->
      - big <= vx (V x y z) /\ - big <= vy (V x y z) /\ - big <= vz (V x y z)) by (intros; cbn; lra).
    destruct (IH _ _ _ _ mn' mx' (fun x Hx => Hin x (or_intror Hx))
      (HB (Rmin (vx a) (vx (lo i))) (Rmin (vy a) (vy (lo i))) (Rmin (vz a) (vz (lo i))) ltac:(lra) ltac:(lra) ltac:(lra))
      (HB' (Rmax (vx (hi i)) (vx A)) (Rmax (vy (hi i)) (vy A)) (Rmax (vz (hi i)) (vz A)) ltac:(lra) ltac:(lra) ltac:(lra))
      H1 H2 H) as [R1 R2].
    unfold lowv, highv, high, low in *. cbn [vx vy vz fold_right] in *. fold (low big (fun i => vx (lo i)) S) in *.
    destruct R1 as (P1 & P2 & P3), R2 as (Q1 & Q2 & Q3). cbn [vx vy vz] in *.
    assert (M : forall x y z, Rmin x (Rmin y z) = Rmin (Rmin x y) z) by (intros; unfold Rmin; repeat destruct (Rle_dec _ _); lra).
    assert (M' : forall x y z, Rmax x (- Rmin (- y) z) = Rmax (Rmax y x) (- z)) by (intros; unfold Rmin, Rmax; repeat destruct (Rle_dec _ _); lra).
    split; repeat split; cbn [vx vy vz]; rewrite ?M, ?M'; assumption.
Qed.

Lemma compute_low S mn mx : incl S ids -> @compute_bounding_box _ XN _ c S = Ok (mn, mx) ->
  visR mn (lowv S) /\ visR mx (highv S).
Proof.
  intros Hin H. unfold compute_bounding_box in H.
  assert (H1 : visR (vconst (@nmaxv _ XN)) (V big big big)) by (apply visR_const; reflexivity).
  assert (H2 : visR (vconst (@nopp _ XN (@nmaxv _ XN))) (V (- big) (- big) (- big))) by (apply visR_const; reflexivity).
  assert (B1 : vx (V big big big) <= big /\ vy (V big big big) <= big /\ vz (V big big big) <= big) by (cbn; lra).
  assert (B2 : - big <= vx (V (- big) (- big) (- big)) /\ - big <= vy (V (- big) (- big) (- big)) /\
    - big <= vz (V (- big) (- big) (- big))) by (cbn; lra).
  destruct (bbox_low S _ _ _ _ mn mx Hin B1 B2 H1 H2 H) as [(P1 & P2 & P3) (Q1 & Q2 & Q3)].
  unfold lowv, highv, high in *. cbn [vx vy vz] in *.
  pose proof (low_big big (fun i => vx (lo i)) S). pose proof (low_big big (fun i => vy (lo i)) S).
  pose proof (low_big big (fun i => vz (lo i)) S). pose proof (low_big big (fun i => - vx (hi i)) S).
  pose proof (low_big big (fun i => - vy (hi i)) S). pose proof (low_big big (fun i => - vz (hi i)) S).
  rewrite Rmin_right in P1, P2, P3 by lra. rewrite Rmax_right in Q1, Q2, Q3 by lra.
  split; repeat split; assumption.
Qed.

Lemma surface_is mn mx a A : visR mn a -> visR mx A -> isR (@calculate_box_surface _ XN mn mx) (rarea a A).
Proof.
  intros (A1 & A2 & A3) (B1 & B2 & B3). unfold calculate_box_surface, rarea. cbv zeta.
  apply isR_mul; [reflexivity|]. apply isR_add; [apply isR_add|]; apply isR_mul; apply isR_abs, isR_sub; assumption.
Qed.

Lemma cost_is n mn mx S : n = length S -> visR mn (lowv S) -> visR mx (highv S) ->
  isR (@nmul _ XN (@nofZ _ XN (Z.of_nat n)) (@calculate_box_surface _ XN mn mx)) (scost S).
Proof.
  intros -> H1 H2. unfold scost. apply isR_mul; [|apply surface_is; assumption].
  cbn [nofZ XN Xnum]. unfold Fin, isR. symmetry. apply INR_IZR_INZ.
Qed.

(** The hull and the costs. *)
Lemma lowv_hull S : incl S ids -> S <> [] -> hull lo hi S (lowv S) (highv S).
Proof.
  intros Hin Hne.
  assert (A : forall f, (forall i, In i ids -> f i <= big) ->
    (forall i, In i S -> low big f S <= f i) /\ exists i, In i S /\ f i = low big f S).
  { intros f Hf. split; [intros; apply low_in; assumption|]. apply low_att; [exact Hne|]. intros i Hi. apply Hf, Hin, Hi. }
  intros j Hj.
  assert (Hl : forall i, In i ids -> comp (lo i) j <= big).
  { intros i Hi. destruct (Hbd i Hi) as [(? & ? & ?) _]. destruct j as [|[|[|j]]]; cbn [comp]; lra. }
  assert (Hh : forall i, In i ids -> - comp (hi i) j <= big).
  { intros i Hi. destruct (Hbd i Hi) as [_ (? & ? & ?)]. destruct j as [|[|[|j]]]; cbn [comp]; lra. }
  destruct (A _ Hl) as [L1 L2]. destruct (A _ Hh) as [U1 (u & Hu & U2)].
  assert (El : comp (lowv S) j = low big (fun i => comp (lo i) j) S) by (destruct j as [|[|[|j]]]; try reflexivity; lia).
  assert (Eh : comp (highv S) j = high big (fun i => comp (hi i) j) S) by (destruct j as [|[|[|j]]]; try reflexivity; lia).
  rewrite El, Eh. split; [|split].
  - intros i Hi. split; [apply L1, Hi|]. specialize (U1 i Hi). unfold high. lra.
  - exact L2.
  - exists u. split; [exact Hu|]. unfold high. lra.
Qed.

Lemma hull_area S m M : incl S ids -> hull lo hi S m M -> forall j, (j < 3)%nat -> comp m j <= comp M j.
Proof.
  intros Hin H j Hj. destruct (H j Hj) as (H1 & (i & Hi & E) & _).
  destruct (H1 i Hi). pose proof (Hord i j (Hin i Hi) Hj). lra.
Qed.

Lemma scost_is S : incl S ids -> side_cost lo hi S (scost S).
Proof.
  intros Hin. destruct S as [|i S]; [left; split; [reflexivity|unfold scost; cbn; lra]|].
  right. exists (lowv (i :: S)), (highv (i :: S)).
  assert (Hh : hull lo hi (i :: S) (lowv (i :: S)) (highv (i :: S))) by (apply lowv_hull; [exact Hin|discriminate]).
  split; [exact Hh|]. unfold scost. f_equal.
  pose proof (hull_area _ _ _ Hin Hh 0 ltac:(lia)). pose proof (hull_area _ _ _ Hin Hh 1 ltac:(lia)).
  pose proof (hull_area _ _ _ Hin Hh 2 ltac:(lia)). cbn [comp] in *.
  unfold rarea, area. cbv zeta. rewrite !Rabs_right by lra. reflexivity.
Qed.

Lemma hull_unique S m M m' M' : hull lo hi S m M -> hull lo hi S m' M' -> m = m' /\ M = M'.
Proof.
  intros H H'.
  assert (G : forall j, (j < 3)%nat -> comp m j = comp m' j /\ comp M j = comp M' j).
  { intros j Hj. destruct (H j Hj) as (A & (i & Hi & E) & (k & Hk & F)), (H' j Hj) as (A' & (i' & Hi' & E') & (k' & Hk' & F')).
    pose proof (A i' Hi'). pose proof (A' i Hi). pose proof (A k' Hk'). pose proof (A' k Hk). lra. }
  destruct (G 0%nat ltac:(lia)), (G 1%nat ltac:(lia)), (G 2%nat ltac:(lia)). cbn [comp] in *.
  split; apply vec_eq; assumption.
Qed.
Lemma side_cost_unique S r r' : side_cost lo hi S r -> side_cost lo hi S r' -> r = r'.
Proof.
  intros [(E & ->)|(m & M & H & ->)] [(E' & ->)|(m' & M' & H' & ->)]; try reflexivity.
  - subst S. cbn. lra.
  - subst S. cbn. lra.
  - destruct (hull_unique _ _ _ _ _ H H') as [-> ->]. reflexivity.
Qed.

Lemma scost_bound S m M : incl S ids -> (forall j, (j < 3)%nat -> comp m j <= comp M j) ->
  (forall i j, In i ids -> (j < 3)%nat -> comp m j <= comp (lo i) j /\ comp (hi i) j <= comp M j) ->
  scost S <= INR (length S) * area m M.
Proof.
  intros Hin Hm Hall. destruct (scost_is S Hin) as [(E & ->)|(a & A & Hh & ->)]; [subst S; cbn; lra|].
  apply Rmult_le_compat_l; [apply pos_INR|].
  assert (G : forall j, (j < 3)%nat -> 0 <= comp A j - comp a j <= comp M j - comp m j).
  { intros j Hj. pose proof (hull_area _ _ _ Hin Hh j Hj). destruct (Hh j Hj) as (_ & (i & Hi & E) & (k & Hk & F)).
    destruct (Hall i j (Hin i Hi) Hj), (Hall k j (Hin k Hk) Hj). lra. }
  pose proof (G 0%nat ltac:(lia)) as G0. pose proof (G 1%nat ltac:(lia)) as G1. pose proof (G 2%nat ltac:(lia)) as G2.
  cbn [comp] in *. unfold area. apply Rmult_le_compat_l; [lra|].
  apply Rplus_le_compat; [apply Rplus_le_compat|]; apply Rmult_le_compat; lra.
Qed.

(** One axis. *)
Section Axis.
Variable w : nat -> nat -> nat.
Variable j : nat.
Hypothesis Hj : (j < 3)%nat.
Notation wj := (w j).
Hypothesis Hw : forall i, (wj i < size)%nat.
Notation cutl k := (filter (fun i => (wj i <? k)%nat) ids).
Notation cutr k := (filter (fun i => (k <=? wj i)%nat) ids).
Definition kcost (k : nat) : R := scost (cutl k) + scost (cutr k).

Lemma incl_filter p : incl (filter p ids) ids.
Proof. intros i Hi. apply filter_In in Hi. apply Hi. Qed.

Lemma kcost_is k : cut_cost lo hi wj ids k (kcost k).
Proof.
  exists (scost (cutl k)), (scost (cutr k)).
  split; [apply scost_is, incl_filter|]. split; [apply scost_is, incl_filter|reflexivity].
Qed.

Definition costs_from (i : nat) (bins : list (bin xr)) : Prop :=
  forall k b, (i <= k < size)%nat -> nth_error bins (j * size + k) = Some b -> isR (b_cost b) (scost (cutr k)).

Lemma le_or k i : (k <=? wj i)%nat = (S k <=? wj i)%nat || (wj i =? k)%nat.
Proof.
  destruct (Nat.leb_spec k (wj i)), (Nat.leb_spec (S k) (wj i)), (Nat.eqb_spec (wj i) k); cbn; try reflexivity; lia.
Qed.
Lemma le_and k i : (S k <=? wj i)%nat && (wj i =? k)%nat = false.
Proof. destruct (Nat.leb_spec (S k) (wj i)), (Nat.eqb_spec (wj i) k); cbn; try reflexivity; lia. Qed.
Lemma lt_or k i : (wj i <? S k)%nat = (wj i <? k)%nat || (wj i =? k)%nat.
Proof.
  destruct (Nat.ltb_spec (wj i) (S k)), (Nat.ltb_spec (wj i) k), (Nat.eqb_spec (wj i) k); cbn; try reflexivity; lia.
Qed.
Lemma lt_and k i : (wj i <? k)%nat && (wj i =? k)%nat = false.
Proof. destruct (Nat.ltb_spec (wj i) k), (Nat.eqb_spec (wj i) k); cbn; try reflexivity; lia. Qed.

Lemma sweep_left_costs : forall i count mn mx bins bins', (i < size)%nat ->
  binned (N := XN) c size w (fun _ => ids) bins -> count = length (cutr (S i)) ->
  visR mn (lowv (cutr (S i))) -> visR mx (highv (cutr (S i))) -> costs_from (S i) bins ->
  @sweep_left _ XN size j i count mn mx bins = Ok bins' ->
  binned (N := XN) c size w (fun _ => ids) bins' /\ costs_from 1 bins'.
Proof.
  induction i as [|i IH]; intros count mn mx bins bins' Hi Hb Hc Hmn Hmx Hcost H; cbn [sweep_left] in H.
  - injection H as <-. split; assumption.
  - destruct Hb as [Hl HD]. destruct (HD j (S i) Hj Hi) as (b & Eb & Cb & Bb).
    rewrite (at_ok _ _ _ _ Eb) in H. cbn [bind] in H.
    destruct (compute_low _ _ _ (incl_filter _) Bb) as [L1 L2].
    destruct (unity_low mn mx (b_min b) (b_max b) _ _ _ ids (le_or (S i)) Hmn Hmx L1 L2) as [U1 U2].
    destruct (@unity _ XN mn mx (b_min b) (b_max b)) as [um uM]. cbn [fst snd] in U1, U2.
    assert (Hn : (count + b_count b)%nat = length (cutr (S i))).
    { rewrite (length_or _ _ _ ids (le_or (S i)) (le_and (S i))). rewrite Hc, Cb. reflexivity. }
    apply IH in H; [exact H|lia| |exact Hn|exact U1|exact U2|].
    + split; [rewrite list_set_length; exact Hl|]. intros j' k Hj' Hk. rewrite nth_error_list_set.
      destruct (j * size + S i =? j' * size + k)%nat eqn:Es; [|apply HD; assumption].
      apply Nat.eqb_eq in Es. destruct (slot_split size _ _ _ _ Hi Hk Es) as [<- <-].
      replace (_ <? length bins)%nat with true by (symmetry; apply Nat.ltb_lt; nia).
      eexists. split; [reflexivity|]. cbn [b_count b_min b_max]. split; assumption.
    + intros k b' Hk. rewrite nth_error_list_set.
      destruct (j * size + S i =? j * size + k)%nat eqn:Es.
      * apply Nat.eqb_eq in Es. assert (k = S i) by lia. subst k.
        replace (_ <? length bins)%nat with true by (symmetry; apply Nat.ltb_lt; nia).
        intros E. injection E as <-. cbn [b_cost]. apply cost_is; assumption.
      * apply Nat.eqb_neq in Es. apply Hcost. assert (k <> S i) by (intros ->; lia). lia.
Qed.

Definition best_upto (i : nat) (mc : R) (mb : nat) : Prop :=
  mc <= big /\ (forall k, (1 <= k <= i)%nat -> mc <= kcost k) /\
  ((mc = big /\ mb = 1%nat) \/ ((1 <= mb <= i)%nat /\ mc = kcost mb)).

Lemma sweep_right_best bins : binned (N := XN) c size w (fun _ => ids) bins -> costs_from 1 bins ->
  forall k i count mn mx xmc mc mb xmc' mb', (i + k = size - 1)%nat ->
  count = length (cutl i) -> visR mn (lowv (cutl i)) -> visR mx (highv (cutl i)) ->
  isR xmc mc -> best_upto i mc mb ->
  @sweep_right _ XN size j k i count mn mx xmc mb bins = Ok (xmc', mb') ->
  exists mc', isR xmc' mc' /\ best_upto (size - 1) mc' mb'.
Proof.
  intros [Hl HD] Hcost. induction k as [|k IH]; intros i count mn mx xmc mc mb xmc' mb' Hik Hc Hmn Hmx Hx Hbest H;
    cbn [sweep_right] in H.
  - injection H as <- <-. exists mc. split; [exact Hx|]. replace (size - 1)%nat with i by lia. exact Hbest.
  - destruct (HD j i Hj ltac:(lia)) as (b & Eb & Cb & Bb).
    destruct (HD j (i + 1)%nat Hj ltac:(lia)) as (b2 & Eb2 & _). rewrite Nat.add_assoc in Eb2.
    rewrite (at_ok _ _ _ _ Eb) in H. cbn [bind] in H. rewrite (at_ok _ _ _ _ Eb2) in H. cbn [bind] in H.
    destruct (compute_low _ _ _ (incl_filter _) Bb) as [L1 L2].
    destruct (unity_low mn mx (b_min b) (b_max b) _ _ _ ids (lt_or i) Hmn Hmx L1 L2) as [U1 U2].
    destruct (@unity _ XN mn mx (b_min b) (b_max b)) as [um uM]. cbn [fst snd] in U1, U2.
    assert (Hn : (count + b_count b)%nat = length (cutl (S i))).
    { rewrite (length_or _ _ _ ids (lt_or i) (lt_and i)). rewrite Hc, Cb. reflexivity. }
    assert (Hk : isR (@nadd _ XN (@nmul _ XN (@nofZ _ XN (Z.of_nat (count + b_count b))) (@calculate_box_surface _ XN um uM)) (b_cost b2)) (kcost (i + 1))).
    { replace (i + 1)%nat with (S i) by lia. apply isR_add; [apply cost_is; assumption|].
      replace (S i) with (i + 1)%nat by lia. apply (Hcost (i + 1)%nat b2); [lia|]. rewrite Nat.add_assoc. exact Eb2. }
    cbv zeta in H.
    set (cst := @nadd _ XN _ _) in *. change (@nltb _ XN) with xltb in H. rewrite (isR_ltb _ _ _ _ Hk Hx) in H.
    destruct Hbest as (B1 & B2 & B3). replace (S i) with (i + 1)%nat in * by lia.
    destruct (Rltb (kcost (i + 1)) mc) eqn:El.
    + apply Rltb_spec in El. apply (IH (i + 1)%nat _ _ _ cst (kcost (i + 1))) in H;
        [exact H|lia|exact Hn|exact U1|exact U2|exact Hk|].
      split; [lra|]. split; [|right; split; [lia|reflexivity]].
      intros k' Hk'. destruct (Nat.eq_dec k' (i + 1)) as [->|Hne]; [lra|].
      specialize (B2 k' ltac:(lia)). lra.
    + apply Rltb_false in El. apply (IH (i + 1)%nat _ _ _ xmc mc) in H;
        [exact H|lia|exact Hn|exact U1|exact U2|exact Hx|].
      split; [lra|]. split.
      * intros k' Hk'. destruct (Nat.eq_dec k' (i + 1)) as [->|Hne]; [lra|].
        apply B2. lia.
      * destruct B3 as [B3|[B3 B4]]; [left; exact B3|right; split; [lia|exact B4]].
Qed.

Lemma axis_split_best mnj mxj a A bins mc cut bins' : isR mnj a -> isR mxj A ->
  binned (N := XN) c size w (fun _ => ids) bins ->
  @axis_split _ XN size j mnj mxj bins = Ok (mc, cut, bins') ->
  binned (N := XN) c size w (fun _ => ids) bins' /\
  exists r mb, isR mc r /\ best_upto (size - 1) r mb /\ isR cut (a + INR mb * ((A - a) / INR size)).
Proof.
  intros Ha HA Hb H. unfold axis_split in H. rewrite (usub1_size size Hsize Hsmall) in H. cbv zeta in H.
  replace (Z.to_nat (Z.of_nat size - 1)) with (size - 1)%nat in H by lia.
  destruct (sweep_left _ _ _ _ _ _ _) as [b1| |] eqn:E1; cbn [bind] in H; try discriminate.
  destruct (sweep_right _ _ _ _ _ _ _ _ _ _) as [[m0 mb]| |] eqn:E2; cbn [bind] in H; try discriminate.
  injection H as <- <- <-.
  assert (S1 : visR (vconst (@nmaxv _ XN)) (V big big big)) by (apply visR_const; reflexivity).
  assert (S2 : visR (vconst (@nopp _ XN (@nmaxv _ XN))) (V (- big) (- big) (- big))) by (apply visR_const; reflexivity).
  assert (N1 : cutr (S (size - 1)) = []).
  { apply length_none. intros i. apply Nat.leb_gt. specialize (Hw i). lia. }
  assert (N2 : cutl 0 = []) by (apply length_none; intros i; apply Nat.ltb_ge; lia).
  assert (E0 : lowv [] = V big big big /\ highv [] = V (- big) (- big) (- big)) by (split; reflexivity).
  destruct E0 as [E01 E02].
  destruct (sweep_left_costs (size - 1) 0 (vconst (@nmaxv _ XN)) (vconst (@nopp _ XN (@nmaxv _ XN))) bins b1) as [Hb1 Hc1].
  { lia. }
  { exact Hb. }
  { rewrite N1. reflexivity. }
  { rewrite N1, E01. exact S1. }
  { rewrite N1, E02. exact S2. }
  { intros k b Hk. lia. }
  { exact E1. }
  destruct (sweep_right_best b1 Hb1 Hc1 (size - 1) 0 0 (vconst (@nmaxv _ XN)) (vconst (@nopp _ XN (@nmaxv _ XN)))
    (@nmaxv _ XN) big 1%nat m0 mb) as (mc' & R1 & R2).
  { lia. }
  { rewrite N2. reflexivity. }
  { rewrite N2, E01. exact S1. }
  { rewrite N2, E02. exact S2. }
  { reflexivity. }
  { split; [lra|]. split; [intros k Hk; lia|]. left. split; reflexivity. }
  { exact E2. }
  split; [exact Hb1|]. exists mc', mb. split; [exact R1|]. split; [exact R2|].
  rewrite (Rplus_comm a).
  assert (HI : forall n, isR (@nofZ _ XN (Z.of_nat n)) (INR n)) by (intros n; symmetry; apply INR_IZR_INZ).
  assert (Hne : INR size <> 0) by (apply not_0_INR; lia).
  exact (isR_add _ _ _ _ (isR_mul _ _ _ _ (HI mb) (isR_div _ _ _ _ (isR_sub _ _ _ _ HA Ha) (HI size) Hne)) Ha).
Qed.
End Axis.

(** The bin of a primitive. *)
Variables m M : vec R.
Variable ctr : nat -> vec R.
Hypothesis Hctr : forall i, In i ids -> exists v, c_center c i = Ok v /\ visR v (ctr i) /\ in_box m M (ctr i).
Hypothesis Hin : forall i j, In i ids -> (j < 3)%nat -> comp m j <= comp (lo i) j /\ comp (hi i) j <= comp M j.

Lemma round_nearest y k : 0 <= y -> Rround y = Z.of_nat k -> INR k - 1 / 2 <= y < INR k + 1 / 2.
Proof.
  intros Hy H. unfold Rround in H. destruct (Rle_dec 0 y) as [_|n]; [|lra].
  destruct (base_Int_part (y + / 2)) as [B1 B2]. rewrite H in B1, B2. rewrite <- INR_IZR_INZ in B1, B2. lra.
Qed.

Lemma slot_nearest x a A t : a <= t <= A -> isR x ((t - a) * rinv (A - a) * IZR (Z.of_nat size - 1)) ->
  nearest_bin size a A t (slot (N := XN) size x).
Proof.
  intros Ht Hx. split; [apply slot_lt; assumption|].
  pose proof (rinv_range a A t Ht) as Hr.
  assert (Hz : 0 <= IZR (Z.of_nat size - 1)) by (apply IZR_le; lia).
  destruct (isR_ex _ _ Hx) as (s & ->). unfold slot. cbn [nround_u XN Xnum]. unfold xround_u, u32_of_Z.
  set (y := (t - a) * rinv (A - a) * IZR (Z.of_nat size - 1)).
  assert (Hy : 0 <= y <= IZR (Z.of_nat size - 1)).
  { unfold y. split; [apply Rmult_le_pos; lra|].
    rewrite <- (Rmult_1_l (IZR (Z.of_nat size - 1))) at 2. apply Rmult_le_compat_r; lra. }
  assert (Hr' : (0 <= Rround y <= Z.of_nat size - 1)%Z) by (apply Rround_range; exact Hy).
  replace (0 <=? _)%Z with true by (symmetry; apply Z.leb_le; lia).
  replace (_ <? 4294967296)%Z with true by (symmetry; apply Z.ltb_lt; lia). cbn [andb].
  replace (Z.min (Z.of_nat size - 1) (Z.max 0 (Rround y))) with (Rround y) by lia.
  assert (Hk : INR (Z.to_nat (Rround y)) - 1 / 2 <= y < INR (Z.to_nat (Rround y)) + 1 / 2).
  { apply round_nearest; [lra|]. rewrite Z2Nat.id by lia. reflexivity. }
  split.
  - intros Hlt. replace ((t - a) / (A - a) * (INR size - 1)) with y; [exact Hk|].
    unfold y, rinv. destruct (Rlt_dec 0 (A - a)) as [_|n]; [|lra].
    rewrite minus_IZR, <- INR_IZR_INZ. field. lra.
  - intros Hn. assert (y = 0).
    { unfold y, rinv. destruct (Rlt_dec 0 (A - a)) as [p|_]; [lra|]. ring. }
    rewrite H in Hk |- *. destruct (Z.to_nat (Rround 0)) as [|k]; [reflexivity|].
    rewrite S_INR in Hk. pose proof (pos_INR k). lra.
Qed.

Lemma bin_nearest mn mx j i : visR mn m -> visR mx M -> In i ids -> (j < 3)%nat ->
  nearest_bin size (comp m j) (comp M j) (comp (ctr i) j) (bin_of (N := XN) c size mn (@inv_of _ XN mn mx) j i).
Proof.
  intros (A1 & A2 & A3) (B1 & B2 & B3) Hi Hj. destruct (Hctr i Hi) as (v & Ev & (V1 & V2 & V3) & I1 & I2 & I3).
  unfold bin_of, ncoord. rewrite Ev, (usub1_size size Hsize Hsmall).
  assert (G : forall xv xm xM rv a A, isR xv rv -> isR xm a -> isR xM A -> a <= rv <= A ->
    nearest_bin size a A rv (slot (N := XN) size (@nmul _ XN (@nmul _ XN (@nsub _ XN xv xm)
      (if @nltb _ XN (@n0 _ XN) (@nsub _ XN xM xm) then @ndiv _ XN (@n1 _ XN) (@nsub _ XN xM xm) else @n0 _ XN))
      (@nofZ _ XN (Z.of_nat size - 1))))).
  { intros xv xm xM rv a A Hv Hm HM Hr. apply slot_nearest; [exact Hr|].
    apply isR_mul; [|reflexivity]. apply isR_mul; [apply isR_sub; assumption|].
    apply inv_isR. apply isR_sub; assumption. }
  destruct j as [|[|[|j]]]; [| | |lia]; cbn [comp]; apply G; assumption.
Qed.

Lemma sort_exact opt mn mx bins : bin_size opt = size -> visR mn m -> visR mx M ->
  @sort_collection_into_bins _ XN _ c ids mn mx opt = Ok bins ->
  exists w : nat -> nat -> nat,
    (forall j i, In i ids -> (j < 3)%nat -> nearest_bin size (comp m j) (comp M j) (comp (ctr i) j) (w j i)) /\
    forall j k, (j < 3)%nat -> (k < size)%nat -> exists b, nth_error bins (j * size + k) = Some b /\
      b_count b = length (filter (fun i => w j i =? k)%nat ids) /\
      (b_count b <> 0%nat -> exists a A, visR (b_min b) a /\ visR (b_max b) A /\
         hull lo hi (filter (fun i => w j i =? k)%nat ids) a A).
Proof.
  intros Ho Hm HM H. destruct (sort_binned (N := XN) c size Hsize Hsmall opt ids mn mx bins Ho H) as [[Hl HD] _].
  exists (bin_of (N := XN) c size mn (@inv_of _ XN mn mx)). split; [intros; apply bin_nearest; assumption|].
  intros j k Hj Hk. destruct (HD j k Hj Hk) as (b & Eb & Cb & Bb). exists b. split; [exact Eb|]. split; [exact Cb|].
  intros Hne. destruct (compute_low _ _ _ (incl_filter _) Bb) as [L1 L2]. do 2 eexists. split; [exact L1|]. split; [exact L2|].
  apply lowv_hull; [apply incl_filter|]. intros E. rewrite E in Cb. apply Hne. rewrite Cb. reflexivity.
Qed.

Hypothesis Hbig : INR (length ids) * area m M < big.
Hypothesis Hm : forall j, (j < 3)%nat -> comp m j <= comp M j.

Lemma kcost_small w j k : kcost w j k < big.
Proof.
  unfold kcost.
  pose proof (scost_bound _ m M (incl_filter (fun i => (w j i <? k)%nat)) Hm Hin) as B1.
  pose proof (scost_bound _ m M (incl_filter (fun i => (k <=? w j i)%nat)) Hm Hin) as B2.
  assert (E : length ids = (length (filter (fun i => (w j i <? k)%nat) ids) + length (filter (fun i => (k <=? w j i)%nat) ids))%nat).
  { rewrite <- (length_or (fun _ => true)).
    - clear. induction ids as [|i l IH]; cbn; [reflexivity|]. f_equal. exact IH.
    - intros i. destruct (Nat.ltb_spec (w j i) k), (Nat.leb_spec k (w j i)); cbn; try reflexivity; lia.
    - intros i. destruct (Nat.ltb_spec (w j i) k), (Nat.leb_spec k (w j i)); cbn; try reflexivity; lia. }
  rewrite E, plus_INR, Rmult_plus_distr_r in Hbig. lra.
Qed.

Lemma best_least w j r mb : (2 <= size)%nat -> best_upto w j (size - 1) r mb ->
  (1 <= mb < size)%nat /\ r = kcost w j mb /\ forall k, (1 <= k < size)%nat -> kcost w j mb <= kcost w j k.
Proof.
  intros H2 (B1 & B2 & B3). pose proof (B2 1%nat ltac:(lia)). pose proof (kcost_small w j 1).
  destruct B3 as [[E _]|[B3 E]]; [lra|]. split; [lia|]. split; [exact E|].
  intros k Hk. rewrite <- E. apply B2. lia.
Qed.

Lemma split_least opt mn mx ax cut : bin_size opt = size -> visR mn m -> visR mx M ->
  @find_best_split_binned _ XN _ c ids mn mx opt = Ok (ax, cut) ->
  exists (w : nat -> nat -> nat) (K : nat -> nat),
    (forall j i, In i ids -> (j < 3)%nat -> nearest_bin size (comp m j) (comp M j) (comp (ctr i) j) (w j i)) /\
    (ax < 3)%nat /\
    (forall j, (j < 3)%nat -> isR (comp cut j) (comp m j + INR (K j) * ((comp M j - comp m j) / INR size))) /\
    ((2 <= size)%nat ->
     (forall j, (j < 3)%nat -> (1 <= K j < size)%nat /\
        forall k r r', (1 <= k < size)%nat -> cut_cost lo hi (w j) ids (K j) r -> cut_cost lo hi (w j) ids k r' -> r <= r') /\
     (forall j r r', (j < 3)%nat -> cut_cost lo hi (w ax) ids (K ax) r -> cut_cost lo hi (w j) ids (K j) r' -> r <= r')).
Proof.
  intros Ho Vm VM H. unfold find_best_split_binned in H. rewrite Ho in H. cbv zeta in H.
  destruct (sort_collection_into_bins _ _ _ _ _) as [bins| |] eqn:Es; cbn [bind] in H; try discriminate.
  destruct (sort_binned (N := XN) c size Hsize Hsmall opt ids mn mx bins Ho Es) as [Hb _].
  set (w := bin_of (N := XN) c size mn (@inv_of _ XN mn mx)) in *.
  assert (Hw : forall j i, (w j i < size)%nat) by (intros; apply slot_lt; assumption).
  destruct (axis_split size 0 _ _ bins) as [[[c0 p0] b0]| |] eqn:E0; cbn [bind] in H; try discriminate.
  destruct (axis_split size 1 _ _ b0) as [[[c1 p1] b1]| |] eqn:E1; cbn [bind] in H; try discriminate.
  destruct (axis_split size 2 _ _ b1) as [[[c2 p2] b2]| |] eqn:E2; cbn [bind] in H; try discriminate.
  pose proof Vm as (A0 & A1 & A2). pose proof VM as (M0 & M1 & M2).
  destruct (axis_split_best w 0 ltac:(lia) (Hw 0%nat) _ _ _ _ _ _ _ _ A0 M0 Hb E0) as (Hb0 & r0 & k0 & R0 & B0 & P0).
  destruct (axis_split_best w 1 ltac:(lia) (Hw 1%nat) _ _ _ _ _ _ _ _ A1 M1 Hb0 E1) as (Hb1 & r1 & k1 & R1 & B1 & P1).
  destruct (axis_split_best w 2 ltac:(lia) (Hw 2%nat) _ _ _ _ _ _ _ _ A2 M2 Hb1 E2) as (Hb2 & r2 & k2 & R2 & B2 & P2).
  set (K := fun j => match j with 0%nat => k0 | 1%nat => k1 | _ => k2 end).
  exists w, K. split; [intros; apply bin_nearest; assumption|].
  change (@nltb _ XN) with xltb in H. rewrite (isR_ltb _ _ _ _ R1 R0) in H.
  assert (Hax : exists rx, nth_error [r0; r1; r2] ax = Some rx /\ rx <= r0 /\ rx <= r1 /\ rx <= r2 /\ cut = V p0 p1 p2).
  { destruct (Rltb r1 r0) eqn:L1; [apply Rltb_spec in L1|apply Rltb_false in L1].
    - rewrite (isR_ltb _ _ _ _ R2 R1) in H. destruct (Rltb r2 r1) eqn:L2; [apply Rltb_spec in L2|apply Rltb_false in L2];
        injection H as <- <-; eexists; (split; [reflexivity|]); repeat split; lra.
    - rewrite (isR_ltb _ _ _ _ R2 R0) in H. destruct (Rltb r2 r0) eqn:L2; [apply Rltb_spec in L2|apply Rltb_false in L2];
        injection H as <- <-; eexists; (split; [reflexivity|]); repeat split; lra. }
  clear H. destruct Hax as (rx & Erx & X0 & X1 & X2 & ->).
  assert (Hax3 : (ax < 3)%nat). { apply (nth_error_Some [r0; r1; r2]). rewrite Erx. discriminate. }
  split; [exact Hax3|]. split.
  { intros j Hj. destruct j as [|[|[|j]]]; [| | |lia]; cbn [comp K vx vy vz]; assumption. }
  intros H2.
  assert (Hbest : forall j, (j < 3)%nat -> exists r, nth_error [r0; r1; r2] j = Some r /\ (1 <= K j < size)%nat /\
    r = kcost w j (K j) /\ forall k, (1 <= k < size)%nat -> kcost w j (K j) <= kcost w j k).
  { intros j Hj. destruct j as [|[|[|j]]]; [| | |lia]; cbn [K nth_error]; eexists; (split; [reflexivity|]);
      apply best_least; assumption. }
  assert (Hc : forall j k r, cut_cost lo hi (w j) ids k r -> r = kcost w j k).
  { intros j k r (l & q & S1 & S2 & ->). destruct (kcost_is w j k) as (l' & q' & S1' & S2' & ->).
    rewrite (side_cost_unique _ _ _ S1 S1'), (side_cost_unique _ _ _ S2 S2'). reflexivity. }
  split.
  - intros j Hj. destruct (Hbest j Hj) as (r & _ & HK & _ & Hk). split; [exact HK|].
    intros k q q' Hkr Hq Hq'. rewrite (Hc _ _ _ Hq), (Hc _ _ _ Hq'). apply Hk, Hkr.
  - intros j q q' Hj Hq Hq'. rewrite (Hc _ _ _ Hq), (Hc _ _ _ Hq').
    destruct (Hbest ax Hax3) as (ra & Ea & _ & <- & _). destruct (Hbest j Hj) as (r & Er & _ & <- & _).
    rewrite Erx in Ea. injection Ea as <-.
    destruct j as [|[|[|j]]]; [| | |lia]; cbn [nth_error] in Er; injection Er as <-; assumption.
Qed.
End B.

(** For the range of a node, with the box that the builder computes for it. *)
Section Node.
Variables big tiny eps : R.
Notation XN := (Xnum big tiny eps).
Context {P : Type}.
Variable c : coll xr P.
Variables lo hi ctr : nat -> vec R.
Hypothesis Hbox : boxes_are c lo hi.
Hypothesis Hbd : forall i, (i < c_size c)%nat -> in_bounds big (lo i) /\ in_bounds big (hi i).
Hypothesis Hctr : forall i, (i < c_size c)%nat -> exists v, c_center c i = Ok v /\ visR v (ctr i) /\
  in_box (lo i) (hi i) (ctr i).
Variable opt : options.
Notation size := (bin_size opt).
Hypothesis Hsize : (1 <= size)%nat.
Hypothesis Hsmall : (3 * Z.of_nat size < 4294967296)%Z.
Variable ids : list nat.
Hypothesis Hids : forall i, In i ids -> (i < c_size c)%nat.
Variables mn mx : vec xr.
Hypothesis Hcomp : @compute_bounding_box _ XN _ c ids = Ok (mn, mx).
Variables m M : vec R.
Hypothesis Hhull : hull lo hi ids m M.

Lemma node_ord i j : In i ids -> (j < 3)%nat -> comp (lo i) j <= comp (hi i) j.
Proof.
  intros Hi Hj. destruct (Hctr i (Hids i Hi)) as (_ & _ & _ & I1 & I2 & I3).
  destruct j as [|[|[|j]]]; [| | |lia]; cbn [comp]; lra.
Qed.
Lemma node_ne : ids <> [].
Proof. destruct (Hhull 0%nat ltac:(lia)) as (_ & (i & Hi & _) & _). intros ->. destruct Hi. Qed.
Lemma node_box : visR mn m /\ visR mx M.
Proof.
  destruct (compute_low big tiny eps c lo hi ids (fun i Hi => Hbox i (Hids i Hi)) ids mn mx (incl_refl _) Hcomp) as [L1 L2].
  assert (H : hull lo hi ids (lowv big lo ids) (highv big hi ids)).
  { apply (lowv_hull big lo hi ids (fun i Hi => Hbd i (Hids i Hi))); [apply incl_refl|apply node_ne]. }
  destruct (hull_unique lo hi size Hsize _ _ _ _ _ H Hhull) as [E1 E2]. rewrite E1 in L1. rewrite E2 in L2. split; assumption.
Qed.
Lemma node_le j : (j < 3)%nat -> comp m j <= comp M j.
Proof. intros Hj. exact (hull_area lo hi ids node_ord ids m M (incl_refl _) Hhull j Hj). Qed.
Lemma node_in i j : In i ids -> (j < 3)%nat -> comp m j <= comp (lo i) j /\ comp (hi i) j <= comp M j.
Proof. intros Hi Hj. destruct (Hhull j Hj) as (H & _). apply H, Hi. Qed.
Lemma node_ctr i : In i ids -> exists v, c_center c i = Ok v /\ visR v (ctr i) /\ in_box m M (ctr i).
Proof.
  intros Hi. destruct (Hctr i (Hids i Hi)) as (v & E & Hv & I1 & I2 & I3). exists v. split; [exact E|]. split; [exact Hv|].
  pose proof (node_in i 0%nat Hi ltac:(lia)). pose proof (node_in i 1%nat Hi ltac:(lia)).
  pose proof (node_in i 2%nat Hi ltac:(lia)). cbn [comp] in *. unfold in_box. lra.
Qed.

Lemma node_bins : exists bins, @sort_collection_into_bins _ XN _ c ids mn mx opt = Ok bins /\
  exists w : nat -> nat -> nat,
    (forall j i, In i ids -> (j < 3)%nat -> nearest_bin size (comp m j) (comp M j) (comp (ctr i) j) (w j i)) /\
    forall j k, (j < 3)%nat -> (k < size)%nat -> exists b, nth_error bins (j * size + k) = Some b /\
      b_count b = length (filter (fun i => w j i =? k)%nat ids) /\
      (b_count b <> 0%nat -> exists a A, visR (b_min b) a /\ visR (b_max b) A /\
         hull lo hi (filter (fun i => w j i =? k)%nat ids) a A).
Proof.
  destruct (bins_ok big tiny eps c lo hi ctr Hbox Hbd Hctr opt Hsize Hsmall ids mn mx Hids Hcomp) as (bins & E & _).
  exists bins. split; [exact E|]. destruct node_box as [B1 B2].
  exact (sort_exact big tiny eps c lo hi ids (fun i Hi => Hbox i (Hids i Hi)) (fun i Hi => Hbd i (Hids i Hi))
    size Hsize Hsmall m M ctr node_ctr opt mn mx bins eq_refl B1 B2 E).
Qed.

Lemma node_split : INR (length ids) * area m M < big ->
  exists ax cut, @find_best_split_binned _ XN _ c ids mn mx opt = Ok (ax, cut) /\
  exists (w : nat -> nat -> nat) (K : nat -> nat),
    (forall j i, In i ids -> (j < 3)%nat -> nearest_bin size (comp m j) (comp M j) (comp (ctr i) j) (w j i)) /\
    (ax < 3)%nat /\
    (forall j, (j < 3)%nat -> isR (comp cut j) (comp m j + INR (K j) * ((comp M j - comp m j) / INR size))) /\
    ((2 <= size)%nat ->
     (forall j, (j < 3)%nat -> (1 <= K j < size)%nat /\
        forall k r r', (1 <= k < size)%nat -> cut_cost lo hi (w j) ids (K j) r -> cut_cost lo hi (w j) ids k r' -> r <= r') /\
     (forall j r r', (j < 3)%nat -> cut_cost lo hi (w ax) ids (K ax) r -> cut_cost lo hi (w j) ids (K j) r' -> r <= r')).
Proof.
  intros Hbig.
  destruct (bins_ok big tiny eps c lo hi ctr Hbox Hbd Hctr opt Hsize Hsmall ids mn mx Hids Hcomp) as (bins & E & Hl).
  destruct (@find_best_ok _ _ XN c opt Hsize Hsmall ids mn mx bins E Hl) as ([ax cut] & Ef).
  exists ax, cut. split; [exact Ef|]. destruct node_box as [B1 B2].
  exact (split_least big tiny eps c lo hi ids (fun i Hi => Hbox i (Hids i Hi)) (fun i Hi => Hbd i (Hids i Hi))
    node_ord size Hsize Hsmall m M ctr node_ctr node_in Hbig node_le opt mn mx ax cut eq_refl B1 B2 Ef).
Qed.

(** Every cut has a cost. *)
Lemma cut_cost_ex (w : nat -> nat) k : exists r, cut_cost lo hi w ids k r.
Proof.
  exists (kcost big lo hi ids (fun _ => w) 0 k).
  apply (kcost_is big lo hi ids (fun i Hi => Hbd i (Hids i Hi)) node_ord size Hsize (fun _ => w) 0 k).
Qed.
End Node.
