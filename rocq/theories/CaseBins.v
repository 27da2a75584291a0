(** Three boxes, three bins. *)

From Coq Require Import Reals ZArith List Bool Arith Lra Lia Permutation.
From Verif Require Import Num NumR NumX Vec Datatypes Bvh SpecBvh SpecReal SpecNearest SpecBins.
From Verif Require Import PfX PfDefined PfBins PfBins2.
Import ListNotations.
Local Open Scope R_scope.

Definition lo3 (i : nat) : vec R :=
  match i with 0%nat => V 1 (-1) (-1) | 1%nat => V 1 (-2) (-1) | _ => V 0 (-1) (-1) end.
Definition hi3 (i : nat) : vec R :=
  match i with 0%nat => V 3 1 1 | 1%nat => V 1 2 1 | _ => V 0 1 1 end.
Definition ctr3 (i : nat) : vec R :=
  match i with 0%nat => V 2 0 0 | 1%nat => V 1 0 0 | _ => V 0 0 0 end.
Definition three : coll xr nat :=
  Coll 3 (fun i => Ok (vfin (lo3 i), vfin (hi3 i))) (fun i => Ok (vfin (ctr3 i))) (fun i => Ok i).
Definition opt3 : options := Options 1 28 3.
Definition ids3 : list nat := [0; 1; 2]%nat.

Lemma boxes3 : boxes_are three lo3 hi3.
Proof. intros i _. eexists. split; [reflexivity|]. split; apply visR_fin. Qed.
Lemma bounds3 i : (i < c_size three)%nat -> in_bounds 1000 (lo3 i) /\ in_bounds 1000 (hi3 i).
Proof. intros _. destruct i as [|[|i]]; unfold in_bounds; cbn; lra. Qed.
Lemma centers3 i : (i < c_size three)%nat -> exists v, c_center three i = Ok v /\ visR v (ctr3 i) /\
  in_box (lo3 i) (hi3 i) (ctr3 i).
Proof.
  intros _. eexists. split; [reflexivity|]. split; [apply visR_fin|]. destruct i as [|[|i]]; unfold in_box; cbn; lra.
Qed.
Lemma range3 i : In i ids3 -> (i < c_size three)%nat.
Proof. cbn. lia. Qed.

Ltac hull_dec := let j := fresh "j" in let Hj := fresh in intros j Hj; destruct j as [|[|[|j]]]; [| | |lia];
  (split; [intros i Hi; cbn [In] in Hi; repeat (destruct Hi as [<-|Hi]); try destruct Hi; cbn; lra|]);
  split;
  first [exists 0%nat; split; [cbn; tauto|cbn; lra]|exists 1%nat; split; [cbn; tauto|cbn; lra]|exists 2%nat; split; [cbn; tauto|cbn; lra]].

Lemma hull3 : hull lo3 hi3 ids3 (V 0 (-2) (-1)) (V 3 2 1).
Proof. hull_dec. Qed.
Lemma cost3 : side_cost lo3 hi3 ids3 156.
Proof. right. exists (V 0 (-2) (-1)), (V 3 2 1). split; [exact hull3|]. unfold area; cbn; lra. Qed.
Lemma cost0 : side_cost lo3 hi3 [0%nat] 24.
Proof. right. exists (V 1 (-1) (-1)), (V 3 1 1). split; [hull_dec|]. unfold area; cbn; lra. Qed.
Lemma cost2 : side_cost lo3 hi3 [2%nat] 8.
Proof. right. exists (V 0 (-1) (-1)), (V 0 1 1). split; [hull_dec|]. unfold area; cbn; lra. Qed.
Lemma cost01 : side_cost lo3 hi3 [0; 1]%nat 80.
Proof. right. exists (V 1 (-2) (-1)), (V 3 2 1). split; [hull_dec|]. unfold area; cbn; lra. Qed.
Lemma cost12 : side_cost lo3 hi3 [1; 2]%nat 56.
Proof. right. exists (V 0 (-2) (-1)), (V 1 2 1). split; [hull_dec|]. unfold area; cbn; lra. Qed.
Lemma cost_none : side_cost lo3 hi3 [] 0.
Proof. left. split; reflexivity. Qed.

Lemma near3 a A x k n : a < A -> nearest_bin 3 a A x k ->
  INR n - 1 / 2 <= (x - a) / (A - a) * 2 < INR n + 1 / 2 -> k = n.
Proof.
  intros Hlt (_ & H & _) Hn. specialize (H Hlt). replace (INR 3 - 1) with 2 in H by (cbn; lra).
  assert (H1 : INR k < INR n + 1) by lra. assert (H2 : INR n < INR k + 1) by lra.
  rewrite <- S_INR in H1, H2. apply INR_lt in H1, H2. lia.
Qed.

Lemma box3 : exists mn mx, @compute_bounding_box _ (Xnum 1000 0 0) _ three ids3 = Ok (mn, mx).
Proof.
  destruct (@bbox_ok _ _ (Xnum 1000 0 0) three ids3 (vconst (Fin 1000)) (vconst (xopp (Fin 1000)))) as ([mn mx] & E).
  - intros i _. eexists. reflexivity.
  - exists mn, mx. exact E.
Qed.

(** The split: axis 0, cut at 1, cost 88. *)
Lemma split3 : exists mn mx cut, @compute_bounding_box _ (Xnum 1000 0 0) _ three ids3 = Ok (mn, mx) /\
  @find_best_split_binned _ (Xnum 1000 0 0) _ three ids3 mn mx opt3 = Ok (0%nat, cut) /\ isR (vx cut) 1.
Proof.
  destruct box3 as (mn & mx & E). exists mn, mx.
  destruct (node_split 1000 0 0 three lo3 hi3 ctr3 boxes3 bounds3 centers3 opt3 ltac:(cbn; lia) ltac:(cbn; lia)
    ids3 range3 mn mx E (V 0 (-2) (-1)) (V 3 2 1) hull3) as (ax & cut & Ef & w & K & Hw & Hax & Hcut & Hbest).
  { unfold area; cbn; lra. }
  destruct (Hbest ltac:(cbn; lia)) as [Hk Hx]. clear Hbest.
  change (bin_size opt3) with 3%nat in *.
  assert (W00 : w 0%nat 0%nat = 1%nat) by (apply (near3 0 3 2 _ 1); [lra|apply (Hw 0%nat 0%nat); [cbn; tauto|lia]|cbn; lra]).
  assert (W01 : w 0%nat 1%nat = 1%nat) by (apply (near3 0 3 1 _ 1); [lra|apply (Hw 0%nat 1%nat); [cbn; tauto|lia]|cbn; lra]).
  assert (W02 : w 0%nat 2%nat = 0%nat) by (apply (near3 0 3 0 _ 0); [lra|apply (Hw 0%nat 2%nat); [cbn; tauto|lia]|cbn; lra]).
  assert (W1 : forall i, In i ids3 -> w 1%nat i = 1%nat).
  { intros i Hi. apply (near3 (-2) 2 0 _ 1); [lra| |cbn; lra].
    replace 0 with (comp (ctr3 i) 1) by (destruct i as [|[|i]]; reflexivity). apply (Hw 1%nat i Hi). lia. }
  assert (W2 : forall i, In i ids3 -> w 2%nat i = 1%nat).
  { intros i Hi. apply (near3 (-1) 1 0 _ 1); [lra| |cbn; lra].
    replace 0 with (comp (ctr3 i) 2) by (destruct i as [|[|i]]; reflexivity). apply (Hw 2%nat i Hi). lia. }
  assert (W10 := W1 0%nat ltac:(cbn; tauto)). assert (W11 := W1 1%nat ltac:(cbn; tauto)). assert (W12 := W1 2%nat ltac:(cbn; tauto)).
  assert (W20 := W2 0%nat ltac:(cbn; tauto)). assert (W21 := W2 1%nat ltac:(cbn; tauto)). assert (W22 := W2 2%nat ltac:(cbn; tauto)).
  assert (C1 : cut_cost lo3 hi3 (w 0%nat) ids3 1 88).
  { exists 8, 80. unfold ids3. cbn [filter]. rewrite W00, W01, W02. cbn [Nat.ltb Nat.leb].
    split; [exact cost2|]. split; [exact cost01|lra]. }
  assert (C2 : cut_cost lo3 hi3 (w 0%nat) ids3 2 156).
  { exists 156, 0. unfold ids3. cbn [filter]. rewrite W00, W01, W02. cbn [Nat.ltb Nat.leb].
    split; [exact cost3|]. split; [exact cost_none|lra]. }
  assert (Cy : forall j k, (j = 1 \/ j = 2)%nat -> (1 <= k < 3)%nat -> cut_cost lo3 hi3 (w j) ids3 k 156).
  { intros j k Hj Hkr. assert (k = 1 \/ k = 2)%nat as [->| ->] by lia.
    - exists 0, 156. destruct Hj as [->| ->]; unfold ids3; cbn [filter];
        rewrite ?W10, ?W11, ?W12, ?W20, ?W21, ?W22; cbn [Nat.ltb Nat.leb];
        (split; [exact cost_none|]; split; [exact cost3|lra]).
    - exists 156, 0. destruct Hj as [->| ->]; unfold ids3; cbn [filter];
        rewrite ?W10, ?W11, ?W12, ?W20, ?W21, ?W22; cbn [Nat.ltb Nat.leb];
        (split; [exact cost3|]; split; [exact cost_none|lra]). }
  destruct (Hk 0%nat ltac:(lia)) as [HK0 HL0].
  assert (K0 : K 0%nat = 1%nat).
  { assert (K 0 = 1 \/ K 0 = 2)%nat as [E1|E2] by lia; [exact E1|].
    rewrite E2 in HL0. pose proof (HL0 1%nat _ _ ltac:(lia) C2 C1). lra. }
  assert (Eax : ax = 0%nat).
  { destruct (Nat.eq_dec ax 0) as [H0|H0]; [exact H0|].
    destruct (Hk ax Hax) as [HKa _]. pose proof (Cy ax (K ax) ltac:(lia) HKa) as Ca. rewrite <- K0 in C1.
    pose proof (Hx 0%nat _ _ ltac:(lia) Ca C1). lra. }
  subst ax. exists cut. split; [exact E|]. split; [exact Ef|].
  pose proof (Hcut 0%nat ltac:(lia)) as Hc. rewrite K0 in Hc. cbn [comp] in Hc.
  replace 1 with (vx (V 0 (-2) (-1)) + INR 1 * ((vx (V 3 2 1) - vx (V 0 (-2) (-1))) / INR 3)) by (cbn; lra). exact Hc.
Qed.

(** Cutting at that place costs 88; cutting at the other bin boundary, 2, costs 80. *)
Lemma place_refutes : exists (c : coll xr nat) lo hi ctr opt ids mn mx cut m M x r y r',
  boxes_are c lo hi /\ (forall i, (i < c_size c)%nat -> in_bounds 1000 (lo i) /\ in_bounds 1000 (hi i)) /\
  (forall i, (i < c_size c)%nat -> exists v, c_center c i = Ok v /\ visR v (ctr i) /\ in_box (lo i) (hi i) (ctr i)) /\
  (forall i, In i ids -> (i < c_size c)%nat) /\ hull lo hi ids m M /\ INR (length ids) * area m M < 1000 /\
  @compute_bounding_box _ (Xnum 1000 0 0) _ c ids = Ok (mn, mx) /\
  @find_best_split_binned _ (Xnum 1000 0 0) _ c ids mn mx opt = Ok (0%nat, cut) /\
  isR (vx cut) x /\ cost_at lo hi ctr 0 ids x r /\
  (exists k, (1 <= k < bin_size opt)%nat /\ y = vx m + INR k * ((vx M - vx m) / INR (bin_size opt))) /\
  cost_at lo hi ctr 0 ids y r' /\ r' < r.
Proof.
  destruct split3 as (mn & mx & cut & E & Ef & Hc).
  exists three, lo3, hi3, ctr3, opt3, ids3, mn, mx, cut, (V 0 (-2) (-1)), (V 3 2 1), 1, 88, 2, 80.
  split; [exact boxes3|]. split; [exact bounds3|]. split; [exact centers3|]. split; [exact range3|]. split; [exact hull3|].
  split; [unfold area; cbn; lra|]. split; [exact E|]. split; [exact Ef|]. split; [exact Hc|]. split; [|split; [|split; [|lra]]].
  - exists [2%nat], [0; 1]%nat, 8, 80. split; [|split; [|split; [|split; [exact cost2|split; [exact cost01|lra]]]]].
    + exact (Permutation_sym (Permutation_cons_append [0; 1]%nat 2%nat)).
    + intros i [<-|[]]. cbn. lra.
    + intros i [<-|[<-|[]]]; cbn; lra.
  - exists 2%nat. split; [cbn; lia|cbn; lra].
  - exists [1; 2]%nat, [0%nat], 56, 24. split; [|split; [|split; [|split; [exact cost12|split; [exact cost0|lra]]]]].
    + exact (Permutation_cons_append [1; 2]%nat 0%nat).
    + intros i [<-|[<-|[]]]; cbn; lra.
    + intros i [<-|[]]. cbn. lra.
Qed.
