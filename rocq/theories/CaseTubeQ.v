(** Two concrete cylinders in binary64. *)

From Coq Require Import Reals ZArith List Bool Arith Lra Lia Psatz Floats.SpecFloat.
From Flocq Require Import Core IEEE754.BinarySingleNaN.
From Verif Require Import Num NumR NumF Vec Datatypes Ray Bvh Traverse Cylinder SpecBvh SpecReal SpecIEEE SpecTriF SpecSphF SpecPlane SpecPlaneF SpecTubeF SpecCyl SpecTubeQ.
From Verif Require Import PfPart PfBuild2 PfTrav2 PfIEEE PfX PfDirF PfPlane CaseIEEE CaseTriF CaseSphF CasePlaneF CaseTubeF.
Import ListNotations.
Local Open Scope R_scope.

(** The turned cylinder from before, and an upright one below it, with radius 1 and height 2. *)
Definition duo_centers : list (vec spec_float) := [p64 0 1 0; p64 0 0 (-4)].
Definition duo_a : list spec_float := [f64 2 0; f64 1 0].
Definition duo_b : list spec_float := [f64 1 0; f64 1 0].
Definition duo_h : list spec_float := [f64 4 0; f64 2 0].
Definition duo_rots : list (mat spec_float) := [slope_m; flat_m].
Definition duo_C (i : nat) : vec R := nth i [pR 0 1 0; pR 0 0 (-4)] rv_zero.
Definition duo_ra (i : nat) : R := nth i [2; 1] 0.
Definition duo_rb (i : nat) : R := nth i [1; 1] 0.
Definition duo_rh (i : nat) : R := nth i [2; 1] 0.
Definition duo_Q (i : nat) : mat R := nth i [slope_Q; flat_Q] flat_Q.
Definition duo_B (i : nat) : vec R := nth i [can_B; V 0 0 (-1)] rv_zero.
Definition duo_tubes : cylinders spec_float :=
  match @make_cylinders _ F64 duo_centers duo_a duo_b duo_h duo_rots with Ok m => m | _ => Cylinders [] [] [] [] [] [] end.

Lemma pole_dir : visF 53 1024 (@mulmv _ F64 (trans flat_m) (direction row_r0)) (V 0 0 (-1)).
Proof. set (w := @mulmv _ F64 (trans flat_m) (direction row_r0)). vm_compute in w. unfold w. split; [|split]; cbn [vx vy vz]; lit. Qed.
Lemma pole_tame o O : visF 53 1024 o O -> rv_norm (rv_sub O (pR 0 0 (-4))) <= 8 ->
  tube_ray 53 1024 8 1 (/ 1024) o (direction row_r0) (p64 0 0 (-4)) (f64 1 0) (f64 1 0) (f64 2 0) flat_m O can_U (pR 0 0 (-4)) 1 1 1 flat_Q (V 0 0 (-1)).
Proof.
  intros Ho Hn. destruct row_one as (_ & A1 & A2 & A3 & A4 & _). constructor; try assumption.
  - apply p64_is; reflexivity.
  - apply int64; reflexivity.
  - apply int64; reflexivity.
  - apply int64; [reflexivity|lra].
  - exact flat_near.
  - lra.
  - rewrite ulp64_is. lra.
  - split; [lra|]. split; [lra|exact pow_low64].
  - eapply Rle_trans; [|exact top64_48]. cbn [pow]. lra.
  - exact pole_dir.
  - left. split; reflexivity.
  - right. cbn [vz]. rewrite Rabs_left; lra.
Qed.
Lemma pole_local t : local (pR 0 0 (-4)) flat_Q (at_t (V 0 0 3) can_U t) = V 0 0 (7 - t).
Proof. rewrite can_U_is. unfold local, at_t, rv_add, rv_scale, rv_sub, rv_mul, rv_trans, rv_dot, flat_Q, pR. cbn [vx vy vz]. f_equal; lra. Qed.
Lemma duo_ray : tubes_ray 53 1024 8 1 (/ 1024) duo_centers duo_a duo_b duo_h duo_rots duo_C duo_ra duo_rb duo_rh duo_Q duo_B
  row_o down_d (f64 0 0) (S754_infinity false) (pR 0 0 3) (pR 0 0 (-2)) 0.
Proof.
  destruct row_ray as [A1 A2 _ _ A5 A6 A7 _ _]. destruct can_errs as [E1 E2]. split; try assumption.
  - intros i Hi. two i; (do 5 eexists; do 5 (split; [reflexivity|]); split; [|apply (coords_R 8); cbn; lia]).
    + apply can_tame; [apply (p64_is 0 0 3); reflexivity|]. unfold rv_sub, pR. cbn [vx vy vz]. apply norm_below; lra.
    + apply pole_tame; [apply (p64_is 0 0 3); reflexivity|]. unfold rv_sub, pR. cbn [vx vy vz]. apply norm_below; lra.
  - rewrite E1, E2. change (pR 0 0 3) with (V 0 0 3). rewrite (at_zero (V 0 0 3) can_U). intros i Hi. left. two i; cbn [duo_C duo_Q duo_ra duo_rb duo_rh nth].
    + left. rewrite can_local. cbn [vz]. rewrite Rabs_pos_eq; lra.
    + left. rewrite pole_local. cbn [vz]. rewrite Rabs_pos_eq; lra.
  - left. reflexivity.
Qed.
Lemma duo_seen : plain_view 53 8 1 (duo_ra 0) (duo_rb 0) (duo_rh 0) (duo_C 0) (duo_Q 0) (pR 0 0 3) (unit_of (pR 0 0 (-2))) (lo_unit 0 (pR 0 0 (-2))) 2 /\
  plain_view 53 8 1 (duo_ra 1) (duo_rb 1) (duo_rh 1) (duo_C 1) (duo_Q 1) (pR 0 0 3) (unit_of (pR 0 0 (-2))) (lo_unit 0 (pR 0 0 (-2))) 7.
Proof.
  destruct can_outside as (_ & H1 & H2 & H3 & _). unfold lo_unit. rewrite Rmult_0_l. fold can_U. pose proof ulp64_is as Eu. split.
  - split; [lra|]. split; [right; rewrite Eu; lra|]. split; [exact H2|]. split; [right|right; split; [exact H1|exact H3]].
    rewrite Eu, can_U_is. unfold in_tips, at_t, rv_add, rv_scale, tip_extent, duo_C, duo_Q, slope_Q, pR, duo_ra, duo_rb, duo_rh. cbn [nth vx vy vz].
    split; [|split]; unfold Rmax; repeat destruct (Rle_dec _ _); unfold Rabs in *; repeat destruct (Rcase_abs _); lra.
  - destruct can_errs as [E1 E2]. change (pR 0 0 3) with (V 0 0 3). split; [lra|]. split; [right; rewrite Eu; lra|]. rewrite E1, E2. cbn [duo_C duo_Q duo_ra duo_rb duo_rh nth].
    split; [rewrite pole_local; split; unfold radial; cbn [vx vy vz]; [lra|replace (7 - 7) with 0 by lra; rewrite Rabs_R0; lra]|].
    split; [left; unfold axis_aligned, axis_row, flat_Q; cbn [vx vy vz]; lra|]. right. split.
    + left. rewrite (at_zero (V 0 0 3) can_U), pole_local. cbn [vz]. rewrite Rabs_pos_eq; lra.
    + intros s Hs. rewrite pole_local. intros [N1 _]. unfold radial in N1. cbn [vx vy vz] in N1. apply Rabs_le_inv in N1. lra.
Qed.
Lemma duo_query : exists nodes st rh x,
  tubes_ray 53 1024 8 1 (/ 1024) duo_centers duo_a duo_b duo_h duo_rots duo_C duo_ra duo_rb duo_rh duo_Q duo_B
    row_o down_d (f64 0 0) (S754_infinity false) (pR 0 0 3) (pR 0 0 (-2)) 0 /\
  off_sides 53 1024 duo_centers duo_a duo_b duo_h duo_rots (pR 0 0 3) (pR 0 0 (-2)) /\
  @make_cylinders _ F64 duo_centers duo_a duo_b duo_h duo_rots = Ok duo_tubes /\
  @build _ F64 _ libstdcxx_partition [] (@cylinder_coll _ duo_tubes) pair_opt = Ok (nodes, st) /\
  (forall k d, node_depth nodes k d -> (d <= 26)%nat) /\ length nodes = 3%nat /\
  plain_view 53 8 1 (duo_ra 0) (duo_rb 0) (duo_rh 0) (duo_C 0) (duo_Q 0) (pR 0 0 3) (unit_of (pR 0 0 (-2))) (lo_unit 0 (pR 0 0 (-2))) 2 /\
  plain_view 53 8 1 (duo_ra 1) (duo_rb 1) (duo_rh 1) (duo_C 1) (duo_Q 1) (pR 0 0 3) (unit_of (pR 0 0 (-2))) (lo_unit 0 (pR 0 0 (-2))) 7 /\
  @traverse _ F64 _ _ (@cylinder_isector _ F64) nodes (@make_ray _ F64 row_o down_d (f64 0 0) (S754_infinity false) false) two_rh = Ok (true, rh) /\
  h_prim rh = Some 0%nat /\ isF 53 1024 (h_distance rh) x /\ Rabs (x - 5 / 4) <= / 1000000000000.
Proof.
  assert (H : exists nodes st rh, @build _ F64 _ libstdcxx_partition [] (@cylinder_coll _ duo_tubes) pair_opt = Ok (nodes, st) /\ length nodes = 3%nat /\
    @traverse _ F64 _ _ (@cylinder_isector _ F64) nodes (@make_ray _ F64 row_o down_d (f64 0 0) (S754_infinity false) false) two_rh = Ok (true, rh) /\
    h_prim rh = Some 0%nat /\ h_distance rh = S754_finite false 5629499534213122 (-52)).
  { do 3 eexists. split; [vm_compute; reflexivity|]. split; [reflexivity|]. split; [vm_compute; reflexivity|]. split; reflexivity. }
  destruct H as (nodes & st & rh & Hb & Hl & Ht & Hp & Hd). destruct duo_seen as [S1 S2]. exists nodes, st, rh, (5629499534213122 * / 4503599627370496). rewrite Hd.
  split; [exact duo_ray|]. split; [intros Z; exfalso; revert Z; unfold pR; cbn [vz]; lra|]. split; [vm_compute; reflexivity|]. split; [exact Hb|]. split.
  { apply (@opt_depth _ _ F64 libstdcxx_partition libstdcxx_partition_ok (@cylinder_coll _ duo_tubes) pair_opt _ _ Hb). cbn. lia. }
  split; [exact Hl|]. split; [exact S1|]. split; [exact S2|]. split; [exact Ht|]. split; [exact Hp|]. split; [lit|]. apply Rabs_le. lra.
Qed.
(** In a leaf with both, the last one that is met is reported: here the one behind. *)
Lemma duo_leaf : exists nodes st rh x,
  tubes_ray 53 1024 8 1 (/ 1024) duo_centers duo_a duo_b duo_h duo_rots duo_C duo_ra duo_rb duo_rh duo_Q duo_B
    row_o down_d (f64 0 0) (S754_infinity false) (pR 0 0 3) (pR 0 0 (-2)) 0 /\
  @make_cylinders _ F64 duo_centers duo_a duo_b duo_h duo_rots = Ok duo_tubes /\
  @build _ F64 _ libstdcxx_partition [] (@cylinder_coll _ duo_tubes) default_options = Ok (nodes, st) /\
  plain_view 53 8 1 (duo_ra 0) (duo_rb 0) (duo_rh 0) (duo_C 0) (duo_Q 0) (pR 0 0 3) (unit_of (pR 0 0 (-2))) (lo_unit 0 (pR 0 0 (-2))) 2 /\
  @traverse _ F64 _ _ (@cylinder_isector _ F64) nodes (@make_ray _ F64 row_o down_d (f64 0 0) (S754_infinity false) false) two_rh = Ok (true, rh) /\
  isF 53 1024 (h_distance rh) x /\ 5 < x.
Proof.
  assert (H : exists nodes st rh, @build _ F64 _ libstdcxx_partition [] (@cylinder_coll _ duo_tubes) default_options = Ok (nodes, st) /\
    @traverse _ F64 _ _ (@cylinder_isector _ F64) nodes (@make_ray _ F64 row_o down_d (f64 0 0) (S754_infinity false) false) two_rh = Ok (true, rh) /\
    h_distance rh = S754_finite false 6755399441055744 (-50)).
  { do 3 eexists. split; [vm_compute; reflexivity|]. split; [vm_compute; reflexivity|]. reflexivity. }
  destruct H as (nodes & st & rh & Hb & Ht & Hd). destruct duo_seen as [S1 S2]. exists nodes, st, rh, 6. rewrite Hd.
  split; [exact duo_ray|]. split; [vm_compute; reflexivity|]. split; [exact Hb|]. split; [exact S1|]. split; [exact Ht|]. split; [lit|lra].
Qed.
Lemma duo_boxes :
  box_low (tube_box_of 53 1024 duo_centers duo_a duo_b duo_h duo_rots 0) = V (-2) (- (7205759403792792 / 36028797018963968)) (- (7205759403792794 / 4503599627370496)) /\
  box_high (tube_box_of 53 1024 duo_centers duo_a duo_b duo_h duo_rots 0) = V 2 (4953959590107546 / 2251799813685248) (7205759403792794 / 4503599627370496) /\
  box_low (tube_box_of 53 1024 duo_centers duo_a duo_b duo_h duo_rots 1) = V (-1) (-1) (-5) /\
  box_high (tube_box_of 53 1024 duo_centers duo_a duo_b duo_h duo_rots 1) = V 1 1 (-3).
Proof.
  unfold box_low, box_high, vmap.
  set (b0 := tube_box_of 53 1024 duo_centers duo_a duo_b duo_h duo_rots 0). set (b1 := tube_box_of 53 1024 duo_centers duo_a duo_b duo_h duo_rots 1).
  vm_compute in b0. vm_compute in b1. unfold b0, b1. cbn [fst snd vx vy vz SF2R cond_Zopp]. unfold F2R. cbn [Defs.Fnum Fexp].
  cbn [bpow Z.pow_pos Pos.iter radix_val radix2]. split; [|split; [|split]]; f_equal; cbn; lra.
Qed.
Lemma duo_spread (L H : nat -> vec R) : L 0%nat = V (-2) (- (7205759403792792 / 36028797018963968)) (- (7205759403792794 / 4503599627370496)) ->
  H 0%nat = V 2 (4953959590107546 / 2251799813685248) (7205759403792794 / 4503599627370496) -> L 1%nat = V (-1) (-1) (-5) -> H 1%nat = V 1 1 (-3) -> spread_boxes 1024 2 L H.
Proof.
  intros A1 A2 B1 B2. pose proof low64 as Hl. intros i j Hi Hj. unfold spread.
  set (ll := least 1024) in *. clearbody ll.
  two i; two j; rewrite ?A1, ?A2, ?B1, ?B2; cbn [vx vy vz]; (split; [|split]);
    first [left; lra|right; first [rewrite Rabs_pos_eq by lra; lra|rewrite Rabs_left by lra; lra]].
Qed.
Lemma duo_ready : tubes_ray 53 1024 8 1 (/ 1024) duo_centers duo_a duo_b duo_h duo_rots duo_C duo_ra duo_rb duo_rh duo_Q duo_B
    row_o down_d (f64 0 0) (S754_infinity false) (pR 0 0 3) (pR 0 0 (-2)) 0 /\
  spread_boxes 1024 (length duo_centers) (fun i => box_low (tube_box_of 53 1024 duo_centers duo_a duo_b duo_h duo_rots i)) (fun i => box_high (tube_box_of 53 1024 duo_centers duo_a duo_b duo_h duo_rots i)) /\
  shallow pair_opt (length duo_centers).
Proof.
  split; [exact duo_ray|]. split; [|left; cbn; lia]. destruct duo_boxes as (A1 & A2 & B1 & B2). exact (duo_spread _ _ A1 A2 B1 B2).
Qed.
