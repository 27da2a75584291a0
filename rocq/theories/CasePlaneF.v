(** Concrete patches in binary64 and binary32. *)

From Coq Require Import Reals ZArith List Bool Arith Lra Lia Psatz Floats.SpecFloat.
From Flocq Require Import Core IEEE754.BinarySingleNaN.
From Verif Require Import Num NumR NumF Vec Datatypes Ray Bvh Traverse Plane SpecBvh SpecReal SpecIEEE SpecTriF SpecSphF SpecPlane SpecPlaneF.
From Verif Require Import PfPart PfBuild2 PfTrav2 PfIEEE PfX PfDirF PfPlane CaseIEEE CaseTriF CaseSphF.
Import ListNotations.
Local Open Scope R_scope.

(** A 4 by 4 patch around (0, 1, 0), turned about the x-axis (cosine 4/5, sine 3/5), and another one
    in the plane z = -4; a ray from (0, 0, 3) downwards, its direction of length 2. *)
Definition f08 : spec_float := f64 7205759403792794 (-53).
Definition f06 : spec_float := f64 5404319552844595 (-53).
Definition slope_m : mat spec_float := V (p64 1 0 0) (V (f64 0 0) f08 (@nopp _ F64 f06)) (V (f64 0 0) f06 f08).
Definition slope_Q : mat R := V (V 1 0 0) (V 0 (4 / 5) (- (3 / 5))) (V 0 (3 / 5) (4 / 5)).
Definition flat_m : mat spec_float := V (p64 1 0 0) (p64 0 1 0) (p64 0 0 1).
Definition flat_Q : mat R := V (V 1 0 0) (V 0 1 0) (V 0 0 1).
Definition pan_centers : list (vec spec_float) := [p64 0 1 0; p64 0 0 (-4)].
Definition pan_sides : list spec_float := [f64 4 0; f64 4 0].
Definition pan_rots : list (mat spec_float) := [slope_m; flat_m].
Definition pan_C (i : nat) : vec R := nth i [pR 0 1 0; pR 0 0 (-4)] rv_zero.
Definition pan_d (_ : nat) : R := 4.
Definition pan_Q (i : nat) : mat R := nth i [slope_Q; flat_Q] flat_Q.

Lemma slope_orth : orthogonal slope_Q.
Proof. intros [x y z]. unfold rv_mul, rv_trans, rv_dot, slope_Q. cbn [vx vy vz]. split; f_equal; lra. Qed.
Lemma flat_orth : orthogonal flat_Q.
Proof. intros [x y z]. unfold rv_mul, rv_trans, rv_dot, flat_Q. cbn [vx vy vz]. split; f_equal; lra. Qed.
Lemma coords_near e x y z a b c : Rabs (x - a) <= e -> Rabs (y - b) <= e -> Rabs (z - c) <= e -> coords e (rv_sub (V x y z) (V a b c)).
Proof. intros. split; [|split]; assumption. Qed.
Lemma near_eq e x : 0 <= e -> Rabs (x - x) <= e. Proof. intros H. rewrite Rminus_eq_0, Rabs_R0. exact H. Qed.
Lemma f08_is : isF 53 1024 f08 (7205759403792794 * / 9007199254740992).
Proof. apply (lit64 7205759403792794 (-53)); [reflexivity|split; discriminate]. Qed.
Lemma f06_is : isF 53 1024 f06 (5404319552844595 * / 9007199254740992).
Proof. apply (lit64 5404319552844595 (-53)); [reflexivity|split; discriminate]. Qed.
Lemma slope_near : rot_near 53 1024 slope_m slope_Q.
Proof.
  split; [exact slope_orth|]. pose proof f08_is as A. pose proof f06_is as B. pose proof (isF_opp 53 1024 _ _ B) as B'.
  exists (V (pR 1 0 0) (V 0 (7205759403792794 * / 9007199254740992) (- (5404319552844595 * / 9007199254740992))) (V 0 (5404319552844595 * / 9007199254740992) (7205759403792794 * / 9007199254740992))).
  cbn [slope_m slope_Q vx vy vz]. rewrite ulp64_is. split.
  { split; [apply p64_is; reflexivity|]. split; (split; [apply int64; reflexivity|split; assumption]). }
  split; [|split]; apply coords_near; apply Rabs_le; lra.
Qed.
Lemma flat_near : rot_near 53 1024 flat_m flat_Q.
Proof.
  split; [exact flat_orth|]. exists (V (pR 1 0 0) (pR 0 1 0) (pR 0 0 1)). cbn [flat_m flat_Q vx vy vz]. rewrite ulp64_is. split.
  { split; [|split]; apply p64_is; reflexivity. }
  split; [|split]; apply coords_near; apply Rabs_le; lra.
Qed.
Lemma pan_is i : (i < 2)%nat -> exists c x y m, nth_error pan_centers i = Some c /\ nth_error pan_sides i = Some x /\ nth_error pan_sides i = Some y /\ nth_error pan_rots i = Some m /\
  plane_isF 53 1024 8 (pR 0 0 3) c x y m (pan_C i) (pan_d i) (pan_d i) (pan_Q i) /\ coords 8 (pan_C i).
Proof.
  intros Hi. two i; (do 4 eexists; split; [reflexivity|]; split; [reflexivity|]; split; [reflexivity|]; split; [reflexivity|]; split; [|apply (coords_R 8); cbn; lia]);
    (split; [apply p64_is; reflexivity|]; split; [apply int64; reflexivity|]; split; [apply int64; reflexivity|]; split; [exact slope_near || exact flat_near|];
     split; [unfold pan_d; lra|]; split; [unfold pan_d; lra|]; unfold rv_sub, pan_C, pR; cbn [nth vx vy vz]; apply norm_below; lra).
Qed.
Lemma pan_ray : patch_ray 53 1024 8 pan_centers pan_sides pan_sides pan_rots pan_C pan_d pan_d pan_Q
  row_o down_d (f64 0 0) (S754_infinity false) (pR 0 0 3) (pR 0 0 (-2)) 0.
Proof.
  destruct row_ray as [A1 A2 _ _ A5 A6 A7 _ _].
  split; try assumption.
  - exact pan_is.
  - left. reflexivity.
  - unfold pR. cbn [vz]. lra.
Qed.
Lemma pan_pierced : pierces (patch_err 53 8) (pan_C 0) (pan_d 0) (pan_d 0) (pan_Q 0) (pR 0 0 3) (unit_of (pR 0 0 (-2))) (lo_unit 0 (pR 0 0 (-2))) (15 / 4) /\
  pierces (patch_err 53 8) (pan_C 1) (pan_d 1) (pan_d 1) (pan_Q 1) (pR 0 0 3) (unit_of (pR 0 0 (-2))) (lo_unit 0 (pR 0 0 (-2))) 7 /\
  steepness (pan_Q 0) (unit_of (pR 0 0 (-2))) = 4 / 5.
Proof.
  destruct (unit_down 2 ltac:(lra)) as [EU EN]. rewrite down_eq, EU. unfold patch_err, lo_unit, pierces. rewrite Rmult_0_l, ulp64_is.
  assert (S : steepness (pan_Q 0) (V 0 0 (-1)) = 4 / 5 /\ steepness (pan_Q 1) (V 0 0 (-1)) = 1).
  { unfold steepness, normal_of, rv_mul, rv_dot, pan_Q, slope_Q, flat_Q. cbn [nth vx vy vz]. split; [rewrite Rabs_left by lra; lra|rewrite Rabs_left by lra; lra]. }
  destruct S as [-> ->].
  assert (L0 : local (pan_C 0) (pan_Q 0) (at_t (pR 0 0 3) (V 0 0 (-1)) (15 / 4)) = V 0 (- (5 / 4)) 0).
  { unfold local, at_t, rv_add, rv_scale, rv_sub, rv_mul, rv_trans, rv_dot, pan_C, pan_Q, slope_Q, pR. cbn [nth vx vy vz]. f_equal; lra. }
  assert (L1 : local (pan_C 1) (pan_Q 1) (at_t (pR 0 0 3) (V 0 0 (-1)) 7) = V 0 0 0).
  { unfold local, at_t, rv_add, rv_scale, rv_sub, rv_mul, rv_trans, rv_dot, pan_C, pan_Q, flat_Q, pR. cbn [nth vx vy vz]. f_equal; lra. }
  rewrite L0, L1. cbn [vx vy vz]. rewrite Rabs_Ropp, Rabs_R0, (Rabs_pos_eq (5 / 4)) by lra. unfold pan_d. split; [|split; [|reflexivity]]; repeat split; lra.
Qed.
Definition pan_planes : planes spec_float :=
  match @make_planes _ F64 pan_centers pan_sides pan_sides pan_rots with Ok m => m | _ => Planes [] [] [] [] [] end.
(** The distance is 15/4, up to one unit in the last place. *)
Lemma pan_built : exists nodes st rh,
  @build _ F64 _ libstdcxx_partition [] (@plane_coll _ pan_planes) pair_opt = Ok (nodes, st) /\ length nodes = 3%nat /\
  @traverse _ F64 _ _ (@plane_isector _ F64) nodes (@make_ray _ F64 row_o down_d (f64 0 0) (S754_infinity false) false) two_rh = Ok (true, rh) /\
  h_prim rh = Some 0%nat /\ isF 53 1024 (h_distance rh) (8444249301319681 / 2251799813685248) /\ h_normal rh = V (f64 0 0) (@nopp _ F64 f06) f08.
Proof.
  do 3 eexists. split; [vm_compute; reflexivity|]. split; [reflexivity|]. split; [vm_compute; reflexivity|]. split; [reflexivity|].
  cbn [h_distance h_normal]. split; [lit|]. reflexivity.
Qed.
Lemma pan_query : exists nodes st rh,
  patch_ray 53 1024 8 pan_centers pan_sides pan_sides pan_rots pan_C pan_d pan_d pan_Q
    row_o down_d (f64 0 0) (S754_infinity false) (pR 0 0 3) (pR 0 0 (-2)) 0 /\
  @make_planes _ F64 pan_centers pan_sides pan_sides pan_rots = Ok pan_planes /\
  @build _ F64 _ libstdcxx_partition [] (@plane_coll _ pan_planes) pair_opt = Ok (nodes, st) /\
  (forall k d, node_depth nodes k d -> (d <= 26)%nat) /\ length nodes = 3%nat /\
  pierces (patch_err 53 8) (pan_C 0) (pan_d 0) (pan_d 0) (pan_Q 0) (pR 0 0 3) (unit_of (pR 0 0 (-2))) (lo_unit 0 (pR 0 0 (-2))) (15 / 4) /\
  pierces (patch_err 53 8) (pan_C 1) (pan_d 1) (pan_d 1) (pan_Q 1) (pR 0 0 3) (unit_of (pR 0 0 (-2))) (lo_unit 0 (pR 0 0 (-2))) 7 /\
  steepness (pan_Q 0) (unit_of (pR 0 0 (-2))) = 4 / 5 /\
  @traverse _ F64 _ _ (@plane_isector _ F64) nodes (@make_ray _ F64 row_o down_d (f64 0 0) (S754_infinity false) false) two_rh = Ok (true, rh) /\
  h_prim rh = Some 0%nat /\ isF 53 1024 (h_distance rh) (8444249301319681 / 2251799813685248) /\ h_normal rh = V (f64 0 0) (@nopp _ F64 f06) f08.
Proof.
  destruct pan_built as (nodes & st & rh & Hb & Hl & Ht & Hp & Hh & Hn). exists nodes, st, rh.
  split; [exact pan_ray|]. split; [vm_compute; reflexivity|]. split; [exact Hb|]. split.
  { apply (@opt_depth _ _ F64 libstdcxx_partition libstdcxx_partition_ok (@plane_coll _ pan_planes) pair_opt _ _ Hb). cbn. lia. }
  split; [exact Hl|]. destruct pan_pierced as (C1 & C2 & C3). split; [exact C1|]. split; [exact C2|]. split; [exact C3|]. auto.
Qed.
Lemma pan_boxes :
  box_low (box_of 53 1024 pan_centers pan_sides pan_sides pan_rots 0) = V (-2) (- (5404319552844596 / 9007199254740992)) (- (5404319552844595 / 4503599627370496)) /\
  box_high (box_of 53 1024 pan_centers pan_sides pan_sides pan_rots 0) = V 2 (5854679515581645 / 2251799813685248) (5404319552844595 / 4503599627370496) /\
  box_low (box_of 53 1024 pan_centers pan_sides pan_sides pan_rots 1) = V (-2) (-2) (-4) /\
  box_high (box_of 53 1024 pan_centers pan_sides pan_sides pan_rots 1) = V 2 2 (-4).
Proof.
  unfold box_low, box_high, vmap.
  set (b0 := box_of 53 1024 pan_centers pan_sides pan_sides pan_rots 0). set (b1 := box_of 53 1024 pan_centers pan_sides pan_sides pan_rots 1).
  vm_compute in b0. vm_compute in b1. unfold b0, b1. cbn [fst snd vx vy vz SF2R cond_Zopp]. unfold F2R. cbn [Defs.Fnum Fexp].
  cbn [bpow Z.pow_pos Pos.iter radix_val radix2]. split; [|split; [|split]]; f_equal; cbn; lra.
Qed.
Lemma pair_spread (L H : nat -> vec R) : L 0%nat = V (-2) (- (5404319552844596 / 9007199254740992)) (- (5404319552844595 / 4503599627370496)) ->
  H 0%nat = V 2 (5854679515581645 / 2251799813685248) (5404319552844595 / 4503599627370496) -> L 1%nat = V (-2) (-2) (-4) -> H 1%nat = V 2 2 (-4) -> spread_boxes 1024 2 L H.
Proof.
  intros A1 A2 B1 B2. pose proof low64 as Hl. intros i j Hi Hj. unfold spread.
  set (ll := least 1024) in *. clearbody ll.
  two i; two j; rewrite ?A1, ?A2, ?B1, ?B2; cbn [vx vy vz]; (split; [|split]);
    first [left; lra|right; first [rewrite Rabs_pos_eq by lra; lra|rewrite Rabs_left by lra; lra]].
Qed.
Lemma pan_spread : spread_boxes 1024 (length pan_centers)
  (fun i => box_low (box_of 53 1024 pan_centers pan_sides pan_sides pan_rots i)) (fun i => box_high (box_of 53 1024 pan_centers pan_sides pan_sides pan_rots i)).
Proof. destruct pan_boxes as (A1 & A2 & B1 & B2). exact (pair_spread _ _ A1 A2 B1 B2). Qed.
Lemma pan_ready : patch_ray 53 1024 8 pan_centers pan_sides pan_sides pan_rots pan_C pan_d pan_d pan_Q
    row_o down_d (f64 0 0) (S754_infinity false) (pR 0 0 3) (pR 0 0 (-2)) 0 /\
  spread_boxes 1024 (length pan_centers)
    (fun i => box_low (box_of 53 1024 pan_centers pan_sides pan_sides pan_rots i)) (fun i => box_high (box_of 53 1024 pan_centers pan_sides pan_sides pan_rots i)) /\
  shallow pair_opt (length pan_centers).
Proof. split; [exact pan_ray|]. split; [exact pan_spread|]. left. cbn. lia. Qed.

(** The first patch: the premises of the routine's theorems. *)
Lemma pan_one : exists st',
  usual_format 53 1024 /\ scale_ok 53 1024 8 /\ visF 53 1024 (origin row_r0) (pR 0 0 3) /\
  unit_near 53 1024 (direction row_r0) (unit_of (pR 0 0 (-2))) /\
  plane_isF 53 1024 8 (pR 0 0 3) (p64 0 1 0) (f64 4 0) (f64 4 0) slope_m (pan_C 0) (pan_d 0) (pan_d 0) (pan_Q 0) /\
  pierces (patch_err 53 8) (pan_C 0) (pan_d 0) (pan_d 0) (pan_Q 0) (pR 0 0 3) (unit_of (pR 0 0 (-2))) (lo_unit 0 (pR 0 0 (-2))) (15 / 4) /\
  @plane_intersect _ F64 (@plane_prepare _ F64 row_r0) (Plane (p64 0 1 0) (f64 4 0) (f64 4 0) slope_m 7) row_r0 = (true, st') /\
  isF 53 1024 (pi_hd st') (8444249301319681 / 2251799813685248).
Proof.
  destruct row_one as (_ & A1 & A2 & A3 & A4 & _). destruct (pan_is 0 ltac:(lia)) as (c & x & y & m & E1 & E2 & E3 & E4 & H & _).
  injection E1 as <-. injection E2 as <-. injection E3 as <-. injection E4 as <-.
  eexists. split; [exact A1|]. split; [exact A2|]. split; [exact A3|]. split; [exact A4|]. split; [exact H|]. split; [apply pan_pierced|].
  split; [vm_compute; reflexivity|]. cbn [pi_hd]. lit.
Qed.

(** A patch of width 3/32 about the origin and a ray that starts 12672 units away, through the
    center, at an angle of about a fifth of a degree: in binary32 it is missed. *)
Definition f13 : spec_float := f32 11184811 (-25).
Definition f23 : spec_float := f32 11184811 (-24).
Definition graze_m : mat spec_float := V (V f13 f23 f23) (V f23 f13 (@nopp _ F32 f23)) (V f23 (@nopp _ F32 f23) f13).
Definition graze_Q : mat R := V (V (1 / 3) (2 / 3) (2 / 3)) (V (2 / 3) (1 / 3) (- (2 / 3))) (V (2 / 3) (- (2 / 3)) (1 / 3)).
Definition graze_o : vec spec_float := p32 9472 7424 (-3968).
Definition graze_d : vec spec_float := p32 (-74) (-58) 31.
Definition graze_planes : planes spec_float :=
  match @make_planes _ F32 [p32 0 0 0] [f32 3 (-5)] [f32 3 (-5)] [graze_m] with Ok m => m | _ => Planes [] [] [] [] [] end.
Lemma graze_norm : rv_norm (pR (-74) (-58) 31) = 99 /\ unit_of (pR (-74) (-58) 31) = V (-74 / 99) (-58 / 99) (31 / 99).
Proof.
  assert (N : rv_norm (pR (-74) (-58) 31) = 99).
  { unfold rv_norm, rv_dot, pR. cbn [vx vy vz]. replace (-74 * -74 + -58 * -58 + 31 * 31) with (99 * 99) by ring. apply sqrt_square. lra. }
  split; [exact N|]. unfold unit_of, rv_scale. rewrite N. unfold pR. cbn [vx vy vz]. f_equal; field.
Qed.
Lemma graze_orth : orthogonal graze_Q.
Proof. intros [x y z]. unfold rv_mul, rv_trans, rv_dot, graze_Q. cbn [vx vy vz]. split; f_equal; lra. Qed.
Lemma lit32 m e : (Z.abs m < 2 ^ 24)%Z -> (-149 <= e <= 104)%Z -> isF 24 128 (f32 m e) (IZR m * bpow radix2 e).
Proof. apply (@PfIEEE3.isF_lit 24 128 prec24 emax128). discriminate. Qed.
Lemma graze_near : rot_near 24 128 graze_m graze_Q.
Proof.
  split; [exact graze_orth|].
  assert (A : isF 24 128 f13 (11184811 * / 33554432)) by (apply (lit32 11184811 (-25)); [reflexivity|split; discriminate]).
  assert (B : isF 24 128 f23 (11184811 * / 16777216)) by (apply (lit32 11184811 (-24)); [reflexivity|split; discriminate]).
  pose proof (isF_opp 24 128 _ _ B) as B'. set (a := 11184811 * / 33554432) in *. set (b := 11184811 * / 16777216) in *.
  exists (V (V a b b) (V b a (- b)) (V b (- b) a)). cbn [graze_m graze_Q vx vy vz]. rewrite ulp32_is. split.
  { repeat (split; [split; [assumption|split; assumption]|]). split; [assumption|split; assumption]. }
  unfold a, b. split; [|split]; apply coords_near; apply Rabs_le; lra.
Qed.
Lemma graze_ray : patch_ray 24 128 12700 [p32 0 0 0] [f32 3 (-5)] [f32 3 (-5)] [graze_m] (fun _ => pR 0 0 0) (fun _ => 3 / 32) (fun _ => 3 / 32) (fun _ => graze_Q)
  graze_o graze_d (f32 0 0) (S754_infinity false) (pR 9472 7424 (-3968)) (pR (-74) (-58) 31) 0.
Proof.
  pose proof low32. pose proof big32. pose proof linv32. destruct graze_norm as [EN EU].
  split.
  - exact usual32.
  - apply scale32. lra.
  - intros i Hi. cbn [length] in Hi. destruct i as [|i]; [|lia].
    do 4 eexists. split; [reflexivity|]. split; [reflexivity|]. split; [reflexivity|]. split; [reflexivity|]. split; [|apply (coords_R 12700); cbn; lia].
    assert (S : isF 24 128 (f32 3 (-5)) (3 / 32)) by (unfold Rdiv; apply (lit32 3 (-5)); [reflexivity|split; discriminate]).
    split; [apply p32_is; reflexivity|]. split; [exact S|]. split; [exact S|]. split; [exact graze_near|]. split; [lra|]. split; [lra|].
    unfold rv_sub, pR; cbn [vx vy vz]; apply norm_below; lra.
  - split; cbn [vx vy vz pR p32 graze_o graze_d].
    + apply p32_is; reflexivity.
    + apply p32_is; reflexivity.
    + apply int32; reflexivity.
    + unfold moderate. cbn [vx vy vz pR]. repeat split; apply Rabs_le; lra.
    + split; [lra|]. intros _. rewrite Rabs_left by lra. lra.
    + split; [lra|]. intros _. rewrite Rabs_left by lra. lra.
    + split; [lra|]. intros _. rewrite Rabs_pos_eq by lra. lra.
  - rewrite EN. rewrite ulp32_is. rewrite Rinv_inv. lra.
  - lra.
  - left. reflexivity.
  - unfold pR. cbn [vz]. lra.
Qed.
Lemma graze_pierced : pierces (patch_err 24 12700 / 1280) (pR 0 0 0) (3 / 32) (3 / 32) graze_Q (pR 9472 7424 (-3968)) (unit_of (pR (-74) (-58) 31)) 0 12672 /\
  local (pR 0 0 0) graze_Q (at_t (pR 9472 7424 (-3968)) (unit_of (pR (-74) (-58) 31)) 12672) = V 0 0 0 /\
  steepness graze_Q (unit_of (pR (-74) (-58) 31)) = 1 / 297.
Proof.
  destruct graze_norm as [_ ->].
  assert (S : steepness graze_Q (V (-74 / 99) (-58 / 99) (31 / 99)) = 1 / 297).
  { unfold steepness, normal_of, rv_mul, rv_dot, graze_Q. cbn [vx vy vz]. rewrite Rabs_left by lra; lra. }
  assert (L : local (pR 0 0 0) graze_Q (at_t (pR 9472 7424 (-3968)) (V (-74 / 99) (-58 / 99) (31 / 99)) 12672) = V 0 0 0).
  { unfold local, at_t, rv_add, rv_scale, rv_sub, rv_mul, rv_trans, rv_dot, graze_Q, pR. cbn [vx vy vz]. f_equal; lra. }
  split; [|split; assumption]. unfold pierces. rewrite L, S. cbn [vx vy vz]. rewrite Rabs_R0. unfold patch_err. rewrite ulp32_is. repeat split; lra.
Qed.
Lemma graze_missed : exists nodes st, @make_planes _ F32 [p32 0 0 0] [f32 3 (-5)] [f32 3 (-5)] [graze_m] = Ok graze_planes /\
  @build _ F32 _ libstdcxx_partition [] (@plane_coll _ graze_planes) pair_opt = Ok (nodes, st) /\
  forall any rh, @traverse _ F32 _ _ (@plane_isector _ F32) nodes (@make_ray _ F32 graze_o graze_d (f32 0 0) (S754_infinity false) any) rh = Ok (false, rh).
Proof. do 2 eexists. split; [vm_compute; reflexivity|]. split; [vm_compute; reflexivity|]. intros [|] rh; vm_compute; reflexivity. Qed.
Lemma graze_refuted : exists M centers dxs dys rots C dx dy Q o d tmin tmax O D ps nodes st t,
  patch_ray 24 128 M centers dxs dys rots C dx dy Q o d tmin tmax O D 0 /\
  @make_planes _ F32 centers dxs dys rots = Ok ps /\
  @build _ F32 _ libstdcxx_partition [] (@plane_coll _ ps) pair_opt = Ok (nodes, st) /\ length centers = 1%nat /\
  local (C 0%nat) (Q 0%nat) (at_t O (unit_of D) t) = V 0 0 0 /\ dx 0%nat = 3 / 32 /\ dy 0%nat = 3 / 32 /\ steepness (Q 0%nat) (unit_of D) = 1 / 297 /\
  pierces (patch_err 24 M / 1280) (C 0%nat) (dx 0%nat) (dy 0%nat) (Q 0%nat) O (unit_of D) 0 t /\
  (forall any rh, @traverse _ F32 _ _ (@plane_isector _ F32) nodes (@make_ray _ F32 o d tmin tmax any) rh = Ok (false, rh)).
Proof.
  destruct graze_missed as (nodes & st & H1 & H2 & H3). destruct graze_pierced as (P1 & P2 & P3).
  exists 12700, [p32 0 0 0], [f32 3 (-5)], [f32 3 (-5)], [graze_m], (fun _ => pR 0 0 0), (fun _ => 3 / 32), (fun _ => 3 / 32), (fun _ => graze_Q),
    graze_o, graze_d, (f32 0 0), (S754_infinity false), (pR 9472 7424 (-3968)), (pR (-74) (-58) 31), graze_planes, nodes, st, 12672.
  split; [exact graze_ray|]. split; [exact H1|]. split; [exact H2|]. split; [reflexivity|]. split; [exact P2|]. split; [reflexivity|]. split; [reflexivity|].
  split; [exact P3|]. split; [exact P1|exact H3].
Qed.
