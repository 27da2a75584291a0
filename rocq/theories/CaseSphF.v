(** Concrete spheres in binary64 and binary32. *)

From Coq Require Import Reals ZArith List Bool Arith Lra Lia Psatz Floats.SpecFloat.
From Flocq Require Import Core IEEE754.BinarySingleNaN.
From Verif Require Import Num NumR NumF Vec Datatypes Ray Bvh Traverse Sphere SpecBvh SpecReal SpecIEEE SpecTriF SpecSphF.
From Verif Require Import PfPart PfBuild2 PfTrav2 PfIEEE PfX PfDirF CaseIEEE CaseTriF.
Import ListNotations.
Local Open Scope R_scope.

(** Unit spheres at z = 0 and z = -4; a ray from (0, 0, 3) downwards, its direction of length 2. *)
Definition row_centers : list (vec spec_float) := [p64 0 0 0; p64 0 0 (-4)].
Definition row_radii : list spec_float := [f64 1 0; f64 1 0].
Definition row_C (i : nat) : vec R := nth i [pR 0 0 0; pR 0 0 (-4)] rv_zero.
Definition row_r (_ : nat) : R := 1.
Definition row_o : vec spec_float := p64 0 0 3.
Lemma norm_below x y z m : 0 <= m -> x * x + y * y + z * z <= m * m -> rv_norm (V x y z) <= m.
Proof. intros H1 H2. apply sq_le_abs; [exact H1|]. rewrite rv_norm_sq. exact H2. Qed.
Lemma row_ray : sphere_ray 53 1024 8 row_centers row_radii row_C row_r row_o down_d (f64 0 0) (S754_infinity false) (pR 0 0 3) (pR 0 0 (-2)) 0.
Proof.
  pose proof low64. pose proof big64. pose proof linv64. pose proof ulp64.
  destruct (unit_down 2 ltac:(lra)) as [EU EN].
  split.
  - exact usual64.
  - apply scale64. lra.
  - reflexivity.
  - intros i Hi. change (length row_centers) with 2%nat in Hi.
    two i; (do 2 eexists; split; [reflexivity|]; split; [reflexivity|]; split; [|apply (coords_R 8); cbn; lia]);
      (split; [apply p64_is; reflexivity|]; split; [apply int64; reflexivity|]; split; [unfold row_r; lra|]);
      unfold rv_sub, row_C, pR; cbn [nth vx vy vz]; apply norm_below; lra.
  - split; cbn [vx vy vz pR p64 row_o down_d].
    + apply p64_is; reflexivity.
    + apply p64_is; reflexivity.
    + apply int64; reflexivity.
    + unfold moderate. cbn [vx vy vz pR]. repeat split; apply Rabs_le; lra.
    + split; [reflexivity|lra].
    + split; [reflexivity|lra].
    + split; [lra|]. intros _. rewrite Rabs_left by lra. lra.
  - rewrite down_eq, EN. rewrite ulp64_is. rewrite Rinv_inv. lra.
  - lra.
  - left. reflexivity.
  - unfold pR. cbn [vz]. lra.
Qed.
Lemma row_crossed : crosses (power_err 53 8) (row_C 0) (row_r 0) (pR 0 0 3) (unit_of (pR 0 0 (-2))) 1 3 /\
  crosses (power_err 53 8) (row_C 1) (row_r 1) (pR 0 0 3) (unit_of (pR 0 0 (-2))) 5 7 /\ lo_unit 0 (pR 0 0 (-2)) <= 1.
Proof.
  destruct (unit_down 2 ltac:(lra)) as [EU EN]. rewrite down_eq, EU. unfold power_err, lo_unit, crosses. rewrite ulp64_is.
  split; [|split]; [split; [lra|left]..|lra];
    (split; unfold power, at_t, rv_add, rv_scale, rv_dot, rv_sub, row_C, row_r, pR; cbn [nth vx vy vz]; lra).
Qed.
Lemma row_large i : large 53 8 (row_r i).
Proof. unfold large, row_r. rewrite ulp64_is. lra. Qed.
Definition row_spheres : spheres spec_float :=
  match @make_spheres _ F64 row_centers row_radii with Ok m => m | _ => Spheres [] [] [] end.
Lemma row_built : exists nodes st rh,
  @build _ F64 _ libstdcxx_partition [] (@sphere_coll _ row_spheres) pair_opt = Ok (nodes, st) /\ length nodes = 3%nat /\
  @traverse _ F64 _ _ (@sphere_isector _ F64 row_spheres) nodes (@make_ray _ F64 row_o down_d (f64 0 0) (S754_infinity false) false) two_rh = Ok (true, rh) /\
  h_prim rh = Some 0%nat /\ isF 53 1024 (h_distance rh) 2 /\ visF 53 1024 (h_normal rh) (V 0 0 1).
Proof.
  do 3 eexists. split; [vm_compute; reflexivity|]. split; [reflexivity|]. split; [vm_compute; reflexivity|]. split; [reflexivity|].
  cbn [h_distance h_normal]. split; [lit|]. split; [|split]; cbn [vx vy vz]; lit.
Qed.
Lemma row_query : exists nodes st rh,
  sphere_ray 53 1024 8 row_centers row_radii row_C row_r row_o down_d (f64 0 0) (S754_infinity false) (pR 0 0 3) (pR 0 0 (-2)) 0 /\
  @make_spheres _ F64 row_centers row_radii = Ok row_spheres /\
  @build _ F64 _ libstdcxx_partition [] (@sphere_coll _ row_spheres) pair_opt = Ok (nodes, st) /\
  (forall k d, node_depth nodes k d -> (d <= 26)%nat) /\ length nodes = 3%nat /\
  crosses (power_err 53 8) (row_C 0) (row_r 0) (pR 0 0 3) (unit_of (pR 0 0 (-2))) 1 3 /\
  crosses (power_err 53 8) (row_C 1) (row_r 1) (pR 0 0 3) (unit_of (pR 0 0 (-2))) 5 7 /\
  lo_unit 0 (pR 0 0 (-2)) <= 1 /\ large 53 8 (row_r 0) /\
  @traverse _ F64 _ _ (@sphere_isector _ F64 row_spheres) nodes (@make_ray _ F64 row_o down_d (f64 0 0) (S754_infinity false) false) two_rh = Ok (true, rh) /\
  h_prim rh = Some 0%nat /\ isF 53 1024 (h_distance rh) 2 /\ visF 53 1024 (h_normal rh) (V 0 0 1).
Proof.
  destruct row_built as (nodes & st & rh & Hb & Hl & Ht & Hp & Hh & Hn). exists nodes, st, rh.
  split; [exact row_ray|]. split; [vm_compute; reflexivity|]. split; [exact Hb|]. split.
  { apply (@opt_depth _ _ F64 libstdcxx_partition libstdcxx_partition_ok (@sphere_coll _ row_spheres) pair_opt _ _ Hb). cbn. lia. }
  split; [exact Hl|]. destruct row_crossed as (C1 & C2 & C3). split; [exact C1|]. split; [exact C2|]. split; [exact C3|]. split; [apply row_large|]. auto.
Qed.
Lemma rnd_int z : (Z.abs z < 2 ^ 53)%Z -> rnd 53 1024 (IZR z) = IZR z.
Proof. intros H. apply (rd_id 53 1024 (f64 z 0)). apply int64; auto. Qed.
Lemma row_spread : spread_boxes 1024 (length row_centers) (fun i => rlow 53 1024 (row_C i) (row_r i)) (fun i => rhigh 53 1024 (row_C i) (row_r i)).
Proof.
  pose proof low64.
  assert (E : forall x y z, (Z.abs x < 100)%Z -> (Z.abs y < 100)%Z -> (Z.abs z < 100)%Z ->
    rlow 53 1024 (pR x y z) 1 = pR (x - 1) (y - 1) (z - 1) /\ rhigh 53 1024 (pR x y z) 1 = pR (x + 1) (y + 1) (z + 1)).
  { intros x y z X Y Z. unfold rlow, rhigh, pR. cbn [vx vy vz]. rewrite <- !minus_IZR, <- !plus_IZR. rewrite !rnd_int by lia. auto. }
  assert (A : rlow 53 1024 (pR 0 0 0) 1 = pR (-1) (-1) (-1) /\ rhigh 53 1024 (pR 0 0 0) 1 = pR 1 1 1) by (apply (E 0 0 0)%Z; reflexivity).
  assert (B : rlow 53 1024 (pR 0 0 (-4)) 1 = pR (-1) (-1) (-5) /\ rhigh 53 1024 (pR 0 0 (-4)) 1 = pR 1 1 (-3)) by (apply (E 0 0 (-4))%Z; reflexivity).
  destruct A as [A1 A2], B as [B1 B2].
  intros i j Hi Hj. change (length row_centers) with 2%nat in *. unfold spread, row_r.
  two i; two j; cbn [row_C nth]; rewrite ?A1, ?A2, ?B1, ?B2; unfold pR; cbn [vx vy vz]; repeat split; right;
    first [rewrite Rabs_pos_eq by lra; lra|rewrite Rabs_left by lra; lra].
Qed.
Lemma row_ready : sphere_ray 53 1024 8 row_centers row_radii row_C row_r row_o down_d (f64 0 0) (S754_infinity false) (pR 0 0 3) (pR 0 0 (-2)) 0 /\
  spread_boxes 1024 (length row_centers) (fun i => rlow 53 1024 (row_C i) (row_r i)) (fun i => rhigh 53 1024 (row_C i) (row_r i)) /\
  shallow pair_opt (length row_centers).
Proof. split; [exact row_ray|]. split; [exact row_spread|]. left. cbn. lia. Qed.

(** A unit sphere about the origin and a ray that starts 4000 units away and passes the center
    at less than half a unit: in binary32 it is missed. *)
Definition far_centers : list (vec spec_float) := [p32 0 0 0].
Definition far_radii : list spec_float := [f32 1 0].
Definition far_o : vec spec_float := p32 (-444) (-1776) 3553.
Definition far_d : vec spec_float := p32 1 4 (-8).
Definition far_spheres : spheres spec_float :=
  match @make_spheres _ F32 far_centers far_radii with Ok m => m | _ => Spheres [] [] [] end.
Lemma far_norm : rv_norm (pR 1 4 (-8)) = 9 /\ unit_of (pR 1 4 (-8)) = V (1 / 9) (4 / 9) (-8 / 9).
Proof.
  assert (N : rv_norm (pR 1 4 (-8)) = 9).
  { unfold rv_norm, rv_dot, pR. cbn [vx vy vz]. replace (1 * 1 + 4 * 4 + -8 * -8) with (9 * 9) by ring. apply sqrt_square. lra. }
  split; [exact N|]. unfold unit_of, rv_scale. rewrite N. unfold pR. cbn [vx vy vz]. f_equal; field.
Qed.
Lemma far_ray : sphere_ray 24 128 4096 far_centers far_radii (fun _ => pR 0 0 0) (fun _ => 1) far_o far_d (f32 0 0) (S754_infinity false) (pR (-444) (-1776) 3553) (pR 1 4 (-8)) 0.
Proof.
  pose proof low32. pose proof big32. pose proof linv32. destruct far_norm as [EN EU].
  split.
  - exact usual32.
  - apply scale32. lra.
  - reflexivity.
  - intros i Hi. change (length far_centers) with 1%nat in Hi. destruct i as [|i]; [|lia].
    do 2 eexists. split; [reflexivity|]. split; [reflexivity|]. split; [|apply (coords_R 4096); cbn; lia].
    split; [apply p32_is; reflexivity|]. split; [apply int32; reflexivity|]. split; [lra|].
    unfold rv_sub, pR; cbn [vx vy vz]; apply norm_below; lra.
  - split; cbn [vx vy vz pR p32 far_o far_d].
    + apply p32_is; reflexivity.
    + apply p32_is; reflexivity.
    + apply int32; reflexivity.
    + unfold moderate. cbn [vx vy vz pR]. repeat split; apply Rabs_le; lra.
    + split; [lra|]. intros _. rewrite Rabs_pos_eq by lra. lra.
    + split; [lra|]. intros _. rewrite Rabs_pos_eq by lra. lra.
    + split; [lra|]. intros _. rewrite Rabs_left by lra. lra.
  - rewrite EN. rewrite ulp32_is. rewrite Rinv_inv. lra.
  - lra.
  - left. reflexivity.
  - unfold pR. cbn [vz]. lra.
Qed.
Lemma far_crossed : crosses (3 / 4) (pR 0 0 0) 1 (pR (-444) (-1776) 3553) (unit_of (pR 1 4 (-8))) 1 (35972 / 9).
Proof.
  destruct far_norm as [_ ->]. split; [lra|]. left.
  split; unfold power, at_t, rv_add, rv_scale, rv_dot, rv_sub, pR; cbn [vx vy vz]; lra.
Qed.
Lemma far_missed : exists nodes st, @make_spheres _ F32 far_centers far_radii = Ok far_spheres /\
  @build _ F32 _ libstdcxx_partition [] (@sphere_coll _ far_spheres) pair_opt = Ok (nodes, st) /\
  forall any rh, @traverse _ F32 _ _ (@sphere_isector _ F32 far_spheres) nodes (@make_ray _ F32 far_o far_d (f32 0 0) (S754_infinity false) any) rh = Ok (false, rh).
Proof. do 2 eexists. split; [vm_compute; reflexivity|]. split; [vm_compute; reflexivity|]. intros [|] rh; vm_compute; reflexivity. Qed.
Lemma far_refuted : exists M centers radii C r o d tmin tmax O D ss nodes st y0 y,
  sphere_ray 24 128 M centers radii C r o d tmin tmax O D 0 /\
  @make_spheres _ F32 centers radii = Ok ss /\
  @build _ F32 _ libstdcxx_partition [] (@sphere_coll _ ss) pair_opt = Ok (nodes, st) /\ length centers = 1%nat /\ r 0%nat = 1 /\
  0 < y0 /\ crosses (3 / 4) (C 0%nat) (r 0%nat) O (unit_of D) y0 y /\
  (forall any rh, @traverse _ F32 _ _ (@sphere_isector _ F32 ss) nodes (@make_ray _ F32 o d tmin tmax any) rh = Ok (false, rh)).
Proof.
  destruct far_missed as (nodes & st & H1 & H2 & H3).
  exists 4096, far_centers, far_radii, (fun _ => pR 0 0 0), (fun _ => 1), far_o, far_d, (f32 0 0), (S754_infinity false),
    (pR (-444) (-1776) 3553), (pR 1 4 (-8)), far_spheres, nodes, st, 1, (35972 / 9).
  split; [exact far_ray|]. split; [exact H1|]. split; [exact H2|]. split; [reflexivity|]. split; [reflexivity|]. split; [lra|]. split; [exact far_crossed|exact H3].
Qed.

(** The first sphere of the row: the premises of the routine's theorems. *)
Definition row_r0 : ray spec_float := @make_ray _ F64 row_o down_d (f64 0 0) (S754_infinity false) false.
Lemma row_one : exists st',
  usual_format 53 1024 /\ scale_ok 53 1024 8 /\ visF 53 1024 (origin row_r0) (pR 0 0 3) /\
  unit_near 53 1024 (direction row_r0) (unit_of (pR 0 0 (-2))) /\
  sphere_isF 53 1024 8 (pR 0 0 3) (p64 0 0 0) (f64 1 0) (row_C 0) (row_r 0) /\
  crosses (power_err 53 8) (row_C 0) (row_r 0) (pR 0 0 3) (unit_of (pR 0 0 (-2))) 1 3 /\
  @sphere_intersect _ F64 (@sphere_prepare _ F64 row_r0) (Sphere (p64 0 0 0) (f64 1 0) 7) row_r0 = (true, st') /\
  isF 53 1024 (si_hd st') 2.
Proof.
  eexists. split; [exact usual64|]. split; [apply scale64; lra|]. split; [apply p64_is; reflexivity|]. split.
  { destruct (unit_down 2 ltac:(lra)) as [EU EN]. split.
    - rewrite down_eq, EU. unfold rv_norm, rv_dot. cbn [vx vy vz]. replace (0 * 0 + 0 * 0 + -1 * -1) with 1 by ring. apply sqrt_1.
    - apply (@normalize_near 53 1024 prec53 emax1024 usual64 down_d); [apply p64_is; reflexivity|]. rewrite down_eq, EN, ulp64_is, Rinv_inv. lra. }
  split.
  { split; [apply p64_is; reflexivity|]. split; [apply int64; reflexivity|]. split; [unfold row_r; lra|].
    unfold rv_sub, row_C, pR; cbn [nth vx vy vz]; apply norm_below; lra. }
  split; [apply row_crossed|]. split; [vm_compute; reflexivity|]. cbn [si_hd]. lit.
Qed.
