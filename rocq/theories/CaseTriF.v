(** Concrete meshes in binary64 and binary32. *)

From Coq Require Import Reals ZArith List Bool Arith Lra Lia Psatz Floats.SpecFloat.
From Flocq Require Import Core IEEE754.BinarySingleNaN.
From Verif Require Import Num NumR NumF Vec Datatypes Ray Bvh Traverse Trimesh SpecBvh SpecReal SpecIEEE SpecTri SpecTriF.
From Verif Require Import PfBuild PfPart PfBuild2 PfTrav2 PfIEEE PfIEEE2 PfIEEE3 PfTriF3 PfDirF CaseIEEE.
Import ListNotations.
Local Open Scope R_scope.

Lemma usual64 : usual_format 53 1024. Proof. split; lia. Qed.
Lemma usual32 : usual_format 24 128. Proof. split; lia. Qed.
Lemma scale64 M : 1 <= M <= 16384 -> scale_ok 53 1024 M.
Proof.
  intros H. assert (T : IZR (2 ^ 100) <= top 1024) by (change (IZR (2 ^ 100)) with (bpow radix2 100); apply bpow_le; lia).
  assert (M ^ 3 <= 16384 ^ 3) by (apply pow_incr; lra).
  assert (T' : IZR (2 ^ 100) <= ulpf 53 * top 1024).
  { unfold ulpf, top. rewrite <- bpow_plus. change (IZR (2 ^ 100)) with (bpow radix2 100). apply bpow_le. lia. }
  cbn [Z.pow Z.pow_pos Pos.iter Z.mul Pos.mul] in T, T'. split; [|split]; lra.
Qed.
Lemma scale32 M : 1 <= M <= 16384 -> scale_ok 24 128 M.
Proof.
  intros H. assert (T : IZR (2 ^ 100) <= top 128) by (change (IZR (2 ^ 100)) with (bpow radix2 100); apply bpow_le; lia).
  assert (M ^ 3 <= 16384 ^ 3) by (apply pow_incr; lra).
  assert (T' : IZR (2 ^ 100) <= ulpf 24 * top 128).
  { unfold ulpf, top. rewrite <- bpow_plus. change (IZR (2 ^ 100)) with (bpow radix2 100). apply bpow_le. lia. }
  cbn [Z.pow Z.pow_pos Pos.iter Z.mul Pos.mul] in T, T'. split; [|split]; lra.
Qed.
Lemma unit_down k : 0 < k -> unit_of (V 0 0 (- k)) = V 0 0 (-1) /\ rv_norm (V 0 0 (- k)) = k.
Proof.
  intros H. assert (N : rv_norm (V 0 0 (- k)) = k).
  { unfold rv_norm, rv_dot. cbn [vx vy vz]. replace (0 * 0 + 0 * 0 + - k * - k) with (k * k) by ring. apply sqrt_square. lra. }
  split; [|exact N]. unfold unit_of, rv_scale. rewrite N. cbn [vx vy vz]. f_equal; field; lra.
Qed.

Lemma ulp64_is : ulpf 53 = / 9007199254740992. Proof. reflexivity. Qed.
Lemma ulp32_is : ulpf 24 = / 16777216. Proof. reflexivity. Qed.
Lemma int32 m a : (Z.abs m < 2 ^ 24)%Z -> a = IZR m -> isF 24 128 (f32 m 0) a.
Proof.
  intros H ->. replace (IZR m) with (IZR m * bpow radix2 0) by (cbn; ring). apply (@isF_lit 24 128 prec24 emax128 ltac:(discriminate)); [exact H|lia].
Qed.

(** Two triangles above each other, at z = 0 and z = -1; a ray from (0, 0, 1) downwards, its
    direction of length 2. *)
Definition p64 (x y z : Z) : vec spec_float := V (f64 x 0) (f64 y 0) (f64 z 0).
Definition pR (x y z : Z) : vec R := V (IZR x) (IZR y) (IZR z).
Definition two_vertices : list (vec spec_float) := [p64 (-1) (-1) 0; p64 3 (-1) 0; p64 (-1) 3 0; p64 (-1) (-1) (-1); p64 3 (-1) (-1); p64 (-1) 3 (-1)].
Definition two_points (j : nat) : vec R :=
  nth j [pR (-1) (-1) 0; pR 3 (-1) 0; pR (-1) 3 0; pR (-1) (-1) (-1); pR 3 (-1) (-1); pR (-1) 3 (-1)] rv_zero.
Definition two_faces : list (vec nat) := [V 0 1 2; V 3 4 5]%nat.
Definition down_o : vec spec_float := p64 0 0 1.
Definition down_d : vec spec_float := p64 0 0 (-2).

Lemma p64_is x y z : (Z.abs x < 2 ^ 53)%Z -> (Z.abs y < 2 ^ 53)%Z -> (Z.abs z < 2 ^ 53)%Z -> visF 53 1024 (p64 x y z) (pR x y z).
Proof. intros. split; [|split]; apply int64; auto. Qed.
Lemma coords_R M x y z : (Z.abs x <= M)%Z -> (Z.abs y <= M)%Z -> (Z.abs z <= M)%Z -> coords (IZR M) (pR x y z).
Proof. intros. unfold coords, pR. cbn [vx vy vz]. rewrite <- !abs_IZR. repeat split; apply IZR_le; assumption. Qed.
Lemma two_are : mesh_areF 53 1024 4 two_vertices two_faces two_points.
Proof.
  split.
  - intros j Hj. change (length two_vertices) with 6%nat in Hj.
    do 6 (destruct j as [|j]; [eexists; split; [reflexivity|]; split; [apply p64_is; reflexivity|apply (coords_R 4); cbn; lia]|]). lia.
  - intros f [<-|[<-|[]]]; cbn; lia.
Qed.
Lemma down_eq : pR 0 0 (-2) = V 0 0 (- (2)). Proof. unfold pR. f_equal; ring. Qed.
Lemma two_ray : mesh_ray 53 1024 4 two_vertices two_faces two_points down_o down_d (f64 0 0) (S754_infinity false) (pR 0 0 1) (pR 0 0 (-2)) 0.
Proof.
  pose proof low64. pose proof big64. pose proof linv64. pose proof ulp64.
  destruct (unit_down 2 ltac:(lra)) as [EU EN].
  split.
  - exact usual64.
  - apply scale64. lra.
  - exact two_are.
  - split; cbn [vx vy vz pR p64 down_o down_d].
    + apply p64_is; reflexivity.
    + apply p64_is; reflexivity.
    + apply int64; reflexivity.
    + unfold moderate. cbn [vx vy vz pR]. repeat split; apply Rabs_le; lra.
    + split; [reflexivity|lra].
    + split; [reflexivity|lra].
    + split; [lra|]. intros _. rewrite Rabs_left by lra. lra.
  - apply (coords_R 4); cbn; lia.
  - rewrite down_eq, EN. rewrite ulp64_is. rewrite Rinv_inv. lra.
  - lra.
  - left. reflexivity.
  - unfold pR. cbn [vz]. lra.
  - intros i s Hi _. rewrite down_eq, EU. rewrite ulp64_is.
    assert (E : speed (V 0 0 (-1)) (fa two_faces two_points i) (fb two_faces two_points i) (fc two_faces two_points i) = -16).
    { change (length two_faces) with 2%nat in Hi. two i; unfold speed, tri_cross, rv_cross, rv_dot, rv_sub, fa, fb, fc, face, two_points, pR; cbn [nth two_faces vx vy vz]; lra. }
    rewrite E, Rabs_left by lra. lra.
Qed.
Lemma two_sure i : (i < 2)%nat -> surely_hit 53 4 two_faces two_points (pR 0 0 1) (unit_of (pR 0 0 (-2))) (lo_unit 0 (pR 0 0 (-2))) i (-1).
Proof.
  intros Hi. destruct (unit_down 2 ltac:(lra)) as [EU EN]. unfold surely_hit, lo_unit. rewrite Rmult_0_l, down_eq, EU, ulp64_is.
  two i; (split; [split; [right; reflexivity|split; [|split]]|]);
    unfold side, plane, tri_cross, at_t, rv_add, rv_scale, rv_cross, rv_dot, rv_sub, fa, fb, fc, face, two_points, pR; cbn [nth two_faces vx vy vz]; lra.
Qed.
Definition two_mesh : mesh spec_float :=
  match @make_mesh _ F64 two_vertices two_faces with Ok m => m | _ => Mesh [] [] [] [] [] [] end.

Definition two_rh : rayhit spec_float := RayHit (vconst (f64 0 0)) (f64 0 0, f64 0 0) (S754_infinity false) None None.
Lemma two_built : exists nodes st rh,
  @build _ F64 _ libstdcxx_partition [] (@mesh_coll _ F64 two_mesh) pair_opt = Ok (nodes, st) /\ length nodes = 3%nat /\
  @traverse _ F64 _ _ (@tri_isector _ F64 two_mesh) nodes (@make_ray _ F64 down_o down_d (f64 0 0) (S754_infinity false) false) two_rh = Ok (true, rh) /\
  h_prim rh = Some 0%nat /\ isF 53 1024 (h_distance rh) 1.
Proof.
  do 3 eexists. split; [vm_compute; reflexivity|]. split; [reflexivity|]. split; [vm_compute; reflexivity|]. split; [reflexivity|].
  cbn [h_distance]. lit.
Qed.
Lemma two_query : exists nodes st rh,
  mesh_ray 53 1024 4 two_vertices two_faces two_points down_o down_d (f64 0 0) (S754_infinity false) (pR 0 0 1) (pR 0 0 (-2)) 0 /\
  @make_mesh _ F64 two_vertices two_faces = Ok two_mesh /\
  @build _ F64 _ libstdcxx_partition [] (@mesh_coll _ F64 two_mesh) pair_opt = Ok (nodes, st) /\
  (forall k d, node_depth nodes k d -> (d <= 26)%nat) /\ length nodes = 3%nat /\
  surely_hit 53 4 two_faces two_points (pR 0 0 1) (unit_of (pR 0 0 (-2))) (lo_unit 0 (pR 0 0 (-2))) 0 (-1) /\
  surely_hit 53 4 two_faces two_points (pR 0 0 1) (unit_of (pR 0 0 (-2))) (lo_unit 0 (pR 0 0 (-2))) 1 (-1) /\
  @traverse _ F64 _ _ (@tri_isector _ F64 two_mesh) nodes (@make_ray _ F64 down_o down_d (f64 0 0) (S754_infinity false) false) two_rh = Ok (true, rh) /\
  h_prim rh = Some 0%nat /\ isF 53 1024 (h_distance rh) 1.
Proof.
  destruct two_built as (nodes & st & rh & Hb & Hl & Ht & Hp & Hh). exists nodes, st, rh.
  split; [exact two_ray|]. split; [vm_compute; reflexivity|]. split; [exact Hb|].
  split; [|split; [exact Hl|split; [apply two_sure; lia|split; [apply two_sure; lia|auto]]]].
  apply (@opt_depth _ _ F64 libstdcxx_partition libstdcxx_partition_ok (@mesh_coll _ F64 two_mesh) pair_opt _ _ Hb). cbn. lia.
Qed.

(** Two triangles side by side in the plane z = 0, and a vertical ray three units (of twice an
    area) inside the second: in binary32 both are missed. *)
Definition p32 (x y z : Z) : vec spec_float := V (f32 x 0) (f32 y 0) (f32 z 0).
Definition crack_vertices : list (vec spec_float) := [p32 8381 (-1748) 0; p32 8345 (-2228) 0; p32 3376 (-5671) 0; p32 (-7399) 2399 0].
Definition crack_points (j : nat) : vec R := nth j [pR 8381 (-1748) 0; pR 8345 (-2228) 0; pR 3376 (-5671) 0; pR (-7399) 2399 0] rv_zero.
Definition crack_faces : list (vec nat) := [V 0 1 2; V 3 0 2]%nat.
Definition crack_mesh : mesh spec_float :=
  match @make_mesh _ F32 crack_vertices crack_faces with Ok m => m | _ => Mesh [] [] [] [] [] [] end.
Lemma p32_is x y z : (Z.abs x < 2 ^ 24)%Z -> (Z.abs y < 2 ^ 24)%Z -> (Z.abs z < 2 ^ 24)%Z -> visF 24 128 (p32 x y z) (pR x y z).
Proof. intros. split; [|split]; apply int32; auto. Qed.
Lemma crack_are : mesh_areF 24 128 8400 crack_vertices crack_faces crack_points.
Proof.
  split.
  - intros j Hj. change (length crack_vertices) with 4%nat in Hj.
    do 4 (destruct j as [|j]; [eexists; split; [reflexivity|]; split; [apply p32_is; reflexivity|apply (coords_R 8400); cbn; lia]|]). lia.
  - intros f [<-|[<-|[]]]; cbn; lia.
Qed.
Lemma low32 : 0 < least 128 <= / 1024.
Proof. split; [apply bpow_gt_0|]. change (/ 1024) with (bpow radix2 (-10)). apply bpow_le. lia. Qed.
Lemma big32 : 1048576 <= top 128.
Proof. change 1048576 with (bpow radix2 20). apply bpow_le. lia. Qed.
Lemma linv32 : 1024 <= / least 128.
Proof. rewrite <- (Rinv_inv 1024). apply Rinv_le; [apply low32|]. apply low32. Qed.
Lemma down_eq1 : pR 0 0 (-1) = V 0 0 (- (1)). Proof. unfold pR. f_equal; ring. Qed.
Lemma crack_ray : mesh_ray 24 128 8400 crack_vertices crack_faces crack_points (p32 5860 (-3724) 5) (p32 0 0 (-1)) (f32 0 0) (S754_infinity false) (pR 5860 (-3724) 5) (pR 0 0 (-1)) 0.
Proof.
  pose proof low32. pose proof big32. pose proof linv32.
  destruct (unit_down 1 ltac:(lra)) as [EU EN].
  split.
  - exact usual32.
  - apply scale32. lra.
  - exact crack_are.
  - split; cbn [vx vy vz pR p32].
    + apply p32_is; reflexivity.
    + apply p32_is; reflexivity.
    + apply int32; reflexivity.
    + unfold moderate. cbn [vx vy vz pR]. repeat split; apply Rabs_le; lra.
    + split; [reflexivity|lra].
    + split; [reflexivity|lra].
    + split; [lra|]. intros _. rewrite Rabs_left by lra. lra.
  - apply (coords_R 8400); cbn; lia.
  - rewrite down_eq1, EN. rewrite ulp32_is. rewrite Rinv_inv. lra.
  - lra.
  - left. reflexivity.
  - unfold pR. cbn [vz]. lra.
  - intros i s Hi _. rewrite down_eq1, EU. rewrite ulp32_is.
    change (length crack_faces) with 2%nat in Hi. two i.
    + replace (speed _ _ _ _) with (2261172);
        [rewrite Rabs_pos_eq; lra|unfold speed, tri_cross, rv_cross, rv_dot, rv_sub, fa, fb, fc, face, crack_points, pR; cbn [nth crack_faces vx vy vz]; lra].
    + replace (speed _ _ _ _) with (82660675);
        [rewrite Rabs_pos_eq; lra|unfold speed, tri_cross, rv_cross, rv_dot, rv_sub, fa, fb, fc, face, crack_points, pR; cbn [nth crack_faces vx vy vz]; lra].
Qed.
Lemma crack_inside : passes 1 3 (pR 5860 (-3724) 5) (pR 0 0 (-1)) (fa crack_faces crack_points 1) (fb crack_faces crack_points 1) (fc crack_faces crack_points 1) /\
  plane (fa crack_faces crack_points 1) (fb crack_faces crack_points 1) (fc crack_faces crack_points 1) (at_t (pR 5860 (-3724) 5) (pR 0 0 (-1)) 5) = 0.
Proof.
  split; [split; [left; reflexivity|split; [|split]]|];
    unfold side, plane, tri_cross, at_t, rv_add, rv_scale, rv_cross, rv_dot, rv_sub, fa, fb, fc, face, crack_points, pR; cbn [nth crack_faces vx vy vz]; lra.
Qed.
Lemma crack_built : exists nodes st,
  @build _ F32 _ libstdcxx_partition [] (@mesh_coll _ F32 crack_mesh) pair_opt = Ok (nodes, st) /\
  (forall any rh, @traverse _ F32 _ _ (@tri_isector _ F32 crack_mesh) nodes
     (@make_ray _ F32 (p32 5860 (-3724) 5) (p32 0 0 (-1)) (f32 0 0) (S754_infinity false) any) rh = Ok (false, rh)).
Proof.
  do 2 eexists. split; [vm_compute; reflexivity|]. intros [|] rh; vm_compute; reflexivity.
Qed.
Lemma crack_missed : exists nodes st,
  @make_mesh _ F32 crack_vertices crack_faces = Ok crack_mesh /\
  @build _ F32 _ libstdcxx_partition [] (@mesh_coll _ F32 crack_mesh) pair_opt = Ok (nodes, st) /\
  (forall k d, node_depth nodes k d -> (d <= 26)%nat) /\
  (forall any rh, @traverse _ F32 _ _ (@tri_isector _ F32 crack_mesh) nodes
     (@make_ray _ F32 (p32 5860 (-3724) 5) (p32 0 0 (-1)) (f32 0 0) (S754_infinity false) any) rh = Ok (false, rh)).
Proof.
  destruct crack_built as (nodes & st & Hb & Ht). exists nodes, st.
  split; [vm_compute; reflexivity|]. split; [exact Hb|]. split; [|exact Ht].
  apply (@opt_depth _ _ F32 libstdcxx_partition libstdcxx_partition_ok (@mesh_coll _ F32 crack_mesh) pair_opt _ _ Hb). cbn. lia.
Qed.

(** One triangle, one ray: the premises of the routine's theorems. *)
Definition one_ray : ray spec_float := @make_ray _ F64 down_o down_d (f64 0 0) (S754_infinity false) false.
Definition one_tri : triangle spec_float := @make_triangle _ F64 (p64 (-1) (-1) 0) (p64 3 (-1) 0) (p64 (-1) 3 0) 7.
Lemma one_case :
  usual_format 53 1024 /\ scale_ok 53 1024 4 /\ coords 4 (pR (-1) (-1) 0) /\ coords 4 (pR 3 (-1) 0) /\ coords 4 (pR (-1) 3 0) /\
  visF 53 1024 (p64 (-1) (-1) 0) (pR (-1) (-1) 0) /\ visF 53 1024 (p64 3 (-1) 0) (pR 3 (-1) 0) /\ visF 53 1024 (p64 (-1) 3 0) (pR (-1) 3 0) /\
  visF 53 1024 (origin one_ray) (pR 0 0 1) /\ coords 4 (pR 0 0 1) /\
  near_dir 53 1024 (direction one_ray) (unit_of (pR 0 0 (-2))) /\
  passes (-1) (967 * ulpf 53 * 4 ^ 2) (pR 0 0 1) (unit_of (pR 0 0 (-2))) (pR (-1) (-1) 0) (pR 3 (-1) 0) (pR (-1) 3 0) /\
  1000 * ulpf 53 * 4 ^ 2 <= Rabs (speed (unit_of (pR 0 0 (-2))) (pR (-1) (-1) 0) (pR 3 (-1) 0) (pR (-1) 3 0)) /\
  fst (@tri_intersect _ F64 (@tri_prepare _ F64 one_ray) one_tri one_ray) = true.
Proof.
  destruct (unit_down 2 ltac:(lra)) as [EU EN].
  split; [exact usual64|]. split; [apply scale64; lra|]. do 3 (split; [apply (coords_R 4); cbn; lia|]). do 3 (split; [apply p64_is; reflexivity|]).
  split; [apply p64_is; reflexivity|]. split; [apply (coords_R 4); cbn; lia|]. split.
  { apply (@normalize_near 53 1024 prec53 emax1024 usual64 down_d); [apply p64_is; reflexivity|].
    rewrite down_eq, EN, ulp64_is, Rinv_inv. lra. }
  rewrite down_eq, EU, ulp64_is. split; [|split].
  - split; [right; reflexivity|]. unfold side, rv_cross, rv_dot, rv_sub, pR; cbn [vx vy vz]. lra.
  - replace (speed _ _ _ _) with (-16).
    + rewrite Rabs_left; lra.
    + unfold speed, tri_cross, rv_cross, rv_dot, rv_sub, pR; cbn [vx vy vz]; lra.
  - vm_compute. reflexivity.
Qed.
Lemma down_case : visF 53 1024 down_d (pR 0 0 (-2)) /\ 4096 * ulpf 53 <= rv_norm (pR 0 0 (-2)) <= / ulpf 53.
Proof.
  destruct (unit_down 2 ltac:(lra)) as [EU EN]. split; [apply p64_is; reflexivity|]. rewrite down_eq, EN, ulp64_is, Rinv_inv. lra.
Qed.
Lemma crack_refuted : exists M vertices faces P o d tmin tmax O D ms nodes st i t,
  mesh_ray 24 128 M vertices faces P o d tmin tmax O D 0 /\
  @make_mesh _ F32 vertices faces = Ok ms /\
  @build _ F32 _ libstdcxx_partition [] (@mesh_coll _ F32 ms) pair_opt = Ok (nodes, st) /\
  (forall k d, node_depth nodes k d -> (d <= 26)%nat) /\
  (i < length faces)%nat /\ 0 < t /\ passes 1 3 O D (fa faces P i) (fb faces P i) (fc faces P i) /\
  plane (fa faces P i) (fb faces P i) (fc faces P i) (at_t O D t) = 0 /\
  (forall any rh, @traverse _ F32 _ _ (@tri_isector _ F32 ms) nodes (@make_ray _ F32 o d tmin tmax any) rh = Ok (false, rh)).
Proof.
  destruct crack_missed as (nodes & st & H1 & H2 & H3 & H4). destruct crack_inside as [H5 H6].
  exists 8400, crack_vertices, crack_faces, crack_points, (p32 5860 (-3724) 5), (p32 0 0 (-1)), (f32 0 0), (S754_infinity false),
    (pR 5860 (-3724) 5), (pR 0 0 (-1)), crack_mesh, nodes, st, 1%nat, 5.
  split; [exact crack_ray|]. split; [exact H1|]. split; [exact H2|]. split; [exact H3|]. split; [cbn; lia|]. split; [lra|]. auto.
Qed.
