(** A concrete mesh for the normals of meshes with rounding: two faces that meet in an edge at a right angle. *)

From Coq Require Import Reals ZArith List Bool Arith Lra Lia Psatz Floats.SpecFloat.
From Flocq Require Import Core IEEE754.BinarySingleNaN.
From Verif Require Import Num NumR NumF Vec Datatypes Ray Bvh Traverse Trimesh SpecBvh SpecReal SpecIEEE SpecTri SpecTriF SpecTubeN SpecMeshN.
From Verif Require Import PfBuild PfPart PfBuild2 PfTrav2 PfIEEE PfIEEE2 PfIEEE3 PfTriF3 PfDirF PfMeshN2 CaseIEEE CaseTriF.
Import ListNotations.
Local Open Scope R_scope.

Definition fold_vertices : list (vec spec_float) := [p64 0 0 0; p64 4 0 0; p64 0 4 0; p64 0 0 4].
Definition fold_points (j : nat) : vec R := nth j [pR 0 0 0; pR 4 0 0; pR 0 4 0; pR 0 0 4] rv_zero.
Definition fold_faces : list (vec nat) := [V 0 1 2; V 0 3 1]%nat.
Definition fold_mesh : mesh spec_float :=
  match @make_mesh _ F64 fold_vertices fold_faces with Ok m => m | _ => Mesh [] [] [] [] [] [] end.
Definition fold_o : vec spec_float := p64 1 1 8.

Ltac far := unfold side, speed, plane, tri_cross, at_t, rv_add, rv_scale, rv_cross, rv_dot, rv_sub, fa, fb, fc, face, fold_points, pR; cbn [nth fold_faces vx vy vz].

Lemma fold_are : mesh_areF 53 1024 8 fold_vertices fold_faces fold_points.
Proof.
  split.
  - intros j Hj. change (length fold_vertices) with 4%nat in Hj.
    do 4 (destruct j as [|j]; [eexists; split; [reflexivity|]; split; [apply p64_is; reflexivity|apply (coords_R 8); cbn; lia]|]). lia.
  - intros f [<-|[<-|[]]]; cbn; lia.
Qed.
Lemma fold_ray : mesh_ray 53 1024 8 fold_vertices fold_faces fold_points fold_o down_d (f64 0 0) (S754_infinity false) (pR 1 1 8) (pR 0 0 (-2)) 0.
Proof.
  pose proof low64. pose proof big64. pose proof linv64. pose proof ulp64.
  destruct (unit_down 2 ltac:(lra)) as [EU EN].
  split.
  - exact usual64.
  - apply scale64. lra.
  - exact fold_are.
  - split; cbn [vx vy vz pR p64 fold_o down_d].
    + apply p64_is; reflexivity.
    + apply p64_is; reflexivity.
    + apply int64; reflexivity.
    + unfold moderate. cbn [vx vy vz pR]. repeat split; apply Rabs_le; lra.
    + split; [reflexivity|lra].
    + split; [reflexivity|lra].
    + split; [lra|]. intros _. rewrite Rabs_left by lra. lra.
  - apply (coords_R 8); cbn; lia.
  - rewrite down_eq, EN. rewrite ulp64_is. rewrite Rinv_inv. lra.
  - lra.
  - left. reflexivity.
  - unfold pR. cbn [vz]. lra.
  - intros i s Hi Hp. rewrite down_eq, EU in *. rewrite ulp64_is in *. change (length fold_faces) with 2%nat in Hi. destruct i as [|[|i]]; [| |lia].
    + assert (E : speed (V 0 0 (-1)) (fa fold_faces fold_points 0) (fb fold_faces fold_points 0) (fc fold_faces fold_points 0) = -16) by (far; lra).
      rewrite E, Rabs_left by lra. lra.
    + exfalso. destruct Hp as ([-> | ->] & P1 & P2 & P3); revert P1 P2 P3; far; intros; lra.
Qed.
Lemma norm_sq a b : 0 <= b -> rv_dot a a = b * b -> rv_norm a = b.
Proof. intros H E. unfold rv_norm. rewrite E. apply sqrt_square, H. Qed.
Lemma fold_stout : stout_faces 53 1 fold_points fold_faces.
Proof.
  intros f Hf. unfold stout. rewrite ulp64_is.
  assert (G : rv_norm (rv_sub (fold_points (vy f)) (fold_points (vx f))) = 4 /\ rv_norm (rv_sub (fold_points (vz f)) (fold_points (vx f))) = 4 /\
    rv_norm (tri_cross (fold_points (vx f)) (fold_points (vy f)) (fold_points (vz f))) = 16).
  { destruct Hf as [<-|[<-|[]]]; cbn [vx vy vz]; (split; [|split]; apply norm_sq; [lra| |lra| |lra|]); far; lra. }
  destruct G as (-> & -> & ->). rewrite Rinv_mult, Rinv_inv. lra.
Qed.
Lemma fold_valence j : valence fold_faces j <= 2.
Proof. unfold fold_faces. cbn [valence]. unfold uses. cbn [vx vy vz]. repeat destruct (Nat.eq_dec _ _); try lia; lra. Qed.
Lemma fold_mixed : mixed_normal fold_points fold_faces 0 (1 / 4) (1 / 4) = V 0 (1 / 4) (1 / 3) /\ rv_norm (V 0 (1 / 4) (1 / 3)) = 5 / 12.
Proof.
  split; [|apply norm_sq; [lra|unfold rv_dot; cbn [vx vy vz]; lra]].
  assert (N1 : face_normal fold_points (V 0 1 2)%nat = V 0 0 1).
  { unfold face_normal. cbn [vx vy vz]. assert (N : rv_norm (tri_cross (fold_points 0) (fold_points 1) (fold_points 2)) = 16) by (apply norm_sq; [lra|far; lra]).
    unfold unit_of. rewrite N. far. f_equal; lra. }
  assert (N2 : face_normal fold_points (V 0 3 1)%nat = V 0 1 0).
  { unfold face_normal. cbn [vx vy vz]. assert (N : rv_norm (tri_cross (fold_points 0) (fold_points 3) (fold_points 1)) = 16) by (apply norm_sq; [lra|far; lra]).
    unfold unit_of. rewrite N. far. f_equal; lra. }
  unfold mixed_normal, face, fold_faces. cbn [nth vx vy vz vertex_normal]. rewrite N1, N2. unfold uses. cbn [vx vy vz Nat.eq_dec nat_rec nat_rect sumbool_rec sumbool_rect].
  unfold bary, rv_add, rv_scale, rv_zero. cbn [vx vy vz]. f_equal; lra.
Qed.
Lemma fold_built : exists nodes st rh ny nz,
  @build _ F64 _ libstdcxx_partition [] (@mesh_coll _ F64 fold_mesh) pair_opt = Ok (nodes, st) /\ length nodes = 3%nat /\
  @traverse _ F64 _ _ (@tri_isector _ F64 fold_mesh) nodes (@make_ray _ F64 fold_o down_d (f64 0 0) (S754_infinity false) false) two_rh = Ok (true, rh) /\
  h_prim rh = Some 0%nat /\ isF 53 1024 (h_distance rh) 8 /\ isF 53 1024 (fst (h_uv rh)) (1 / 4) /\ isF 53 1024 (snd (h_uv rh)) (1 / 4) /\
  h_normal rh = V (f64 0 0) ny nz.
Proof.
  do 5 eexists. split; [vm_compute; reflexivity|]. split; [reflexivity|]. split; [vm_compute; reflexivity|]. split; [reflexivity|].
  cbn [h_distance h_uv h_normal fst snd]. split; [lit|]. split; [lit|]. split; [lit|]. reflexivity.
Qed.
Lemma fold_ready : (forall j, (j < length fold_vertices)%nat -> exists x, nth_error fold_vertices j = Some x /\ visF 53 1024 x (fold_points j)) /\
  (forall f, In f fold_faces -> (vx f < length fold_vertices /\ vy f < length fold_vertices /\ vz f < length fold_vertices)%nat) /\
  stout_faces 53 1 fold_points fold_faces /\ (forall j, valence fold_faces j <= 2) /\ 1024 * 2 * ulpf 53 <= 1.
Proof.
  destruct fold_are as [H1 H2]. split; [intros j Hj; destruct (H1 j Hj) as (x & X1 & X2 & _); eauto|]. split; [exact H2|].
  split; [exact fold_stout|]. split; [exact fold_valence|]. rewrite ulp64_is. lra.
Qed.
Lemma fold_query : exists nodes st rh ny nz,
  mesh_ray 53 1024 8 fold_vertices fold_faces fold_points fold_o down_d (f64 0 0) (S754_infinity false) (pR 1 1 8) (pR 0 0 (-2)) 0 /\
  @make_mesh _ F64 fold_vertices fold_faces = Ok fold_mesh /\
  @build _ F64 _ libstdcxx_partition [] (@mesh_coll _ F64 fold_mesh) pair_opt = Ok (nodes, st) /\
  (forall k d, node_depth nodes k d -> (d <= 26)%nat) /\
  stout_faces 53 1 fold_points fold_faces /\ (forall j, valence fold_faces j <= 2) /\
  mixed_normal fold_points fold_faces 0 (1 / 4) (1 / 4) = V 0 (1 / 4) (1 / 3) /\
  512 * 2 * (32 * 1 + 2) * ulpf 53 <= rv_norm (V 0 (1 / 4) (1 / 3)) /\
  @traverse _ F64 _ _ (@tri_isector _ F64 fold_mesh) nodes
    (@make_ray _ F64 fold_o down_d (f64 0 0) (S754_infinity false) false) two_rh = Ok (true, rh) /\
  h_prim rh = Some 0%nat /\ isF 53 1024 (fst (h_uv rh)) (1 / 4) /\ isF 53 1024 (snd (h_uv rh)) (1 / 4) /\
  h_normal rh = V (f64 0 0) ny nz.
Proof.
  destruct fold_built as (nodes & st & rh & ny & nz & Hb & _ & Ht & Hp & _ & Hu & Hv & Hn). exists nodes, st, rh, ny, nz.
  split; [exact fold_ray|]. split; [vm_compute; reflexivity|]. split; [exact Hb|]. split.
  { apply (@opt_depth _ _ F64 libstdcxx_partition libstdcxx_partition_ok (@mesh_coll _ F64 fold_mesh) pair_opt _ _ Hb). cbn. lia. }
  split; [exact fold_stout|]. split; [exact fold_valence|]. destruct fold_mixed as [E ->]. split; [exact E|]. split; [rewrite ulp64_is; lra|]. auto.
Qed.
