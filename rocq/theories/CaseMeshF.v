(** A thin mesh on which building is undefined, and a mesh on which it is not, in binary64. *)

From Coq Require Import Reals ZArith List Bool Arith Lra Lia Floats.SpecFloat.
From Flocq Require Import Core IEEE754.BinarySingleNaN.
From Verif Require Import SpecBvh Num NumR NumF Vec Datatypes Bvh Trimesh SpecReal SpecIEEE SpecTri SpecTriF PfIEEE PfMeshF CaseIEEE CaseChain CaseTriF.
Import ListNotations.
Local Open Scope R_scope.

(** Six points at the heights 9007199254740990 and 9007199254740991. *)
Definition thin_list : list (Z * Z * Z) :=
  [(0, 0, 9007199254740990); (1, 0, 9007199254740990); (0, 1, 9007199254740990); (1, 1, 9007199254740991); (2, 0, 9007199254740991); (2, 1, 9007199254740991)]%Z.
Definition thin_vertices : list (vec spec_float) := map (fun '(x, y, z) => p64 x y z) thin_list.
Definition thin_points (j : nat) : vec R := nth j (map (fun '(x, y, z) => pR x y z) thin_list) rv_zero.
Definition thin_faces : list (vec nat) := [V 0 1 2; V 1 3 2; V 1 4 3; V 4 5 3; V 0 4 5]%nat.

Lemma scale53 : scale_ok 53 1024 9007199254740992.
Proof.
  assert (T : IZR (2 ^ 200) <= top 1024) by (change (IZR (2 ^ 200)) with (bpow radix2 200); apply bpow_le; lia).
  assert (T' : IZR (2 ^ 200) <= ulpf 53 * top 1024).
  { unfold ulpf, top. rewrite <- bpow_plus. change (IZR (2 ^ 200)) with (bpow radix2 200). apply bpow_le. lia. }
  cbn [Z.pow Z.pow_pos Pos.iter Z.mul Pos.mul] in T, T'. split; [|split]; lra.
Qed.
Lemma thin_are : mesh_areF 53 1024 9007199254740992 thin_vertices thin_faces thin_points.
Proof.
  split.
  - intros j Hj. change (length thin_vertices) with 6%nat in Hj.
    assert (G : forall x y z, (Z.abs x < 9007199254740992)%Z -> (Z.abs y < 9007199254740992)%Z -> (Z.abs z < 9007199254740992)%Z ->
      visF 53 1024 (p64 x y z) (pR x y z) /\ coords 9007199254740992 (pR x y z)).
    { intros x y z X Y Z. split.
      - split; [|split]; apply int64; auto.
      - apply coords_R; lia. }
    do 6 (destruct j as [|j]; [eexists; split; [reflexivity|]; apply G; reflexivity|]). lia.
  - intros f Hf. cbn in Hf. change (length thin_vertices) with 6%nat. repeat (destruct Hf as [<-|Hf]; [cbn; lia|]). destruct Hf.
Qed.
Lemma thin_undefined : exists ms, @make_mesh _ F64 thin_vertices thin_faces = Ok ms /\
  @build _ F64 _ libstdcxx_partition [] (@mesh_coll _ F64 ms) default_options = UB UBconv.
Proof.
  assert (E : match @make_mesh _ F64 thin_vertices thin_faces with
    | Ok ms => @build _ F64 _ libstdcxx_partition [] (@mesh_coll _ F64 ms) default_options = UB UBconv | _ => False end) by (vm_compute; reflexivity).
  destruct (@make_mesh _ F64 thin_vertices thin_faces) as [ms| |]; [|destruct E..]. exists ms. auto.
Qed.
Lemma thin_refuted : exists M vertices faces P ms,
  scale_ok 53 1024 M /\ mesh_areF 53 1024 M vertices faces P /\ extents_wide (ulpf 53 * M) faces P /\
  @make_mesh _ F64 vertices faces = Ok ms /\
  @build _ F64 _ libstdcxx_partition [] (@mesh_coll _ F64 ms) default_options = UB UBconv.
Proof.
  destruct thin_undefined as (ms & H1 & H2). exists 9007199254740992, thin_vertices, thin_faces, thin_points, ms.
  split; [exact scale53|]. split; [exact thin_are|]. split; [|auto].
  apply (grid_wide 1 thin_vertices); [rewrite ulp64_is; lra|lra|exact (proj2 thin_are)|].
  intros j Hj. change (length thin_vertices) with 6%nat in Hj.
  do 6 (destruct j as [|j]; [do 3 eexists; rewrite !Rmult_1_l; reflexivity|]). lia.
Qed.

Lemma two_wide : extents_wide (bin_extent 53 4 64) two_faces two_points.
Proof.
  apply (grid_wide 1 two_vertices); [|lra|exact (proj2 two_are)|].
  - unfold bin_extent. rewrite ulp64_is. replace (INR 64) with 64 by (rewrite INR_IZR_INZ; reflexivity). lra.
  - intros j Hj. change (length two_vertices) with 6%nat in Hj.
    do 6 (destruct j as [|j]; [do 3 eexists; rewrite !Rmult_1_l; reflexivity|]). lia.
Qed.

Lemma two_grid : on_grid 1 (length two_vertices) two_points /\ bin_extent 53 4 64 <= 1.
Proof.
  split.
  - intros j Hj. change (length two_vertices) with 6%nat in Hj.
    do 6 (destruct j as [|j]; [do 3 eexists; rewrite !Rmult_1_l; reflexivity|]). lia.
  - unfold bin_extent. rewrite ulp64_is. replace (INR 64) with 64 by (rewrite INR_IZR_INZ; reflexivity). lra.
Qed.
Lemma two_ready : usual_format 53 1024 /\ scale_ok 53 1024 4 /\ mesh_areF 53 1024 4 two_vertices two_faces two_points /\
  extents_wide (bin_extent 53 4 (bin_size pair_opt)) two_faces two_points /\ shallow pair_opt (length two_faces).
Proof. split; [exact usual64|]. split; [apply scale64; lra|]. split; [exact two_are|]. split; [exact two_wide|]. left. cbn. lia. Qed.
Lemma center_off :
  visF 53 1024 (p64 0 0 9007199254740990) (pR 0 0 9007199254740990) /\ visF 53 1024 (p64 1 0 9007199254740990) (pR 1 0 9007199254740990) /\
  visF 53 1024 (p64 0 1 9007199254740990) (pR 0 1 9007199254740990) /\
  exists m, visF 53 1024 (@tri_center _ F64 (p64 0 0 9007199254740990) (p64 1 0 9007199254740990) (p64 0 1 9007199254740990)) m /\
    vz m = 9007199254740989.
Proof.
  assert (G : forall x y z, (Z.abs x < 9007199254740992)%Z -> (Z.abs y < 9007199254740992)%Z -> (Z.abs z < 9007199254740992)%Z ->
    visF 53 1024 (p64 x y z) (pR x y z)) by (intros; split; [|split]; apply int64; auto).
  split; [apply G; reflexivity|]. split; [apply G; reflexivity|]. split; [apply G; reflexivity|].
  eexists (V _ _ _). split; [split; [|split]; cbn [vx vy vz]|].
  - apply (isF_val 53 1024); vm_compute; reflexivity.
  - apply (isF_val 53 1024); vm_compute; reflexivity.
  - apply int64 with (m := 9007199254740989%Z); [reflexivity|reflexivity].
  - reflexivity.
Qed.
