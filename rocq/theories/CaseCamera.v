(** The renderer's camera, renderer.cc:129, looking at a square. *)

From Coq Require Import Reals ZArith List Bool Lia Lra.
From Verif Require Import Num NumR NumX Vec Ray Camera SpecReal SpecTri SpecCamera SpecRender TinyObj SpecObj SpecObjMesh PfX PfCamera CaseObj.
Import ListNotations.
Local Open Scope R_scope.

Definition front : camera xr := Camera (vfin (V 0 5 10)) (vfin (V 0 0 (-1))) (vfin (V 0 1 0)) (Fin 60).

Lemma front_ok : visR (ca_eye front) (V 0 5 10) /\ visR (ca_dir front) (V 0 0 (-1)) /\ visR (ca_up front) (V 0 1 0) /\
  no_neg_zero (vx (ca_dir front)) /\ no_neg_zero (vy (ca_dir front)) /\ no_neg_zero (vz (ca_dir front)) /\
  rv_cross (V 0 0 (-1)) (V 0 1 0) <> rv_zero.
Proof.
  split; [repeat split|]. split; [repeat split|]. split; [repeat split|].
  split; [intros s E; injection E; auto|]. split; [intros s E; injection E; auto|].
  split; [intros s E; injection E; auto|]. unfold rv_cross, rv_zero. cbn. intros E. injection E as E1 _ _. lra.
Qed.

Lemma front_frame d r a : looking (V 0 0 (-1)) (V 0 1 0) d r a -> d = V 0 0 (-1) /\ r = V 1 0 0 /\ a = V 0 1 0.
Proof.
  intros L. apply (looking_unique _ _ _ _ _ _ _ _ L).
  assert (N : forall x y z, x * x + y * y + z * z = 1 -> rv_norm (V x y z) = 1).
  { intros x y z E. apply rv_norm_unit. exact E. }
  assert (U : unit_of (V 0 0 (-1)) = V 0 0 (-1)).
  { unfold unit_of. rewrite N by lra. unfold rv_scale. cbn. f_equal; lra. }
  constructor; try (apply N; lra); try (unfold rv_dot; cbn; lra).
  - now symmetry.
  - unfold rv_cross. cbn. f_equal; lra.
Qed.

Lemma front_level O w width height level : level_free (V 0 0 (-1)) (V 0 1 0) O w width height level.
Proof.
  intros d r a i j U L (P & _) E. destruct (front_frame _ _ _ L) as (-> & _ & _).
  unfold rv_dot in P. cbn [vx vy vz] in P. rewrite E in P. lra.
Qed.

(** The pixel in the middle looks straight ahead and sees the second triangle of the file,
    eight times as large. *)
Lemma middle_pixel : through_pixel (V 0 0 (-1)) (V 1 0 0) (V 0 1 0) 1 3 3 1 1 (V 0 0 (-1)).
Proof. unfold through_pixel, rv_dot. cbn [vx vy vz]. split; [lra|]. split; lra. Qed.
Lemma square_seen tiny eps :
  well_formed (T := xr) (@two_mtl _ (Xnum 1000 tiny eps)) 0%Z 0%Z 0%Z (@square_file _ (Xnum 1000 tiny eps)) /\ uniform_shapes None (@square_file _ (Xnum 1000 tiny eps)) /\
  small_file (@two_mtl _ (Xnum 1000 tiny eps)) (@square_file _ (Xnum 1000 tiny eps)) /\
  points (fun p => p) (vertices_of (@square_file _ (Xnum 1000 tiny eps))) square_points /\
  (forall j, (j < length (vertices_of (@square_file _ (Xnum 1000 tiny eps))))%nat -> in_bounds 1000 (rv_scale 8 (square_points (Z.of_nat j)))) /\
  obj_cross (file_triangles (@two_mtl _ (Xnum 1000 tiny eps)) (@square_file _ (Xnum 1000 tiny eps))) (fun j => rv_scale 8 (square_points j))
    (V 0 5 10) (V 0 0 (-1)) 0 (Fin 1000) 1 10.
Proof.
  destruct (@square_ok _ (Xnum 1000 tiny eps)) as (A & B & C).
  split; [exact A|]. split; [exact B|]. split; [exact C|]. split; [|split].
  - intros j p E. do 5 (destruct j as [|j]; [injection E as <-; unfold visR, isR; cbn; repeat split; lra|]). destruct j; discriminate E.
  - intros j Hj. cbn in Hj. do 5 (destruct j as [|j]; [unfold in_bounds, rv_scale; cbn; lra|]). lia.
  - exists 0%Z, 2%Z, 3%Z, (Some 0%Z), (Some 2%Z), (Some 3%Z), (Some 0%Z). split; [rewrite square_triangles; reflexivity|].
    cbn [square_points]. split; [|split; [|split; [lra|]]].
    + unfold tri_det, tri_cross, rv_dot, rv_cross, rv_sub, rv_scale. cbn. lra.
    + exists 0, (5 / 8). split; [lra|]. split; [lra|]. split; [lra|].
      unfold at_t, bary, rv_add, rv_scale. cbn. f_equal; lra.
    + change (Rltb 10 1000 = true). apply Rltb_spec. lra.
Qed.
