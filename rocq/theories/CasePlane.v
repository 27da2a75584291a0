(** Planes: concrete cases in exact arithmetic. *)

From Coq Require Import Reals ZArith List Bool Arith Lra Lia.
From Verif Require Import Num NumR NumX Vec Ray Bvh Traverse Plane SpecBvh SpecReal SpecNearest SpecPlane.
From Verif Require Import PfPart PfX PfTrav2 PfPlane PfPlane2 CaseNode CaseSphere.
Import ListNotations.
Local Open Scope R_scope.

(** A turn about the y axis, and the identity. *)
Definition turn : mat R := V (V (3 / 5) 0 (4 / 5)) (V 0 1 0) (V (-4 / 5) 0 (3 / 5)).
Definition ident : mat R := V (V 1 0 0) (V 0 1 0) (V 0 0 1).

(** Compute real vectors down to their components. *)
Ltac rvs := unfold foot, normal_of, to_local, at_t, rv_add, rv_sub, rv_scale, rv_mul, rv_trans, rv_dot, turn, ident in *;
  unfold rv_dot, turn, ident in *; cbn [vx vy vz] in *.

Lemma turn_orthogonal : orthogonal turn.
Proof. intros v. split; apply vec_eq; unfold rv_mul, rv_trans, turn, rv_dot; cbn [vx vy vz]; field. Qed.
Lemma ident_orthogonal : orthogonal ident.
Proof. intros v. split; apply vec_eq; unfold rv_mul, rv_trans, ident, rv_dot; cbn [vx vy vz]; ring. Qed.

Definition case_plane : plane xr := Plane (vfin (V 10 0 0)) (Fin 2) (Fin 2) (mfin turn) 4.
(** Rays along x from height [y]. *)
Definition plane_start (y : R) : plane_isect xr :=
  PlaneIsect (vfin (V 0 0 0)) (vfin (V 0 y 0)) (vfin (V 1 0 0)) (Fin 0) (Fin 0, Fin 0) (Xinf false) None.
Definition plane_ray (y : R) : ray xr :=
  @make_ray _ (Xnum 1000 0 0) (vfin (V 0 y 0)) (vfin (V 1 0 0)) (Fin 0) (Xinf false) false.

Lemma plane_crossing y : -1 <= y <= 1 ->
  rv_dot (V 1 0 0) (normal_of turn) <> 0 /\
  on_patch (V 10 0 0) 2 2 turn (at_t (V 0 y 0) (V 1 0 0) 10) /\
  (-1 < y < 1 -> in_patch (V 10 0 0) 2 2 turn (at_t (V 0 y 0) (V 1 0 0) 10)).
Proof.
  intros Hy. split; [rvs; lra|]. split.
  - exists 0, y. rewrite !Rabs_le_iff. split; [lra|]. split; [lra|]. apply vec_eq; rvs; lra.
  - intros H. exists 0, y. rewrite !Rabs_lt_iff. split; [lra|]. split; [lra|]. apply vec_eq; rvs; lra.
Qed.
(** At the middle and at the upper edge of the patch. *)
Lemma plane_case y : y = 0 \/ y = 1 ->
  exists i', @plane_intersect _ (Xnum 1000 0 0) (plane_start y) case_plane (plane_ray y) = (true, i') /\
    isR (pi_hd i') 10.
Proof.
  intros Hy. assert (Hy' : -1 <= y <= 1) by lra. destruct (plane_crossing y Hy') as (H1 & H2 & _).
  destruct (@plane_intersect _ (Xnum 1000 0 0) (plane_start y) case_plane (plane_ray y)) as [h i'] eqn:E.
  destruct (plane_exact 1000 0 0 (plane_start y) case_plane (plane_ray y) (V 0 y 0) (V 1 0 0) 0 (V 10 0 0) 2 2 turn h i'
    (visR_fin _) (visR_fin _) (isR_fin 0) (visR_fin _) (isR_fin 2) (isR_fin 2) (misR_fin _)) as (A & B & _);
    auto using turn_orthogonal; try lra.
  { rvs; lra. }
  assert (h = true). { apply A. exists 10. repeat split; auto; lra. } subst h.
  destruct (B eq_refl) as (t & Ht & _ & Ho & Hm & _). exists i'. split; [reflexivity|].
  apply on_patch_local in Ho as (Hz & _); [|apply turn_orthogonal]. rvs.
  replace 10 with t by lra. exact Ht.
Qed.

(** C23: a patch at (10, 0, 0), the point 1 above its center. *)
Lemma off_center_refutes : exists pl p C dx dy Rm Q,
  visR (pl_center pl) C /\ isR (pl_dx pl) dx /\ isR (pl_dy pl) dy /\ misR (pl_rot pl) Rm /\
  orthogonal Rm /\ visR p Q /\ 0 < dx /\ 0 < dy /\ on_patch C dx dy Rm (foot C Rm Q) /\
  rv_norm (rv_sub Q (foot C Rm Q)) = 1 /\
  @plane_distance _ (Xnum 1000 0 0) pl p = @nmaxv _ (Xnum 1000 0 0).
Proof.
  exists (Plane (vfin (V 10 0 0)) (Fin 2) (Fin 2) (mfin ident) 0), (vfin (V 10 0 1)), (V 10 0 0), 2, 2, ident, (V 10 0 1).
  split; [apply visR_fin|]. split; [reflexivity|]. split; [reflexivity|]. split; [apply misR_fin|].
  split; [apply ident_orthogonal|]. split; [apply visR_fin|]. split; [lra|]. split; [lra|].
  split; [|split].
  - exists 0, 0. rewrite Rabs_R0. split; [lra|]. split; [lra|]. apply vec_eq; rvs; ring.
  - rewrite foot_distance by apply ident_orthogonal. rvs.
    rewrite Rabs_pos_eq; lra.
  - unfold plane_distance. cbn [ndiv nadd nsub nleb nabs nofZ n2 Xnum].
    set (lp := mulmv _ _).
    assert (Hlp : visR lp (to_local (V 10 0 0) ident (V 10 0 1))).
    { apply visR_mul; [apply misR_trans, misR_fin|]. apply visR_sub; apply visR_fin. }
    assert (Hdx : isR (xdiv (Fin 2) (Fin 2)) (2 / 2)) by (apply isR_div; [reflexivity|reflexivity|lra]).
    destruct Hlp as (Lx & _).
    cbn [pl_center pl_dx pl_dy pl_rot vfin vmap vx vy vz].
    rewrite (isR_leb _ _ _ _ (isR_sub _ _ _ _ (isR_fin 10) Hdx) Lx).
    replace (Rleb (10 - 2 / 2) (vx (to_local (V 10 0 0) ident (V 10 0 1)))) with false; [reflexivity|].
    symmetry. destruct (Rleb _ _) eqn:E; [|reflexivity]. apply Rleb_spec in E. rvs. lra.
Qed.

(** Three patches and a ray along x. *)
Definition three_C : list (vec R) := [V 20 0 0; V 10 0 0; V 5 5 (1 / 2)].
Definition three : res (planes xr) :=
  @make_planes _ (Xnum 1000 0 0) (map vfin three_C) (repeat (Fin 2) 3) (repeat (Fin 2) 3) (repeat (mfin turn) 3).
Definition three_c (i : nat) : vec R := nth i three_C rv_zero.

Lemma turn_extent : extent 2 2 0 (vx turn) = 3 / 5 /\ extent 2 2 0 (vy turn) = 1 /\ extent 2 2 0 (vz turn) = 4 / 5.
Proof.
  unfold extent. cbn [vx vy vz turn]. rewrite !Rmult_0_r.
  assert (A : Rabs (3 / 5) = 3 / 5) by (apply Rabs_pos_eq; lra).
  assert (B : Rabs (-4 / 5) = 4 / 5) by (rewrite Rabs_left; lra).
  rewrite A, B, Rabs_R0, Rabs_R1. repeat split; rewrite Rmax_left; lra.
Qed.

Lemma three_made : exists s, three = Ok s /\ planes_are s three_c (fun _ => 2) (fun _ => 2) (fun _ => turn) /\
  length (ps_centers s) = 3%nat /\
  forall i, (i < 3)%nat -> in_bounds 1000 (plane_lower (three_c i) 2 2 turn 0) /\
    in_bounds 1000 (plane_upper (three_c i) 2 2 turn 0).
Proof.
  destruct turn_extent as (X & Y & Z).
  eexists. split; [reflexivity|]. split; [|split; [reflexivity|]].
  - intros i Hi. cbn in Hi.
    do 3 (destruct i as [|i]; [split; [|split; [|split]]; eexists; (split; [reflexivity|]); repeat split|]). lia.
  - intros i Hi. unfold in_bounds, plane_lower, plane_upper. cbn [vx vy vz]. rewrite X, Y, Z.
    do 3 (destruct i as [|i]; [cbn; lra|]). lia.
Qed.

Lemma three_query : exists s nodes st rh,
  three = Ok s /\
  @build _ (Xnum 1000 0 0) _ libstdcxx_partition [] (plane_coll s) five_opt = Ok (nodes, st) /\
  @traverse _ (Xnum 1000 0 0) _ _ (@plane_isector _ (Xnum 1000 0 0)) nodes
    (@make_ray _ (Xnum 1000 0 0) (vfin (V 0 0 0)) (vfin (V 1 0 0)) (Fin 0) (Fin 1000) false)
    (@new_rayhit _ (Xnum 1000 0 0)) = Ok (true, rh) /\
  h_prim rh = Some 1%nat /\ isR (h_distance rh) 10 /\ visR (h_normal rh) (V (-4 / 5) 0 (-3 / 5)).
Proof.
  destruct three_made as (s & Es & Hd & Hl & Hb).
  assert (Hok : forall i, (i < length (ps_centers s))%nat ->
    0 < (fun _ : nat => 2) i /\ 0 < (fun _ : nat => 2) i /\ orthogonal ((fun _ : nat => turn) i)).
  { intros. split; [lra|]. split; [lra|]. apply turn_orthogonal. }
  assert (Hb' : forall i, (i < length (ps_centers s))%nat ->
    in_bounds 1000 (plane_lower (three_c i) ((fun _ : nat => 2) i) ((fun _ : nat => 2) i) ((fun _ : nat => turn) i) 0) /\
    in_bounds 1000 (plane_upper (three_c i) ((fun _ : nat => 2) i) ((fun _ : nat => 2) i) ((fun _ : nat => turn) i) 0)).
  { rewrite Hl. exact Hb. }
  destruct (plane_build_ok 1000 0 0 _ _ _ _ s three_c (fun _ => 2) (fun _ => 2) (fun _ => turn)
    libstdcxx_partition five_opt (Rle_refl 0) Es Hd Hok Hb' libstdcxx_partition_ok) as (nodes & st & Eb); [cbn; lia|cbn; lia|].
  assert (Hdep := @opt_depth _ _ (Xnum 1000 0 0) _ libstdcxx_partition_ok _ _ _ _ Eb (le_n 26)).
  destruct turn_extent as (X & Y & Z).
  assert (Hz : vz (V 1 0 0) = 0 -> forall i, (i < length (ps_centers s))%nat ->
    vz (V 0 0 0) <> vz (plane_lower (three_c i) ((fun _ : nat => 2) i) ((fun _ : nat => 2) i) ((fun _ : nat => turn) i) 0) /\
    vz (V 0 0 0) <> vz (plane_upper (three_c i) ((fun _ : nat => 2) i) ((fun _ : nat => 2) i) ((fun _ : nat => turn) i) 0)).
  { rewrite Hl. intros _ i Hi. unfold plane_lower, plane_upper. cbn [vz]. rewrite Z.
    do 3 (destruct i as [|i]; [cbn; split; lra|]). lia. }
  pose proof (plane_query 1000 0 0 (Rle_refl 0) (Rle_refl 0) _ _ _ _ s Es three_c (fun _ => 2) (fun _ => 2) (fun _ => turn)
    Hd Hok Hb' _ libstdcxx_partition_ok
    five_opt nodes st Eb Hdep _ _ _ (Fin 1000) false _ _ 0 five_admissible Hz (@new_rayhit _ (Xnum 1000 0 0)))
    as (b & rh & E & Hb1 & _ & Hb2).
  rewrite unit_x in Hb1, Hb2 by lra. unfold plane_hit in Hb1, Hb2. rewrite Hl in Hb1, Hb2.
  assert (Hy' : -1 <= 0 <= 1) by lra. destruct (plane_crossing 0 Hy') as (G1 & G2 & G3).
  assert (H1 : (1 < 3)%nat /\ (rv_dot (V 1 0 0) (normal_of turn) <> 0 /\
      on_patch (three_c 1) 2 2 turn (at_t (V 0 0 0) (V 1 0 0) 10) /\ 0 < 10) /\
    xltb (Fin 10) (Fin 1000) = true).
  { split; [lia|]. split; [split; [exact G1|split; [exact G2|lra]]|apply Rltb_spec; lra]. }
  assert (b = true) by (apply Hb1; eauto). subst b.
  destruct (Hb2 eq_refl) as (i & t & (Hi & (_ & Ho & Ht) & _) & Ep & Ed & _ & Hab & Hmin).
  specialize (Hmin eq_refl 1%nat 10 H1).
  apply on_patch_local in Ho as (L1 & L2 & L3); [|apply turn_orthogonal].
  assert (Hit : i = 1%nat /\ t = 10).
  { destruct i as [|[|[|i]]]; [..|lia]; unfold three_c, three_C in *; cbn [nth] in *; clear -L1 L2 L3 Hmin; rvs;
      [exfalso; lra| |exfalso; lra]. split; [reflexivity|lra]. }
  destruct Hit as [-> ->]. exists s, nodes, st, rh.
  split; [exact Es|]. split; [exact Eb|]. split; [exact E|]. split; [exact Ep|]. split; [exact Ed|].
  destruct Hab as (n & N1 & N2 & N3 & N4). cbn [three_c nth three_C] in N3, N4.
  assert (Hin : -1 < 0 < 1) by lra. specialize (N4 (G3 Hin)).
  unfold faces in N3. destruct N4 as [-> | ->].
  - exfalso. clear -N3. rvs. lra.
  - replace (V (-4 / 5) 0 (-3 / 5)) with (rv_scale (-1) (normal_of turn)); [exact N1|].
    apply vec_eq; rvs; field.
Qed.
