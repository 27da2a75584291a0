(** Cylinders: concrete cases. *)

From Coq Require Import Reals ZArith List Bool Arith Lra Lia.
From Verif Require Import Num NumR NumX Vec Ray Bvh Traverse Cylinder SpecBvh SpecReal SpecNearest SpecPlane SpecCyl.
From Verif Require Import PfPart PfX PfTrav2 PfPlane PfCyl PfCyl2 PfCyl3 PfCyl4 PfCyl6 CaseNode CaseSphere CasePlane.
Import ListNotations.
Local Open Scope R_scope.

Definition cyl_start (O U : vec R) : cyl_isect xr :=
  CylIsect (vfin (V 0 0 0)) (vfin O) (vfin U) (Fin 0) (Fin 0, Fin 0) (Fin 1000) None.
Definition cyl_ray : ray xr := @make_ray _ (Xnum 1000 0 0) (vfin (V 0 0 0)) (vfin (V 1 0 0)) (Fin 0) (Fin 1000) false.
Definition cyl_at (C : vec R) (h : R) (Rm : mat R) : cylinder xr := Cylinder (vfin C) (Fin 1) (Fin 1) (Fin h) (mfin Rm) 7.

Lemma unit_norm (U : vec R) : rv_dot U U = 1 -> rv_norm U <> 0.
Proof. intros H. rewrite rv_norm_unit by exact H. lra. Qed.
Lemma local_at S C Rm O U t : orthogonal Rm ->
  world S C Rm (at_t O U t) <-> S (at_t (to_local C Rm O) (rv_mul (rv_trans Rm) U) t).
Proof. intros Ho. rewrite (world_local _ C Rm _ Ho), to_local_at. reflexivity. Qed.
Ltac cyls := unfold on_surface, on_side, on_top, on_bottom, in_solid, inside, beside_cap, ellipse, side_g in *; rvs.

(** C30: a ray along x hits the lower cap of a tilted cylinder. *)
Lemma cap_case : exists i', 
  @cylinder_intersect _ (Xnum 1000 0 0) (cyl_start (V 0 0 0) (V 1 0 0)) (cyl_at (V 10 0 0) 2 turn) cyl_ray = (true, i') /\
  isR (ci_hd i') (35 / 4) /\
  ~ world (on_surface 1 1 2) (V 10 0 0) turn (V 0 0 0) /\ ~ world (beside_cap 1 1 2) (V 10 0 0) turn (V 0 0 0).
Proof.
  pose proof turn_orthogonal as Ho.
  assert (Hoff : ~ world (on_surface 1 1 2) (V 10 0 0) turn (V 0 0 0)).
  { rewrite (world_local _ _ _ _ Ho). intros H. cyls. rewrite Rabs_le_iff in H. lra. }
  assert (Hbs : ~ world (beside_cap 1 1 2) (V 10 0 0) turn (V 0 0 0)).
  { rewrite (world_local _ _ _ _ Ho). intros H. cyls. destruct H as [H _]. rewrite Rabs_left in H; lra. }
  destruct (@cylinder_intersect _ (Xnum 1000 0 0) (cyl_start (V 0 0 0) (V 1 0 0)) (cyl_at (V 10 0 0) 2 turn) cyl_ray)
    as [hit i'] eqn:E.
  destruct (cylinder_first 1000 0 0 (cyl_start (V 0 0 0) (V 1 0 0)) (cyl_at (V 10 0 0) 2 turn) cyl_ray
    (V 0 0 0) (V 1 0 0) (V 10 0 0) 1 1 2 turn hit i' (visR_fin _) (visR_fin _) (visR_fin _) (isR_fin 1) (isR_fin 1) (isR_fin 2) (misR_fin _))
    as [A B]; auto; try lra.
  { apply unit_norm. rvs; lra. }
  rewrite unit_x in A, B by lra.
  assert (Hs : world (on_surface 1 1 2) (V 10 0 0) turn (at_t (V 0 0 0) (V 1 0 0) (35 / 4))).
  { apply local_at; [exact Ho|]. right; right. cyls. lra. }
  destruct hit.
  - exists i'. split; [reflexivity|]. split; [|auto]. destruct (A eq_refl) as (t & T1 & T2 & _ & T3 & T4).
    replace (35 / 4) with t; [exact T1|].
    destruct (Rtotal_order t (35 / 4)) as [H|[H|H]]; [|exact H|].
    + exfalso. apply local_at in T3; [|exact Ho]. cyls. rewrite Rabs_le_iff in T3. lra.
    + exfalso. apply (T4 (35 / 4)); [lra|exact Hs].
  - exfalso. destruct (B eq_refl) as [_ B'].
    assert (H35 : 0 < 35 / 4) by lra.
    destruct (B' Hbs (35 / 4) H35 Hs) as (q & Hq & Hside & _). unfold placed in Hq. rewrite Hq in Hs.
    apply (f_equal (to_local (V 10 0 0) turn)) in Hq. rewrite (to_local_of (V 10 0 0) turn q Ho), to_local_at in Hq. rewrite <- Hq in Hside.
    cyls. lra.
Qed.

(** C30: from beside a cap the cylinder is missed although the ray runs into it. *)
Lemma beside_refutes : exists i cy r O U C a b h Rm t,
  visR (ci_org i) O /\ visR (ci_dir i) U /\ visR (cy_center cy) C /\
  isR (cy_a cy) a /\ isR (cy_b cy) b /\ isR (cy_h cy) h /\ misR (cy_rot cy) Rm /\
  0 < a /\ 0 < b /\ 0 < h /\ orthogonal Rm /\ rv_dot U U = 1 /\ ~ world (on_surface a b h) C Rm O /\
  0 < t /\ world (on_surface a b h) C Rm (at_t O U t) /\ ~ touches a b h C Rm U (at_t O U t) /\
  @cylinder_intersect _ (Xnum 1000 0 0) i cy r = (false, i).
Proof.
  pose proof ident_orthogonal as Ho.
  assert (Hl : forall p, to_local (V 0 0 0) ident p = p).
  { intros [x y z]. apply vec_eq; rvs; ring. }
  exists (cyl_start (V 2 0 (1 / 2)) (V (-4 / 5) 0 (-3 / 5))), (cyl_at (V 0 0 0) 1 ident), cyl_ray,
    (V 2 0 (1 / 2)), (V (-4 / 5) 0 (-3 / 5)), (V 0 0 0), 1, 1, 1, ident, (5 / 4).
  split; [apply visR_fin|]. split; [apply visR_fin|]. split; [apply visR_fin|].
  split; [apply isR_fin|]. split; [apply isR_fin|]. split; [apply isR_fin|]. split; [apply misR_fin|].
  split; [lra|]. split; [lra|]. split; [lra|]. split; [exact Ho|]. split; [rvs; lra|].
  split. { rewrite (world_local _ _ _ _ Ho), Hl. intros H. cyls. lra. }
  split; [lra|].
  split. { rewrite (world_local _ _ _ _ Ho), Hl. left. cyls. split; [lra|]. rewrite Rabs_left; lra. }
  split.
  { intros (q & Hq & _ & Ht). unfold placed in Hq. apply (f_equal (to_local (V 0 0 0) ident)) in Hq.
    rewrite (to_local_of _ ident q Ho), Hl in Hq. rewrite <- Hq in Ht. cyls. lra. }
  apply (cylinder_beside 1000 0 0 (cyl_start (V 2 0 (1 / 2)) (V (-4 / 5) 0 (-3 / 5))) (cyl_at (V 0 0 0) 1 ident) cyl_ray (V 2 0 (1 / 2)) (V 0 0 0) 1 1 1 ident (visR_fin _) (visR_fin _) (isR_fin 1) (isR_fin 1) (isR_fin 1) (misR_fin _)); try lra.
  - exact Ho.
  - rewrite (world_local _ _ _ _ Ho), Hl. cyls. split; [rewrite Rabs_pos_eq; lra|lra].
Qed.

(** C33: from the center of a tilted cylinder along a slanted ray. *)
Lemma slanted_refutes : exists i cy r O U C a b h Rm i' rh rh' n t,
  visR (ci_org i) O /\ visR (ci_dir i) U /\ visR (cy_center cy) C /\
  isR (cy_a cy) a /\ isR (cy_b cy) b /\ isR (cy_h cy) h /\ misR (cy_rot cy) Rm /\
  0 < a /\ 0 < b /\ 0 < h /\ orthogonal Rm /\ rv_dot U U = 1 /\ ~ world (on_surface a b h) C Rm O /\
  @cylinder_intersect _ (Xnum 1000 0 0) i cy r = (true, i') /\ isR (ci_hd i') t /\
  @cylinder_post _ (Xnum 1000 0 0) i' rh = Ok rh' /\ visR (h_normal rh') n /\
  ~ unit_normal a b h C Rm (at_t O U t) n.
Proof.
  pose proof turn_orthogonal as Ho. set (U := V (24 / 25) 0 (-7 / 25)).
  assert (HU : rv_dot U U = 1) by (unfold U; rvs; lra).
  assert (Hl : to_local (V 0 0 0) turn (V 0 0 0) = V 0 0 0) by (apply vec_eq; rvs; ring).
  assert (Hlu : rv_mul (rv_trans turn) U = V (4 / 5) 0 (3 / 5)) by (unfold U; apply vec_eq; rvs; lra).
  assert (Hin : world (inside 1 1 4) (V 0 0 0) turn (V 0 0 0)).
  { rewrite (world_local _ _ _ _ Ho), Hl. cyls. rewrite Rabs_R0. lra. }
  assert (Hoff : ~ world (on_surface 1 1 4) (V 0 0 0) turn (V 0 0 0)).
  { rewrite (world_local _ _ _ _ Ho), Hl. intros H. cyls. lra. }
  assert (Hbs : ~ world (beside_cap 1 1 4) (V 0 0 0) turn (V 0 0 0)).
  { rewrite (world_local _ _ _ _ Ho), Hl. intros H. cyls. lra. }
  destruct (@cylinder_intersect _ (Xnum 1000 0 0) (cyl_start (V 0 0 0) U) (cyl_at (V 0 0 0) 4 turn) cyl_ray)
    as [hit i'] eqn:E.
  destruct (cylinder_first 1000 0 0 (cyl_start (V 0 0 0) U) (cyl_at (V 0 0 0) 4 turn) cyl_ray
    (V 0 0 0) U (V 0 0 0) 1 1 4 turn hit i' (visR_fin _) (visR_fin _) (visR_fin _) (isR_fin 1) (isR_fin 1) (isR_fin 4) (misR_fin _))
    as [A B]; auto using unit_norm; try lra.
  rewrite (unit_of_one U HU) in A, B.
  assert (Hat : forall S t, world S (V 0 0 0) turn (at_t (V 0 0 0) U t) <-> S (V (4 / 5 * t) 0 (3 / 5 * t))).
  { intros S t. rewrite (local_at _ _ _ _ _ _ Ho), Hl, Hlu.
    replace (at_t (V 0 0 0) (V (4 / 5) 0 (3 / 5)) t) with (V (4 / 5 * t) 0 (3 / 5 * t)) by (apply vec_eq; rvs; ring). reflexivity. }
  assert (Hq : forall q t, placed (V 0 0 0) turn q (at_t (V 0 0 0) U t) -> q = V (4 / 5 * t) 0 (3 / 5 * t)).
  { intros q t Hq. apply (Hat (fun x => q = x)). exists q. auto. }
  assert (Hs : world (on_side 1 1 4) (V 0 0 0) turn (at_t (V 0 0 0) U (5 / 4))).
  { apply Hat. cyls. rewrite Rabs_pos_eq; lra. }
  assert (Hsu : world (on_surface 1 1 4) (V 0 0 0) turn (at_t (V 0 0 0) U (5 / 4))).
  { apply Hat. left. apply Hat. exact Hs. }
  destruct hit.
  2:{ exfalso. destruct (B eq_refl) as [_ B']. assert (H54 : 0 < 5 / 4) by lra.
      destruct (B' Hbs (5 / 4) H54 Hsu) as (q & P & _ & Ht). rewrite (Hq q _ P) in Ht. unfold U in Ht. rvs. lra. }
  destruct (A eq_refl) as (t & T1 & T2 & _ & T3 & T4).
  assert (Et : t = 5 / 4).
  { destruct (Rtotal_order t (5 / 4)) as [H|[H|H]]; [|exact H|].
    - exfalso. apply Hat in T3. cyls. assert (H1 : 4 / 5 * t < 1) by lra. assert (H2 : 0 < 4 / 5 * t) by lra.
      destruct T3 as [T3|[T3|T3]]; [|lra|lra]. destruct T3 as [T3 _]. nra.
    - exfalso. apply (T4 (5 / 4)); [lra|exact Hsu]. }
  subst t.
  destruct (cylinder_normal 1000 0 0 (cyl_start (V 0 0 0) U) (cyl_at (V 0 0 0) 4 turn) cyl_ray
    (V 0 0 0) U (V 0 0 0) 1 1 4 turn i' (@new_rayhit _ (Xnum 1000 0 0)) (visR_fin _) (visR_fin _) (visR_fin _) (isR_fin 1) (isR_fin 1) (isR_fin 4) (misR_fin _))
    as (t & n & rh' & N1 & N2 & N3 & N4 & N5 & N6); auto using unit_norm; try lra.
  rewrite (unit_of_one U HU) in N6. rewrite (isR_inj _ _ _ N1 T1) in *.
  exists (cyl_start (V 0 0 0) U), (cyl_at (V 0 0 0) 4 turn), cyl_ray, (V 0 0 0), U, (V 0 0 0), 1, 1, 4, turn, i',
    (@new_rayhit _ (Xnum 1000 0 0)), rh', n, (5 / 4).
  split; [apply visR_fin|]. split; [apply visR_fin|]. split; [apply visR_fin|].
  split; [apply isR_fin|]. split; [apply isR_fin|]. split; [apply isR_fin|]. split; [apply misR_fin|].
  split; [lra|]. split; [lra|]. split; [lra|]. split; [exact Ho|]. split; [exact HU|]. split; [exact Hoff|].
  split; [exact E|]. split; [exact T1|]. split; [exact N2|]. split; [exact N4|].
  assert (HS : slanted 1 1 4 (V 0 0 0) turn (V 0 0 0) U (at_t (V 0 0 0) U (5 / 4))).
  { split; [exact Hin|]. split; [unfold U; rvs; lra|exact Hs]. }
  destruct N6 as [[N6 _]|[_ N6]]; [contradiction|].
  assert (Hg : forall q g, placed (V 0 0 0) turn q (at_t (V 0 0 0) U (5 / 4)) -> outward 1 1 4 q g -> g = V 1 0 0).
  { intros q g P Hg. rewrite (Hq q _ P) in Hg. destruct Hg as [[_ ->]|[[[_ Hg] _]|[[_ Hg] _]]].
    - apply vec_eq; cbn [vx vy vz]; lra.
    - cbn [vz] in Hg. lra.
    - cbn [vz] in Hg. lra. }
  intros (q & g & P & Hg1 & En). destruct N6 as (q' & g' & P' & Hg' & En').
  rewrite (Hg q g P Hg1) in En. rewrite (Hg q' g' P' Hg') in En'. rewrite unit_x in En' by lra.
  rewrite unit_of_one in En by (rvs; lra). rewrite En' in En. apply (f_equal vx) in En. rvs. lra.
Qed.

(** C32: the box of the tilted cylinder misses part of it. *)
Lemma tilted_box_refutes : exists c xa xb xh rot C a b h Rm m M p,
  visR c C /\ isR xa a /\ isR xb b /\ isR xh h /\ misR rot Rm /\ 0 < a /\ 0 < b /\ 0 < h /\ orthogonal Rm /\
  visR (fst (@cylinder_box _ (Xnum 1000 0 0) c xa xb xh rot)) m /\
  visR (snd (@cylinder_box _ (Xnum 1000 0 0) c xa xb xh rot)) M /\
  world (in_solid a b h) C Rm p /\ ~ in_box m M p.
Proof.
  destruct (cylinder_box_is 1000 0 0 (vfin (V 0 0 0)) (Fin 1) (Fin 1) (Fin 2) (mfin turn) (V 0 0 0) 1 1 2 turn
    (visR_fin _) (isR_fin 1) (isR_fin 1) (isR_fin 2) (misR_fin _)) as [B1 B2].
  exists (vfin (V 0 0 0)), (Fin 1), (Fin 1), (Fin 2), (mfin turn), (V 0 0 0), 1, 1, 2, turn,
    (cyl_lower (V 0 0 0) 1 1 2 turn), (cyl_upper (V 0 0 0) 1 1 2 turn), (V (7 / 5) 0 (-1 / 5)).
  split; [apply visR_fin|]. split; [apply isR_fin|]. split; [apply isR_fin|]. split; [apply isR_fin|]. split; [apply misR_fin|].
  split; [lra|]. split; [lra|]. split; [lra|]. split; [apply turn_orthogonal|]. split; [exact B1|]. split; [exact B2|]. split.
  - exists (V 1 0 1). split; [apply vec_eq; rvs; lra|]. cyls. rewrite Rabs_pos_eq; lra.
  - intros (H & _). unfold cyl_upper, tip_extent in H. cbn [vx vy vz turn] in H.
    rewrite Rmult_0_l, Rabs_R0, !Rabs_pos_eq in H by lra. unfold Rmax in H.
    destruct (Rle_dec (3 / 5 * 1) 0); [lra|]. destruct (Rle_dec (3 / 5 * 1) (4 / 5 * (2 / 2))); lra.
Qed.

(** A quarter turn about y. *)
Definition quarter : mat R := V (V 0 0 1) (V 0 1 0) (V (-1) 0 0).
Lemma quarter_aligned : axis_aligned quarter /\ orthogonal quarter.
Proof.
  split; [repeat split; unfold axis_row, quarter; cbn [vx vy vz]; auto|].
  intros v. split; apply vec_eq; unfold rv_mul, rv_trans, quarter, rv_dot; cbn [vx vy vz]; ring.
Qed.

(** C31: two cylinders, the ray meets the second. *)
Definition pair_C : list (vec R) := [V 10 5 0; V 10 0 0].
Definition pair_c (i : nat) : vec R := nth i pair_C rv_zero.
Definition pair : res (cylinders xr) :=
  @make_cylinders _ (Xnum 1000 0 0) (map vfin pair_C) (repeat (Fin 1) 2) (repeat (Fin 1) 2) (repeat (Fin 2) 2) (repeat (mfin ident) 2).

Lemma ident_extent : tip_extent 1 1 2 (vx ident) = 1 /\ tip_extent 1 1 2 (vy ident) = 1 /\ tip_extent 1 1 2 (vz ident) = 1.
Proof.
  assert (E1 : Rabs (1 * 1) = 1) by (rewrite Rabs_pos_eq; lra). assert (E2 : Rabs (1 * (2 / 2)) = 1) by (rewrite Rabs_pos_eq; lra).
  unfold tip_extent. cbn [vx vy vz ident]. rewrite !Rmult_0_l, !Rabs_R0, ?E1, ?E2.
  rewrite (Rmax_left 1 0), (Rmax_right 0 1), (Rmax_left 0 0), (Rmax_left 1 0) by lra. repeat split; apply Rmax_right; lra.
Qed.
Lemma pair_made : exists s, pair = Ok s /\ cylinders_are s pair_c (fun _ => 1) (fun _ => 1) (fun _ => 2) (fun _ => ident) /\
  length (cs_centers s) = 2%nat /\
  forall i, (i < 2)%nat -> in_bounds 1000 (cyl_lower (pair_c i) 1 1 2 ident) /\ in_bounds 1000 (cyl_upper (pair_c i) 1 1 2 ident).
Proof.
  destruct ident_extent as (X & Y & Z).
  eexists. split; [reflexivity|]. split; [|split; [reflexivity|]].
  - intros i Hi. cbn in Hi.
    do 2 (destruct i as [|i]; [split; [|split; [|split; [|split]]]; eexists; (split; [reflexivity|]); repeat split|]). lia.
  - intros i Hi. unfold in_bounds, cyl_lower, cyl_upper. cbn [vx vy vz]. rewrite X, Y, Z.
    do 2 (destruct i as [|i]; [cbn; lra|]). lia.
Qed.

Lemma pair_query : exists s nodes st rh,
  pair = Ok s /\
  @build _ (Xnum 1000 0 0) _ libstdcxx_partition [] (cylinder_coll s) five_opt = Ok (nodes, st) /\
  @traverse _ (Xnum 1000 0 0) _ _ (@cylinder_isector _ (Xnum 1000 0 0)) nodes
    (@make_ray _ (Xnum 1000 0 0) (vfin (V 0 0 0)) (vfin (V 1 0 0)) (Fin 0) (Fin 1000) false)
    (@new_rayhit _ (Xnum 1000 0 0)) = Ok (true, rh) /\
  h_prim rh = Some 1%nat /\ isR (h_distance rh) 9 /\ visR (h_normal rh) (V (-1) 0 0).
Proof.
  destruct pair_made as (s & Es & Hd & Hl & Hb). pose proof ident_orthogonal as Ho.
  assert (Hok : forall i, (i < length (cs_centers s))%nat ->
    0 < (fun _ : nat => 1) i /\ 0 < (fun _ : nat => 1) i /\ 0 < (fun _ : nat => 2) i /\ orthogonal ((fun _ : nat => ident) i)).
  { intros. split; [lra|]. split; [lra|]. split; [lra|]. exact Ho. }
  assert (Hax : forall i, (i < length (cs_centers s))%nat -> axis_aligned ((fun _ : nat => ident) i)).
  { intros. repeat split; unfold axis_row, ident; cbn [vx vy vz]; auto. }
  assert (Hb' : forall i, (i < length (cs_centers s))%nat ->
    in_bounds 1000 (cyl_lower (pair_c i) ((fun _ : nat => 1) i) ((fun _ : nat => 1) i) ((fun _ : nat => 2) i) ((fun _ : nat => ident) i)) /\
    in_bounds 1000 (cyl_upper (pair_c i) ((fun _ : nat => 1) i) ((fun _ : nat => 1) i) ((fun _ : nat => 2) i) ((fun _ : nat => ident) i))).
  { rewrite Hl. exact Hb. }
  destruct (cylinder_build_ok 1000 0 0 _ _ _ _ _ s pair_c (fun _ => 1) (fun _ => 1) (fun _ => 2) (fun _ => ident)
    libstdcxx_partition five_opt Es Hd Hb' libstdcxx_partition_ok) as (nodes & st & Eb); [cbn; lia|cbn; lia|].
  assert (Hdep := @opt_depth _ _ (Xnum 1000 0 0) _ libstdcxx_partition_ok _ _ _ _ Eb (le_n 26)).
  destruct ident_extent as (X & Y & Z).
  assert (Hz : vz (V 1 0 0) = 0 -> forall i, (i < length (cs_centers s))%nat ->
    vz (V 0 0 0) <> vz (cyl_lower (pair_c i) ((fun _ : nat => 1) i) ((fun _ : nat => 1) i) ((fun _ : nat => 2) i) ((fun _ : nat => ident) i)) /\
    vz (V 0 0 0) <> vz (cyl_upper (pair_c i) ((fun _ : nat => 1) i) ((fun _ : nat => 1) i) ((fun _ : nat => 2) i) ((fun _ : nat => ident) i))).
  { rewrite Hl. intros _ i Hi. unfold cyl_lower, cyl_upper. cbn [vz]. rewrite Z.
    do 2 (destruct i as [|i]; [cbn; split; lra|]). lia. }
  assert (HL : forall C p, to_local C ident p = rv_sub p C).
  { intros [cx cy cz] [x y z]. apply vec_eq; rvs; ring. }
  assert (Hat : forall S i t, world S (pair_c i) ident (at_t (V 0 0 0) (V 1 0 0) t) <-> S (rv_sub (V t 0 0) (pair_c i))).
  { intros S i t. rewrite (world_local _ _ _ _ Ho), HL. replace (at_t (V 0 0 0) (V 1 0 0) t) with (V t 0 0) by (apply vec_eq; rvs; ring). reflexivity. }
  assert (Hoff : forall i, (i < length (cs_centers s))%nat ->
    ~ world (on_surface 1 1 2) (pair_c i) ident (V 0 0 0) /\ ~ world (beside_cap 1 1 2) (pair_c i) ident (V 0 0 0)).
  { rewrite Hl. intros i Hi. rewrite !(world_local _ _ _ _ Ho), HL.
    do 2 (destruct i as [|i]; [unfold pair_c, pair_C; cbn [nth]; cyls; rewrite Rminus_0_r, Rabs_R0; split; intros ?; lra|]). lia. }
  assert (H0 : forall t, ~ world (on_surface 1 1 2) (pair_c 0) ident (at_t (V 0 0 0) (V 1 0 0) t)).
  { intros t H. apply Hat in H. unfold pair_c, pair_C in H. cbn [nth] in H. cyls. destruct H as [[H _]|[[_ H]|[_ H]]]; try lra. pose proof (Rle_0_sqr ((t - 10) / 1)). unfold Rsqr in *. lra. }
  assert (Hsingle : forall i j t u, (i < length (cs_centers s))%nat -> (j < length (cs_centers s))%nat ->
    seen_from (pair_c i) 1 1 2 ident (V 0 0 0) -> seen_from (pair_c j) 1 1 2 ident (V 0 0 0) ->
    meets (pair_c i) 1 1 2 ident (V 0 0 0) (unit_of (V 1 0 0)) t -> meets (pair_c j) 1 1 2 ident (V 0 0 0) (unit_of (V 1 0 0)) u -> i = j).
  { rewrite Hl, unit_x by lra. intros i j t u Hi Hj _ _ [_ Hmi] [_ Hmj].
    destruct i as [|[|i]]; [destruct (H0 _ Hmi)| |lia]. destruct j as [|[|j]]; [destruct (H0 _ Hmj)|reflexivity|lia]. }
  pose proof (cylinder_query 1000 0 0 (Rle_refl 0) _ _ _ _ _ s Es pair_c (fun _ => 1) (fun _ => 1) (fun _ => 2) (fun _ => ident)
    Hd Hok Hb' _ libstdcxx_partition_ok
    five_opt nodes st Eb Hax Hdep _ _ _ (Fin 1000) false _ _ five_admissible Hz (fun i Hi => proj1 (Hoff i Hi)) Hsingle (@new_rayhit _ (Xnum 1000 0 0)))
    as (b & rh & E & Hb1 & Hb2).
  rewrite unit_x in Hb1, Hb2 by lra. rewrite Hl in Hb1, Hb2.
  assert (M9 : meets (pair_c 1) 1 1 2 ident (V 0 0 0) (V 1 0 0) 9).
  { split; [lra|]. apply Hat. left. unfold pair_c, pair_C. cbn [nth]. cyls. rewrite Rminus_0_r, Rabs_R0. lra. }
  destruct b.
  2:{ exfalso. destruct (Hb1 eq_refl) as [_ Hno]. apply (Hno 1%nat 9). split; [lia|]. split; [|apply Rltb_spec; lra].
      split; [apply Hoff; rewrite Hl; lia|]. split; [exact M9|]. intros (q & Hq & _ & Ht).
      assert (Eq : q = rv_sub (V 9 0 0) (pair_c 1)) by (apply (Hat (fun x => q = x)); exists q; auto).
      rewrite Eq in Ht. unfold pair_c, pair_C in Ht. cbn [nth] in Ht. rvs. lra. }
  destruct (Hb2 eq_refl) as (i & t & (Hi & Hm & _) & Ep & Ed & _ & Hab & _).
  destruct Hm as [_ [[Ht Hmi] Hfirst]].
  assert (i = 1%nat). { destruct i as [|[|i]]; [destruct (H0 _ Hmi)|reflexivity|lia]. } subst i.
  assert (Et : t = 9).
  { destruct (Rtotal_order t 9) as [H|[H|H]]; [|exact H|].
    - exfalso. apply Hat in Hmi. unfold pair_c, pair_C in Hmi. cbn [nth] in Hmi. cyls. destruct Hmi as [[H' _]|[[_ H']|[_ H']]]; try lra. nra.
    - exfalso. apply (Hfirst 9); [lra|apply M9]. }
  subst t. exists s, nodes, st, rh. split; [exact Es|]. split; [exact Eb|]. split; [exact E|]. split; [exact Ep|]. split; [exact Ed|].
  destruct Hab as (n & Vn & _ & [[_ (q & g & Hq & Hg & ->)]|[[Hin _] _]]).
  - assert (Eq : q = V (-1) 0 0).
    { assert (Eq : q = rv_sub (V 9 0 0) (pair_c 1)) by (apply (Hat (fun x => q = x)); exists q; auto).
      rewrite Eq. unfold pair_c, pair_C. cbn [nth]. apply vec_eq; rvs; lra. }
    subst q. replace (V (-1) 0 0) with (unit_of (rv_mul ident g)); [exact Vn|].
    destruct Hg as [[_ ->]|[[[_ Hg] _]|[[_ Hg] _]]]; [|cbn [vz] in Hg; lra|cbn [vz] in Hg; lra].
    assert (Ev : rv_mul ident (V (vx (V (-1) 0 0) / (1 * 1)) (vy (V (-1) 0 0) / (1 * 1)) 0) = V (-1) 0 0) by (apply vec_eq; rvs; field).
    rewrite Ev. apply unit_of_one. rvs; lra.
  - exfalso. rewrite (world_local _ _ _ _ Ho), HL in Hin. unfold pair_c, pair_C in Hin. cbn [nth] in Hin. cyls. lra.
Qed.
