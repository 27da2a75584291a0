(** Five unit spheres and a ray, in exact arithmetic. *)

From Coq Require Import Reals ZArith List Bool Arith Lra Lia.
From Verif Require Import Num NumR NumX Vec Ray Bvh Traverse Sphere SpecBvh SpecReal SpecNearest SpecSphere.
From Verif Require Import PfPart PfX PfTrav2 PfSphere PfSphere2 CaseNode.
Import ListNotations.
Local Open Scope R_scope.

Definition five_C : list (vec R) := [V 20 0 0; V 10 0 0; V 5 5 0; V 5 (-5) (1 / 2); V 15 0 3].
Definition five : res (spheres xr) :=
  @make_spheres _ (Xnum 1000 0 0) (map vfin five_C) (repeat (Fin 1) 5).
Definition five_opt : options := Options 1 26 64.
Definition five_c (i : nat) : vec R := nth i five_C rv_zero.

Lemma five_made : exists s, five = Ok s /\ spheres_are s five_c (fun _ => 1) /\
  length (ss_centers s) = 5%nat /\
  forall i, (i < 5)%nat -> in_bounds 1000 (lower (five_c i) 1) /\ in_bounds 1000 (upper (five_c i) 1).
Proof.
  eexists. split; [reflexivity|]. split; [|split; [reflexivity|]].
  - intros i Hi. cbn in Hi.
    do 5 (destruct i as [|i]; [split; eexists; (split; [reflexivity|]); repeat split|]). lia.
  - intros i Hi. do 5 (destruct i as [|i]; [cbn; unfold in_bounds; cbn; lra|]). lia.
Qed.

Lemma five_admissible : admissible (vfin (V 0 0 0)) (vfin (V 1 0 0)) (Fin 0) (V 0 0 0) (V 1 0 0) 0.
Proof.
  split; try (repeat split); try lra.
  - intros s H. injection H as <- ?. lra.
  - intros s H. injection H as <-. reflexivity.
  - intros s H. injection H as <-. reflexivity.
  - left. apply norm_x. lra.
Qed.

(** The hypotheses of the sphere theorems hold, and they give the expected answer:
    sphere 1 at distance 9. *)
Lemma five_query : exists s nodes st rh,
  five = Ok s /\
  @build _ (Xnum 1000 0 0) _ libstdcxx_partition [] (sphere_coll s) five_opt = Ok (nodes, st) /\
  @traverse _ (Xnum 1000 0 0) _ _ (@sphere_isector _ (Xnum 1000 0 0) s) nodes
    (@make_ray _ (Xnum 1000 0 0) (vfin (V 0 0 0)) (vfin (V 1 0 0)) (Fin 0) (Fin 1000) false)
    (@new_rayhit _ (Xnum 1000 0 0)) = Ok (true, rh) /\
  h_prim rh = Some 1%nat /\ isR (h_distance rh) 9 /\ visR (h_normal rh) (V (-1) 0 0).
Proof.
  destruct five_made as (s & Es & Hd & Hl & Hb).
  assert (Hr : forall i, (i < length (ss_centers s))%nat -> 0 <= (fun _ : nat => 1) i) by (intros; cbn; lra).
  assert (Hb' : forall i, (i < length (ss_centers s))%nat ->
    in_bounds 1000 (lower (five_c i) ((fun _ : nat => 1) i)) /\ in_bounds 1000 (upper (five_c i) ((fun _ : nat => 1) i))).
  { rewrite Hl. exact Hb. }
  destruct (sphere_build_ok 1000 0 0 _ _ s five_c (fun _ => 1) libstdcxx_partition five_opt Es Hd Hr Hb'
    libstdcxx_partition_ok) as (nodes & st & Eb); [cbn; lia|cbn; lia|].
  assert (Hdep := @opt_depth _ _ (Xnum 1000 0 0) _ libstdcxx_partition_ok _ _ _ _ Eb (le_n 26)).
  assert (Hz : vz (V 1 0 0) = 0 -> forall i, (i < length (ss_centers s))%nat ->
    vz (V 0 0 0) <> vz (five_c i) - (fun _ : nat => 1) i /\ vz (V 0 0 0) <> vz (five_c i) + (fun _ : nat => 1) i).
  { rewrite Hl. intros _ i Hi. cbn [vz].
    do 5 (destruct i as [|i]; [cbn; split; lra|]). lia. }

  pose proof (sphere_query 1000 0 0 (Rle_refl 0) _ _ s Es five_c (fun _ => 1) Hd Hr Hb' _ libstdcxx_partition_ok
    five_opt nodes st Eb Hdep _ _ _ (Fin 1000) false _ _ 0 five_admissible Hz (@new_rayhit _ (Xnum 1000 0 0)))
    as (b & rh & E & Hb1 & _ & Hb2).
  rewrite unit_x in Hb1, Hb2 by lra. unfold sphere_hit in Hb1, Hb2. rewrite Hl in Hb1, Hb2.
  assert (H1 : (1 < 5)%nat /\ (on_sphere (five_c 1) 1 (at_t (V 0 0 0) (V 1 0 0) 9) /\ 0 < 9) /\
    xltb (Fin 9) (Fin 1000) = true).
  { split; [lia|]. split; [split; [|lra]|apply Rltb_spec; lra].
    unfold on_sphere, at_t, rv_dot, rv_sub, rv_add, rv_scale; cbn. lra. }
  assert (b = true) by (apply Hb1; eauto). subst b.
  destruct (Hb2 eq_refl) as (i & t & (Hi & (Ho & Ht) & _) & Ep & Ed & _ & Hab & Hmin).
  specialize (Hmin eq_refl 1%nat 9 H1).
  unfold on_sphere, at_t, rv_dot, rv_sub, rv_add, rv_scale in Ho.
  assert (Hit : i = 1%nat /\ t = 9).
  { destruct i as [|[|[|[|[|i]]]]]; [..|lia]; cbn in Ho; [exfalso; nra| |exfalso; nra..].
    split; [reflexivity|]. assert (Hf : (t - 9) * (t - 11) = 0) by lra.
    apply Rmult_integral in Hf as [Hf|Hf]; lra. }
  destruct Hit as [-> ->]. exists s, nodes, st, rh.
  split; [exact Es|]. split; [exact Eb|]. split; [exact E|]. split; [exact Ep|]. split; [exact Ed|].
  unfold sphere_about in Hab. assert (Hne : 1 <> 0) by lra. specialize (Hab Hne).
  replace (V (-1) 0 0) with (rv_scale (/ Rabs 1) (rv_sub (at_t (V 0 0 0) (V 1 0 0) 9) (five_c 1))); [exact Hab|].
  rewrite Rabs_R1. apply vec_eq; cbn; field.
Qed.

Lemma five_built : exists s, five = Ok s /\ exists nodes st,
  @build _ (Xnum 1000 0 0) _ libstdcxx_partition [] (sphere_coll s) five_opt = Ok (nodes, st).
Proof. destruct five_query as (s & nodes & st & rh & E1 & E2 & _). eauto. Qed.
