(** Concrete binary64 cases. *)

From Coq Require Import Reals ZArith List Bool Arith Lra Lia Floats.SpecFloat.
From Flocq Require Import Core IEEE754.BinarySingleNaN.
From Verif Require Import Num NumR NumF Vec Datatypes Ray Bvh Traverse Sphere SpecBvh SpecReal SpecIEEE SpecAny.
From Verif Require Import PfBuild PfBuild2 PfTrav2 PfNumbered PfIEEE PfIEEE2 PfIEEE3.
Import ListNotations.
Local Open Scope R_scope.

Lemma prec53 : Prec_gt_0 53. Proof. reflexivity. Qed.
Lemma emax1024 : Prec_lt_emax 53 1024. Proof. reflexivity. Qed.
Lemma prec24 : Prec_gt_0 24. Proof. reflexivity. Qed.
Lemma emax128 : Prec_lt_emax 24 128. Proof. reflexivity. Qed.

Lemma lit64 m e : (Z.abs m < 2 ^ 53)%Z -> (-1074 <= e <= 971)%Z -> isF 53 1024 (f64 m e) (IZR m * bpow radix2 e).
Proof. apply (@isF_lit 53 1024 prec53 emax1024). discriminate. Qed.

Lemma int64 m a : (Z.abs m < 2 ^ 53)%Z -> a = IZR m -> isF 53 1024 (f64 m 0) a.
Proof. intros H ->. replace (IZR m) with (IZR m * bpow radix2 0) by (cbn; ring). apply lit64; [exact H|lia]. Qed.

Lemma low64 : 0 < least 1024 <= / 1024.
Proof. split; [apply bpow_gt_0|]. change (/ 1024) with (bpow radix2 (-10)). apply bpow_le. lia. Qed.
Lemma big64 : 1024 <= top 1024.
Proof. change 1024 with (bpow radix2 10) at 1. apply bpow_le. lia. Qed.
Lemma ulp64 : 0 < ulpf 53 <= / 1024.
Proof. split; [apply bpow_gt_0|]. change (/ 1024) with (bpow radix2 (-10)). apply bpow_le. lia. Qed.
Lemma linv64 : 1024 <= / least 1024.
Proof. rewrite <- (Rinv_inv 1024). apply Rinv_le; [apply low64|]. apply low64. Qed.

(** A box from x = 11 to 20, and the ray along (91, 0, 0). *)
Definition mn11 : vec spec_float := V (f64 11 0) (f64 (-1) 0) (f64 (-1) 0).
Definition mx20 : vec spec_float := V (f64 20 0) (f64 1 0) (f64 1 0).
Definition d91 : vec spec_float := V (f64 91 0) (f64 0 0) (f64 0 0).
Definition box11 : node spec_float nat := Node mn11 mx20 true None None None [].
Definition hd11 : spec_float := f64 8710258619969311 (-56).

Lemma mn11_is : visF 53 1024 mn11 (V 11 (-1) (-1)).
Proof. split; [|split]; apply int64; reflexivity || (cbn; lra). Qed.
Lemma mx20_is : visF 53 1024 mx20 (V 20 1 1).
Proof. split; [|split]; apply int64; reflexivity || (cbn; lra). Qed.
Lemma d91_is : visF 53 1024 d91 (V 91 0 0).
Proof. split; [|split]; apply int64; reflexivity || (cbn; lra). Qed.
Lemma o0_is : visF 53 1024 (V (f64 0 0) (f64 0 0) (f64 0 0)) (V 0 0 0).
Proof. split; [|split]; apply int64; reflexivity || (cbn; lra). Qed.
Lemma hd11_is : exists h, isF 53 1024 hd11 h /\ 11 / 91 <= h.
Proof.
  exists (IZR 8710258619969311 * bpow radix2 (-56)). split; [apply lit64; [reflexivity|lia]|].
  change (bpow radix2 (-56)) with (/ 72057594037927936). lra.
Qed.

Lemma rounding_refuted :
  exists (nd : node spec_float nat) o d tmin hd m M O D lo h t,
    visF 53 1024 (nd_min nd) m /\ visF 53 1024 (nd_max nd) M /\ visF 53 1024 o O /\ visF 53 1024 d D /\
    isF 53 1024 tmin lo /\ isF 53 1024 hd h /\ lo <= t <= h /\ in_box m M (at_t O D t) /\
    tame 1024 m M O D d /\ tame_distance 1024 t /\ (vz D = 0 -> vz m <> vz O /\ vz M <> vz O) /\
    @intersect_node _ F64 _ tmin hd nd (@make_ray _ F64 o d tmin hd false) = false.
Proof.
  destruct hd11_is as (h & Hh & Hle). pose proof low64. pose proof big64. pose proof linv64.
  exists box11, (V (f64 0 0) (f64 0 0) (f64 0 0)), d91, (f64 0 0), hd11,
    (V 11 (-1) (-1)), (V 20 1 1), (V 0 0 0), (V 91 0 0), 0, h, (11 / 91).
  split; [exact mn11_is|]. split; [exact mx20_is|]. split; [exact o0_is|]. split; [exact d91_is|].
  split; [apply int64; reflexivity|]. split; [exact Hh|]. split; [lra|].
  split; [unfold in_box, at_t, rv_add, rv_scale; cbn [vx vy vz]; lra|].
  split; [|split; [|split]].
  - unfold tame, tame_axis. cbn [vx vy vz]. repeat split; intros; try reflexivity; try lra;
      try (apply Rabs_le; lra); rewrite Rabs_pos_eq by lra; lra.
  - right. lra.
  - cbn. lra.
  - vm_compute. reflexivity.
Qed.

(** With the distance bound 1 the test passes. *)
Lemma margin_case :
  exists (nd : node spec_float nat) o d tmin tmax hd any m M O D lo t,
    visF 53 1024 (nd_min nd) m /\ visF 53 1024 (nd_max nd) M /\ visF 53 1024 o O /\ visF 53 1024 d D /\
    tame 1024 m M O D d /\ tame_distance 1024 t /\ (vz D = 0 -> vz m <> vz O /\ vz M <> vz O) /\
    isF 53 1024 tmin lo /\ lo <= t /\ at_least 53 1024 hd (t * (1 + 4 * ulpf 53)) /\
    in_box m M (at_t O D t) /\
    @intersect_node _ F64 _ tmin hd nd (@make_ray _ F64 o d tmin tmax any) = true.
Proof.
  pose proof low64. pose proof big64. pose proof linv64. pose proof ulp64.
  exists box11, (V (f64 0 0) (f64 0 0) (f64 0 0)), d91, (f64 0 0), (f64 1 0), (f64 1 0), false,
    (V 11 (-1) (-1)), (V 20 1 1), (V 0 0 0), (V 91 0 0), 0, (11 / 91).
  split; [exact mn11_is|]. split; [exact mx20_is|]. split; [exact o0_is|]. split; [exact d91_is|].
  split; [|split; [|split; [|split; [|split; [|split; [|split]]]]]].
  - unfold tame, tame_axis. cbn [vx vy vz]. repeat split; intros; try reflexivity; try lra;
      try (apply Rabs_le; lra); rewrite Rabs_pos_eq by lra; lra.
  - right. lra.
  - cbn. lra.
  - apply int64; reflexivity.
  - lra.
  - right. exists 1. split; [apply int64; reflexivity|]. lra.
  - unfold in_box, at_t, rv_add, rv_scale; cbn [vx vy vz]; lra.
  - vm_compute. reflexivity.
Qed.

(** Two unit spheres around (0,0,0) and (4,0,0). *)
Definition pair_spheres : spheres spec_float :=
  match @make_spheres _ F64 [V (f64 0 0) (f64 0 0) (f64 0 0); V (f64 4 0) (f64 0 0) (f64 0 0)] [f64 1 0; f64 1 0] with
  | Ok s => s | _ => Spheres [] [] [] end.
Definition pair_ctr (i : nat) : vec R := V (if Nat.eqb i 0 then 0 else 4) 0 0.
Definition pair_min (i : nat) : vec R := V (if Nat.eqb i 0 then -1 else 3) (-1) (-1).
Definition pair_max (i : nat) : vec R := V (if Nat.eqb i 0 then 1 else 5) 1 1.

Ltac lit := split; [reflexivity|split; [reflexivity|cbn; unfold F2R; cbn; lra]].
Ltac two i := destruct i as [|[|i]]; [| |cbn in *; lia].

Lemma pair_size : c_size (sphere_coll pair_spheres) = 2%nat. Proof. reflexivity. Qed.
Lemma pair_boxes : boxes_areF 53 1024 (sphere_coll pair_spheres) pair_min pair_max.
Proof.
  intros i Hi. rewrite pair_size in Hi. two i; eexists; (split; [vm_compute; reflexivity|]);
    (split; (split; [|split])); cbn [fst snd vx vy vz pair_min pair_max Nat.eqb]; lit.
Qed.
Lemma pair_moderate : moderate_boxes 1024 2 pair_min pair_max.
Proof.
  pose proof big64. intros i Hi. unfold moderate. two i; cbn [vx vy vz pair_min pair_max Nat.eqb]; repeat split; apply Rabs_le; lra.
Qed.
Lemma pair_spread : spread_boxes 1024 2 pair_min pair_max.
Proof.
  pose proof low64. intros i j Hi Hj. unfold spread.
  two i; two j; cbn [vx vy vz pair_min pair_max Nat.eqb]; repeat split; right;
    first [rewrite Rabs_pos_eq by lra; lra|rewrite Rabs_left by lra; lra].
Qed.
Lemma pair_centers i : (i < 2)%nat -> exists v, c_center (sphere_coll pair_spheres) i = Ok v /\
  visF 53 1024 v (pair_ctr i) /\ in_box (pair_min i) (pair_max i) (pair_ctr i).
Proof.
  intros Hi. two i; eexists; (split; [vm_compute; reflexivity|]);
    (split; [split; [|split]; cbn [vx vy vz pair_ctr Nat.eqb]; lit|unfold in_box; cbn [vx vy vz pair_ctr pair_min pair_max Nat.eqb]; lra]).
Qed.
Lemma pair_prims i : (i < 2)%nat -> exists q, c_prim (sphere_coll pair_spheres) i = Ok q.
Proof. intros Hi. two i; eexists; vm_compute; reflexivity. Qed.

Definition pair_opt : options := Options 1 26 64.
Lemma pair_built : exists nodes st,
  boxes_areF 53 1024 (sphere_coll pair_spheres) pair_min pair_max /\
  moderate_boxes 1024 (c_size (sphere_coll pair_spheres)) pair_min pair_max /\
  spread_boxes 1024 (c_size (sphere_coll pair_spheres)) pair_min pair_max /\
  (forall i, (i < c_size (sphere_coll pair_spheres))%nat -> exists v, c_center (sphere_coll pair_spheres) i = Ok v /\
     visF 53 1024 v (pair_ctr i) /\ in_box (pair_min i) (pair_max i) (pair_ctr i)) /\
  (forall i, (i < c_size (sphere_coll pair_spheres))%nat -> exists q, c_prim (sphere_coll pair_spheres) i = Ok q) /\
  @build _ F64 _ libstdcxx_partition [] (sphere_coll pair_spheres) pair_opt = Ok (nodes, st) /\ length nodes = 3%nat.
Proof.
  eexists. eexists. split; [exact pair_boxes|]. split; [exact pair_moderate|]. split; [exact pair_spread|].
  split; [exact pair_centers|]. split; [exact pair_prims|]. split; [vm_compute; reflexivity|reflexivity].
Qed.

(** A ray from (-4, 1/4, 1/4) along x, occlusion query up to distance 100. *)
Definition pair_o : vec spec_float := V (f64 (-4) 0) (f64 1 (-2)) (f64 1 (-2)).
Definition pair_d : vec spec_float := V (f64 1 0) (f64 0 0) (f64 0 0).
Definition pair_O : vec R := V (-4) (/ 4) (/ 4).
Definition pair_D : vec R := V 1 0 0.
Lemma pair_tame : tame_ray 53 1024 pair_o pair_d (f64 0 0) pair_O pair_D 0.
Proof.
  pose proof low64. pose proof big64. pose proof linv64. unfold pair_o, pair_d, pair_O, pair_D.
  assert (Hq : isF 53 1024 (f64 1 (-2)) (/ 4)).
  { replace (/ 4) with (IZR 1 * bpow radix2 (-2)) by (cbn; lra). apply lit64; [reflexivity|lia]. }
  split; cbn [vx vy vz].
  - split; [apply int64; reflexivity|]. split; exact Hq.
  - split; [|split]; apply int64; reflexivity.
  - apply int64; reflexivity.
  - unfold moderate. cbn [vx vy vz]. repeat split; apply Rabs_le; lra.
  - split; [lra|]. intros _. rewrite Rabs_pos_eq by lra. lra.
  - split; [reflexivity|lra].
  - split; [reflexivity|lra].
Qed.
Lemma pair_query : exists nodes st rh q i t,
  @build _ F64 _ libstdcxx_partition [] (sphere_coll pair_spheres) pair_opt = Ok (nodes, st) /\
  tame_ray 53 1024 pair_o pair_d (f64 0 0) pair_O pair_D 0 /\
  (i < c_size (sphere_coll pair_spheres))%nat /\ c_prim (sphere_coll pair_spheres) i = Ok q /\
  meets_at 53 1024 (pair_min i) (pair_max i) pair_O pair_D 0 (f64 100 0) t /\
  (vz pair_D = 0 -> forall i, (i < c_size (sphere_coll pair_spheres))%nat -> vz pair_O <> vz (pair_min i) /\ vz pair_O <> vz (pair_max i)) /\
  @traverse _ F64 _ _ (@sphere_isector _ F64 pair_spheres) nodes (@make_ray _ F64 pair_o pair_d (f64 0 0) (f64 100 0) true)
    (RayHit (vconst (f64 0 0)) (f64 0 0, f64 0 0) (f64 100 0) None None) = Ok (true, rh).
Proof.
  pose proof low64. pose proof big64. pose proof ulp64.
  do 3 eexists. exists (Sphere (V (f64 0 0) (f64 0 0) (f64 0 0)) (f64 1 0) 0), 0%nat, 3.
  split; [vm_compute; reflexivity|]. split; [exact pair_tame|]. split; [rewrite pair_size; lia|].
  split; [vm_compute; reflexivity|]. split; [|split].
  - split; [lra|]. split; [right; lra|]. split.
    + unfold in_box, at_t, rv_add, rv_scale, pair_O, pair_D. cbn [vx vy vz pair_min pair_max Nat.eqb]. lra.
    + right. exists 100. split; [apply int64; reflexivity|]. lra.
  - intros _ i _. unfold pair_O, pair_min, pair_max. cbn [vz]. lra.
  - vm_compute. reflexivity.
Qed.
