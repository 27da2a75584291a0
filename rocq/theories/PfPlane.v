(** Plane proofs. *)

From Coq Require Import Reals ZArith List Bool Arith Lra Lia.
From Verif Require Import Num NumR NumX Vec Ray Bvh Traverse Plane SpecBvh SpecReal SpecNearest SpecPlane.
From Verif Require Import PfBuild PfX.
Import ListNotations.
Local Open Scope R_scope.

Lemma rv_adjoint M u v : rv_dot (rv_mul M u) v = rv_dot u (rv_mul (rv_trans M) v).
Proof. unfold rv_dot, rv_mul, rv_trans; cbn. unfold rv_dot; cbn. ring. Qed.
Lemma rv_adjoint' M u v : rv_dot (rv_mul (rv_trans M) u) v = rv_dot u (rv_mul M v).
Proof. unfold rv_dot, rv_mul, rv_trans; cbn. unfold rv_dot; cbn. ring. Qed.
Lemma orth_dot M u v : orthogonal M -> rv_dot (rv_mul M u) (rv_mul M v) = rv_dot u v.
Proof. intros H. rewrite rv_adjoint. rewrite (proj1 (H v)). reflexivity. Qed.
Lemma orth_dot' M u v : orthogonal M ->
  rv_dot (rv_mul (rv_trans M) u) (rv_mul (rv_trans M) v) = rv_dot u v.
Proof. intros H. rewrite rv_adjoint'. rewrite (proj2 (H v)). reflexivity. Qed.
Lemma rv_mul_add M u v : rv_mul M (rv_add u v) = rv_add (rv_mul M u) (rv_mul M v).
Proof. apply vec_eq; cbn; unfold rv_dot; cbn; ring. Qed.
Lemma rv_mul_sub M u v : rv_mul M (rv_sub u v) = rv_sub (rv_mul M u) (rv_mul M v).
Proof. apply vec_eq; cbn; unfold rv_dot; cbn; ring. Qed.
Lemma rv_mul_scale M t v : rv_mul M (rv_scale t v) = rv_scale t (rv_mul M v).
Proof. apply vec_eq; cbn; unfold rv_dot; cbn; ring. Qed.

(** A point in the patch's coordinates. *)
Definition to_local (C : vec R) (Rm : mat R) (p : vec R) : vec R := rv_mul (rv_trans Rm) (rv_sub p C).

Lemma to_local_at C Rm O U t :
  to_local C Rm (at_t O U t) = at_t (to_local C Rm O) (rv_mul (rv_trans Rm) U) t.
Proof. unfold to_local. apply vec_eq; cbn; unfold rv_dot; cbn; ring. Qed.
Lemma from_local C Rm p : orthogonal Rm -> p = rv_add C (rv_mul Rm (to_local C Rm p)).
Proof.
  intros H. unfold to_local. rewrite (proj2 (H _)). apply vec_eq; cbn; ring.
Qed.
Lemma to_local_of C Rm v : orthogonal Rm -> to_local C Rm (rv_add C (rv_mul Rm v)) = v.
Proof.
  intros H. unfold to_local. rewrite <- (proj1 (H v)) at 2. f_equal. apply vec_eq; cbn; ring.
Qed.
Lemma Rabs_le_iff x a : Rabs x <= a <-> - a <= x <= a.
Proof. unfold Rabs. destruct (Rcase_abs x); split; lra. Qed.
Lemma Rabs_lt_iff x a : Rabs x < a <-> - a < x < a.
Proof. unfold Rabs. destruct (Rcase_abs x); split; lra. Qed.
Lemma on_patch_local C dx dy Rm p : orthogonal Rm ->
  on_patch C dx dy Rm p <->
  vz (to_local C Rm p) = 0 /\ - (dx / 2) <= vx (to_local C Rm p) <= dx / 2 /\
  - (dy / 2) <= vy (to_local C Rm p) <= dy / 2.
Proof.
  intros H. split.
  - intros (x & y & Hx & Hy & ->). rewrite to_local_of by exact H. cbn.
    rewrite <- !Rabs_le_iff. auto.
  - intros (Hz & Hx & Hy). exists (vx (to_local C Rm p)), (vy (to_local C Rm p)).
    rewrite !Rabs_le_iff. split; [exact Hx|]. split; [exact Hy|].
    rewrite (from_local C Rm p H) at 1. f_equal. f_equal.
    destruct (to_local C Rm p); cbn in *. subst; reflexivity.
Qed.
Lemma in_patch_local C dx dy Rm p : orthogonal Rm -> in_patch C dx dy Rm p ->
  vz (to_local C Rm p) = 0 /\ - (dx / 2) < vx (to_local C Rm p) < dx / 2 /\
  - (dy / 2) < vy (to_local C Rm p) < dy / 2.
Proof.
  intros H (x & y & Hx & Hy & ->). rewrite to_local_of by exact H. cbn.
  rewrite <- !Rabs_lt_iff. auto.
Qed.
Lemma normal_local Rm u : rv_dot u (normal_of Rm) = vz (rv_mul (rv_trans Rm) u).
Proof. unfold normal_of. rewrite <- rv_adjoint'. unfold rv_dot at 1. cbn. ring. Qed.

(** What the code computes: -1, 0 or 1 in x and y, the origin's side in z. *)
Definition border (h x : R) : R := if Req_EM_T x (- h) then -1 else if Req_EM_T x h then 1 else 0.
Definition plane_n (C : vec R) (dx dy : R) (Rm : mat R) (O U : vec R) (t : R) : vec R :=
  let p := to_local C Rm (at_t O U t) in
  let z := vz (to_local C Rm O) in
  rv_mul Rm (V (border (dx / 2) (vx p)) (border (dy / 2) (vy p)) (z / Rabs z)).

Definition plane_best (C : vec R) (dx dy : R) (Rm : mat R) (O U : vec R) (m : R) : option R :=
  let o := to_local C Rm O in
  let d := rv_mul (rv_trans Rm) U in
  if Req_EM_T (vz d) 0 then None else
  let t := - vz o / vz d in
  let p := to_local C Rm (at_t O U t) in
  if Rlt_dec m t then
    if Rle_dec (- (dx / 2)) (vx p) then if Rle_dec (vx p) (dx / 2) then
    if Rle_dec (- (dy / 2)) (vy p) then if Rle_dec (vy p) (dy / 2) then Some t
    else None else None else None else None else None.

Definition crosses C dx dy Rm O U m t : Prop :=
  rv_dot U (normal_of Rm) <> 0 /\ on_patch C dx dy Rm (at_t O U t) /\ m < t.

Lemma plane_best_some C dx dy Rm O U m t : orthogonal Rm ->
  plane_best C dx dy Rm O U m = Some t ->
  crosses C dx dy Rm O U m t /\ forall u, crosses C dx dy Rm O U m u -> u = t.
Proof.
  intros HR. unfold plane_best, crosses. rewrite normal_local.
  set (d := rv_mul (rv_trans Rm) U). set (o := to_local C Rm O).
  destruct (Req_EM_T (vz d) 0) as [|Hd]; [discriminate|].
  set (t1 := - vz o / vz d).
  destruct (Rlt_dec m t1) as [Hm|]; [|discriminate].
  destruct (Rle_dec _ _) as [H1|]; [|discriminate].
  destruct (Rle_dec _ _) as [H2|]; [|discriminate].
  destruct (Rle_dec _ _) as [H3|]; [|discriminate].
  destruct (Rle_dec _ _) as [H4|]; [|discriminate].
  intros E; injection E as <-. split.
  - split; [exact Hd|]. split; [|exact Hm]. rewrite on_patch_local by exact HR.
    split; [|lra]. rewrite to_local_at. fold o d. change (vz o + t1 * vz d = 0). unfold t1. field. exact Hd.
  - intros u (_ & Hp & _). apply on_patch_local in Hp as (Hz & _); [|exact HR].
    rewrite to_local_at in Hz. fold o d in Hz. change (vz o + u * vz d = 0) in Hz. unfold t1. apply (Rmult_eq_reg_r (vz d)); [|exact Hd].
    replace (- vz o / vz d * vz d) with (- vz o) by (field; exact Hd). lra.
Qed.
Lemma plane_best_none C dx dy Rm O U m : orthogonal Rm ->
  plane_best C dx dy Rm O U m = None -> forall u, ~ crosses C dx dy Rm O U m u.
Proof.
  intros HR. unfold plane_best, crosses. rewrite normal_local.
  set (d := rv_mul (rv_trans Rm) U). set (o := to_local C Rm O).
  destruct (Req_EM_T (vz d) 0) as [Hd|Hd]; [intros _ u [H _]; destruct (H Hd)|].
  set (t1 := - vz o / vz d). intros E u (_ & Hp & Hm). apply on_patch_local in Hp as (Hz & Hx & Hy); [|exact HR].
  assert (Eu : u = t1).
  { rewrite to_local_at in Hz. fold o d in Hz. change (vz o + u * vz d = 0) in Hz. unfold t1. apply (Rmult_eq_reg_r (vz d)); [|exact Hd].
    replace (- vz o / vz d * vz d) with (- vz o) by (field; exact Hd). lra. }
  subst u. revert E.
  destruct (Rlt_dec m t1); [|lra].
  destruct (Rle_dec _ _); [|lra]. destruct (Rle_dec _ _); [|lra].
  destruct (Rle_dec _ _); [|lra]. destruct (Rle_dec _ _); [|lra]. discriminate.
Qed.

Lemma tri h x : 0 < h -> x < - h \/ x = - h \/ (- h < x < h) \/ x = h \/ h < x.
Proof. intros. lra. Qed.

Lemma Reqb_true a b : a = b -> Reqb a b = true.
Proof. intros; apply Reqb_spec; assumption. Qed.
Lemma Reqb_no a b : a <> b -> Reqb a b = false.
Proof. intros H. destruct (Reqb a b) eqn:E; auto. apply Reqb_spec in E. contradiction. Qed.
Lemma Rltb_yes a b : a < b -> Rltb a b = true.
Proof. intros; apply Rltb_spec; assumption. Qed.
Lemma Rltb_no a b : b <= a -> Rltb a b = false.
Proof. intros; apply Rltb_false; assumption. Qed.

Ltac comp_b :=
  repeat match goal with
  | |- context [Rltb ?a ?b] =>
      first [rewrite (Rltb_yes a b) by lra | rewrite (Rltb_no a b) by lra]
  | |- context [Reqb ?a ?b] =>
      first [rewrite (Reqb_true a b) by lra | rewrite (Reqb_no a b) by lra]
  end.

Section Plane.
Variables big tiny eps : R.
Notation XN := (Xnum big tiny eps).

(** The code on finite data. *)
Lemma plane_step i p r O U m C dx dy Rm :
  visR (pi_org i) O -> visR (pi_dir i) U -> isR (pi_min i) m ->
  visR (pl_center p) C -> isR (pl_dx p) dx -> isR (pl_dy p) dy -> misR (pl_rot p) Rm ->
  0 < dx -> 0 < dy -> orthogonal Rm -> rv_dot U U = 1 -> 0 <= m ->
  match plane_best C dx dy Rm O U m with
  | Some t =>
      if xltb (Fin t) (pi_hd i)
      then exists hd n, isR hd t /\ visR n (plane_n C dx dy Rm O U t) /\
        @plane_intersect _ XN i p r =
          (true, PlaneIsect n (pi_org i) (pi_dir i) (pi_min i) (pi_uv i) hd (Some (pl_id p)))
      else @plane_intersect _ XN i p r = (false, i)
  | None => @plane_intersect _ XN i p r = (false, i)
  end.
Proof.
  intros HO HU Hm HC Hdx Hdy HR Px Py Ho H1 Hm0.
  unfold plane_intersect. cbn [nadd nsub nmul ndiv nopp nabs nsqrt nltb nleb neqb nofZ XN Xnum n0 n1 n2].
  set (org := mulmv (trans (pl_rot p)) (vsub (pi_org i) (pl_center p))).
  assert (Horg : visR org (to_local C Rm O)).
  { apply visR_mul; [apply misR_trans, HR|]. apply visR_sub; assumption. }
  set (dir := mulmv (trans (pl_rot p)) (pi_dir i)).
  assert (Hdir : visR dir (rv_mul (rv_trans Rm) U)) by (apply visR_mul; [apply misR_trans, HR|assumption]).
  unfold plane_best.
  set (o := to_local C Rm O) in *. set (d := rv_mul (rv_trans Rm) U) in *.
  set (t1 := xdiv (xopp (vz org)) (vz dir)).
  set (inr := xltb (pi_min i) t1 && xltb t1 (pi_hd i)).
  destruct (Req_EM_T (vz d) 0) as [Hd|Hd].
  - assert (Hin : inr = false).
    { unfold inr, t1. destruct Horg as (_ & _ & Hoz), Hdir as (_ & _ & Hdz).
      apply isR_ex in Hoz as (so & ->). apply isR_ex in Hdz as (sd & ->). rewrite Hd.
      apply isR_ex in Hm as (sm & ->). cbn [xopp xdiv].
      destruct (Req_EM_T 0 0) as [_|]; [|lra]. destruct (Req_EM_T (- vz o) 0); [reflexivity|].
      destruct (xorb _ _); [reflexivity|]. destruct (pi_hd i) as [|[]|]; reflexivity. }
    rewrite Hin. reflexivity.
  - assert (Ht1 : isR t1 (- vz o / vz d)).
    { apply isR_div; [apply isR_opp, Horg|apply Hdir|exact Hd]. }
    set (t := - vz o / vz d) in *.
    set (ic := vadd org (vscale t1 dir)).
    assert (Hic : visR ic (to_local C Rm (at_t O U t))).
    { rewrite to_local_at. fold o d. apply visR_add; [exact Horg|]. apply visR_scale; assumption. }
    set (q := to_local C Rm (at_t O U t)) in *.
    assert (Hin : inr = Rltb m t && xltb (Fin t) (pi_hd i)).
    { unfold inr. rewrite (isR_ltb _ _ _ _ Hm Ht1). f_equal.
      destruct (isR_ex _ _ Ht1) as (sg & ->). destruct (pi_hd i); reflexivity. }
    rewrite Hin. clear Hin inr.
    assert (B1 : isR (xdiv (xopp (pl_dx p)) (Fin 2)) (- (dx / 2))).
    { replace (- (dx / 2)) with (- dx / 2) by field. apply isR_div; [apply isR_opp; assumption|reflexivity|lra]. }
    assert (B2 : isR (xdiv (pl_dx p) (Fin 2)) (dx / 2)) by (apply isR_div; [assumption|reflexivity|lra]).
    assert (B3 : isR (xdiv (xopp (pl_dy p)) (Fin 2)) (- (dy / 2))).
    { replace (- (dy / 2)) with (- dy / 2) by field. apply isR_div; [apply isR_opp; assumption|reflexivity|lra]. }
    assert (B4 : isR (xdiv (pl_dy p) (Fin 2)) (dy / 2)) by (apply isR_div; [assumption|reflexivity|lra]).
    destruct Hic as (Hix & Hiy & _).
    rewrite (isR_ltb _ _ _ _ B1 Hix), (isR_ltb _ _ _ _ Hix B2), (isR_ltb _ _ _ _ B3 Hiy), (isR_ltb _ _ _ _ Hiy B4).
    rewrite (isR_eqb _ _ _ _ Hix B1), (isR_eqb _ _ _ _ Hix B2), (isR_eqb _ _ _ _ Hiy B3), (isR_eqb _ _ _ _ Hiy B4).
    destruct (Rlt_dec m t) as [Hmt|Hmt].
    2:{ rewrite (Rltb_no m t) by lra. reflexivity. }
    rewrite (Rltb_yes m t) by exact Hmt. cbn [andb].
    assert (Hoz : vz o <> 0).
    { intros E. unfold t in Hmt. rewrite E in Hmt. unfold Rdiv in Hmt. rewrite Ropp_0, Rmult_0_l in Hmt. lra. }
    assert (Hs : isR (xdiv (vz org) (xabs (vz org))) (vz o / Rabs (vz o))).
    { apply isR_div; [apply Horg|apply isR_abs, Horg|]. apply Rabs_no_R0, Hoz. }
    set (s := xdiv (vz org) (xabs (vz org))) in *.
    assert (Hnorm : isR (@norm _ XN (@vscale _ XN t1 dir)) t).
    { assert (E : rv_norm (rv_scale t d) = t).
      { rewrite rv_norm_scale. rewrite (rv_norm_unit d); [rewrite Rabs_pos_eq; lra|].
        unfold d. rewrite orth_dot' by exact Ho. exact H1. }
      rewrite <- E. apply isR_norm. apply visR_scale; assumption. }
    assert (Hn : forall a b x y, isR a x -> isR b y ->
       x = border (dx / 2) (vx q) -> y = border (dy / 2) (vy q) ->
       visR (@mulmv _ XN (pl_rot p) (V a b s)) (plane_n C dx dy Rm O U t)).
    { intros a b x y Ha Hb Ex Ey. unfold plane_n. fold o. cbv zeta. fold q. rewrite <- Ex, <- Ey.
      apply visR_mul; [exact HR|]. repeat split; assumption. }
    assert (Hn0 : visR (@vscale _ XN s (@mulmv _ XN (pl_rot p) (V (Fin 0) (Fin 0) (Fin 1))))
       (rv_mul Rm (V 0 0 (vz o / Rabs (vz o))))).
    { replace (rv_mul Rm (V 0 0 (vz o / Rabs (vz o)))) with
        (rv_scale (vz o / Rabs (vz o)) (rv_mul Rm (V 0 0 1)))
        by (rewrite <- rv_mul_scale; f_equal; apply vec_eq; cbn; ring).
      apply visR_scale; [exact Hs|]. apply visR_mul; [exact HR|]. repeat split. }
    assert (Em1 : isR (xopp (Fin 1)) (-1)) by (cbn; lra).
    assert (Bm : forall h x, 0 < h -> x = - h -> -1 = border h x).
    { intros h x _ ->. unfold border. destruct (Req_EM_T (- h) (- h)); [reflexivity|lra]. }
    assert (Bp : forall h x, 0 < h -> x = h -> 1 = border h x).
    { intros h x Hh ->. unfold border. destruct (Req_EM_T h (- h)); [lra|].
      destruct (Req_EM_T h h); [reflexivity|lra]. }
    assert (Bi : forall h x, - h < x < h -> 0 = border h x).
    { intros h x Hh. unfold border. destruct (Req_EM_T x (- h)); [lra|].
      destruct (Req_EM_T x h); [lra|reflexivity]. }
    assert (Hx2 : 0 < dx / 2) by lra. assert (Hy2 : 0 < dy / 2) by lra.
    destruct (tri (dx / 2) (vx q) Hx2) as [X|[X|[X|[X|X]]]], (tri (dy / 2) (vy q) Hy2) as [Y|[Y|[Y|[Y|Y]]]];
      comp_b;
      repeat match goal with |- context [Rle_dec ?a ?b] => first [destruct (Rle_dec a b); [|exfalso; lra] | destruct (Rle_dec a b); [exfalso; lra|]] end;
      rewrite ?andb_false_r, ?andb_true_r; cbn [andb]; try reflexivity;
      destruct (xltb (Fin t) (pi_hd i)); try reflexivity;
      (eexists; eexists; split; [exact Hnorm|]; split; [|reflexivity]);
      try (eapply Hn; [first [exact Em1 | apply isR_fin] | first [exact Em1 | apply isR_fin]
              | first [apply Bm; assumption|apply Bp; assumption|apply Bi; assumption]
              | first [apply Bm; assumption|apply Bp; assumption|apply Bi; assumption]]).
    unfold plane_n. fold o. cbv zeta. fold q. rewrite <- (Bi _ _ X), <- (Bi _ _ Y). exact Hn0.
Qed.

(** C20. *)
Lemma plane_exact i p r O U m C dx dy Rm h i' :
  visR (pi_org i) O -> visR (pi_dir i) U -> isR (pi_min i) m ->
  visR (pl_center p) C -> isR (pl_dx p) dx -> isR (pl_dy p) dy -> misR (pl_rot p) Rm ->
  0 < dx -> 0 < dy -> orthogonal Rm -> rv_dot U U = 1 -> 0 <= m ->
  @plane_intersect _ XN i p r = (h, i') ->
  (h = true <-> exists t, rv_dot U (normal_of Rm) <> 0 /\ on_patch C dx dy Rm (at_t O U t) /\
     m < t /\ xltb (Fin t) (pi_hd i) = true) /\
  (h = true -> exists t, isR (pi_hd i') t /\ pi_prim i' = Some (pl_id p) /\
     on_patch C dx dy Rm (at_t O U t) /\ m < t /\ xltb (Fin t) (pi_hd i) = true) /\
  (h = false -> i' = i).
Proof.
  intros HO HU Hm HC Hx Hy HR Px Py Ho H1 Hm0 H.
  pose proof (plane_step i p r O U m C dx dy Rm HO HU Hm HC Hx Hy HR Px Py Ho H1 Hm0) as Hst.
  destruct (plane_best C dx dy Rm O U m) as [t|] eqn:Eb.
  - destruct (plane_best_some _ _ _ _ _ _ _ _ Ho Eb) as ((S0 & S1 & S2) & S3).
    destruct (xltb (Fin t) (pi_hd i)) eqn:El.
    + destruct Hst as (hd & n & Hhd & _ & E). rewrite E in H. injection H as <- <-.
      split; [split; [intros _; exists t; auto|reflexivity]|]. split; [|discriminate].
      intros _. exists t. cbn [pi_hd pi_prim]. auto 10.
    + rewrite Hst in H. injection H as <- <-. split; [split; [discriminate|]|split; [discriminate|reflexivity]].
      intros (u & U0 & U1 & U2 & U3). rewrite (S3 u) in U3 by (repeat split; auto). congruence.
  - rewrite Hst in H. injection H as <- <-. split; [split; [discriminate|]|split; [discriminate|reflexivity]].
    intros (u & U0 & U1 & U2 & U3). destruct (plane_best_none _ _ _ _ _ _ _ Ho Eb u). repeat split; auto.
Qed.

(** C21. *)
Lemma plane_n_ok C dx dy Rm O U m t : orthogonal Rm -> 0 < dx -> 0 < dy -> 0 <= m ->
  crosses C dx dy Rm O U m t ->
  let n := rv_scale (/ rv_norm (plane_n C dx dy Rm O U t)) (plane_n C dx dy Rm O U t) in
  rv_norm (plane_n C dx dy Rm O U t) <> 0 /\ rv_norm n = 1 /\ faces C Rm O n /\
  (in_patch C dx dy Rm (at_t O U t) -> n = normal_of Rm \/ n = rv_scale (-1) (normal_of Rm)).
Proof.
  intros Ho Px Py Hm (Hd & Hp & Ht). cbv zeta.
  set (z := vz (to_local C Rm O)).
  assert (Hz : z <> 0).
  { intros E. apply on_patch_local in Hp as (Hp & _); [|exact Ho]. rewrite to_local_at in Hp.
    change (z + t * vz (rv_mul (rv_trans Rm) U) = 0) in Hp. rewrite E in Hp. rewrite normal_local in Hd.
    assert (t * vz (rv_mul (rv_trans Rm) U) = 0) by lra. apply Rmult_integral in H as [H|H]; lra. }
  set (s := z / Rabs z).
  assert (Hs : s * s = 1).
  { unfold s. pose proof (Rabs_no_R0 z Hz). pose proof (Rsqr_abs z) as E. unfold Rsqr in E.
    replace (z / Rabs z * (z / Rabs z)) with (z * z / (Rabs z * Rabs z)) by (field; assumption).
    rewrite <- E. field. exact Hz. }
  assert (Hsz : 0 < s * z).
  { unfold s. pose proof (Rabs_pos_lt z Hz). replace (z / Rabs z * z) with (z * z / Rabs z) by (field; lra).
    apply Rdiv_lt_0_compat; [nra|assumption]. }
  set (q := to_local C Rm (at_t O U t)).
  set (a := border (dx / 2) (vx q)). set (b := border (dy / 2) (vy q)).
  assert (En : plane_n C dx dy Rm O U t = rv_mul Rm (V a b s)) by reflexivity.
  assert (Hq : rv_dot (plane_n C dx dy Rm O U t) (plane_n C dx dy Rm O U t) = a * a + b * b + 1).
  { rewrite En, orth_dot by exact Ho. unfold rv_dot; cbn [vx vy vz]. rewrite Hs. ring. }
  set (k := rv_norm (plane_n C dx dy Rm O U t)).
  assert (Hk : 0 < k).
  { pose proof (rv_norm_nonneg (plane_n C dx dy Rm O U t)) as Hk0. fold k in Hk0.
    pose proof (rv_norm_sq (plane_n C dx dy Rm O U t)) as Hk1. fold k in Hk1. rewrite Hq in Hk1. nra. }
  split; [lra|]. split; [|split].
  - rewrite rv_norm_scale. fold k. rewrite Rabs_pos_eq by (left; apply Rinv_0_lt_compat, Hk). field. lra.
  - unfold faces. rewrite (normal_local Rm (rv_sub O C)). fold (to_local C Rm O). fold z.
    replace (rv_dot (rv_scale (/ k) (plane_n C dx dy Rm O U t)) (normal_of Rm)) with (/ k * s).
    + replace (/ k * s * z) with (/ k * (s * z)) by ring. apply Rmult_lt_0_compat; [apply Rinv_0_lt_compat, Hk|exact Hsz].
    + replace (rv_dot (rv_scale (/ k) (plane_n C dx dy Rm O U t)) (normal_of Rm)) with
        (/ k * rv_dot (plane_n C dx dy Rm O U t) (normal_of Rm)) by (unfold rv_dot, rv_scale; cbn [vx vy vz]; ring).
      rewrite En. unfold normal_of. rewrite orth_dot by exact Ho. unfold rv_dot; cbn [vx vy vz]. ring.
  - intros Hi. apply in_patch_local in Hi as (_ & Hi1 & Hi2); [|exact Ho]. fold q in Hi1, Hi2.
    assert (Ea : a = 0).
    { unfold a, border. destruct (Req_EM_T _ _); [lra|]. destruct (Req_EM_T _ _); [lra|reflexivity]. }
    assert (Eb : b = 0).
    { unfold b, border. destruct (Req_EM_T _ _); [lra|]. destruct (Req_EM_T _ _); [lra|reflexivity]. }
    assert (Ek : k = 1).
    { apply rv_norm_unit. rewrite Hq, Ea, Eb. ring. }
    rewrite Ek, Rinv_1, En, Ea, Eb. unfold normal_of. rewrite <- !rv_mul_scale.
    assert (Hss : s = 1 \/ s = -1).
    { assert (E : (s - 1) * (s + 1) = 0) by lra. apply Rmult_integral in E as [E|E]; [left|right]; lra. }
    destruct Hss as [Ess|Ess]; [left|right]; rewrite Ess; f_equal; apply vec_eq; cbn; ring.
Qed.

Lemma plane_normal i p r rh O U m C dx dy Rm i' :
  visR (pi_org i) O -> visR (pi_dir i) U -> isR (pi_min i) m ->
  visR (pl_center p) C -> isR (pl_dx p) dx -> isR (pl_dy p) dy -> misR (pl_rot p) Rm ->
  0 < dx -> 0 < dy -> orthogonal Rm -> rv_dot U U = 1 -> 0 <= m ->
  @plane_intersect _ XN i p r = (true, i') ->
  exists rh' n t, @plane_post _ XN i' rh = Ok rh' /\ isR (h_distance rh') t /\
    h_prim rh' = Some (pl_id p) /\ h_geom rh' = h_geom rh /\
    visR (h_normal rh') n /\ rv_norm n = 1 /\ faces C Rm O n /\
    (in_patch C dx dy Rm (at_t O U t) -> n = normal_of Rm \/ n = rv_scale (-1) (normal_of Rm)).
Proof.
  intros HO HU Hm HC Hx Hy HR Px Py Ho H1 Hm0 H.
  pose proof (plane_step i p r O U m C dx dy Rm HO HU Hm HC Hx Hy HR Px Py Ho H1 Hm0) as Hst.
  destruct (plane_best C dx dy Rm O U m) as [t|] eqn:Eb; [|congruence].
  destruct (plane_best_some _ _ _ _ _ _ _ _ Ho Eb) as (S0 & _).
  destruct (xltb (Fin t) (pi_hd i)) eqn:El; [|congruence].
  destruct Hst as (hd & n & Hhd & Hn & E). rewrite E in H. injection H as <-.
  destruct (plane_n_ok C dx dy Rm O U m t Ho Px Py Hm0 S0) as (N0 & N1 & N2 & N3).
  eexists. eexists. exists t. split; [reflexivity|]. cbn [h_distance h_prim h_geom h_normal pi_hd pi_prim pi_normal].
  split; [exact Hhd|]. split; [reflexivity|]. split; [reflexivity|].
  split; [apply visR_normalize; [exact Hn|exact N0]|]. auto.
Qed.

(** C22. *)
Lemma smin_fold xs : forall x a as_, isR x a -> Forall2 isR xs as_ ->
  isR (@smin_list _ XN x xs) (fold_left Rmin as_ a).
Proof.
  induction xs as [|y xs IH]; intros x a as_ Hx H; inversion H; subst; cbn; [exact Hx|].
  apply IH; [|assumption]. rewrite (isR_ltb _ _ _ _ H2 Hx). unfold Rmin.
  destruct (Rle_dec a y0).
  - rewrite (Rltb_no y0 a) by lra. exact Hx.
  - rewrite (Rltb_yes y0 a) by lra. exact H2.
Qed.
Lemma smax_fold xs : forall x a as_, isR x a -> Forall2 isR xs as_ ->
  isR (@smax_list _ XN x xs) (fold_left Rmax as_ a).
Proof.
  induction xs as [|y xs IH]; intros x a as_ Hx H; inversion H; subst; cbn; [exact Hx|].
  apply IH; [|assumption]. rewrite (isR_ltb _ _ _ _ Hx H2). unfold Rmax.
  destruct (Rle_dec a y0).
  - destruct (Req_EM_T a y0) as [->|]; [rewrite (Rltb_no y0 y0) by lra; exact Hx|].
    rewrite (Rltb_yes a y0) by lra. exact H2.
  - rewrite (Rltb_no a y0) by lra. exact Hx.
Qed.
Lemma fold_min_le l : forall a x, In x (a :: l) -> fold_left Rmin l a <= x.
Proof.
  induction l as [|y l IH]; intros a x H; cbn in H.
  - destruct H as [<-|[]]. cbn. lra.
  - cbn. destruct H as [<-|[<-|H]].
    + eapply Rle_trans; [apply IH; left; reflexivity|apply Rmin_l].
    + eapply Rle_trans; [apply IH; left; reflexivity|apply Rmin_r].
    + apply IH. right. exact H.
Qed.
Lemma fold_max_ge l : forall a x, In x (a :: l) -> x <= fold_left Rmax l a.
Proof.
  induction l as [|y l IH]; intros a x H; cbn in H.
  - destruct H as [<-|[]]. cbn. lra.
  - cbn. destruct H as [<-|[<-|H]].
    + eapply Rle_trans; [|apply IH; left; reflexivity]. apply Rmax_l.
    + eapply Rle_trans; [|apply IH; left; reflexivity]. apply Rmax_r.
    + apply IH. right. exact H.
Qed.
Lemma fold_min_in l : forall a, In (fold_left Rmin l a) (a :: l).
Proof.
  induction l as [|y l IH]; intros a; cbn; [auto|].
  destruct (IH (Rmin a y)) as [E|E]; [|right; right; exact E].
  rewrite <- E. unfold Rmin. destruct (Rle_dec a y); auto.
Qed.
Lemma fold_max_in l : forall a, In (fold_left Rmax l a) (a :: l).
Proof.
  induction l as [|y l IH]; intros a; cbn; [auto|].
  destruct (IH (Rmax a y)) as [E|E]; [|right; right; exact E].
  rewrite <- E. unfold Rmax. destruct (Rle_dec a y); auto.
Qed.

Lemma fold_min_is l a m : (forall x, In x (a :: l) -> m <= x) -> In m (a :: l) -> fold_left Rmin l a = m.
Proof.
  intros H Hm. pose proof (fold_min_le l a m Hm). pose proof (H _ (fold_min_in l a)). lra.
Qed.
Lemma fold_max_is l a m : (forall x, In x (a :: l) -> x <= m) -> In m (a :: l) -> fold_left Rmax l a = m.
Proof.
  intros H Hm. pose proof (fold_max_ge l a m Hm). pose proof (H _ (fold_max_in l a)). lra.
Qed.

(** One coordinate of the six points. *)
Definition coord (c dx dy : R) (row : vec R) : R * list R :=
  (c + rv_dot row (V (- (dx / 2)) (- (dy / 2)) 0),
   [c + rv_dot row (V (dx / 2) (- (dy / 2)) 0); c + rv_dot row (V (- (dx / 2)) (dy / 2) 0);
    c + rv_dot row (V (dx / 2) (dy / 2) 0); c + rv_dot row (V 0 0 (- tiny)); c + rv_dot row (V 0 0 tiny)]).

Lemma extent_ge dx dy row x y : Rabs x <= dx / 2 -> Rabs y <= dy / 2 ->
  - extent dx dy tiny row <= rv_dot row (V x y 0) <= extent dx dy tiny row.
Proof.
  intros Hx Hy. unfold extent, rv_dot. cbn [vx vy vz].
  pose proof (Rmax_l (Rabs (vx row) * (dx / 2) + Rabs (vy row) * (dy / 2)) (Rabs (vz row) * tiny)) as Hl.
  assert (H1 : Rabs (vx row * x) <= Rabs (vx row) * (dx / 2)).
  { rewrite Rabs_mult. apply Rmult_le_compat_l; [apply Rabs_pos|exact Hx]. }
  assert (H2 : Rabs (vy row * y) <= Rabs (vy row) * (dy / 2)).
  { rewrite Rabs_mult. apply Rmult_le_compat_l; [apply Rabs_pos|exact Hy]. }
  apply Rabs_le_iff in H1. apply Rabs_le_iff in H2. lra.
Qed.
Lemma extent_ge_z dx dy row z : Rabs z <= tiny ->
  - extent dx dy tiny row <= rv_dot row (V 0 0 z) <= extent dx dy tiny row.
Proof.
  intros Hz. unfold extent, rv_dot. cbn [vx vy vz].
  pose proof (Rmax_r (Rabs (vx row) * (dx / 2) + Rabs (vy row) * (dy / 2)) (Rabs (vz row) * tiny)) as Hl.
  assert (H1 : Rabs (vz row * z) <= Rabs (vz row) * tiny).
  { rewrite Rabs_mult. apply Rmult_le_compat_l; [apply Rabs_pos|exact Hz]. }
  apply Rabs_le_iff in H1. lra.
Qed.
Lemma extent_corner c dx dy row : 0 <= dx -> 0 <= dy -> 0 <= tiny ->
  In (c - extent dx dy tiny row) (fst (coord c dx dy row) :: snd (coord c dx dy row)) /\
  In (c + extent dx dy tiny row) (fst (coord c dx dy row) :: snd (coord c dx dy row)).
Proof.
  intros Hx Hy Ht. cbn [coord fst snd In]. unfold extent, rv_dot; cbn [vx vy vz].
  destruct (Rle_dec (Rabs (vx row) * (dx / 2) + Rabs (vy row) * (dy / 2)) (Rabs (vz row) * tiny)) as [H|H].
  - rewrite Rmax_right by exact H. unfold Rabs. destruct (Rcase_abs (vz row)).
    + split; [do 5 right; left|do 4 right; left]; ring.
    + split; [do 4 right; left|do 5 right; left]; ring.
  - rewrite Rmax_left by lra. unfold Rabs.
    destruct (Rcase_abs (vx row)), (Rcase_abs (vy row)).
    + split; [do 3 right; left|left]; ring.
    + split; [do 1 right; left|do 2 right; left]; ring.
    + split; [do 2 right; left|do 1 right; left]; ring.
    + split; [left|do 3 right; left]; ring.
Qed.
Lemma coord_bounds c dx dy row x : 0 <= dx -> 0 <= dy -> 0 <= tiny ->
  In x (fst (coord c dx dy row) :: snd (coord c dx dy row)) ->
  c - extent dx dy tiny row <= x <= c + extent dx dy tiny row.
Proof.
  intros Hx Hy Ht. cbn [coord fst snd In].
  assert (A : Rabs (dx / 2) <= dx / 2) by (rewrite Rabs_pos_eq; lra).
  assert (B : Rabs (dy / 2) <= dy / 2) by (rewrite Rabs_pos_eq; lra).
  assert (A' : Rabs (- (dx / 2)) <= dx / 2) by (rewrite Rabs_Ropp; exact A).
  assert (B' : Rabs (- (dy / 2)) <= dy / 2) by (rewrite Rabs_Ropp; exact B).
  assert (D : Rabs tiny <= tiny) by (rewrite Rabs_pos_eq; lra).
  assert (D' : Rabs (- tiny) <= tiny) by (rewrite Rabs_Ropp; exact D).
  pose proof (extent_ge dx dy row _ _ A B). pose proof (extent_ge dx dy row _ _ A B').
  pose proof (extent_ge dx dy row _ _ A' B). pose proof (extent_ge dx dy row _ _ A' B').
  pose proof (extent_ge_z dx dy row _ D). pose proof (extent_ge_z dx dy row _ D').
  intros [<-|[<-|[<-|[<-|[<-|[<-|[]]]]]]]; lra.
Qed.

Lemma plane_box_is c x y r C dx dy Rm : visR c C -> isR x dx -> isR y dy -> misR r Rm ->
  0 <= dx -> 0 <= dy -> 0 <= tiny ->
  visR (fst (@plane_box _ XN c x y r)) (plane_lower C dx dy Rm tiny) /\
  visR (snd (@plane_box _ XN c x y r)) (plane_upper C dx dy Rm tiny).
Proof.
  intros HC Hx Hy HR Px Py Pt.
  unfold plane_box. cbn [ndiv nopp nofZ n0 n2 ntiny XN Xnum fst snd].
  assert (B1 : isR (xdiv (xopp x) (Fin 2)) (- (dx / 2))).
  { replace (- (dx / 2)) with (- dx / 2) by field. apply isR_div; [apply isR_opp; assumption|reflexivity|lra]. }
  assert (B2 : isR (xdiv x (Fin 2)) (dx / 2)) by (apply isR_div; [assumption|reflexivity|lra]).
  assert (B3 : isR (xdiv (xopp y) (Fin 2)) (- (dy / 2))).
  { replace (- (dy / 2)) with (- dy / 2) by field. apply isR_div; [apply isR_opp; assumption|reflexivity|lra]. }
  assert (B4 : isR (xdiv y (Fin 2)) (dy / 2)) by (apply isR_div; [assumption|reflexivity|lra]).
  assert (G : forall a b d a' b' d', isR a a' -> isR b b' -> isR d d' ->
    visR (@vadd _ XN c (@mulmv _ XN r (V a b d))) (rv_add C (rv_mul Rm (V a' b' d')))).
  { intros. apply visR_add; [exact HC|]. apply visR_mul; [exact HR|]. repeat split; assumption. }
  set (p1 := vadd c (mulmv r (V (xdiv (xopp x) (Fin 2)) (xdiv (xopp y) (Fin 2)) (Fin 0)))).
  set (p2 := vadd c (mulmv r (V (xdiv x (Fin 2)) (xdiv (xopp y) (Fin 2)) (Fin 0)))).
  set (p3 := vadd c (mulmv r (V (xdiv (xopp x) (Fin 2)) (xdiv y (Fin 2)) (Fin 0)))).
  set (p4 := vadd c (mulmv r (V (xdiv x (Fin 2)) (xdiv y (Fin 2)) (Fin 0)))).
  set (p5 := vadd c (mulmv r (V (Fin 0) (Fin 0) (xopp (Fin tiny))))).
  set (p6 := vadd c (mulmv r (V (Fin 0) (Fin 0) (Fin tiny)))).
  pose proof (G _ _ _ _ _ _ B1 B3 (isR_fin 0)) as P1. fold p1 in P1.
  pose proof (G _ _ _ _ _ _ B2 B3 (isR_fin 0)) as P2. fold p2 in P2.
  pose proof (G _ _ _ _ _ _ B1 B4 (isR_fin 0)) as P3. fold p3 in P3.
  pose proof (G _ _ _ _ _ _ B2 B4 (isR_fin 0)) as P4. fold p4 in P4.
  pose proof (G _ _ _ _ _ _ (isR_fin 0) (isR_fin 0) (isR_opp _ _ (isR_fin tiny))) as P5. fold p5 in P5.
  pose proof (G _ _ _ _ _ _ (isR_fin 0) (isR_fin 0) (isR_fin tiny)) as P6. fold p6 in P6.
  assert (Hmin : forall f (g : vec R -> R) cc row, (forall u v, visR u v -> isR (f u) (g v)) ->
    (forall v, g (rv_add C (rv_mul Rm v)) = cc + rv_dot row v) ->
    isR (@smin_list _ XN (f p1) [f p2; f p3; f p4; f p5; f p6]) (cc - extent dx dy tiny row) /\
    isR (@smax_list _ XN (f p1) [f p2; f p3; f p4; f p5; f p6]) (cc + extent dx dy tiny row)).
  { intros f g cc row Hf Hg.
    assert (F1 : isR (f p1) (fst (coord cc dx dy row))) by (cbn [coord fst]; rewrite <- Hg; apply Hf, P1).
    assert (F2 : Forall2 isR [f p2; f p3; f p4; f p5; f p6] (snd (coord cc dx dy row))).
    { cbn [coord snd]. repeat constructor; rewrite <- Hg; apply Hf; assumption. }
    split.
    - rewrite <- (fold_min_is (snd (coord cc dx dy row)) (fst (coord cc dx dy row)) (cc - extent dx dy tiny row)).
      + apply smin_fold; assumption.
      + intros z Hz. apply (coord_bounds cc dx dy row z Px Py Pt Hz).
      + apply extent_corner; assumption.
    - rewrite <- (fold_max_is (snd (coord cc dx dy row)) (fst (coord cc dx dy row)) (cc + extent dx dy tiny row)).
      + apply smax_fold; assumption.
      + intros z Hz. apply (coord_bounds cc dx dy row z Px Py Pt Hz).
      + apply extent_corner; assumption. }
  destruct (Hmin vx vx (vx C) (vx Rm)) as [X1 X2]; [intros u v (E & _); exact E|reflexivity|].
  destruct (Hmin vy vy (vy C) (vy Rm)) as [Y1 Y2]; [intros u v (_ & E & _); exact E|reflexivity|].
  destruct (Hmin vz vz (vz C) (vz Rm)) as [Z1 Z2]; [intros u v (_ & _ & E); exact E|reflexivity|].
  repeat split; assumption.
Qed.

Lemma patch_in_box C dx dy Rm p : on_patch C dx dy Rm p ->
  in_box (plane_lower C dx dy Rm tiny) (plane_upper C dx dy Rm tiny) p.
Proof.
  intros (x & y & Hx & Hy & ->). unfold in_box, plane_lower, plane_upper. cbn [vx vy vz rv_add rv_mul].
  pose proof (extent_ge dx dy (vx Rm) x y Hx Hy). pose proof (extent_ge dx dy (vy Rm) x y Hx Hy).
  pose proof (extent_ge dx dy (vz Rm) x y Hx Hy). lra.
Qed.
Lemma center_on_patch C dx dy Rm : 0 <= dx -> 0 <= dy -> on_patch C dx dy Rm C.
Proof.
  intros Hx Hy. exists 0, 0. rewrite Rabs_R0. split; [lra|]. split; [lra|].
  apply vec_eq; cbn; unfold rv_dot; cbn; ring.
Qed.

Lemma plane_box_ok c x y r C dx dy Rm : visR c C -> isR x dx -> isR y dy -> misR r Rm ->
  0 <= dx -> 0 <= dy -> 0 <= tiny ->
  exists m M, visR (fst (@plane_box _ XN c x y r)) m /\ visR (snd (@plane_box _ XN c x y r)) M /\
    (forall p, on_patch C dx dy Rm p -> in_box m M p) /\ in_box m M C.
Proof.
  intros HC Hx Hy HR Px Py Pt.
  exists (plane_lower C dx dy Rm tiny), (plane_upper C dx dy Rm tiny).
  destruct (plane_box_is c x y r C dx dy Rm HC Hx Hy HR Px Py Pt) as [A B].
  split; [exact A|]. split; [exact B|]. split; [apply patch_in_box|].
  apply patch_in_box, center_on_patch; assumption.
Qed.

(** C23. *)
Lemma foot_local C Rm p : orthogonal Rm ->
  to_local C Rm (foot C Rm p) = V (vx (to_local C Rm p)) (vy (to_local C Rm p)) 0.
Proof.
  intros Ho. unfold foot. rewrite normal_local. fold (to_local C Rm p). set (q := to_local C Rm p).
  unfold to_local.
  replace (rv_sub (rv_sub p (rv_scale (vz q) (normal_of Rm))) C) with
    (rv_sub (rv_sub p C) (rv_scale (vz q) (normal_of Rm))) by (apply vec_eq; cbn; ring).
  rewrite rv_mul_sub, rv_mul_scale. unfold normal_of. rewrite (proj1 (Ho _)).
  fold (to_local C Rm p). fold q. apply vec_eq; cbn; ring.
Qed.

Lemma foot_distance C Rm p : orthogonal Rm ->
  rv_norm (rv_sub p (foot C Rm p)) = Rabs (vz (to_local C Rm p)).
Proof.
  intros Ho. unfold foot. rewrite normal_local. fold (to_local C Rm p). set (q := to_local C Rm p).
  replace (rv_sub p (rv_sub p (rv_scale (vz q) (normal_of Rm)))) with (rv_scale (vz q) (normal_of Rm))
    by (apply vec_eq; cbn; ring).
  rewrite rv_norm_scale. unfold normal_of. rewrite (rv_norm_unit (rv_mul Rm (V 0 0 1))); [ring|].
  rewrite orth_dot by exact Ho. unfold rv_dot; cbn. ring.
Qed.

Lemma plane_distance_centered pl p C dx dy Rm Q : visR (pl_center pl) C -> isR (pl_dx pl) dx ->
  isR (pl_dy pl) dy -> misR (pl_rot pl) Rm -> orthogonal Rm -> visR p Q -> vx C = 0 -> vy C = 0 ->
  (on_patch C dx dy Rm (foot C Rm Q) -> isR (@plane_distance _ XN pl p) (rv_norm (rv_sub Q (foot C Rm Q)))) /\
  (~ on_patch C dx dy Rm (foot C Rm Q) -> @plane_distance _ XN pl p = @nmaxv _ XN).
Proof.
  intros HC Hx Hy HR Ho HQ X0 Y0. rewrite (foot_distance C Rm Q Ho).
  unfold plane_distance. cbn [ndiv nadd nsub nleb nabs nofZ n2 XN Xnum].
  set (lp := mulmv (trans (pl_rot pl)) (vsub p (pl_center pl))).
  assert (Hlp : visR lp (to_local C Rm Q)).
  { apply visR_mul; [apply misR_trans, HR|]. apply visR_sub; assumption. }
  assert (Hdx : isR (xdiv (pl_dx pl) (Fin 2)) (dx / 2)) by (apply isR_div; [assumption|reflexivity|lra]).
  assert (Hdy : isR (xdiv (pl_dy pl) (Fin 2)) (dy / 2)) by (apply isR_div; [assumption|reflexivity|lra]).
  destruct HC as (Cx & Cy & _), Hlp as (Lx & Ly & Lz).
  rewrite (isR_leb _ _ _ _ (isR_sub _ _ _ _ Cx Hdx) Lx), (isR_leb _ _ _ _ Lx (isR_add _ _ _ _ Cx Hdx)).
  rewrite (isR_leb _ _ _ _ (isR_sub _ _ _ _ Cy Hdy) Ly), (isR_leb _ _ _ _ Ly (isR_add _ _ _ _ Cy Hdy)).
  rewrite X0, Y0. rewrite on_patch_local by exact Ho. rewrite foot_local by exact Ho. cbn [vx vy vz].
  set (q := to_local C Rm Q) in *.
  split.
  - intros (_ & [A B] & D & E).
    rewrite (proj2 (Rleb_spec (0 - dx / 2) (vx q))) by lra. rewrite (proj2 (Rleb_spec (vx q) (0 + dx / 2))) by lra.
    rewrite (proj2 (Rleb_spec (0 - dy / 2) (vy q))) by lra. rewrite (proj2 (Rleb_spec (vy q) (0 + dy / 2))) by lra.
    cbn [andb]. apply isR_abs, Lz.
  - intros H. destruct (Rleb (0 - dx / 2) (vx q)) eqn:E1; [|reflexivity].
    destruct (Rleb (vx q) (0 + dx / 2)) eqn:E2; [|reflexivity].
    destruct (Rleb (0 - dy / 2) (vy q)) eqn:E3; [|reflexivity].
    destruct (Rleb (vy q) (0 + dy / 2)) eqn:E4; [|reflexivity].
    apply Rleb_spec in E1. apply Rleb_spec in E2. apply Rleb_spec in E3. apply Rleb_spec in E4.
    destruct H. split; [reflexivity|]. lra.
Qed.
End Plane.
