(** Triangle proofs. *)

From Coq Require Import Reals ZArith List Bool Arith Lra Lia.
From Verif Require Import Num NumR NumX Vec Datatypes Ray Bvh Traverse Trimesh SpecBvh SpecReal SpecNearest SpecTri.
From Verif Require Import PfBuild PfX PfPlane.
Import ListNotations.
Local Open Scope R_scope.

(** The scaled coordinates the code computes, before the sign of the determinant is
    applied. *)
Definition tu (A B C O U : vec R) : R := rv_dot (rv_cross U (rv_sub A O)) (rv_sub C A).
Definition tv (A B C O U : vec R) : R := rv_dot (rv_cross U (rv_sub A O)) (rv_sub A B).
Definition tt (A B C O U : vec R) : R := rv_dot (rv_cross (rv_sub A B) (rv_sub C A)) (rv_sub A O).
Definition td (A B C U : vec R) : R := rv_dot (rv_cross (rv_sub A B) (rv_sub C A)) U.

Lemma td_det A B C U : td A B C U = - tri_det A B C U.
Proof. unfold td, tri_det, tri_cross, rv_dot, rv_cross, rv_sub; cbn. ring. Qed.

(** Cramer's rule. *)
Lemma cramer A B C O U t u v : td A B C U <> 0 ->
  at_t O U t = bary A B C u v <->
  t = tt A B C O U / td A B C U /\ u = tu A B C O U / td A B C U /\ v = tv A B C O U / td A B C U.
Proof.
  intros Hd. split.
  - intros H.
    assert (Hx : vx O = vx (bary A B C u v) - t * vx U) by (rewrite <- H; cbn; ring).
    assert (Hy : vy O = vy (bary A B C u v) - t * vy U) by (rewrite <- H; cbn; ring).
    assert (Hz : vz O = vz (bary A B C u v) - t * vz U) by (rewrite <- H; cbn; ring).
    assert (Ho : O = rv_sub (bary A B C u v) (rv_scale t U)) by (apply vec_eq; cbn [vx vy vz rv_sub rv_scale]; assumption).
    assert (E1 : t * td A B C U = tt A B C O U).
    { rewrite Ho. unfold td, tt, bary, rv_dot, rv_cross, rv_sub, rv_add, rv_scale; cbn. ring. }
    assert (E2 : u * td A B C U = tu A B C O U).
    { rewrite Ho. unfold td, tu, bary, rv_dot, rv_cross, rv_sub, rv_add, rv_scale; cbn. ring. }
    assert (E3 : v * td A B C U = tv A B C O U).
    { rewrite Ho. unfold td, tv, bary, rv_dot, rv_cross, rv_sub, rv_add, rv_scale; cbn. ring. }
    rewrite <- E1, <- E2, <- E3. repeat split; field; exact Hd.
  - intros (-> & -> & ->). unfold tt, tu, tv. unfold td in *.
    unfold bary, at_t, rv_add, rv_scale, rv_dot, rv_cross, rv_sub in *. cbn in *.
    apply vec_eq; cbn; field; exact Hd.
Qed.

Definition tri_best (tol : R) (A B C O U : vec R) (m : R) : option R :=
  let d := td A B C U in
  if Req_EM_T d 0 then None else
  let u := tu A B C O U / d in
  let v := tv A B C O U / d in
  let t := tt A B C O U / d in
  if Rle_dec (- tol) (Rabs d * u) then if Rle_dec (- tol) (Rabs d * v) then
  if Rle_dec (- tol) (Rabs d * (1 - u - v)) then if Rle_dec m t then Some t
  else None else None else None else None.

Definition tri_meets tol A B C O U m t : Prop :=
  tri_det A B C U <> 0 /\ (exists u v, near_tri tol A B C U (at_t O U t) u v) /\ m <= t.

Lemma td_abs A B C U : Rabs (td A B C U) = Rabs (tri_det A B C U).
Proof. rewrite td_det, Rabs_Ropp. reflexivity. Qed.

Lemma tri_best_some tol A B C O U m t : tri_best tol A B C O U m = Some t ->
  tri_meets tol A B C O U m t /\ forall u, tri_meets tol A B C O U m u -> u = t.
Proof.
  unfold tri_best. destruct (Req_EM_T _ 0) as [|Hd]; [discriminate|].
  destruct (Rle_dec _ _) as [H1|]; [|discriminate]. destruct (Rle_dec _ _) as [H2|]; [|discriminate].
  destruct (Rle_dec _ _) as [H3|]; [|discriminate]. destruct (Rle_dec _ _) as [H4|]; [|discriminate].
  intros E; injection E as <-. rewrite td_abs in H1, H2, H3. split.
  - split; [rewrite td_det in Hd; lra|]. split; [|exact H4].
    exists (tu A B C O U / td A B C U), (tv A B C O U / td A B C U). split; [|auto].
    apply cramer; auto.
  - intros w (_ & (u & v & E & _) & _). apply cramer in E; [apply E|exact Hd].
Qed.
Lemma tri_best_none tol A B C O U m : tri_best tol A B C O U m = None ->
  forall t, ~ tri_meets tol A B C O U m t.
Proof.
  unfold tri_best. intros E t (Hd & (u & v & Ep & H1 & H2 & H3) & Hm).
  rewrite <- td_abs in H1, H2, H3.
  destruct (Req_EM_T _ 0) as [H0|H0]; [rewrite td_det in H0; lra|].
  apply cramer in Ep as (Et & Eu & Ev); [|exact H0]. rewrite <- Et, <- Eu, <- Ev in E.
  destruct (Rle_dec _ _); [|lra]. destruct (Rle_dec _ _); [|lra]. destruct (Rle_dec _ _); [|lra].
  destruct (Rle_dec _ _); [discriminate|lra].
Qed.

Lemma on_tri_near tol A B C U p : 0 <= tol -> on_tri A B C p -> exists u v, near_tri tol A B C U p u v.
Proof.
  intros Ht (u & v & Hu & Hv & Hs & E). exists u, v. split; [exact E|].
  pose proof (Rabs_pos (tri_det A B C U)) as Ha.
  pose proof (Rmult_le_pos _ _ Ha Hu). pose proof (Rmult_le_pos _ _ Ha Hv).
  assert (Hw : 0 <= 1 - u - v) by lra. pose proof (Rmult_le_pos _ _ Ha Hw). lra.
Qed.
Lemma near_on_tri A B C U p u v : tri_det A B C U <> 0 -> near_tri 0 A B C U p u v -> on_tri A B C p.
Proof.
  intros Hd (E & H1 & H2 & H3). pose proof (Rabs_pos_lt _ Hd) as Ha. rewrite Ropp_0 in *.
  assert (G : forall x, 0 <= Rabs (tri_det A B C U) * x -> 0 <= x).
  { intros x Hx. apply (Rmult_le_reg_l _ _ _ Ha). lra. }
  exists u, v. apply G in H1. apply G in H2. apply G in H3. repeat split; auto. lra.
Qed.

Section Tri.
Variables big tiny eps : R.
Notation XN := (Xnum big tiny eps).
Notation tol := (4 * eps).

Lemma psign_scale x d a s : isR x a -> isR d s -> s <> 0 -> isR (xpsign x d) (Rabs s * (a / s)).
Proof.
  intros Hx Hd Hs. pose proof (isR_psign x d a s Hx Hd Hs) as H. unfold Rabs.
  destruct (Rlt_dec s 0), (Rcase_abs s); try lra.
  - replace (- s * (a / s)) with (- a) by (field; exact Hs). exact H.
  - replace (s * (a / s)) with a by (field; exact Hs). exact H.
Qed.

(** The code on finite data. *)
Lemma tri_step i a b c id r O U m A B C :
  visR (origin r) O -> visR (direction r) U -> isR (ti_min i) m ->
  visR a A -> visR b B -> visR c C ->
  match tri_best tol A B C O U m with
  | Some t =>
      if xltb (Fin t) (ti_hd i)
      then exists hd u v, isR hd t /\ isR u (tu A B C O U / td A B C U) /\ isR v (tv A B C O U / td A B C U) /\
        @tri_intersect _ XN i (@make_triangle _ XN a b c id) r =
          (true, TriIsect (ti_min i) (u, v) hd (Some id))
      else @tri_intersect _ XN i (@make_triangle _ XN a b c id) r = (false, i)
  | None => @tri_intersect _ XN i (@make_triangle _ XN a b c id) r = (false, i)
  end.
Proof.
  intros HO HU Hm HA HB HC.
  unfold tri_intersect, make_triangle. cbn [tr_a tr_b tr_c tr_id].
  cbn [nadd nsub nmul ndiv nopp nabs nsqrt nltb nleb neqb nofZ XN Xnum n0 n1 n4 neps npsign].
  set (e2 := vsub c a). set (e1 := vsub a b). set (cc := vsub a (origin r)).
  assert (He2 : visR e2 (rv_sub C A)) by (apply visR_sub; assumption).
  assert (He1 : visR e1 (rv_sub A B)) by (apply visR_sub; assumption).
  assert (Hcc : visR cc (rv_sub A O)) by (apply visR_sub; assumption).
  set (det := dot (cross e1 e2) (direction r)).
  assert (Hdet : isR det (td A B C U)) by (apply isR_dot; [apply visR_cross; assumption|exact HU]).
  set (ru := dot (cross (direction r) cc) e2).
  assert (Hru : isR ru (tu A B C O U)) by (apply isR_dot; [apply visR_cross; assumption|assumption]).
  set (rw := dot (cross (direction r) cc) e1).
  assert (Hrw : isR rw (tv A B C O U)) by (apply isR_dot; [apply visR_cross; assumption|assumption]).
  set (rt := dot (cross e1 e2) cc).
  assert (Hrt : isR rt (tt A B C O U)) by (apply isR_dot; [apply visR_cross; assumption|assumption]).
  assert (Hab : isR (xabs det) (Rabs (td A B C U))) by (apply isR_abs, Hdet).
  assert (Htol : isR (xopp (xmul (Fin 4) (Fin eps))) (- tol)) by (apply isR_opp, isR_mul; reflexivity).
  unfold tri_best. set (d := td A B C U) in *.
  destruct (Req_EM_T d 0) as [Hd|Hd].
  - (* a zero determinant: no distance is accepted *)
    assert (Hno : xleb (xmul (xabs det) (ti_min i)) (xpsign rt det) &&
                  xltb (xpsign rt det) (xmul (xabs det) (ti_hd i)) = false).
    { rewrite Hd in Hdet. destruct (isR_ex _ _ Hdet) as (sd & ->).
      destruct (isR_ex _ _ Hrt) as (st & ->). destruct (isR_ex _ _ Hm) as (sm & ->).
      assert (Ez : xabs (Xf sd 0) = Xf false 0) by (cbn; rewrite Rabs_R0; reflexivity). rewrite Ez.
      destruct (ti_hd i) as [|sh|sh h].
      - cbn [xmul]. destruct (xpsign _ _); apply andb_false_r.
      - cbn [xmul]. destruct (Req_EM_T 0 0); [|lra]. destruct (xpsign _ _); apply andb_false_r.
      - cbn [xmul]. destruct (xpsign (Xf st (tt A B C O U)) (Xf sd 0)) as [|sp|sp x] eqn:E; [reflexivity| |].
        + unfold xpsign in E. destruct (xsign (Xf sd 0)); discriminate.
        + cbn [xleb xltb]. rewrite !Rmult_0_l.
          destruct (Rleb 0 x) eqn:E1; [|reflexivity]. apply Rleb_spec in E1. apply Rltb_false. exact E1. }
    rewrite Hno. destruct (_ && _ && _); reflexivity.
  - pose proof (psign_scale _ _ _ _ Hru Hdet Hd) as Pu. pose proof (psign_scale _ _ _ _ Hrw Hdet Hd) as Pv.
    pose proof (psign_scale _ _ _ _ Hrt Hdet Hd) as Pt.
    set (u := tu A B C O U / d) in *. set (v := tv A B C O U / d) in *. set (t := tt A B C O U / d) in *.
    set (xu := xpsign ru det) in *. set (xv := xpsign rw det) in *. set (xt := xpsign rt det) in *.
    assert (Pw : isR (xsub (xsub (xabs det) xu) xv) (Rabs d * (1 - u - v))).
    { replace (Rabs d * (1 - u - v)) with (Rabs d - Rabs d * u - Rabs d * v) by ring.
      apply isR_sub; [apply isR_sub; assumption|assumption]. }
    rewrite (isR_leb _ _ _ _ Htol Pu), (isR_leb _ _ _ _ Htol Pv), (isR_leb _ _ _ _ Htol Pw).
    pose proof (Rabs_pos_lt d Hd) as Hpos.
    rewrite (isR_leb _ _ _ _ (isR_mul _ _ _ _ Hab Hm) Pt).
    assert (Elt : xltb xt (xmul (xabs det) (ti_hd i)) = xltb (Fin t) (ti_hd i)).
    { destruct (isR_ex _ _ Hab) as (sa & ->). destruct (isR_ex _ _ Pt) as (sx & ->).
      destruct (ti_hd i) as [|sh|sh h]; cbn [xmul xltb Fin].
      - reflexivity.
      - destruct (Req_EM_T (Rabs d) 0); [lra|]. cbn [xsign].
        destruct (Rlt_dec (Rabs d) 0); [lra|]. destruct (Rlt_dec 0 (Rabs d)); [|lra]. destruct sh; reflexivity.
      - unfold Rltb. destruct (Rlt_dec (Rabs d * t) (Rabs d * h)) as [L|L], (Rlt_dec t h) as [L'|L']; auto.
        + apply Rmult_lt_reg_l in L; [lra|exact Hpos].
        + destruct L. apply Rmult_lt_compat_l; assumption. }
    rewrite Elt.
    assert (Emin : Rleb (Rabs d * m) (Rabs d * t) = if Rle_dec m t then true else false).
    { destruct (Rle_dec m t) as [L|L].
      - apply Rleb_spec. apply Rmult_le_compat_l; [lra|exact L].
      - destruct (Rleb _ _) eqn:E; [|reflexivity]. apply Rleb_spec in E. destruct L.
        apply Rmult_le_reg_l in E; assumption. }
    rewrite Emin.
    assert (Hi : isR (xdiv (Fin 1) (xabs det)) (1 / Rabs d)).
    { apply isR_div; [reflexivity|exact Hab|lra]. }
    unfold Rleb. destruct (Rle_dec (- tol) (Rabs d * u)); [|reflexivity].
    destruct (Rle_dec (- tol) (Rabs d * v)); [|reflexivity].
    destruct (Rle_dec (- tol) (Rabs d * (1 - u - v))); [|reflexivity]. cbn [andb].
    destruct (Rle_dec m t); [|reflexivity]. cbn [andb].
    destruct (xltb (Fin t) (ti_hd i)); [|reflexivity].
    assert (Q : forall x y, isR x (Rabs d * y) -> isR (xmul x (xdiv (Fin 1) (xabs det))) y).
    { intros x y Hx. replace y with (Rabs d * y * (1 / Rabs d)) by (field; lra). apply isR_mul; assumption. }
    do 3 eexists. split; [apply Q, Pt|]. split; [apply Q, Pu|]. split; [apply Q, Pv|reflexivity].
Qed.

(** C24 and C25. *)
Lemma tri_exact i a b c id r O U m A B C h i' :
  visR (origin r) O -> visR (direction r) U -> isR (ti_min i) m ->
  visR a A -> visR b B -> visR c C ->
  @tri_intersect _ XN i (@make_triangle _ XN a b c id) r = (h, i') ->
  (h = true <-> exists t u v, tri_det A B C U <> 0 /\ near_tri tol A B C U (at_t O U t) u v /\
     m <= t /\ xltb (Fin t) (ti_hd i) = true) /\
  (h = true -> exists t u v, isR (ti_hd i') t /\ isR (fst (ti_uv i')) u /\ isR (snd (ti_uv i')) v /\
     ti_prim i' = Some id /\ near_tri tol A B C U (at_t O U t) u v /\
     m <= t /\ xltb (Fin t) (ti_hd i) = true) /\
  (h = false -> i' = i).
Proof.
  intros HO HU Hm HA HB HC H.
  pose proof (tri_step i a b c id r O U m A B C HO HU Hm HA HB HC) as Hst.
  destruct (tri_best tol A B C O U m) as [t|] eqn:Eb.
  - destruct (tri_best_some _ _ _ _ _ _ _ _ Eb) as ((S0 & (u & v & S1) & S2) & S3).
    destruct (xltb (Fin t) (ti_hd i)) eqn:El.
    + destruct Hst as (hd & xu & xv & Hhd & Hu & Hv & E). rewrite E in H. injection H as <- <-.
      split; [split; [intros _; exists t, u, v; auto|reflexivity]|]. split; [|discriminate].
      intros _. exists t, u, v. cbn [ti_hd ti_prim ti_uv fst snd].
      assert (Hd : td A B C U <> 0) by (rewrite td_det; lra).
      destruct (proj1 (cramer A B C O U t u v Hd) (proj1 S1)) as (_ & -> & ->). auto 10.
    + rewrite Hst in H. injection H as <- <-. split; [split; [discriminate|]|split; [discriminate|reflexivity]].
      intros (t' & u' & v' & U0 & U1 & U2 & U3). rewrite (S3 t') in U3 by (repeat split; eauto). congruence.
  - rewrite Hst in H. injection H as <- <-. split; [split; [discriminate|]|split; [discriminate|reflexivity]].
    intros (t' & u' & v' & U0 & U1 & U2 & U3). destruct (tri_best_none _ _ _ _ _ _ _ Eb t'). repeat split; eauto.
Qed.

Lemma tri_complete i a b c id r O U m A B C t :
  visR (origin r) O -> visR (direction r) U -> isR (ti_min i) m ->
  visR a A -> visR b B -> visR c C -> 0 <= eps ->
  tri_det A B C U <> 0 -> on_tri A B C (at_t O U t) -> m <= t -> xltb (Fin t) (ti_hd i) = true ->
  exists i', @tri_intersect _ XN i (@make_triangle _ XN a b c id) r = (true, i') /\ isR (ti_hd i') t.
Proof.
  intros HO HU Hm HA HB HC Heps Hd Ht Hmt Hl.
  assert (H4 : 0 <= tol) by lra.
  destruct (on_tri_near tol A B C U _ H4 Ht) as (u & v & Hn).
  destruct (@tri_intersect _ XN i (@make_triangle _ XN a b c id) r) as [h i'] eqn:E.
  destruct (tri_exact i a b c id r O U m A B C h i' HO HU Hm HA HB HC E) as (E1 & E2 & _).
  assert (h = true) by (apply E1; eauto 10). subst h. exists i'. split; [reflexivity|].
  destruct (E2 eq_refl) as (t' & u' & v' & H1 & _ & _ & _ & H5 & _).
  assert (Hd' : td A B C U <> 0) by (rewrite td_det; lra).
  destruct (proj1 (cramer _ _ _ _ _ _ _ _ Hd') (proj1 Hn)) as (-> & _).
  destruct (proj1 (cramer _ _ _ _ _ _ _ _ Hd') (proj1 H5)) as (-> & _). exact H1.
Qed.

(** C26. *)
Lemma tri_box_is a b c A B C : visR a A -> visR b B -> visR c C ->
  visR (fst (@tri_box _ XN a b c)) (tri_lower A B C) /\ visR (snd (@tri_box _ XN a b c)) (tri_upper A B C).
Proof.
  intros (a1 & a2 & a3) (b1 & b2 & b3) (c1 & c2 & c3).
  assert (Gm : forall x y z x' y' z', isR x x' -> isR y y' -> isR z z' ->
    isR (@smin _ XN z (@smin _ XN y x)) (Rmin x' (Rmin y' z'))).
  { intros x y z x' y' z' H1 H2 H3. rewrite Rmin_assoc.
    apply (isR_smin big tiny eps z (@smin _ XN y x)); [exact H3|]. apply isR_smin; assumption. }
  assert (GM : forall x y z x' y' z', isR x x' -> isR y y' -> isR z z' ->
    isR (@smax _ XN z (@smax _ XN y x)) (Rmax x' (Rmax y' z'))).
  { intros x y z x' y' z' H1 H2 H3. rewrite Rmax_assoc. rewrite (Rmax_comm _ z'). rewrite (Rmax_comm x' y').
    apply (isR_smax big tiny eps z (@smax _ XN y x)); [exact H3|]. apply isR_smax; assumption. }
  unfold tri_box, unity, tri_lower, tri_upper. cbn [fst snd vmap2].
  split; (split; [|split]); cbn [vx vy vz]; first [apply Gm; assumption|apply GM; assumption].
Qed.

Lemma Rmin3 x y z : Rmin x (Rmin y z) <= x /\ Rmin x (Rmin y z) <= y /\ Rmin x (Rmin y z) <= z /\
  forall w, w <= x -> w <= y -> w <= z -> w <= Rmin x (Rmin y z).
Proof.
  pose proof (Rmin_l x (Rmin y z)). pose proof (Rmin_r x (Rmin y z)).
  pose proof (Rmin_l y z). pose proof (Rmin_r y z). repeat split; try lra.
  intros. apply Rmin_glb; [assumption|apply Rmin_glb; assumption].
Qed.
Lemma Rmax3 x y z : x <= Rmax x (Rmax y z) /\ y <= Rmax x (Rmax y z) /\ z <= Rmax x (Rmax y z) /\
  forall w, x <= w -> y <= w -> z <= w -> Rmax x (Rmax y z) <= w.
Proof.
  pose proof (Rmax_l x (Rmax y z)). pose proof (Rmax_r x (Rmax y z)).
  pose proof (Rmax_l y z). pose proof (Rmax_r y z). repeat split; try lra.
  intros. apply Rmax_lub; [assumption|apply Rmax_lub; assumption].
Qed.

Lemma mix_bounds m M x y z u v : m <= x -> m <= y -> m <= z -> x <= M -> y <= M -> z <= M ->
  0 <= u -> 0 <= v -> u + v <= 1 -> m <= (1 - u - v) * x + u * y + v * z <= M.
Proof. intros. split; nra. Qed.

Lemma tri_in_box A B C p : on_tri A B C p -> in_box (tri_lower A B C) (tri_upper A B C) p.
Proof.
  intros (u & v & Hu & Hv & Hs & ->). unfold in_box, tri_lower, tri_upper.
  cbn [vx vy vz bary rv_add rv_scale].
  pose proof (Rmin3 (vx A) (vx B) (vx C)). pose proof (Rmin3 (vy A) (vy B) (vy C)). pose proof (Rmin3 (vz A) (vz B) (vz C)).
  pose proof (Rmax3 (vx A) (vx B) (vx C)). pose proof (Rmax3 (vy A) (vy B) (vy C)). pose proof (Rmax3 (vz A) (vz B) (vz C)).
  split; [|split]; apply mix_bounds; tauto.
Qed.
Lemma bary_A A B C : bary A B C 0 0 = A.
Proof. apply vec_eq; cbn; ring. Qed.
Lemma bary_B A B C : bary A B C 1 0 = B.
Proof. apply vec_eq; cbn; ring. Qed.
Lemma bary_C A B C : bary A B C 0 1 = C.
Proof. apply vec_eq; cbn; ring. Qed.
Lemma corners_on_tri A B C : on_tri A B C A /\ on_tri A B C B /\ on_tri A B C C.
Proof.
  split; [|split].
  - exists 0, 0. rewrite bary_A. repeat split; lra.
  - exists 1, 0. rewrite bary_B. repeat split; lra.
  - exists 0, 1. rewrite bary_C. repeat split; lra.
Qed.
Definition tri_mid (A B C : vec R) : vec R := bary A B C (1 / 3) (1 / 3).
Lemma tri_center_is a b c A B C : visR a A -> visR b B -> visR c C ->
  visR (@tri_center _ XN a b c) (tri_mid A B C).
Proof.
  intros HA HB HC. replace (tri_mid A B C) with (rv_scale (/ 3) (rv_add (rv_add A B) C))
    by (apply vec_eq; cbn; field).
  unfold tri_center. apply visR_divs; [apply isR_fin|lra|]. apply visR_add; [apply visR_add|]; assumption.
Qed.
Lemma tri_mid_on A B C : on_tri A B C (tri_mid A B C).
Proof. exists (1 / 3), (1 / 3). repeat split; lra. Qed.

Lemma tri_box_least A B C m' M' : (forall p, on_tri A B C p -> in_box m' M' p) ->
  in_box m' M' (tri_lower A B C) /\ in_box m' M' (tri_upper A B C).
Proof.
  intros H. destruct (corners_on_tri A B C) as (PA & PB & PC).
  apply H in PA. apply H in PB. apply H in PC. unfold in_box, tri_lower, tri_upper in *. cbn [vx vy vz].
  pose proof (Rmin3 (vx A) (vx B) (vx C)) as (X1 & X2 & X3 & X4). pose proof (Rmin3 (vy A) (vy B) (vy C)) as (Y1 & Y2 & Y3 & Y4).
  pose proof (Rmin3 (vz A) (vz B) (vz C)) as (Z1 & Z2 & Z3 & Z4).
  pose proof (Rmax3 (vx A) (vx B) (vx C)) as (U1 & U2 & U3 & U4). pose proof (Rmax3 (vy A) (vy B) (vy C)) as (V1 & V2 & V3 & V4).
  pose proof (Rmax3 (vz A) (vz B) (vz C)) as (W1 & W2 & W3 & W4).
  destruct PA as (? & ? & ?), PB as (? & ? & ?), PC as (? & ? & ?).
  split; (split; [|split]); split; try (apply X4; lra); try (apply Y4; lra); try (apply Z4; lra);
    try (apply U4; lra); try (apply V4; lra); try (apply W4; lra); lra.
Qed.

Lemma tri_box_ok a b c A B C : visR a A -> visR b B -> visR c C ->
  exists m M g, visR (fst (@tri_box _ XN a b c)) m /\ visR (snd (@tri_box _ XN a b c)) M /\
    visR (@tri_center _ XN a b c) g /\
    (forall p, on_tri A B C p -> in_box m M p) /\
    (forall m' M', (forall p, on_tri A B C p -> in_box m' M' p) -> in_box m' M' m /\ in_box m' M' M) /\
    in_box m M g.
Proof.
  intros HA HB HC. exists (tri_lower A B C), (tri_upper A B C), (tri_mid A B C).
  destruct (tri_box_is a b c A B C HA HB HC) as [H1 H2].
  split; [exact H1|]. split; [exact H2|]. split; [apply tri_center_is; assumption|].
  split; [apply tri_in_box|]. split; [apply tri_box_least|apply tri_in_box, tri_mid_on].
Qed.
End Tri.
