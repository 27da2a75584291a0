(** Ideal IEEE arithmetic on finite values is real arithmetic. *)

From Coq Require Import Reals ZArith List Bool Lra Lia.
From Verif Require Import Num NumR NumX Vec SpecReal.
Import ListNotations.
Local Open Scope R_scope.

Ltac xcase x H := destruct x as [|?|? ?]; cbn in H; [contradiction|contradiction|]; subst.

Lemma isR_fin r : isR (Fin r) r.
Proof. reflexivity. Qed.
Lemma isR_ex x r : isR x r -> exists s, x = Xf s r.
Proof. intros H. xcase x H. eauto. Qed.
Lemma isR_inj x a b : isR x a -> isR x b -> a = b.
Proof. intros H. xcase x H. auto. Qed.
Lemma isR_opp x a : isR x a -> isR (xopp x) (- a).
Proof. intros H. xcase x H. reflexivity. Qed.
Lemma isR_abs x a : isR x a -> isR (xabs x) (Rabs a).
Proof. intros H. xcase x H. reflexivity. Qed.
Lemma isR_add x y a b : isR x a -> isR y b -> isR (xadd x y) (a + b).
Proof. intros H H'. xcase x H. xcase y H'. reflexivity. Qed.
Lemma isR_sub x y a b : isR x a -> isR y b -> isR (xsub x y) (a - b).
Proof. intros H H'. xcase x H. xcase y H'. reflexivity. Qed.
Lemma isR_mul x y a b : isR x a -> isR y b -> isR (xmul x y) (a * b).
Proof. intros H H'. xcase x H. xcase y H'. reflexivity. Qed.
Lemma isR_div x y a b : isR x a -> isR y b -> b <> 0 -> isR (xdiv x y) (a / b).
Proof.
  intros H H' Hb. xcase x H. xcase y H'. cbn. destruct (Req_EM_T b 0); [contradiction|reflexivity].
Qed.
Lemma isR_sqrt x a : isR x a -> 0 <= a -> isR (xsqrt x) (sqrt a).
Proof.
  intros H Ha. xcase x H. cbn. destruct (Rlt_dec a 0); [lra|reflexivity].
Qed.
Lemma isR_ltb x y a b : isR x a -> isR y b -> xltb x y = Rltb a b.
Proof. intros H H'. xcase x H. xcase y H'. reflexivity. Qed.
Lemma isR_leb x y a b : isR x a -> isR y b -> xleb x y = Rleb a b.
Proof. intros H H'. xcase x H. xcase y H'. reflexivity. Qed.
Lemma isR_eqb x y a b : isR x a -> isR y b -> xeqb x y = Reqb a b.
Proof. intros H H'. xcase x H. xcase y H'. reflexivity. Qed.
Lemma isR_smin big tiny eps x y a b : isR x a -> isR y b ->
  isR (@smin _ (Xnum big tiny eps) x y) (Rmin b a).
Proof.
  intros H H'. unfold smin. cbn. rewrite (isR_ltb _ _ _ _ H' H).
  unfold Rmin, Rltb. destruct (Rlt_dec b a), (Rle_dec b a); auto; try lra.
  replace b with a by lra; exact H.
Qed.
Lemma isR_smax big tiny eps x y a b : isR x a -> isR y b ->
  isR (@smax _ (Xnum big tiny eps) x y) (Rmax a b).
Proof.
  intros H H'. unfold smax. cbn. rewrite (isR_ltb _ _ _ _ H H').
  unfold Rmax, Rltb. destruct (Rlt_dec a b), (Rle_dec a b); auto; try lra.
  replace b with a by lra; exact H.
Qed.
(** product_sign: multiplies by the sign of the second argument. *)
Lemma isR_psign x y a b : isR x a -> isR y b -> b <> 0 ->
  isR (xpsign x y) (if Rlt_dec b 0 then - a else a).
Proof.
  intros H H' Hb. xcase x H. xcase y H'. unfold xpsign. cbn.
  destruct (Rlt_dec b 0); [reflexivity|]. destruct (Rlt_dec 0 b); [reflexivity|lra].
Qed.

Lemma vec_eq {A} (u v : vec A) : vx u = vx v -> vy u = vy v -> vz u = vz v -> u = v.
Proof. destruct u, v; cbn; intros; subst; reflexivity. Qed.

Section Ops.
Variables big tiny eps : R.
Local Existing Instance Xnum.
Notation XN := (Xnum big tiny eps).

Lemma visR_add u v a b : visR u a -> visR v b -> visR (@vadd _ XN u v) (rv_add a b).
Proof. intros (A & B & C) (D & E & F). repeat split; cbn; apply isR_add; assumption. Qed.
Lemma visR_sub u v a b : visR u a -> visR v b -> visR (@vsub _ XN u v) (rv_sub a b).
Proof. intros (A & B & C) (D & E & F). repeat split; cbn; apply isR_sub; assumption. Qed.
Lemma visR_scale s v a b : isR s a -> visR v b -> visR (@vscale _ XN s v) (rv_scale a b).
Proof. intros A (D & E & F). repeat split; cbn; apply isR_mul; assumption. Qed.
Lemma visR_scaler s v a b : isR s a -> visR v b -> visR (@vscaler _ XN v s) (rv_scale a b).
Proof. intros A (D & E & F). repeat split; cbn; rewrite Rmult_comm; apply isR_mul; assumption. Qed.
Lemma visR_divs s v a b : isR s a -> a <> 0 -> visR v b -> visR (@vdivs _ XN v s) (rv_scale (/ a) b).
Proof.
  intros A Ha (D & E & F). repeat split; cbn; rewrite Rmult_comm; apply isR_div; assumption.
Qed.
Lemma isR_dot u v a b : visR u a -> visR v b -> isR (@dot _ XN u v) (rv_dot a b).
Proof.
  intros (A & B & C) (D & E & F). unfold dot, rv_dot. cbn.
  repeat apply isR_add; apply isR_mul; assumption.
Qed.
Lemma visR_cross u v a b : visR u a -> visR v b -> visR (@cross _ XN u v) (rv_cross a b).
Proof.
  intros (A & B & C) (D & E & F). repeat split; cbn; apply isR_sub; apply isR_mul; assumption.
Qed.
Lemma rv_dot_nonneg a : 0 <= rv_dot a a.
Proof. unfold rv_dot. nra. Qed.
Lemma isR_norm v a : visR v a -> isR (@norm _ XN v) (rv_norm a).
Proof.
  intros H. unfold norm, rv_norm. cbn. apply isR_sqrt; [apply isR_dot; assumption|apply rv_dot_nonneg].
Qed.
Lemma visR_normalize v a : visR v a -> rv_norm a <> 0 ->
  visR (@normalize _ XN v) (rv_scale (/ rv_norm a) a).
Proof. intros H Hn. unfold normalize. apply visR_divs; auto. apply isR_norm; assumption. Qed.
Lemma misR_trans m w : misR m w -> misR (trans m) (rv_trans w).
Proof. intros ((A & B & C) & (D & E & F) & (G & H & I)). repeat split; assumption. Qed.
Lemma visR_mul m v w a : misR m w -> visR v a -> visR (@mulmv _ XN m v) (rv_mul w a).
Proof. intros (A & B & C) Hv. repeat split; cbn; apply isR_dot; assumption. Qed.
Lemma visR_const x a : isR x a -> visR (vconst x) (V a a a).
Proof. intros H; repeat split; exact H. Qed.
End Ops.

Lemma visR_fin v : visR (vfin v) v.
Proof. repeat split. Qed.
Lemma misR_fin m : misR (mfin m) m.
Proof. repeat split. Qed.

Lemma rv_norm_sq v : rv_norm v * rv_norm v = rv_dot v v.
Proof. unfold rv_norm. apply sqrt_sqrt, rv_dot_nonneg. Qed.
Lemma rv_norm_nonneg v : 0 <= rv_norm v.
Proof. apply sqrt_pos. Qed.
Lemma rv_norm_unit v : rv_dot v v = 1 -> rv_norm v = 1.
Proof. unfold rv_norm. intros ->. apply sqrt_1. Qed.
Lemma rv_norm_scale t v : rv_norm (rv_scale t v) = Rabs t * rv_norm v.
Proof.
  unfold rv_norm. replace (rv_dot (rv_scale t v) (rv_scale t v)) with (Rsqr t * rv_dot v v)
    by (unfold rv_dot, rv_scale, Rsqr; cbn; ring).
  rewrite sqrt_mult_alt by apply Rle_0_sqr. rewrite sqrt_Rsqr_abs. reflexivity.
Qed.
Lemma rv_norm_zero v : rv_norm v = 0 -> v = rv_zero.
Proof.
  intros H. assert (rv_dot v v = 0) by (rewrite <- rv_norm_sq, H; ring).
  destruct v as [a b d]. unfold rv_dot in H0; cbn in H0. unfold rv_zero.
  assert (a = 0) by nra. assert (b = 0) by nra. assert (d = 0) by nra. subst. reflexivity.
Qed.

Lemma rv_cauchy a b : rv_dot a b * rv_dot a b <= rv_dot a a * rv_dot b b.
Proof.
  destruct a as [a1 a2 a3], b as [b1 b2 b3]. unfold rv_dot; cbn.
  pose proof (Rle_0_sqr (a1 * b2 - a2 * b1)). pose proof (Rle_0_sqr (a1 * b3 - a3 * b1)).
  pose proof (Rle_0_sqr (a2 * b3 - a3 * b2)). unfold Rsqr in *. lra.
Qed.
Lemma rv_dot_le_norm a b : rv_dot a b <= rv_norm a * rv_norm b.
Proof.
  apply Rnot_lt_le. intros H. pose proof (rv_norm_nonneg a). pose proof (rv_norm_nonneg b).
  assert (Hp : 0 <= rv_norm a * rv_norm b) by nra.
  assert (rv_norm a * rv_norm b * (rv_norm a * rv_norm b) < rv_dot a b * rv_dot a b) by nra.
  pose proof (rv_cauchy a b). rewrite <- (rv_norm_sq a), <- (rv_norm_sq b) in H3. lra.
Qed.
Lemma sq_le_abs a b : 0 <= b -> a * a <= b * b -> a <= b.
Proof. intros Hb H. apply Rnot_lt_le. intros Hl. nra. Qed.
Lemma rv_norm_triangle a b : rv_norm (rv_add a b) <= rv_norm a + rv_norm b.
Proof.
  apply sq_le_abs; [pose proof (rv_norm_nonneg a); pose proof (rv_norm_nonneg b); lra|].
  rewrite rv_norm_sq. pose proof (rv_dot_le_norm a b).
  replace (rv_dot (rv_add a b) (rv_add a b)) with (rv_dot a a + 2 * rv_dot a b + rv_dot b b)
    by (unfold rv_dot, rv_add; cbn; ring).
  rewrite <- (rv_norm_sq a), <- (rv_norm_sq b). nra.
Qed.
Lemma rv_norm_opp a b : rv_norm (rv_sub a b) = rv_norm (rv_sub b a).
Proof. unfold rv_norm. f_equal. unfold rv_dot, rv_sub; cbn. ring. Qed.
Lemma rv_norm_reverse a b : Rabs (rv_norm a - rv_norm b) <= rv_norm (rv_sub a b).
Proof.
  assert (H1 : rv_norm a <= rv_norm (rv_sub a b) + rv_norm b).
  { replace a with (rv_add (rv_sub a b) b) at 1; [apply rv_norm_triangle|apply vec_eq; cbn; ring]. }
  assert (H2 : rv_norm b <= rv_norm (rv_sub b a) + rv_norm a).
  { replace b with (rv_add (rv_sub b a) a) at 1; [apply rv_norm_triangle|apply vec_eq; cbn; ring]. }
  rewrite (rv_norm_opp b a) in H2. apply Rabs_le. lra.
Qed.
Lemma rv_norm_of_sq a r : 0 <= r -> rv_dot a a = r * r -> rv_norm a = r.
Proof. intros Hr H. unfold rv_norm. rewrite H. apply sqrt_square, Hr. Qed.
Lemma unit_of_unit D : rv_norm D <> 0 -> rv_dot (unit_of D) (unit_of D) = 1.
Proof.
  intros H. unfold unit_of.
  replace (rv_dot (rv_scale (/ rv_norm D) D) (rv_scale (/ rv_norm D) D)) with (/ rv_norm D * / rv_norm D * rv_dot D D)
    by (unfold rv_dot, rv_scale; cbn; ring).
  rewrite <- rv_norm_sq. field. exact H.
Qed.
