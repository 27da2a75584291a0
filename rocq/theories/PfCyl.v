(** Cylinder intersection: the cylinder around the z axis. *)

From Coq Require Import Reals ZArith List Bool Arith Lra Lia.
From Verif Require Import Num NumR NumX Vec Ray Bvh Traverse Cylinder SpecBvh SpecReal SpecNearest SpecPlane SpecCyl.
From Verif Require Import PfBuild PfX PfPlane PfClosest.
Import ListNotations.
Local Open Scope R_scope.

(** Multiplying out the ellipse equation. *)
Lemma ellipse_out a b q : 0 < a -> 0 < b ->
  a * a * (b * b) * (ellipse a b q - 1) = b * b * vx q * vx q + a * a * vy q * vy q - a * a * (b * b).
Proof. intros. unfold ellipse. field. lra. Qed.
Lemma sq_pos a b : 0 < a -> 0 < b -> 0 < a * a * (b * b).
Proof. intros. assert (0 < a * a) by nra. assert (0 < b * b) by nra. nra. Qed.
Lemma ellipse_le a b q : 0 < a -> 0 < b ->
  ellipse a b q <= 1 <-> b * b * vx q * vx q + a * a * vy q * vy q - a * a * (b * b) <= 0.
Proof.
  intros Ha Hb. rewrite <- (ellipse_out a b q Ha Hb). pose proof (sq_pos a b Ha Hb).
  split; intros; nra.
Qed.
Lemma ellipse_lt a b q : 0 < a -> 0 < b ->
  ellipse a b q < 1 <-> b * b * vx q * vx q + a * a * vy q * vy q - a * a * (b * b) < 0.
Proof.
  intros Ha Hb. rewrite <- (ellipse_out a b q Ha Hb). pose proof (sq_pos a b Ha Hb).
  split; intros; nra.
Qed.
Lemma ellipse_eq a b q : 0 < a -> 0 < b ->
  ellipse a b q = 1 <-> b * b * vx q * vx q + a * a * vy q * vy q - a * a * (b * b) = 0.
Proof.
  intros Ha Hb. rewrite <- (ellipse_out a b q Ha Hb). pose proof (sq_pos a b Ha Hb).
  split; intros; nra.
Qed.

Section Line.
Variables a b h : R.
Hypothesis Ha : 0 < a.
Hypothesis Hb : 0 < b.
Hypothesis Hh : 0 < h.
Variables x0 y0 z0 j k l : R.
Notation o := (V x0 y0 z0).
Notation d := (V j k l).
Notation A := (a * a * k * k + b * b * j * j).
Notation B := (a * a * k * y0 + b * b * j * x0).
Notation Cc := (a * a * k * k + b * b * j * j - j * j * y0 * y0 + 2 * j * k * x0 * y0 - k * k * x0 * x0).
(** The ellipse equation along the line. *)
Definition Fq (t : R) : R :=
  b * b * (x0 + t * j) * (x0 + t * j) + a * a * (y0 + t * k) * (y0 + t * k) - a * a * (b * b).
Notation zt t := (z0 + t * l).

Lemma A_sq : A = (a * k) * (a * k) + (b * j) * (b * j).
Proof. ring. Qed.
Lemma A_nonneg : 0 <= A.
Proof. rewrite A_sq. pose proof (Rle_0_sqr (a * k)). pose proof (Rle_0_sqr (b * j)). unfold Rsqr in *. lra. Qed.
Lemma A_zero : A = 0 -> j = 0 /\ k = 0.
Proof.
  rewrite A_sq. intros H. apply Rplus_sqr_eq_0 in H as [H1 H2].
  apply Rmult_integral in H1 as [|], H2 as [|]; lra.
Qed.
Lemma Fq_flat t u : j = 0 -> k = 0 -> Fq t = Fq u.
Proof. intros Ej Ek. unfold Fq. rewrite Ej, Ek. ring. Qed.
Lemma Fq_disc t : A * Fq t = (A * t + B) * (A * t + B) - a * a * (b * b) * Cc.
Proof. unfold Fq. ring. Qed.
Lemma Fq_neg : Cc < 0 -> forall t, 0 < Fq t.
Proof.
  intros H t. assert (HA : 0 < A).
  { destruct (Rle_lt_or_eq_dec 0 A A_nonneg) as [|E]; [assumption|]. symmetry in E. apply A_zero in E as [Ej Ek]. rewrite Ej, Ek in H. lra. }
  pose proof (Fq_disc t) as E. pose proof (sq_pos a b Ha Hb) as P.
  pose proof (Rle_0_sqr (A * t + B)) as Q. unfold Rsqr in Q.
  apply (Rmult_lt_reg_l A); [exact HA|]. rewrite E, Rmult_0_r.
  pose proof (Rmult_lt_0_compat _ _ P (Ropp_0_gt_lt_contravar _ H)). lra.
Qed.
(** The two roots. *)
Definition root0 : R := 1 / A * (- B + a * b * sqrt Cc).
Definition root1 : R := - (1) / A * (B + a * b * sqrt Cc).
Lemma Fq_roots t : 0 < A -> 0 <= Cc -> Fq t = A * (t - root0) * (t - root1).
Proof.
  intros HA HC. apply (Rmult_eq_reg_l A); [|lra]. rewrite Fq_disc. unfold root0, root1.
  replace (A * (A * (t - 1 / A * (- B + a * b * sqrt Cc)) * (t - - (1) / A * (B + a * b * sqrt Cc)))) with
    ((A * t + B) * (A * t + B) - a * a * (b * b) * (sqrt Cc * sqrt Cc)) by (field; lra).
  rewrite sqrt_sqrt by exact HC. reflexivity.
Qed.
Lemma roots_diff : 0 < A -> 0 <= Cc -> root0 - root1 = 2 * (a * b) * sqrt Cc / A.
Proof. intros HA HC. unfold root0, root1. field. lra. Qed.
Lemma roots_le : 0 < A -> 0 <= Cc -> root1 <= root0.
Proof.
  intros HA HC. pose proof (roots_diff HA HC). pose proof (sqrt_pos Cc).
  assert (0 <= 2 * (a * b) * sqrt Cc / A).
  { apply Rmult_le_pos; [|apply Rlt_le, Rinv_0_lt_compat, HA]. apply Rmult_le_pos; [nra|assumption]. }
  lra.
Qed.

(** Points of the line. *)
Lemma surf_iff t : on_surface a b h (at_t o d t) <->
  Fq t <= 0 /\ - (h / 2) <= zt t <= h / 2 /\ (Fq t = 0 \/ zt t = h / 2 \/ zt t = - (h / 2)).
Proof.
  unfold on_surface, on_side, on_top, on_bottom.
  rewrite (ellipse_eq _ _ _ Ha Hb), (ellipse_le _ _ _ Ha Hb), Rabs_le_iff.
  change (b * b * vx (at_t o d t) * vx (at_t o d t) + a * a * vy (at_t o d t) * vy (at_t o d t) - a * a * (b * b)) with (Fq t).
  change (vz (at_t o d t)) with (zt t).
  split; [intros [H|[H|H]]|intros (H1 & H2 & [H|[H|H]])]; try (repeat split; lra); lra.
Qed.
Lemma side_iff t : on_side a b h (at_t o d t) <-> Fq t = 0 /\ - (h / 2) <= zt t <= h / 2.
Proof.
  unfold on_side. rewrite (ellipse_eq _ _ _ Ha Hb), Rabs_le_iff. reflexivity.
Qed.
Lemma inside_iff t : inside a b h (at_t o d t) <-> Fq t < 0 /\ - (h / 2) < zt t < h / 2.
Proof.
  unfold inside. rewrite (ellipse_lt _ _ _ Ha Hb), Rabs_lt_iff. reflexivity.
Qed.
Lemma at_zero : at_t o d 0 = o.
Proof. apply vec_eq; cbn; ring. Qed.

(** Half the derivative of [Fq]. *)
Lemma tangent t : A * t + B = 0 ->
  rv_dot d (V (vx (at_t o d t) / (a * a)) (vy (at_t o d t) / (b * b)) 0) = 0.
Proof.
  intros H. unfold rv_dot. cbn [vx vy vz at_t rv_add rv_scale].
  replace (j * ((x0 + t * j) / (a * a)) + k * ((y0 + t * k) / (b * b)) + l * 0) with ((A * t + B) / (a * a * (b * b))) by (field; lra).
  rewrite H. field. lra.
Qed.
End Line.

Definition side_g (a b : R) (P : vec R) : vec R := V (vx P / (a * a)) (vy P / (b * b)) 0.
Lemma side_g_nonzero a b P : 0 < a -> 0 < b -> ellipse a b P = 1 -> rv_norm (side_g a b P) <> 0.
Proof.
  intros Ha Hb He Hn. apply rv_norm_zero in Hn. unfold side_g, rv_zero in Hn. injection Hn as H1 H2.
  assert (0 < a * a) by nra. assert (0 < b * b) by nra.
  assert (E1 : vx P = 0). { apply (Rmult_eq_reg_r (/ (a * a))); [lra|]. apply Rinv_neq_0_compat. lra. }
  assert (E2 : vy P = 0). { apply (Rmult_eq_reg_r (/ (b * b))); [lra|]. apply Rinv_neq_0_compat. lra. }
  unfold ellipse in He. rewrite E1, E2 in He. unfold Rdiv in He. rewrite !Rmult_0_l in He. lra.
Qed.

Section Local.
Variables big tiny eps : R.
Notation XN := (Xnum big tiny eps).
Variables (xa xb xh : xr) (a b h : R) (rot : mat xr) (Rm : mat R).
Hypothesis Xa : isR xa a.
Hypothesis Xb : isR xb b.
Hypothesis Xh : isR xh h.
Hypothesis Xr : misR rot Rm.
Hypothesis Ha : 0 < a.
Hypothesis Hb : 0 < b.
Hypothesis Hh : 0 < h.

Ltac ops := cbn [nadd nsub nmul ndiv nopp nltb nleb neqb nofZ nsqrt nabs n0 n1 n2 XN Xnum vx vy vz].
Ltac isr := solve [repeat first [eassumption | apply isR_fin | apply isR_sub | apply isR_add | apply isR_mul | apply isR_opp]].

Lemma X_h2 : isR (@ndiv _ XN xh (@n2 _ XN)) (h / 2).
Proof. ops. apply isR_div; [exact Xh|apply isR_fin|lra]. Qed.
Lemma X_mh2 : isR (@ndiv _ XN (@nopp _ XN xh) (@n2 _ XN)) (- (h / 2)).
Proof.
  replace (- (h / 2)) with (- h / 2) by field. ops. apply isR_div; [apply isR_opp, Xh|apply isR_fin|lra].
Qed.

Lemma side_normal_x p P : visR p P ->
  visR (@cyl_side_normal _ XN xa xb p) (rv_scale 2 (side_g a b P)).
Proof.
  intros (H1 & H2 & H3). assert (0 < a * a) by nra. assert (0 < b * b) by nra.
  unfold cyl_side_normal. ops. split; [|split]; cbn [vx vy vz rv_scale side_g].
  - replace (2 * (vx P / (a * a))) with (2 * vx P / (a * a)) by (field; lra).
    apply isR_div; [isr|isr|lra].
  - replace (2 * (vy P / (b * b))) with (2 * vy P / (b * b)) by (field; lra).
    apply isR_div; [isr|isr|lra].
  - replace (2 * 0) with 0 by ring. apply isR_fin.
Qed.
Lemma rot_normal_x n G : visR n G -> rv_norm G <> 0 ->
  exists c, 0 < c /\ visR (@cyl_rot_normal _ XN rot n) (rv_scale c (rv_mul Rm G)).
Proof.
  intros Hn HG. exists (/ rv_norm G). split.
  - apply Rinv_0_lt_compat. pose proof (rv_norm_nonneg G). lra.
  - unfold cyl_rot_normal. apply visR_divs; [apply isR_norm, Hn|exact HG|]. apply visR_mul; assumption.
Qed.
Lemma rot_side_x p P : visR p P -> ellipse a b P = 1 ->
  exists c, 0 < c /\ visR (@cyl_rot_normal _ XN rot (@cyl_side_normal _ XN xa xb p))
                       (rv_scale c (rv_mul Rm (side_g a b P))).
Proof.
  intros Hp He. destruct (rot_normal_x _ _ (side_normal_x p P Hp)) as (c & Hc & Hv).
  { rewrite rv_norm_scale. pose proof (side_g_nonzero a b P Ha Hb He). rewrite Rabs_pos_eq by lra. lra. }
  exists (c * 2). split; [lra|].
  replace (rv_scale (c * 2) (rv_mul Rm (side_g a b P))) with (rv_scale c (rv_mul Rm (rv_scale 2 (side_g a b P)))); [exact Hv|].
  rewrite rv_mul_scale. apply vec_eq; cbn; ring.
Qed.

Section At.
Variables (org dir : vec xr) (x0 y0 z0 j k l : R).
Notation o := (V x0 y0 z0).
Notation d := (V j k l).
Hypothesis Xo : visR org o.
Hypothesis Xd : visR dir d.
Let Xx : isR (vx org) x0 := proj1 Xo.
Let Xy : isR (vy org) y0 := proj1 (proj2 Xo).
Let Xz : isR (vz org) z0 := proj2 (proj2 Xo).
Let Xj : isR (vx dir) j := proj1 Xd.
Let Xk : isR (vy dir) k := proj1 (proj2 Xd).
Let Xl : isR (vz dir) l := proj2 (proj2 Xd).
Notation A := (a * a * k * k + b * b * j * j).
Notation B := (a * a * k * y0 + b * b * j * x0).
Notation Cc := (a * a * k * k + b * b * j * j - j * j * y0 * y0 + 2 * j * k * x0 * y0 - k * k * x0 * x0).
Notation F := (Fq a b x0 y0 j k).
Notation r0 := (root0 a b x0 y0 j k).
Notation r1 := (root1 a b x0 y0 j k).
Notation zt t := (z0 + t * l).

Lemma X_C : isR (@cyl_C _ XN xa xb (vx org) (vy org) (vx dir) (vy dir)) Cc.
Proof. unfold cyl_C. ops. isr. Qed.
Lemma X_sq : 0 <= Cc -> isR (xsqrt (@cyl_C _ XN xa xb (vx org) (vy org) (vx dir) (vy dir))) (sqrt Cc).
Proof. intros H. apply isR_sqrt; [apply X_C|exact H]. Qed.
Lemma X_t0 : 0 < A -> 0 <= Cc -> isR (@cyl_t0 _ XN xa xb (vx org) (vy org) (vx dir) (vy dir)) r0.
Proof.
  intros HA HC. pose proof (X_sq HC). unfold cyl_t0, root0. ops.
  apply isR_mul; [apply isR_div; [isr|isr|lra]|]. apply isR_add; [isr|]. apply isR_mul; [isr|assumption].
Qed.
Lemma X_t1 : 0 < A -> 0 <= Cc -> isR (@cyl_t1 _ XN xa xb (vx org) (vy org) (vx dir) (vy dir)) r1.
Proof.
  intros HA HC. pose proof (X_sq HC). unfold cyl_t1, root1. ops.
  apply isR_mul; [apply isR_div; [isr|isr|lra]|]. apply isR_add; [isr|]. apply isR_mul; [isr|assumption].
Qed.
(** Without a direction across the axis both roots are NaN. *)
Lemma xdiv_zero x y u : isR x u -> u <> 0 -> isR y 0 -> exists s, xdiv x y = Xinf s.
Proof.
  intros H Hu H0. apply isR_ex in H as (s & ->). apply isR_ex in H0 as (s' & ->). cbn [xdiv].
  destruct (Req_EM_T 0 0); [|lra]. destruct (Req_EM_T u 0); [contradiction|]. eauto.
Qed.
Lemma xinf_zero s y : isR y 0 -> xmul (Xinf s) y = Xnan.
Proof. intros H. apply isR_ex in H as (s' & ->). cbn [xmul]. destruct (Req_EM_T 0 0); [reflexivity|lra]. Qed.
Lemma X_nan : A = 0 -> @cyl_t0 _ XN xa xb (vx org) (vy org) (vx dir) (vy dir) = Xnan /\
  @cyl_t1 _ XN xa xb (vx org) (vy org) (vx dir) (vy dir) = Xnan.
Proof.
  intros HA. destruct (A_zero a b Ha Hb j k HA) as [Ej Ek].
  assert (EC : Cc = 0) by (rewrite Ej, Ek; ring). assert (EB : B = 0) by (rewrite Ej, Ek; ring).
  assert (HC : 0 <= Cc) by lra. pose proof (X_sq HC) as Hs. rewrite EC, sqrt_0 in Hs.
  assert (HAx : isR (xadd (xmul (xmul (xmul xa xa) (vy dir)) (vy dir)) (xmul (xmul (xmul xb xb) (vx dir)) (vx dir))) 0).
  { eapply isR_to; [isr|exact HA]. }
  split.
  - unfold cyl_t0. ops. destruct (xdiv_zero (Fin 1) _ 1 (isR_fin 1) ltac:(lra) HAx) as (s & ->).
    apply xinf_zero. eapply isR_to; [apply isR_add; [isr|apply isR_mul; [isr|exact Hs]]|]. rewrite EB. ring.
  - unfold cyl_t1. ops. destruct (xdiv_zero (xopp (Fin 1)) _ (- (1)) (isR_opp _ _ (isR_fin 1)) ltac:(lra) HAx) as (s & ->).
    apply xinf_zero. eapply isR_to; [apply isR_add; [isr|apply isR_mul; [isr|exact Hs]]|]. rewrite EB. ring.
Qed.

Lemma X_at t s : isR t s -> visR (@vadd _ XN org (@vscaler _ XN dir t)) (at_t o d s).
Proof. intros H. apply visR_add; [exact Xo|]. apply visR_scaler; [exact H|exact Xd]. Qed.
Lemma X_at' t s : isR t s -> visR (@vadd _ XN org (@vscale _ XN t dir)) (at_t o d s).
Proof. intros H. apply visR_add; [exact Xo|]. apply visR_scale; [exact H|exact Xd]. Qed.

Lemma root_ellipse0 : 0 < A -> 0 <= Cc -> ellipse a b (at_t o d r0) = 1.
Proof.
  intros HA HC. apply (ellipse_eq _ _ _ Ha Hb). change (F r0 = 0).
  rewrite (Fq_roots a b x0 y0 j k r0 HA HC). ring.
Qed.
Lemma root_ellipse1 : 0 < A -> 0 <= Cc -> ellipse a b (at_t o d r1) = 1.
Proof.
  intros HA HC. apply (ellipse_eq _ _ _ Ha Hb). change (F r1 = 0).
  rewrite (Fq_roots a b x0 y0 j k r1 HA HC). ring.
Qed.

(** The lateral surface from outside. *)
Lemma outside_x :
  match @cyl_outside _ XN xa xb xh rot org dir with
  | None => A = 0 \/ (forall t, 0 < F t) \/ (0 < A /\ 0 <= Cc /\ r0 = r1) \/
      (0 < A /\ 0 <= Cc /\ r1 < r0 /\ (r1 <= 0 \/ ~ (- (h / 2) <= zt r1 <= h / 2)))
  | Some (n, t) => 0 < A /\ 0 <= Cc /\ r1 < r0 /\ isR t r1 /\ 0 < r1 /\ - (h / 2) <= zt r1 <= h / 2 /\
      exists c, 0 < c /\ visR n (rv_scale c (rv_mul Rm (side_g a b (at_t o d r1))))
  end.
Proof.
  unfold cyl_outside. cbv zeta.
  change (@nltb _ XN) with xltb. change (@nleb _ XN) with xleb. change (@n0 _ XN) with (Fin 0).
  rewrite (isR_ltb _ _ _ _ X_C (isR_fin 0)).
  destruct (ltb_cases Cc 0) as [[-> HC]|[-> HC]].
  { right; left. exact (Fq_neg a b Ha Hb x0 y0 j k HC). }
  destruct (Rle_lt_or_eq_dec 0 A (A_nonneg a b j k)) as [HA|HA].
  2:{ symmetry in HA. destruct (X_nan HA) as [-> ->]. left. exact HA. }
  pose proof (X_t0 HA HC) as H0. pose proof (X_t1 HA HC) as H1.
  pose proof (X_at _ _ H0) as I0. pose proof (X_at _ _ H1) as I1.
  rewrite !(isR_ltb _ _ _ _ (isR_fin 0) H1), !(isR_ltb _ _ _ _ H1 H0), (isR_ltb _ _ _ _ H0 H1).
  rewrite !(isR_leb _ _ _ _ (proj2 (proj2 I1)) X_h2), !(isR_leb _ _ _ _ X_mh2 (proj2 (proj2 I1))).
  change (vz (at_t o d r1)) with (zt r1).
  pose proof (roots_le a b Ha Hb x0 y0 j k HA HC) as Hle.
  destruct (ltb_cases r0 r1) as [[_ Hx]|[-> _]]; [lra|].
  rewrite andb_false_r. cbn [andb].
  destruct (ltb_cases r1 r0) as [[-> Hlt]|[-> Hlt]].
  2:{ rewrite andb_false_r. cbn [andb]. right; right; left. repeat split; try assumption. lra. }
  destruct (ltb_cases 0 r1) as [[-> Hp]|[-> Hp]].
  2:{ cbn [andb]. right; right; right. repeat split; try assumption. left; assumption. }
  destruct (leb_cases (zt r1) (h / 2)) as [[-> Hz]|[-> Hz]].
  2:{ cbn [andb]. right; right; right. repeat split; try assumption. right. lra. }
  destruct (leb_cases (- (h / 2)) (zt r1)) as [[-> Hz']|[-> Hz']].
  2:{ cbn [andb]. right; right; right. repeat split; try assumption. right. lra. }
  cbn [andb]. repeat split; try assumption.
  apply rot_side_x; [exact I1|apply root_ellipse1; assumption].
Qed.
End At.
End Local.
