(** The rays of the renderer and of the other examples. *)

From Coq Require Import Reals ZArith List Bool Lia Lra Psatz Nsatz.
From Verif Require Import Num NumR NumX Vec Ray Camera SpecReal SpecCamera PfX.
Local Open Scope R_scope.

Lemma cross_orth_l a b : rv_dot a (rv_cross a b) = 0.
Proof. unfold rv_dot, rv_cross. cbn [vx vy vz]. ring. Qed.
Lemma cross_orth_r a b : rv_dot b (rv_cross a b) = 0.
Proof. unfold rv_dot, rv_cross. cbn [vx vy vz]. ring. Qed.
Lemma lagrange a b : rv_dot (rv_cross a b) (rv_cross a b) = rv_dot a a * rv_dot b b - rv_dot a b * rv_dot a b.
Proof. unfold rv_dot, rv_cross. cbn [vx vy vz]. ring. Qed.
Lemma dot_comm a b : rv_dot a b = rv_dot b a.
Proof. unfold rv_dot. ring. Qed.
Lemma dot_scale_l s a b : rv_dot (rv_scale s a) b = s * rv_dot a b.
Proof. unfold rv_dot, rv_scale. cbn [vx vy vz]. ring. Qed.
Lemma dot_scale_r s a b : rv_dot a (rv_scale s b) = s * rv_dot a b.
Proof. unfold rv_dot, rv_scale. cbn [vx vy vz]. ring. Qed.
Lemma dot_add_l a b c : rv_dot (rv_add a b) c = rv_dot a c + rv_dot b c.
Proof. unfold rv_dot, rv_add. cbn [vx vy vz]. ring. Qed.
Lemma cross_scale_l s a b : rv_cross (rv_scale s a) b = rv_scale s (rv_cross a b).
Proof. unfold rv_cross, rv_scale. cbn [vx vy vz]. f_equal; ring. Qed.
Lemma norm_pos a : a <> rv_zero -> 0 < rv_norm a.
Proof.
  intros H. destruct (rv_norm_nonneg a) as [L|L]; [exact L|]. exfalso. apply H, rv_norm_zero. now symmetry.
Qed.
Lemma unit_norm a : a <> rv_zero -> rv_norm (unit_of a) = 1.
Proof. intros H. apply rv_norm_unit, unit_of_unit. pose proof (norm_pos a H). lra. Qed.
Lemma norm_dot a : rv_norm a = 1 -> rv_dot a a = 1.
Proof. intros H. rewrite <- rv_norm_sq, H. ring. Qed.
Lemma scale_zero s a : s <> 0 -> rv_scale s a = rv_zero -> a = rv_zero.
Proof.
  intros Hs E. unfold rv_scale, rv_zero in E. injection E as E1 E2 E3. destruct a as [x y z]. cbn [vx vy vz] in *.
  unfold rv_zero. f_equal; nra.
Qed.

Section Frame.
Variables D Up : vec R.
Hypothesis HD : rv_cross D Up <> rv_zero.
Let d := unit_of D.
Let r := unit_of (rv_cross d Up).
Let a := unit_of (rv_cross r d).

Lemma D_nonzero : D <> rv_zero.
Proof. intros E. apply HD. rewrite E. unfold rv_cross, rv_zero. cbn. f_equal; ring. Qed.
Lemma cross_d : rv_cross d Up <> rv_zero.
Proof.
  unfold d, unit_of. rewrite cross_scale_l. intros E. apply HD, (scale_zero (/ rv_norm D)); [|exact E].
  apply Rinv_neq_0_compat. pose proof (norm_pos _ D_nonzero). lra.
Qed.
Lemma dd : rv_dot d d = 1.
Proof. apply norm_dot, unit_norm, D_nonzero. Qed.
Lemma rr : rv_dot r r = 1.
Proof. apply norm_dot, unit_norm, cross_d. Qed.
Lemma dr : rv_dot d r = 0.
Proof. unfold r, unit_of. rewrite dot_scale_r, cross_orth_l. ring. Qed.
Lemma rd_unit : rv_dot (rv_cross r d) (rv_cross r d) = 1.
Proof. rewrite lagrange, rr, dd, (dot_comm r d), dr. ring. Qed.
Lemma a_is : a = rv_cross r d.
Proof.
  unfold a, unit_of. rewrite (rv_norm_unit _ rd_unit), Rinv_1. unfold rv_scale.
  destruct (rv_cross r d) as [x y z]. cbn [vx vy vz]. f_equal; ring.
Qed.

Lemma looking_ok : looking D Up d r a.
Proof.
  constructor.
  - reflexivity.
  - apply unit_norm, D_nonzero.
  - apply unit_norm, cross_d.
  - rewrite a_is. apply rv_norm_unit, rd_unit.
  - exact dr.
  - rewrite a_is, dot_comm. rewrite dot_comm. apply cross_orth_r.
  - rewrite a_is. apply cross_orth_l.
  - unfold r, unit_of. rewrite dot_scale_l, dot_comm, cross_orth_r. ring.
  - rewrite a_is.
    assert (E : rv_dot (rv_cross r d) Up = rv_dot r (rv_cross d Up)) by (unfold rv_dot, rv_cross; cbn [vx vy vz]; ring).
    rewrite E. unfold r, unit_of. rewrite dot_scale_l, <- rv_norm_sq. pose proof (norm_pos _ cross_d) as L.
    rewrite <- Rmult_assoc, Rinv_l, Rmult_1_l by lra. exact L.
  - rewrite a_is.
    assert (E : rv_cross d (rv_cross r d) = rv_sub (rv_scale (rv_dot d d) r) (rv_scale (rv_dot d r) d)).
    { unfold rv_cross, rv_sub, rv_scale, rv_dot. cbn [vx vy vz]. f_equal; ring. }
    rewrite E, dd, dr. unfold rv_sub, rv_scale. destruct r as [x y z]. cbn [vx vy vz]. f_equal; ring.
Qed.
End Frame.

(** The frame is determined by the directions. *)
Lemma decompose_x a b c p q s x y z : a*a+b*b+c*c=1 -> p*p+q*q+s*s=1 -> a*p+b*q+c*s=0 ->
  x = (x*a+y*b+z*c)*a + (x*(b*s-c*q)+y*(c*p-a*s)+z*(a*q-b*p))*(b*s-c*q) + (x*p+y*q+z*s)*p.
Proof. intros. nsatz. Qed.
Lemma decompose_y a b c p q s x y z : a*a+b*b+c*c=1 -> p*p+q*q+s*s=1 -> a*p+b*q+c*s=0 ->
  y = (x*a+y*b+z*c)*b + (x*(b*s-c*q)+y*(c*p-a*s)+z*(a*q-b*p))*(c*p-a*s) + (x*p+y*q+z*s)*q.
Proof. intros. nsatz. Qed.
Lemma decompose_z a b c p q s x y z : a*a+b*b+c*c=1 -> p*p+q*q+s*s=1 -> a*p+b*q+c*s=0 ->
  z = (x*a+y*b+z*c)*c + (x*(b*s-c*q)+y*(c*p-a*s)+z*(a*q-b*p))*(a*q-b*p) + (x*p+y*q+z*s)*s.
Proof. intros. nsatz. Qed.
Lemma decompose d a x : rv_dot d d = 1 -> rv_dot a a = 1 -> rv_dot d a = 0 ->
  x = rv_add (rv_add (rv_scale (rv_dot x d) d) (rv_scale (rv_dot x (rv_cross d a)) (rv_cross d a))) (rv_scale (rv_dot x a) a).
Proof.
  destruct d as [d1 d2 d3], a as [a1 a2 a3], x as [x y z]. unfold rv_add, rv_scale, rv_dot, rv_cross. cbn [vx vy vz]. intros H1 H2 H3.
  f_equal; [exact (decompose_x _ _ _ _ _ _ _ _ _ H1 H2 H3)|exact (decompose_y _ _ _ _ _ _ _ _ _ H1 H2 H3)|exact (decompose_z _ _ _ _ _ _ _ _ _ H1 H2 H3)].
Qed.

Lemma looking_unique D Up d r a d' r' a' : looking D Up d r a -> looking D Up d' r' a' -> d = d' /\ r = r' /\ a = a'.
Proof.
  intros [A1 A2 A3 A4 A5 A6 A7 A8 A9 A10] [B1 B2 B3 B4 B5 B6 B7 B8 B9 B10].
  assert (Ed : d = d') by congruence. clear A1 B1. subst d'. split; [reflexivity|].
  apply norm_dot in A2, A3, A4, B3, B4.
  pose proof (decompose d a r' A2 A4 A6) as E. rewrite A10 in E. rewrite (dot_comm r' d), B5 in E.
  pose proof (decompose d a Up A2 A4 A6) as EU. rewrite A10 in EU. rewrite (dot_comm Up r), A8 in EU.
  assert (Z : rv_dot r' a = 0).
  { assert (P : rv_dot Up r' = rv_dot Up a * rv_dot r' a).
    { rewrite EU at 1. rewrite !dot_add_l, !dot_scale_l, B5, (dot_comm a r'). ring. }
    rewrite (dot_comm Up r'), B8, (dot_comm Up a) in P. symmetry in P. apply Rmult_integral in P as [P|P]; [lra|exact P]. }
  rewrite Z in E. set (s := rv_dot r' r) in *.
  assert (Er : r' = rv_scale s r).
  { rewrite E. unfold rv_add, rv_scale. destruct d, r, a. cbn. f_equal; ring. }
  assert (Ea : forall q p, rv_cross d q = p -> rv_dot d q = 0 -> q = rv_cross p d).
  { intros q p Hp Hq. subst p.
    assert (X : rv_cross (rv_cross d q) d = rv_sub (rv_scale (rv_dot d d) q) (rv_scale (rv_dot d q) d)).
    { unfold rv_cross, rv_sub, rv_scale, rv_dot. cbn [vx vy vz]. f_equal; ring. }
    rewrite X, A2, Hq. unfold rv_sub, rv_scale. destruct q as [x y z]. cbn [vx vy vz]. f_equal; ring. }
  assert (Eaa : a' = rv_scale s a).
  { rewrite (Ea a' r' B10 B6), (Ea a r A10 A6), Er. unfold rv_cross, rv_scale. cbn [vx vy vz]. f_equal; ring. }
  assert (S1 : s * s = 1).
  { rewrite Er, dot_scale_l, dot_scale_r, A3 in B3. lra. }
  rewrite Eaa, dot_scale_l in B9.
  assert (s = 1) as S by nra. rewrite Er, Eaa, S. unfold rv_scale. destruct r as [x y z], a as [u v w]. cbn [vx vy vz].
  split; f_equal; ring.
Qed.

(** Signs of zeros. *)
Lemma no_neg_zero_add x y a b : isR x a -> isR y b -> no_neg_zero y -> no_neg_zero (xadd x y).
Proof.
  intros Hx Hy H s E. destruct (isR_ex _ _ Hx) as (sx & ->), (isR_ex _ _ Hy) as (sy & ->). cbn [xadd] in E.
  injection E as E1 E2. rewrite <- E1. unfold xsign.
  destruct (Rlt_dec b 0); destruct (Rlt_dec a 0); try lra; destruct (Rlt_dec 0 b); destruct (Rlt_dec 0 a); try lra; try reflexivity; try apply andb_false_r.
  assert (b = 0) as -> by lra. rewrite (H sy eq_refl). apply andb_false_r.
Qed.
Lemma no_neg_zero_div x y a b : isR x a -> isR y b -> 0 < b -> no_neg_zero x -> no_neg_zero (xdiv x y).
Proof.
  intros Hx Hy Hb H s E. destruct (isR_ex _ _ Hx) as (sx & ->), (isR_ex _ _ Hy) as (sy & ->). cbn [xdiv] in E.
  destruct (Req_EM_T b 0) as [Z|_]; [lra|]. injection E as E1 E2.
  assert (a = 0) as ->. { unfold Rdiv in E2. apply Rmult_integral in E2 as [E2|E2]; [exact E2|]. pose proof (Rinv_0_lt_compat b Hb). lra. }
  rewrite <- E1, (H sx eq_refl). unfold xsign. destruct (Rlt_dec 0 0); [lra|]. destruct (Rlt_dec b 0); [lra|]. destruct (Rlt_dec 0 b); [reflexivity|lra].
Qed.

Section Rays.
Variables (big tiny eps : R) (ftan : xr -> xr) (half_degree : xr) (c : camera xr) (O D Up : vec R) (w : R).
Notation XN := (Xnum big tiny eps).
Hypothesis Hdir : visR (ca_dir c) D.
Hypothesis Hup : visR (ca_up c) Up.
Hypothesis Htan : isR (ftan (@nmul _ XN (ca_fov c) half_degree)) w.
Variables (width height : Z).
Hypothesis Hw : (0 < width)%Z.
Hypothesis Hh : (0 < height)%Z.

Section Upright.
Hypothesis HD : rv_cross D Up <> rv_zero.
Let d := unit_of D.
Let r := unit_of (rv_cross d Up).
Let a := unit_of (rv_cross r d).

Lemma axes_ok : exists xd xr' xa, @image_axes _ XN c = (xd, xr', xa) /\ visR xd d /\ visR xr' r /\ visR xa a.
Proof.
  do 3 eexists. split; [reflexivity|].
  assert (Vd : visR (@normalize _ XN (ca_dir c)) d).
  { apply visR_normalize; [exact Hdir|]. pose proof (norm_pos _ (D_nonzero D Up HD)). lra. }
  assert (Vr : visR (@normalize _ XN (@cross _ XN (@normalize _ XN (ca_dir c)) (ca_up c))) r).
  { apply visR_normalize; [apply visR_cross; assumption|]. pose proof (norm_pos _ (cross_d D Up HD)). fold d in H. lra. }
  split; [exact Vd|]. split; [exact Vr|].
  apply visR_normalize; [apply visR_cross; assumption|]. unfold r, d. rewrite (rv_norm_unit _ (rd_unit D Up HD)). lra.
Qed.

Definition screen_u (i : Z) : R := 2 * (IZR i + 1 / 2) / IZR width - 1.
Definition screen_v (j : Z) : R := 2 * (IZR j + 1 / 2) / IZR height - 1.
Definition sight (i j : Z) : vec R :=
  rv_add (rv_add (rv_scale (screen_u i) (rv_scale w r)) (rv_scale (screen_v j) (rv_scale (IZR height / IZR width) (rv_scale w a)))) d.

Lemma width_pos : 0 < IZR width.
Proof. apply (IZR_lt 0), Hw. Qed.
Lemma height_pos : 0 < IZR height.
Proof. apply (IZR_lt 0), Hh. Qed.
Lemma lk : looking D Up d r a.
Proof. apply looking_ok, HD. Qed.

Lemma sight_d i j : rv_dot (sight i j) d = 1.
Proof.
  unfold sight. rewrite !dot_add_l, !dot_scale_l. destruct lk as [_ L2 _ _ L5 L6 _ _ _ _].
  rewrite (dot_comm r d), (dot_comm a d), L5, L6, (norm_dot _ L2). ring.
Qed.
Lemma sight_r i j : rv_dot (sight i j) r = screen_u i * w.
Proof.
  unfold sight. rewrite !dot_add_l, !dot_scale_l. destruct lk as [_ _ L3 _ L5 _ L7 _ _ _].
  rewrite (dot_comm a r), L5, L7, (norm_dot _ L3). ring.
Qed.
Lemma sight_a i j : rv_dot (sight i j) a = screen_v j * (IZR height / IZR width) * w.
Proof.
  unfold sight. rewrite !dot_add_l, !dot_scale_l. destruct lk as [_ _ _ L4 _ L6 L7 _ _ _].
  rewrite L6, L7, (norm_dot _ L4). ring.
Qed.
Lemma sight_nonzero i j : sight i j <> rv_zero.
Proof.
  intros E. pose proof (sight_d i j) as H. rewrite E in H. unfold rv_dot, rv_zero in H. cbn [vx vy vz] in H. lra.
Qed.

Lemma through_ok i j : through_pixel d r a w width height i j (unit_of (sight i j)).
Proof.
  pose proof (norm_pos _ (sight_nonzero i j)) as P. pose proof width_pos. pose proof height_pos.
  unfold through_pixel, unit_of. rewrite !dot_scale_l, sight_d, sight_r, sight_a. unfold screen_u, screen_v.
  split; [rewrite Rmult_1_r; apply Rinv_0_lt_compat, P|].
  split; field; lra.
Qed.

Hypothesis Hzx : no_neg_zero (vx (ca_dir c)).
Hypothesis Hzy : no_neg_zero (vy (ca_dir c)).
Hypothesis Hzz : no_neg_zero (vz (ca_dir c)).

Lemma pixel_ok i j : let D' := @pixel_direction _ XN ftan half_degree c width height i j in
  visR D' (unit_of (sight i j)) /\ no_neg_zero (vx D') /\ no_neg_zero (vy D') /\ no_neg_zero (vz D').
Proof.
  intros D'. pose proof width_pos as Pw. pose proof height_pos as Ph.
  destruct axes_ok as (xd & xr' & xa & E & Vd & Vr & Va).
  unfold D', pixel_direction. rewrite E.
  set (u := @nsub _ XN _ _). set (v := @nsub _ XN (@ndiv _ XN _ (@nofZ _ XN height)) _).
  assert (Hu : isR u (screen_u i)).
  { unfold u, screen_u. apply isR_sub; [|apply isR_fin]. apply isR_div; [|apply isR_fin|lra]. apply isR_mul; [apply isR_fin|].
    apply isR_add; [apply isR_fin|]. apply isR_div; [apply isR_fin|apply isR_fin|lra]. }
  assert (Hv : isR v (screen_v j)).
  { unfold v, screen_v. apply isR_sub; [|apply isR_fin]. apply isR_div; [|apply isR_fin|lra]. apply isR_mul; [apply isR_fin|].
    apply isR_add; [apply isR_fin|]. apply isR_div; [apply isR_fin|apply isR_fin|lra]. }
  set (raw := @vadd _ XN (@vadd _ XN _ _) xd).
  assert (Hs : forall q, visR q (rv_add (rv_scale (screen_u i) (rv_scale w r)) (rv_scale (screen_v j) (rv_scale (IZR height / IZR width) (rv_scale w a)))) ->
            visR (@vadd _ XN q xd) (sight i j)) by (intros q Hq; apply visR_add; assumption).
  assert (Hq : visR (@vadd _ XN (@vscaler _ XN (@vscaler _ XN xr' (ftan (@nmul _ XN (ca_fov c) half_degree))) u)
                     (@vscaler _ XN (@vscaler _ XN (@vscaler _ XN xa (ftan (@nmul _ XN (ca_fov c) half_degree))) (@ndiv _ XN (@nofZ _ XN height) (@nofZ _ XN width))) v))
      (rv_add (rv_scale (screen_u i) (rv_scale w r)) (rv_scale (screen_v j) (rv_scale (IZR height / IZR width) (rv_scale w a))))).
  { apply visR_add; repeat apply visR_scaler; try assumption. apply isR_div; [apply isR_fin|apply isR_fin|lra]. }
  pose proof (Hs _ Hq) as Hraw. fold raw in Hraw.
  pose proof (norm_pos _ (sight_nonzero i j)) as P.
  assert (Hn : isR (@norm _ XN raw) (rv_norm (sight i j))) by (apply isR_norm, Hraw).
  split; [apply visR_normalize; [exact Hraw|lra]|].
  assert (Hnd : isR (@norm _ XN (ca_dir c)) (rv_norm D)) by (apply isR_norm, Hdir).
  pose proof (norm_pos _ (D_nonzero D Up HD)) as PD.
  assert (Exd : xd = @normalize _ XN (ca_dir c)) by (unfold image_axes in E; injection E; congruence).
  destruct Hdir as (D1 & D2 & D3). destruct Vd as (V1 & V2 & V3). destruct Hq as (Q1 & Q2 & Q3). destruct Hraw as (R1 & R2 & R3).
  unfold raw in *. rewrite Exd in *.
  split; [|split].
  - apply (no_neg_zero_div _ _ _ _ R1 Hn P), (no_neg_zero_add _ _ _ _ Q1 V1), (no_neg_zero_div _ _ _ _ D1 Hnd PD Hzx).
  - apply (no_neg_zero_div _ _ _ _ R2 Hn P), (no_neg_zero_add _ _ _ _ Q2 V2), (no_neg_zero_div _ _ _ _ D2 Hnd PD Hzy).
  - apply (no_neg_zero_div _ _ _ _ R3 Hn P), (no_neg_zero_add _ _ _ _ Q3 V3), (no_neg_zero_div _ _ _ _ D3 Hnd PD Hzz).
Qed.
End Upright.

(** With [Up] along the direction every component is NaN. *)
Lemma zero_nan x y : isR x 0 -> isR y 0 -> xdiv x y = Xnan.
Proof.
  intros Hx Hy. destruct (isR_ex _ _ Hx) as (sx & ->), (isR_ex _ _ Hy) as (sy & ->). cbn [xdiv].
  destruct (Req_EM_T 0 0) as [_|n]; [|now elim n]. destruct (Req_EM_T 0 0) as [_|n]; [reflexivity|now elim n].
Qed.
Lemma flat_nan i j : D <> rv_zero -> rv_cross D Up = rv_zero ->
  @pixel_direction _ XN ftan half_degree c width height i j = V Xnan Xnan Xnan.
Proof.
  intros D0 E.
  assert (Vd : visR (@normalize _ XN (ca_dir c)) (unit_of D)).
  { apply visR_normalize; [exact Hdir|]. pose proof (norm_pos _ D0). lra. }
  assert (Vc : visR (@cross _ XN (@normalize _ XN (ca_dir c)) (ca_up c)) rv_zero).
  { replace rv_zero with (rv_cross (unit_of D) Up); [apply visR_cross; assumption|].
    unfold unit_of. rewrite cross_scale_l, E. unfold rv_scale, rv_zero. cbn. f_equal; ring. }
  assert (Nu : @normalize _ XN (@cross _ XN (@normalize _ XN (ca_dir c)) (ca_up c)) = V Xnan Xnan Xnan).
  { assert (Nn : isR (@norm _ XN (@cross _ XN (@normalize _ XN (ca_dir c)) (ca_up c))) 0).
    { replace 0 with (rv_norm rv_zero); [apply isR_norm, Vc|]. unfold rv_norm, rv_dot, rv_zero. cbn [vx vy vz]. transitivity (sqrt 0); [f_equal; ring|apply sqrt_0]. }
    destruct Vc as (V1 & V2 & V3). cbn [vx vy vz rv_zero] in *. unfold normalize, vdivs, vmap.
    f_equal; apply zero_nan; assumption. }
  unfold pixel_direction, image_axes. rewrite Nu.
  unfold vscaler, vadd, vmap2, vmap. cbn [vx vy vz].
  set (dir := @normalize _ XN (ca_dir c)). unfold normalize, norm, dot, vdivs, vmap. cbn. reflexivity.
Qed.
End Rays.

(** Within the field of view. *)
Lemma in_view d r a w width height i j U : (0 < width)%Z -> 0 < w -> (0 <= i < width)%Z -> (0 <= j < height)%Z ->
  through_pixel d r a w width height i j U ->
  Rabs (rv_dot U r) < w * rv_dot U d /\ Rabs (rv_dot U a) < w * (IZR height / IZR width) * rv_dot U d.
Proof.
  intros Hw Pw (I0 & I1) (J0 & J1) (Pd & E1 & E2).
  apply IZR_lt in Hw. apply IZR_le in I0, J0. apply (IZR_lt i) in I1. apply (IZR_lt j) in J1.
  assert (I2 : IZR i + 1 <= IZR width) by (rewrite <- (plus_IZR i 1); apply IZR_le; apply lt_IZR in I1; lia).
  assert (J2 : IZR j + 1 <= IZR height) by (rewrite <- (plus_IZR j 1); apply IZR_le; apply lt_IZR in J1; lia).
  rewrite E1, E2.
  assert (B : forall x n, - (n / 2) < x < n / 2 -> Rabs (rv_dot U d * (2 * w / IZR width * x)) < w * (n / IZR width) * rv_dot U d).
  { intros x n Hx. replace (w * (n / IZR width) * rv_dot U d) with (rv_dot U d * (2 * w / IZR width * (n / 2))) by (field; lra).
    assert (Q : 0 < 2 * w / IZR width) by (apply Rdiv_lt_0_compat; lra).
    rewrite !Rabs_mult, (Rabs_pos_eq (rv_dot U d)) by lra. apply Rmult_lt_compat_l; [exact Pd|].
    rewrite (Rabs_pos_eq (2 * w / IZR width)) by lra. apply Rmult_lt_compat_l; [exact Q|]. apply Rabs_def1; lra. }
  split.
  - replace (w * rv_dot U d) with (w * (IZR width / IZR width) * rv_dot U d) by (field; lra). apply B. lra.
  - apply B. lra.
Qed.
(** Different pixels have different lines of sight. *)
Lemma distinct d r a w width height i j i' j' U : (0 < width)%Z -> w <> 0 ->
  through_pixel d r a w width height i j U -> through_pixel d r a w width height i' j' U -> i = i' /\ j = j'.
Proof.
  intros Hw W (P & E1 & E2) (_ & F1 & F2). apply IZR_lt in Hw.
  assert (Q : 2 * w / IZR width <> 0).
  { unfold Rdiv. apply Rmult_integral_contrapositive_currified; [lra|]. apply Rinv_neq_0_compat. lra. }
  rewrite E1 in F1. rewrite E2 in F2.
  apply Rmult_eq_reg_l in F1; [|lra]. apply Rmult_eq_reg_l in F2; [|lra].
  apply Rmult_eq_reg_l in F1; [|exact Q]. apply Rmult_eq_reg_l in F2; [|exact Q].
  split; apply eq_IZR; lra.
Qed.

(** The theorem of the camera. *)
Lemma camera_rays big tiny eps ftan half_degree (c : camera xr) O D Up w width height :
  visR (ca_eye c) O -> visR (ca_dir c) D -> visR (ca_up c) Up ->
  no_neg_zero (vx (ca_dir c)) -> no_neg_zero (vy (ca_dir c)) -> no_neg_zero (vz (ca_dir c)) ->
  isR (ftan (@nmul _ (Xnum big tiny eps) (ca_fov c) half_degree)) w ->
  (0 < width)%Z -> (0 < height)%Z -> rv_cross D Up <> rv_zero ->
  exists d r a, looking D Up d r a /\
    forall i j, exists U, rv_norm U = 1 /\ through_pixel d r a w width height i j U /\
      wide (ca_eye c) (@pixel_direction _ (Xnum big tiny eps) ftan half_degree c width height i j) (Fin 0) O U 0.
Proof.
  intros Ho Hd Hu Zx Zy Zz Ht Hw Hh HD. do 3 eexists. split; [apply looking_ok, HD|].
  intros i j. exists (unit_of (sight D Up w width height i j)).
  assert (N1 : rv_norm (unit_of (sight D Up w width height i j)) = 1) by (apply unit_norm, sight_nonzero, HD).
  split; [exact N1|]. split; [apply through_ok; assumption|].
  destruct (pixel_ok big tiny eps ftan half_degree c D Up w Hd Hu Ht width height Hw Hh HD Zx Zy Zz i j) as (V1 & V2 & V3 & V4).
  constructor; try assumption; [reflexivity|lra|lra].
Qed.

(** The pinhole of the other examples. *)
Definition pinhole (width height x y : Z) : vec R :=
  V (IZR x / IZR width - / 2) (IZR y / IZR height - / 2) (-1).
Lemma pinhole_ok big tiny eps width height x y : (0 < width)%Z -> (0 < height)%Z ->
  wide (@pinhole_origin _ (Xnum big tiny eps)) (@pinhole_direction _ (Xnum big tiny eps) width height x y) (Fin 0)
    (V 0 5 20) (pinhole width height x y) 0.
Proof.
  intros Hw Hh. apply IZR_lt in Hw, Hh.
  assert (Hdiv : forall n m, 0 < IZR m -> isR (xdiv (Fin (IZR n)) (Fin (IZR m))) (IZR n / IZR m)).
  { intros n m Hm. apply isR_div; [apply isR_fin|apply isR_fin|lra]. }
  assert (Hhalf : isR (@nhalf _ (Xnum big tiny eps)) (/ 2)).
  { replace (/ 2) with (1 / 2) by lra. apply isR_div; [apply isR_fin|apply isR_fin|lra]. }
  assert (Z : forall n m, 0 < IZR m -> no_neg_zero (xsub (xdiv (Fin (IZR n)) (Fin (IZR m))) (@nhalf _ (Xnum big tiny eps)))).
  { intros n m Hm. unfold xsub. apply (no_neg_zero_add _ _ _ _ (Hdiv n m Hm) (isR_opp _ _ Hhalf)).
    intros s E. pose proof (isR_opp _ _ Hhalf) as H. rewrite E in H. cbn in H. lra. }
  constructor.
  - repeat split.
  - split; [|split; [|reflexivity]]; (apply isR_sub; [apply Hdiv; assumption|exact Hhalf]).
  - apply Z, Hw.
  - apply Z, Hh.
  - intros s E. cbn in E. injection E as _ E. exfalso. lra.
  - reflexivity.
  - lra.
  - apply Rsqr_incr_0_var; [|apply rv_norm_nonneg]. unfold Rsqr. rewrite rv_norm_sq. unfold rv_dot, pinhole. cbn [vx vy vz].
    pose proof (Rle_0_sqr (IZR x / IZR width - / 2)) as S1. pose proof (Rle_0_sqr (IZR y / IZR height - / 2)) as S2. unfold Rsqr in S1, S2. lra.
Qed.
Lemma pinhole_distinct width height x y x' y' s : (0 < width)%Z -> (0 < height)%Z ->
  pinhole width height x y = rv_scale s (pinhole width height x' y') -> x = x' /\ y = y'.
Proof.
  intros Hw Hh E. apply IZR_lt in Hw, Hh. unfold pinhole, rv_scale in E. cbn [vx vy vz] in E. injection E as E1 E2 E3.
  assert (s = 1) as -> by lra. unfold Rdiv in *.
  pose proof (Rinv_0_lt_compat _ Hw) as P. pose proof (Rinv_0_lt_compat _ Hh) as Q.
  split; apply eq_IZR.
  - apply (Rmult_eq_reg_r (/ IZR width)); lra.
  - apply (Rmult_eq_reg_r (/ IZR height)); lra.
Qed.
