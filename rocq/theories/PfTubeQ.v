(** The boxes of cylinders with rounding. *)

From Coq Require Import Reals ZArith List Bool Arith Lra Lia Psatz Floats.SpecFloat.
From Flocq Require Import Core IEEE754.BinarySingleNaN.
From Verif Require Import Num NumR NumF Vec Datatypes Ray Bvh Traverse Cylinder SpecBvh SpecReal SpecIEEE SpecAny SpecTriF SpecSphF SpecPlane SpecPlaneF SpecTubeF SpecCyl SpecTubeQ.
From Verif Require Import PfBuild PfBuild2 PfSphere2 PfTrav2 PfIEEE PfIEEE2 PfIEEE3 PfIEEE4 PfTriF PfTriF2 PfDirF PfX PfSphF PfSphF2 PfPlane PfPlaneF PfPlaneF2 PfPlaneF3 PfPlaneF6.
Import ListNotations.
Local Open Scope R_scope.

(** A collection in any arithmetic. *)
Section Any.
Context {T : Type} {N : num T}.
Definition tips (f : T -> list T -> T) (c fa fb fh : T) (x : vec T) : T :=
  let p := dot x (V fa n0 n0) in let q := dot x (V n0 fb n0) in let w := dot x (V n0 n0 (ndiv fh n2)) in
  f (nadd c p) [nadd c q; nsub c p; nsub c q; nadd c w; nsub c w].
Lemma tube_axes (c : vec T) (fa fb fh : T) (m : mat T) : cylinder_box c fa fb fh m =
  (V (tips smin_list (vx c) fa fb fh (vx m)) (tips smin_list (vy c) fa fb fh (vy m)) (tips smin_list (vz c) fa fb fh (vz m)),
   V (tips smax_list (vx c) fa fb fh (vx m)) (tips smax_list (vy c) fa fb fh (vy m)) (tips smax_list (vz c) fa fb fh (vz m))).
Proof. reflexivity. Qed.

Variables (centers : list (vec T)) (sa sb hs : list T) (rots : list (mat T)).
Lemma make_cylinders_ok : (forall i, (i < length centers)%nat -> exists c x y z m,
    nth_error centers i = Some c /\ nth_error sa i = Some x /\ nth_error sb i = Some y /\ nth_error hs i = Some z /\ nth_error rots i = Some m) ->
  exists cs, make_cylinders centers sa sb hs rots = Ok cs.
Proof.
  intros H. unfold make_cylinders.
  assert (G : forall l, (forall i, In i l -> (i < length centers)%nat) -> exists bs, mapM (fun i => do c <- at_ UBprim centers i; do x <- at_ UBprim sa i;
    do y <- at_ UBprim sb i; do z <- at_ UBprim hs i; do m <- at_ UBprim rots i; Ok (cylinder_box c x y z m)) l = Ok bs).
  { induction l as [|i l IH]; intros Hl; [eexists; reflexivity|]. destruct (H i (Hl i (or_introl eq_refl))) as (c & x & y & z & m & E1 & E2 & E3 & E4 & E5).
    destruct (IH (fun k Hk => Hl k (or_intror Hk))) as (bs & Eb). cbn [mapM]. unfold at_ at 1 2 3 4 5. rewrite E1, E2, E3, E4, E5. cbn [bind]. rewrite Eb. cbn [bind]. eexists. reflexivity. }
  destruct (G (seq 0 (length centers))) as (bs & ->); [intros i Hi; apply in_seq in Hi; lia|]. eexists. reflexivity.
Qed.
Variable cs : cylinders T.
Hypothesis Hmake : make_cylinders centers sa sb hs rots = Ok cs.
Lemma made_t : cs_centers cs = centers /\ cs_as cs = sa /\ cs_bs cs = sb /\ cs_hs cs = hs /\ cs_rots cs = rots /\
  mapM (fun i => do c <- at_ UBprim centers i; do a <- at_ UBprim sa i; do b <- at_ UBprim sb i; do h <- at_ UBprim hs i; do m <- at_ UBprim rots i;
                 Ok (cylinder_box c a b h m)) (seq 0 (length centers)) = Ok (cs_box cs).
Proof. pose proof Hmake as H. unfold make_cylinders in H. apply bind_ok in H as (box & E & H). injection H as <-. cbn. auto 10. Qed.
Lemma stored_tube i c x y z m : nth_error centers i = Some c -> nth_error sa i = Some x -> nth_error sb i = Some y -> nth_error hs i = Some z -> nth_error rots i = Some m ->
  c_prim (cylinder_coll cs) i = Ok (Cylinder c x y z m i) /\ c_box (cylinder_coll cs) i = Ok (cylinder_box c x y z m) /\ c_center (cylinder_coll cs) i = Ok c.
Proof.
  intros Ec Ex Ey Ez Em. destruct made_t as (E1 & E2 & E3 & E4 & E5 & E6). cbn [c_prim c_box c_center cylinder_coll]. unfold cylinder_prim, at_. rewrite E1, E2, E3, E4, E5, Ec, Ex, Ey, Ez, Em.
  split; [reflexivity|]. split; [|reflexivity].
  assert (Hi : (i < length centers)%nat) by (apply nth_error_Some; congruence).
  assert (En : nth_error (seq 0 (length centers)) i = Some i).
  { rewrite (nth_error_nth' _ 0%nat) by (rewrite seq_length; exact Hi). rewrite seq_nth by exact Hi. reflexivity. }
  destruct (mapM_nth _ _ _ E6 i i En) as (b & G & F). unfold at_ in F. rewrite Ec, Ex, Ey, Ez, Em in F. cbn [bind] in F. injection F as <-.
  rewrite G. reflexivity.
Qed.
Lemma tubes_size : c_size (cylinder_coll cs) = length centers.
Proof. destruct made_t as (E & _). cbn [c_size cylinder_coll]. rewrite E. reflexivity. Qed.
Lemma kept_t (st : cyl_isect T) p (r : ray T) h st' : cylinder_intersect st p r = (h, st') -> ci_org st' = ci_org st /\ ci_dir st' = ci_dir st.
Proof. unfold cylinder_intersect. cbv zeta. destruct (cyl_local _ _ _ _ _ _) as [[n t]|]; intros [= _ <-]; auto. Qed.
End Any.

Section F.
Variables prec emax : Z.
Context {Hprec : Prec_gt_0 prec} {Hmax : Prec_lt_emax prec emax}.
Hypothesis Hfmt : usual_format prec emax.
Notation FN := (Fnum prec emax).
Notation isf := (isF prec emax).
Notation rd := (rnd prec emax).
Notation u := (ulpf prec).
Notation low0 := (least emax).
Notation hi0 := (top emax).
Notation q := (/ 1000000).
Variable M : R.
Hypothesis HM : scale_ok prec emax M.
Notation vn := (vn prec emax M).

(** Half an axis, as seen along one coordinate. *)
Lemma tip_F x w fc C f1 f2 f3 s1 s2 s3 : vn 0 1 6.93 x w -> isf fc C -> Rabs C <= M -> isf f1 s1 -> isf f2 s2 -> isf f3 s3 ->
  rv_norm (V s1 s2 s3) <= 1.001 * M ->
  exists p, isf (@dot _ FN x (V f1 f2 f3)) p /\ isf (@nadd _ FN fc (@dot _ FN x (V f1 f2 f3))) (rd (C + p)) /\ isf (@nsub _ FN fc (@dot _ FN x (V f1 f2 f3))) (rd (C - p)) /\
    Rabs (rd (C + p)) <= 3 * M /\ Rabs (rd (C - p)) <= 3 * M /\
    Rabs (rd (C + p) - (C + rv_dot w (V s1 s2 s3))) <= 13 * (u * M) /\ Rabs (rd (C - p) - (C - rv_dot w (V s1 s2 s3))) <= 13 * (u * M).
Proof.
  intros K Hc Bc H1 H2 H3 Hn. destruct (uM_facts prec emax Hfmt M HM) as (U0 & U1 & V1 & UM & UM1 & UM2 & LP & LS & T1 & T2).
  assert (S : vn 1 1.001 0 (V f1 f2 f3) (V s1 s2 s3)).
  { split; [rewrite pow_1; exact Hn|]. exists (V s1 s2 s3). split; [split; [|split]; assumption|].
    replace (rv_sub (V s1 s2 s3) (V s1 s2 s3)) with (V 0 0 0) by (unfold rv_sub; cbn [vx vy vz]; f_equal; ring).
    unfold rv_norm, rv_dot. cbn [vx vy vz]. replace (0 * 0 + 0 * 0 + 0 * 0) with 0 by ring. rewrite sqrt_0. lra. }
  destruct (vn_dot prec emax Hfmt M HM 0 1 1 6.93 1.001 0 10 _ _ _ _ K S ltac:(lia) ltac:(lra) ltac:(lra) ltac:(lra) ltac:(lra) ltac:(lra) ltac:(lra) ltac:(lra)) as (G & p & Hp & E).
  cbn [Nat.add] in G, E. rewrite pow_1 in G, E. set (g := rv_dot w (V s1 s2 s3)) in *.
  assert (Bp : Rabs p <= 1.01 * M). { replace p with ((p - g) + g) by ring. eapply Rle_trans; [apply Rabs_two; [exact E|exact G]|]. lra. }
  assert (Bs : Rabs (C + p) <= 2.01 * M) by (eapply Rle_trans; [apply Rabs_two; [exact Bc|exact Bp]|]; lra).
  assert (Bd : Rabs (C - p) <= 2.01 * M). { unfold Rminus. eapply Rle_trans; [apply Rabs_two; [exact Bc|rewrite Rabs_Ropp; exact Bp]|]. lra. }
  pose proof (rd_add_rel prec emax _ _ _ _ Hc Hp) as Ea. pose proof (rd_sub_rel prec emax _ _ _ _ Hc Hp) as Es.
  assert (u * Rabs (C + p) <= u * (2.01 * M)) by (apply Rmult_le_compat_l; lra). assert (u * Rabs (C - p) <= u * (2.01 * M)) by (apply Rmult_le_compat_l; lra).
  exists p. split; [exact Hp|].
  split; [apply (isF_add prec emax); [exact Hc|exact Hp|]; apply (rd_half_top prec emax (p6 prec emax Hfmt)); lra|].
  split; [apply (isF_sub prec emax); [exact Hc|exact Hp|]; apply (rd_half_top prec emax (p6 prec emax Hfmt)); lra|].
  apply Rabs_le_inv in Ea, Es, E, Bs, Bd. repeat split; apply Rabs_le; lra.
Qed.

Lemma norm_axis s : 0 <= s -> rv_norm (V s 0 0) = s /\ rv_norm (V 0 s 0) = s /\ rv_norm (V 0 0 s) = s.
Proof.
  intros S. unfold rv_norm, rv_dot. cbn [vx vy vz]. split; [|split]; rewrite <- (sqrt_Rsqr s S); f_equal; unfold Rsqr; rewrite ?sqrt_def by apply Rle_0_sqr; ring.
Qed.

Lemma tips_F x w fc C fa fb fh a b h : vn 0 1 6.93 x w -> isf fc C -> Rabs C <= M -> isf fa a -> isf fb b -> isf fh (2 * h) ->
  0 <= a <= M -> 0 <= b <= M -> 0 <= h <= M ->
  exists lo hi, isf (@tips _ FN (@smin_list _ FN) fc fa fb fh x) lo /\ isf (@tips _ FN (@smax_list _ FN) fc fa fb fh x) hi /\
    Rabs lo <= 3 * M /\ Rabs hi <= 3 * M /\ lo <= C <= hi /\
    lo <= C - tip_extent a b (2 * h) w + 16 * (u * M) /\ C + tip_extent a b (2 * h) w - 16 * (u * M) <= hi.
Proof.
  intros K Hc Bc Ha Hb Hh Ba Bb Bh. destruct (uM_facts prec emax Hfmt M HM) as (U0 & U1 & V1 & UM & UM1 & UM2 & LP & LS & T1 & T2).
  destruct (half_F prec emax Hfmt M HM _ _ Hh ltac:(lra)) as (hz & Z1 & _ & Z3 & Z4). replace (2 * h / 2) with h in Z3 by lra.
  assert (zero : isf (@n0 _ FN) 0) by apply (zero_isF prec emax).
  destruct (norm_axis a ltac:(lra)) as (Na & _). destruct (norm_axis b ltac:(lra)) as (_ & Nb & _). destruct (norm_axis hz ltac:(lra)) as (_ & _ & Nz).
  destruct (tip_F x w fc C _ _ _ _ _ _ K Hc Bc Ha zero zero ltac:(lra)) as (p1 & _ & I1 & J1 & B1 & D1 & E1 & F1).
  destruct (tip_F x w fc C _ _ _ _ _ _ K Hc Bc zero Hb zero ltac:(lra)) as (p2 & _ & I2 & J2 & B2 & D2 & E2 & F2).
  destruct (tip_F x w fc C _ _ _ _ _ _ K Hc Bc zero zero Z1 ltac:(lra)) as (p3 & _ & I3 & J3 & B3 & D3 & E3 & F3).
  unfold rv_dot in E1, F1, E2, F2, E3, F3. cbn [vx vy vz] in E1, F1, E2, F2, E3, F3.
  set (rs := [rd (C + p2); rd (C - p1); rd (C - p2); rd (C + p3); rd (C - p3)]).
  destruct (min_list_F prec emax _ _ (rd (C + p1)) rs I1 ltac:(repeat (constructor; [eassumption|]); constructor)) as (l & Il & Ol & Ll & Al).
  destruct (max_list_F prec emax _ _ (rd (C + p1)) rs I1 ltac:(repeat (constructor; [eassumption|]); constructor)) as (g & Ig & Og & Lg & Ag).
  exists l, g. split; [exact Il|]. split; [exact Ig|].
  assert (Bd : forall v, v = rd (C + p1) \/ In v rs -> Rabs v <= 3 * M).
  { intros v [-> |[<-|[<-|[<-|[<-|[<-|[]]]]]]]; assumption. }
  split; [apply Bd, Ol|]. split; [apply Bd, Og|].
  pose proof (Al (rd (C + p2)) ltac:(cbn; auto)) as L2. pose proof (Al (rd (C - p1)) ltac:(cbn; auto)) as L3. pose proof (Al (rd (C - p2)) ltac:(cbn; auto)) as L4.
  pose proof (Al (rd (C + p3)) ltac:(cbn; auto)) as L5. pose proof (Al (rd (C - p3)) ltac:(cbn; auto 7)) as L6.
  pose proof (Ag (rd (C + p2)) ltac:(cbn; auto)) as H2. pose proof (Ag (rd (C - p1)) ltac:(cbn; auto)) as H3. pose proof (Ag (rd (C - p2)) ltac:(cbn; auto)) as H4.
  pose proof (Ag (rd (C + p3)) ltac:(cbn; auto)) as H5. pose proof (Ag (rd (C - p3)) ltac:(cbn; auto 7)) as H6.
  split.
  { pose proof (rd_id prec emax _ _ Hc) as Ec. destruct (Rle_lt_dec p1 0) as [S|S].
    - assert (C <= rd (C - p1)) by (rewrite <- Ec at 1; apply (rd_mono prec emax); lra). assert (rd (C + p1) <= C) by (rewrite <- Ec at 2; apply (rd_mono prec emax); lra). lra.
    - assert (rd (C - p1) <= C) by (rewrite <- Ec at 2; apply (rd_mono prec emax); lra). assert (C <= rd (C + p1)) by (rewrite <- Ec at 1; apply (rd_mono prec emax); lra). lra. }
  assert (W3 : Rabs (vz w) <= 1). { destruct K as (Kn & _). rewrite pow_O in Kn. destruct (comp_norm w) as (_ & _ & W). lra. }
  assert (Ez : Rabs (vz w * hz - vz w * h) <= 2 * (u * M)).
  { rewrite <- Rmult_minus_distr_l, Rabs_mult. apply Rle_trans with (1 * Rabs (hz - h)); [apply Rmult_le_compat_r; [apply Rabs_pos|exact W3]|]. lra. }
  set (X := tip_extent a b (2 * h) w). unfold tip_extent in X. replace (2 * h / 2) with h in X by lra.
  assert (Hit : l <= C - X + 16 * (u * M) /\ C + X - 16 * (u * M) <= g).
  { unfold X. clear X Bd. apply Rabs_le_inv in E1, F1, E2, F2, E3, F3, Ez.
    unfold Rmax. repeat destruct (Rle_dec _ _); unfold Rabs; repeat destruct (Rcase_abs _); split; lra. }
  exact Hit.
Qed.
End F.
