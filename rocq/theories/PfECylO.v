(** Embree's cylinder occlusion callback with rounding. *)

From Coq Require Import Reals ZArith List Bool Lra Lia Floats.SpecFloat.
From Flocq Require Import Core IEEE754.BinarySingleNaN.
From Verif Require Import Num NumR NumF Vec Ray Cylinder Embree SpecReal SpecIEEE SpecTriF SpecSphF SpecPlane SpecPlaneF SpecEmbree SpecEmbF SpecTubeF SpecTubeN.
From Verif Require Import PfIEEE PfIEEE2 PfIEEE3 PfTriF PfSphF2 PfPlaneF PfPlaneF3 PfTubeF PfTubeF2 PfTubeF3 PfTubeF5 PfTubeF6 PfTubeF8 PfTubeF9 PfTubeG PfEmbree2 PfEmbree3 PfECylF.

Section Any.
Context {T : Type} {N : num T}.
Local Open Scope num_scope.
(** Outside, whatever the intersection callback hits is marked. *)
Lemma ecyl_marked (L : comparisons N) a b h rot org dir : inside4 a b h org = false -> ecyl_local a b h rot org dir <> None -> ecyl_occ_local a b h org dir = true.
Proof.
  intros I4 Hn. destruct (h / n2 <? vz org) eqn:E1; [apply (ecyl_local_beyond L a b h rot org dir (or_introl E1)), Hn|].
  destruct (vz org <? - h / n2) eqn:E2; [apply (ecyl_local_beyond L a b h rot org dir (or_intror E2)), Hn|].
  destruct (beside3 a b h org) eqn:E3; [apply (ecyl_local_beside L a b h rot org dir E3 Hn)|].
  exfalso. apply Hn. unfold ecyl_local. cbv zeta. fold (inside4 a b h org) (beside3 a b h org). rewrite E1, E2, E3, I4. reflexivity.
Qed.
End Any.

Local Open Scope R_scope.
Section F.
Variables prec emax : Z.
Context {Hprec : Prec_gt_0 prec} {Hmax : Prec_lt_emax prec emax}.
Notation FN := (Fnum prec emax).
Notation isf := (isF prec emax).
Notation u := (ulpf prec).
Notation marks rh e := (@ecyl_occluded _ FN e 0 true (rh_ray rh) = Ok (set_tfar (rh_ray rh) (@ninf_neg _ FN))).

Section Tame.
Hypothesis Hfmt : usual_format prec emax.
Variables v W a b hz x0 y0 z0 j k l Rm : R.
Variables fa fb fh fx fy fz fj fk fl : spec_float.
Hypothesis H : tame_local prec emax v W a b hz x0 y0 z0 j k l Rm fa fb fh fx fy fz fj fk fl.
Lemma parallel_C : j = 0 -> k = 0 -> @nltb _ FN (@cyl_C _ FN fa fb fx fy fj fk) (@n0 _ FN) = false.
Proof.
  intros Hj Hk. destruct (prods_ok prec emax Hfmt v W a b hz x0 y0 z0 j k l Rm fa fb fh fx fy fz fj fk fl H) as ((aa & Haa) & (bb & Hbb) & _). destruct H. rewrite Hj in tl_fj. rewrite Hk in tl_fk.
  assert (R0 : forall x y c, isf x c -> isf y 0 -> isf (@nmul _ FN x y) 0) by (intros x y c Hx Hy; apply (mul_zero prec emax _ _ c 0); [exact Hx|exact Hy|right; reflexivity]).
  assert (L0 : forall x y c, isf x 0 -> isf y c -> isf (@nmul _ FN x y) 0) by (intros x y c Hx Hy; apply (mul_zero prec emax _ _ 0 c); [exact Hx|exact Hy|left; reflexivity]).
  pose proof (R0 _ _ _ Haa tl_fk) as K1. pose proof (R0 _ _ _ Hbb tl_fj) as J1.
  assert (C : isf (@cyl_C _ FN fa fb fx fy fj fk) 0).
  { unfold cyl_C. apply (sub_zero prec emax); [apply (add_zero prec emax); [apply (sub_zero prec emax); [apply (add_zero prec emax); [apply (L0 _ _ 0); assumption|apply (L0 _ _ 0); assumption]|]|]|].
    - apply (L0 _ _ y0); [|assumption]. apply (L0 _ _ y0); [|assumption]. apply (L0 _ _ 0); assumption.
    - apply (L0 _ _ y0); [|assumption]. apply (L0 _ _ x0); [|assumption]. apply (L0 _ _ 0); [|assumption]. apply (R0 _ _ 2); [apply (two_isF prec emax Hfmt)|assumption].
    - apply (L0 _ _ x0); [|assumption]. apply (L0 _ _ x0); [|assumption]. apply (L0 _ _ 0); assumption. }
  apply (ltb_false prec emax _ _ _ _ C (zero_isF prec emax) (Rle_refl 0)).
Qed.
Lemma inside_marked : Rabs z0 < hz -> rr a b x0 y0 < 1 - 192 * u * (Rm * Rm) -> @ecyl_occ_local _ FN fa fb fh (V fx fy fz) (V fj fk fl) = true.
Proof.
  intros Dz D. destruct (org_dec prec emax Hfmt _ _ _ _ _ _ _ _ _ _ _ _ _ _ _ _ _ _ _ _ _ H) as (_ & T2 & T3). apply Rabs_def2 in Dz.
  assert (I3 : @nleb _ FN (org_sum prec emax fa fb fx fy) (fK prec emax fa fb) = true).
  { destruct (@nleb _ FN (org_sum prec emax fa fb fx fy) (fK prec emax fa fb)); [reflexivity|]. specialize (T2 eq_refl). lra. }
  rewrite I3 in T3. cbn [negb] in T3.
  assert (Root : @nltb _ FN (@cyl_C _ FN fa fb fx fy fj fk) (@n0 _ FN) = false /\ @nleb _ FN (@cyl_t0 _ FN fa fb fx fy fj fk) (@n0 _ FN) = false).
  { destruct (lat_dec j k) as [[Zj Zk]|Njk].
    - destruct (parallel_root prec emax Hfmt _ _ _ _ _ _ _ _ _ _ _ _ _ _ _ _ _ _ _ _ _ H Zj Zk) as [-> _]. split; [|reflexivity]. apply parallel_C; assumption.
    - destruct (inside_root prec emax Hfmt _ _ _ _ _ _ _ _ _ _ _ _ _ _ _ _ _ _ _ _ _ H D Njk) as (s & c0 & t0 & t1 & _ & _ & _ & Hc & C0 & F0 & F1 & (T1 & T0) & _).
      split; [apply (ltb_false prec emax _ _ _ _ Hc (zero_isF prec emax) C0)|apply (leb_false prec emax _ _ _ _ F0 (zero_isF prec emax)); lra]. }
  destruct Root as [Rc Rt]. destruct H.
  assert (L1 : @nltb _ FN (@ndiv _ FN fh (@n2 _ FN)) fz = false) by (apply (ltb_false prec emax _ _ _ _ tl_fh tl_fz); lra).
  assert (L2 : @nltb _ FN fz (@ndiv _ FN (@nopp _ FN fh) (@n2 _ FN)) = false) by (apply (ltb_false prec emax _ _ _ _ tl_fz tl_fn); lra).
  assert (L3 : @nleb _ FN (@ndiv _ FN (@nopp _ FN fh) (@n2 _ FN)) fz = true) by (apply (leb_true prec emax _ _ _ _ tl_fn tl_fz); lra).
  assert (L4 : @nleb _ FN fz (@ndiv _ FN fh (@n2 _ FN)) = true) by (apply (leb_true prec emax _ _ _ _ tl_fz tl_fh); lra).
  assert (L5 : @neqb _ FN fz (@ndiv _ FN (@nopp _ FN fh) (@n2 _ FN)) = false).
  { destruct (@neqb _ FN fz (@ndiv _ FN (@nopp _ FN fh) (@n2 _ FN))) eqn:E; [|reflexivity]. pose proof (isF_eqb prec emax _ _ _ _ tl_fz tl_fn E). lra. }
  assert (L6 : @neqb _ FN fz (@ndiv _ FN fh (@n2 _ FN)) = false).
  { destruct (@neqb _ FN fz (@ndiv _ FN fh (@n2 _ FN))) eqn:E; [|reflexivity]. pose proof (isF_eqb prec emax _ _ _ _ tl_fz tl_fh E). lra. }
  unfold ecyl_occ_local. cbv zeta. cbn [vx vy vz]. rewrite L1, L2, L3, L4, L5, L6.
  change (@nltb _ FN _ (@nadd _ FN _ _)) with (@nltb _ FN (fK prec emax fa fb) (org_sum prec emax fa fb fx fy)) at 1.
  change (@nleb _ FN (@nadd _ FN _ _) _) with (@nleb _ FN (org_sum prec emax fa fb fx fy) (fK prec emax fa fb)).
  rewrite T3, I3, Rc, Rt, !andb_false_r. reflexivity.
Qed.
End Tame.

Section Say.
Variables (M r v : R) (c : vec spec_float) (fa fb fh : spec_float) (m : mat spec_float) (O U C : vec R) (a b h : R) (Q : mat R) (B : vec R) (rh : rtc_rayhit spec_float).
Notation o := (r_org (rh_ray rh)).
Notation d := (r_dir (rh_ray rh)).
Hypothesis Ht : tube_ray prec emax M r v o d c fa fb fh m O U C a b h Q B.
Notation Hfmt := (Hfmt prec emax M r v o d c fa fb fh m O U C a b h Q B Ht).
Notation e := (tube_err prec M r).
Notation ez := (cap_err prec M).
Notation X t := (local C Q (at_t O U t)).
Notation forg := (PfTubeG.forg prec emax o c m).
Notation fdir := (PfTubeG.fdir prec emax d m).
Lemma occ_shape g : @ecyl_occluded _ FN (ECyl c fa fb fh m g) 0 true (rh_ray rh) =
  Ok (if @ecyl_occ_local _ FN fa fb fh forg fdir then set_tfar (rh_ray rh) (@ninf_neg _ FN) else rh_ray rh).
Proof.
  unfold ecyl_occluded, user, at_. cbn [nth_error bind ec_center ec_a ec_b ec_h ec_rot ec_geom negb].
  change (@mulmv _ FN (trans m) (@vsub _ FN o c)) with forg. change (@mulmv _ FN (trans m) d) with fdir. destruct (@ecyl_occ_local _ FN fa fb fh forg fdir); reflexivity.
Qed.
Lemma hit_shape g inst : @ecyl_intersect _ FN (ECyl c fa fb fh m (Some g)) 0 true inst rh =
  Ok (match @ecyl_local _ FN fa fb fh m forg fdir with None => rh | Some (n, t) => set_ray_hit rh n (@n0 _ FN) (@n0 _ FN) (Some 0%nat) (Some g) inst (@norm _ FN (@vscale _ FN t fdir)) end).
Proof.
  unfold ecyl_intersect, user, at_. cbn [nth_error bind ec_center ec_a ec_b ec_h ec_rot ec_geom negb].
  change (@mulmv _ FN (trans m) (@vsub _ FN o c)) with forg. change (@mulmv _ FN (trans m) d) with fdir. destruct (@ecyl_local _ FN fa fb fh m forg fdir) as [[n t]|]; reflexivity.
Qed.
Lemma eocc_inside g : deep_in e ez a b h (local C Q O) -> marks rh (ECyl c fa fb fh m g).
Proof.
  intros Dp. destruct (org_off prec emax M r v o d c fa fb fh m O U C a b h Q B Ht) as (A & HA & OA & NA).
  destruct (deep_org prec emax M r v o d c fa fb fh m O U C a b h Q B Ht A OA NA Dp) as (_ & D2 & D3). rewrite occ_shape.
  pose proof (inside_marked Hfmt _ _ _ _ _ _ _ _ _ _ _ _ _ _ _ _ _ _ _ _ _ (tame_here prec emax M r v o d c fa fb fh m O U C a b h Q B Ht A HA NA) D3 D2) as E.
  rewrite !V_eta in E. rewrite E. reflexivity.
Qed.
Lemma out4 : outside e ez a b h (local C Q O) -> @inside4 _ FN fa fb fh forg = false.
Proof.
  intros Out. destruct (org_off prec emax M r v o d c fa fb fh m O U C a b h Q B Ht) as (A & HA & OA & NA).
  pose proof (not_inside4 prec emax Hfmt _ _ _ _ _ _ _ _ _ _ _ _ _ _ _ _ _ _ _ _ _ (tame_here prec emax M r v o d c fa fb fh m O U C a b h Q B Ht A HA NA)
    (out_org prec emax M r v o d c fa fb fh m O U C a b h Q B Ht A OA NA Out)) as Z.
  rewrite V_eta in Z. exact Z.
Qed.
Lemma eocc_hits g inst rh' : outside e ez a b h (local C Q O) \/ deep_in e ez a b h (local C Q O) ->
  @ecyl_intersect _ FN (ECyl c fa fb fh m (Some g)) 0 true inst rh = Ok rh' -> rh' = rh \/ marks rh (ECyl c fa fb fh m (Some g)).
Proof.
  intros [Out|Dp]; [|intros _; right; apply eocc_inside, Dp]. rewrite hit_shape, occ_shape.
  destruct (@ecyl_local _ FN fa fb fh m forg fdir) as [[n t]|] eqn:E; [intros _; right|intros I; injection I as <-; left; reflexivity].
  rewrite (ecyl_marked (f_comparisons prec emax) fa fb fh m forg fdir (out4 Out)); [reflexivity|rewrite E; discriminate].
Qed.
Lemma eocc_not_missed g t' : clear_outside e ez a b h (local C Q O) -> 0 <= t' -> deep_in e ez a b h (X t') ->
  (forall t, 0 <= t <= t' -> ~ near_rim e ez a b h (X t)) -> marks rh (ECyl c fa fb fh m g).
Proof.
  intros Cl T0 Dp Rim. assert (Out : outside e ez a b h (local C Q O)) by (destruct Cl as [Cl|[_ Cl]]; [left|right]; exact Cl).
  destruct (tube_not_missed prec emax M r v o d c fa fb fh m O U C a b h Q B Ht (CylIsect o o d fa (fa, fa) fa None) (@make_ray _ FN o d fa fa false) 0%nat t' eq_refl eq_refl Cl T0 Dp Rim) as (st' & x & I & _).
  rewrite (isect_shape prec emax o d) in I by reflexivity.
  destruct (org_off prec emax M r v o d c fa fb fh m O U C a b h Q B Ht) as (A & HA & OA & NA).
  pose proof (same_here prec emax M r v o d c fa fb fh m O U C a b h Q B Ht A HA OA NA (or_introl Out)) as S.
  rewrite occ_shape. rewrite (ecyl_marked (f_comparisons prec emax) fa fb fh m forg fdir (out4 Out)); [reflexivity|].
  intros E. rewrite E in S. destruct (@cyl_local _ FN fa fb fh m forg fdir) as [[n t]|]; [destruct S|discriminate I].
Qed.
(** Beyond a cap the ray is marked only if it meets the surface. *)
Lemma eocc_beyond g : h + ez < Rabs (vz (local C Q O)) ->
  @ecyl_occluded _ FN (ECyl c fa fb fh m g) 0 true (rh_ray rh) = Ok (rh_ray rh) \/
  (marks rh (ECyl c fa fb fh m g) /\ exists x, 0 <= x <= 3 * M /\ on_tube e ez a b h (X x) /\ forall t, 0 <= t <= x -> ~ deep_in e ez a b h (X t)).
Proof.
  intros Far. assert (Out : outside e ez a b h (local C Q O)) by (left; exact Far).
  destruct (org_off prec emax M r v o d c fa fb fh m O U C a b h Q B Ht) as (A & HA & OA & NA).
  assert (Fz : h < Rabs (vz A)).
  { destruct (ezl_le prec emax M r v o d c fa fb fh m O U C a b h Q B Ht A NA) as (Z0 & Z1 & Z2). pose proof (z_near prec M _ _ (near_0 prec emax M r v o d c fa fb fh m O U C a b h Q B Ht A OA)). lra. }
  pose proof (same_here prec emax M r v o d c fa fb fh m O U C a b h Q B Ht A HA OA NA (or_introl Out)) as S.
  pose proof (tame_here prec emax M r v o d c fa fb fh m O U C a b h Q B Ht A HA NA) as H. destruct H.
  assert (Z : @nltb _ FN (@ndiv _ FN fh (@n2 _ FN)) (vz forg) = true \/ @nltb _ FN (vz forg) (@ndiv _ FN (@nopp _ FN fh) (@n2 _ FN)) = true).
  { rewrite (isF_ltb prec emax _ _ _ _ tl_fh tl_fz), (isF_ltb prec emax _ _ _ _ tl_fz tl_fn). unfold Rltb. destruct (Rlt_dec h (vz A)); [left; reflexivity|right].
    destruct (Rlt_dec (vz A) (- h)); [reflexivity|]. exfalso. apply (Rlt_not_le _ _ Fz). apply Rabs_le. lra. }
  pose proof (ecyl_local_beyond (f_comparisons prec emax) fa fb fh m forg fdir Z) as Eq. rewrite occ_shape.
  destruct (@ecyl_occ_local _ FN fa fb fh forg fdir); [right; split; [reflexivity|]|left; reflexivity].
  pose proof (proj1 Eq eq_refl) as Hn. destruct (@cyl_local _ FN fa fb fh m forg fdir) as [[n t]|] eqn:E.
  - pose proof (isect_shape prec emax o d c fa fb fh m (CylIsect o o d fa (fa, fa) fa None) (@make_ray _ FN o d fa fa false) 0%nat eq_refl eq_refl) as I. rewrite E in I.
    destruct (tube_from_outside prec emax M r v o d c fa fb fh m O U C a b h Q B Ht (CylIsect o o d fa (fa, fa) fa None) (@make_ray _ FN o d fa fa false) 0%nat _ eq_refl eq_refl I Out) as (_ & x & _ & G). exists x. exact G.
  - destruct (@ecyl_local _ FN fa fb fh m forg fdir) as [[n t]|]; [destruct S|destruct (Hn eq_refl)].
Qed.
End Say.
End F.
