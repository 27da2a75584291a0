(** Embree's cylinder callback with rounding. *)

From Coq Require Import Reals ZArith List Bool Lra Lia Psatz Floats.SpecFloat.
From Flocq Require Import Core IEEE754.BinarySingleNaN Mult_error.
From Verif Require Import Num NumR NumF Vec Ray Traverse Cylinder Embree SpecReal SpecIEEE SpecTri SpecTriF SpecSphF SpecPlane SpecPlaneF SpecEmbree SpecEmbF SpecTubeF SpecTubeN.
From Verif Require Import PfIEEE PfIEEE2 PfIEEE3 PfTriF PfDirF PfX PfSphF PfSphF2 PfSphN PfPlane PfPlaneF PfPlaneF2 PfPlaneF3 PfTubeF PfTubeF2 PfTubeF3 PfTubeF5 PfTubeF6 PfTubeF7 PfTubeF8 PfTubeF9 PfTubeG PfTubeN PfTubeN2.
From Verif Require Import PfEmbree2 PfEmbree3.

(** Every normal the callback stores is turned. *)
Section Forms.
Context {T : Type} {N : num T}.
Local Open Scope num_scope.
Variables (a b h : T) (rot : mat T) (org dir : vec T).
Notation T0 := (cyl_t0 a b (vx org) (vy org) (vx dir) (vy dir)).
Notation T1 := (cyl_t1 a b (vx org) (vy org) (vx dir) (vy dir)).
Hypothesis H01 : (cyl_C a b (vx org) (vy org) (vx dir) (vy dir) <? n0) = false -> (T0 <? T1) = false.
Definition good (w : option (vec T * T)) : Prop :=
  match w with None => True | Some (n, t) => on_cap h rot org dir n t \/ turned a b h rot org dir n t end.
Definition good_flow (f : @flow T) : Prop := match f with Leave w => good w | Through w => good w end.

Lemma eoutside_forms low far : good_flow (ecyl_outside a b h rot low far org dir).
Proof.
  unfold ecyl_outside. destruct (_ <? n0) eqn:C; [exact I|]. rewrite (H01 eq_refl), !andb_false_r. cbn [andb good_flow].
  destruct (_ && _ && _ && _)%bool eqn:B1; [|exact I].
  apply andb_prop in B1 as [B1 B4]. apply andb_prop in B1 as [B1 B3]. apply andb_prop in B1 as [B1 B2]. right. split; [|reflexivity]. repeat split; auto.
Qed.
Lemma ebeyond_forms zc nz far : (nz = n1 /\ zc = h / n2) \/ (nz = - n1 /\ zc = - h / n2) -> good_flow (ecyl_beyond a b h zc nz rot far org dir).
Proof.
  intros Z. unfold ecyl_beyond. destruct (_ =? _); [exact I|]. cbv zeta. destruct ((zc - vz org) / vz dir <? n0); [exact I|]. destruct (_ <=? _); [|apply eoutside_forms].
  left. exists nz, zc. auto.
Qed.
Lemma ecaps_forms w : good w -> good (ecyl_caps h rot org dir w).
Proof.
  intros G. unfold ecyl_caps. cbv zeta. destruct (n0 <? vz dir); [left; exists n1, (h / n2); auto|].
  destruct (vz dir <? n0); [left; exists (- n1), (- h / n2); auto|exact G].
Qed.
Lemma eside t : (cyl_C a b (vx org) (vy org) (vx dir) (vy dir) <? n0) = false -> t = T0 \/ t = T1 ->
  ((n0 <? t) && (vz (vadd org (vscaler dir t)) <=? h / n2) && (- h / n2 <=? vz (vadd org (vscaler dir t))))%bool = true ->
  good (Some (cyl_rot_normal rot (cyl_side_normal a b (vadd org (vscaler dir t))), t)).
Proof.
  intros C E B. apply andb_prop in B as [B B3]. apply andb_prop in B as [B1 B2]. right. split; [|reflexivity]. repeat split; auto.
Qed.
Lemma earea4_forms w : good w -> good (ecyl_area4 a b h rot org dir w).
Proof.
  intros G. unfold ecyl_area4. cbv zeta. destruct (vz dir =? n0).
  - destruct (_ || _)%bool; [exact G|]. destruct (_ <? n0) eqn:C; [exact G|].
    destruct (_ && _ && _)%bool eqn:B0; [apply eside; auto|]. destruct (_ && _ && _)%bool eqn:B1 in |- *; [apply eside; auto|exact G].
  - destruct (_ && (vy dir =? n0))%bool; [destruct (_ =? _); [exact G|apply ecaps_forms, G]|]. destruct (_ <? n0) eqn:C; [exact G|].
    destruct (_ && _ && _)%bool eqn:B1; [apply eside; auto|]. destruct (_ && _ && _)%bool eqn:B0 in |- *; [apply eside; auto|apply ecaps_forms, G].
Qed.
Lemma ecyl_forms : good (ecyl_local a b h rot org dir).
Proof.
  unfold ecyl_local. cbv zeta.
  assert (K : forall f, good_flow f -> good (match f with Leave w => w | Through w => if inside4 a b h org then ecyl_area4 a b h rot org dir w else w end)).
  { intros [w|w] G; [exact G|]. destruct (inside4 a b h org); [apply earea4_forms, G|exact G]. }
  unfold inside4 in K. apply K. clear K. destruct (_ <? vz org); [apply ebeyond_forms; auto|]. destruct (vz org <? _); [apply ebeyond_forms; auto|].
  destruct (_ && _ && _)%bool; [apply eoutside_forms|exact I].
Qed.
End Forms.

Local Open Scope R_scope.
Section F.
Variables prec emax : Z.
Context {Hprec : Prec_gt_0 prec} {Hmax : Prec_lt_emax prec emax}.
Notation FN := (Fnum prec emax).
Notation isf := (isF prec emax).
Notation u := (ulpf prec).

(** The two conditions of [ecyl_local_eq]. *)
Section Tame.
Hypothesis Hfmt : usual_format prec emax.
Variables v W a b hz x0 y0 z0 j k l Rm : R.
Variables fa fb fh fx fy fz fj fk fl : spec_float.
Hypothesis H : tame_local prec emax v W a b hz x0 y0 z0 j k l Rm fa fb fh fx fy fz fj fk fl.
Lemma roots_order : @nltb _ FN (@cyl_C _ FN fa fb fx fy fj fk) (@n0 _ FN) = false -> @nltb _ FN (@cyl_t0 _ FN fa fb fx fy fj fk) (@cyl_t1 _ FN fa fb fx fy fj fk) = false.
Proof.
  intros Ec. destruct (lat_dec j k) as [[Zj Zk]|Njk].
  { destruct (parallel_root prec emax Hfmt _ _ _ _ _ _ _ _ _ _ _ _ _ _ _ _ _ _ _ _ _ H Zj Zk) as [-> _]. apply nan_ltb. }
  destruct (lat prec emax _ _ _ _ _ _ _ _ _ _ _ _ _ _ _ _ _ _ _ _ _ H Njk) as (s & S0 & S1 & Tm). pose proof H as H'. destruct H'.
  destruct (lateral prec emax Hfmt v W fa fb fx fy fj fk a b x0 y0 j k Rm s Tm) as (c & Hc & _ & Pos); try assumption.
  pose proof (ltb_not prec emax _ _ _ _ Hc (zero_isF prec emax) Ec) as C0. destruct (Pos C0) as (t0 & t1 & F0 & F1 & O10 & _).
  apply (ltb_false prec emax _ _ _ _ F0 F1 O10).
Qed.
Lemma behind : rr a b x0 y0 < 1 - 192 * u * (Rm * Rm) -> @nltb _ FN (@n0 _ FN) (@cyl_t1 _ FN fa fb fx fy fj fk) = false.
Proof.
  intros D. destruct (lat_dec j k) as [[Zj Zk]|Njk].
  { destruct (parallel_root prec emax Hfmt _ _ _ _ _ _ _ _ _ _ _ _ _ _ _ _ _ _ _ _ _ H Zj Zk) as [_ ->]. apply nan_ltb. }
  destruct (inside_root prec emax Hfmt _ _ _ _ _ _ _ _ _ _ _ _ _ _ _ _ _ _ _ _ _ H D Njk) as (s & c0 & t0 & t1 & _ & _ & _ & _ & _ & _ & F1 & (T1 & _) & _).
  apply (ltb_false prec emax _ _ _ _ (zero_isF prec emax) F1). lra.
Qed.
Lemma not_inside4 : hz < Rabs z0 \/ 1 + 192 * u * (Rm * Rm) < rr a b x0 y0 -> @inside4 _ FN fa fb fh (V fx fy fz) = false.
Proof.
  intros Out. destruct (org_dec prec emax Hfmt _ _ _ _ _ _ _ _ _ _ _ _ _ _ _ _ _ _ _ _ _ H) as (T1 & _ & _). destruct H.
  change (@inside4 _ FN fa fb fh (V fx fy fz)) with (@nleb _ FN (@ndiv _ FN (@nopp _ FN fh) (@n2 _ FN)) fz && @nleb _ FN fz (@ndiv _ FN fh (@n2 _ FN)) && @nleb _ FN (org_sum prec emax fa fb fx fy) (fK prec emax fa fb))%bool.
  destruct (@nleb _ FN (@ndiv _ FN (@nopp _ FN fh) (@n2 _ FN)) fz) eqn:B1; [|reflexivity]. destruct (@nleb _ FN fz (@ndiv _ FN fh (@n2 _ FN))) eqn:B2; [|reflexivity]. cbn [andb].
  destruct (@nleb _ FN (org_sum prec emax fa fb fx fy) (fK prec emax fa fb)) eqn:B3; [|reflexivity]. exfalso. specialize (T1 eq_refl).
  pose proof (leb_val prec emax _ _ _ _ tl_fn tl_fz B1). pose proof (leb_val prec emax _ _ _ _ tl_fz tl_fh B2). assert (Rabs z0 <= hz) by (apply Rabs_le; lra). lra.
Qed.
End Tame.

Variables (M r v : R) (o d c : vec spec_float) (fa fb fh : spec_float) (m : mat spec_float) (O U C : vec R) (a b h : R) (Q : mat R) (B : vec R).
Hypothesis Ht : tube_ray prec emax M r v o d c fa fb fh m O U C a b h Q B.
Notation Hfmt := (Hfmt prec emax M r v o d c fa fb fh m O U C a b h Q B Ht).
Definition sizes := sizes prec emax M r v o d c fa fb fh m O U C a b h Q B Ht.
Definition k_facts := k_facts prec emax M r v o d c fa fb fh m O U C a b h Q B Ht.
Notation forg := (PfTubeG.forg prec emax o c m).
Notation fdir := (PfTubeG.fdir prec emax d m).
Notation k := (M / r).
Notation e := (tube_err prec M r).
Notation ez := (cap_err prec M).
Notation X t := (local C Q (at_t O U t)).
Section Here.
Variable A : vec R.
Hypothesis HA : visF prec emax forg A.
Hypothesis OA : off (11 * (u * M)) A (local C Q O).
Hypothesis NA : rv_norm A <= 1.001 * M.
Notation P t := (at_t A B t).
Notation ih := (PfTubeF8.in_hit prec a b h (vx A) (vy A) (vz A) (vx B) (vy B) (vz B) (Rm M r)).
Definition TL := tame_here prec emax M r v o d c fa fb fh m O U C a b h Q B Ht A HA NA.
Lemma order_here : @nltb _ FN (@cyl_C _ FN fa fb (vx forg) (vy forg) (vx fdir) (vy fdir)) (@n0 _ FN) = false ->
  @nltb _ FN (@cyl_t0 _ FN fa fb (vx forg) (vy forg) (vx fdir) (vy fdir)) (@cyl_t1 _ FN fa fb (vx forg) (vy forg) (vx fdir) (vy fdir)) = false.
Proof. apply (roots_order Hfmt _ _ _ _ _ _ _ _ _ _ _ _ _ _ _ _ _ _ _ _ _ TL). Qed.
Lemma same_here : outside e ez a b h (local C Q O) \/ deep_in e ez a b h (local C Q O) ->
  same_hit (@cyl_rot_normal _ FN m) (@ecyl_local _ FN fa fb fh m forg fdir) (@cyl_local _ FN fa fb fh m forg fdir).
Proof.
  intros Where. apply (ecyl_local_eq (f_comparisons prec emax)); [exact order_here|]. intros I4. destruct Where as [Out|Dp].
  - pose proof (not_inside4 Hfmt _ _ _ _ _ _ _ _ _ _ _ _ _ _ _ _ _ _ _ _ _ TL (out_org prec emax M r v o d c fa fb fh m O U C a b h Q B Ht A OA NA Out)) as Z.
    rewrite V_eta, I4 in Z. discriminate Z.
  - destruct (deep_org prec emax M r v o d c fa fb fh m O U C a b h Q B Ht A OA NA Dp) as (_ & D2 & _).
    apply (behind Hfmt _ _ _ _ _ _ _ _ _ _ _ _ _ _ _ _ _ _ _ _ _ TL D2).
Qed.
Lemma e_turn : 25 * u + 1.7321 * (672 * (u * (k * k))) <= e /\ 25 * u <= e.
Proof. destruct (e_big prec emax M r v o d c fa fb fh m O U C a b h Q B Ht) as (E1 & _ & E3). pose proof (u_pos prec). lra. Qed.
Lemma eturned_side ft t Y : M <= / (4096 * u) -> isf ft t -> 0 <= t <= 2.5 * M -> near3 prec M (P t) Y -> Rabs (radial a b Y - 1) <= e ->
  side_normal prec emax e a b Q (@cyl_rot_normal _ FN m (@cyl_side_normal _ FN fa fb (@vadd _ FN forg (@vscaler _ FN fdir ft)))) Y.
Proof.
  intros Mu Hft Tl Nr Hr. destruct (side_grad prec emax M r v o d c fa fb fh m O U C a b h Q B Ht Mu A HA NA ft t Y Hft Tl Nr Hr) as (g & Hg & Lg & W0 & Cu). split; [exact Hr|].
  pose proof (tu_rot _ _ _ _ _ _ _ _ _ _ _ _ _ _ _ _ _ _ _ _ Ht) as HQ. destruct (turned_near prec emax Hfmt m Q _ g HQ Hg Lg) as (K & HK & CK).
  pose proof (u_pos prec) as U0. destruct k_facts as (r0 & k0 & k1 & k2 & k3). destruct HQ as [HQ _]. exists K. split; [exact HK|].
  assert (0 <= u * (k * k)) by (apply Rmult_le_pos; [lra|apply Rmult_le_pos; lra]).
  eapply coords_add; [exact CK|apply (turn_close Q _ _ (672 * (u * (k * k))) HQ); [lra|exact Cu]|apply e_turn].
Qed.
Lemma ecapped nz s Y : isf nz s -> s = 1 \/ s = -1 -> Rabs (vz Y - s * h) <= ez -> cap_normal prec emax e ez h Q (@cyl_rot_normal _ FN m (V (@n0 _ FN) (@n0 _ FN) nz)) Y.
Proof.
  intros Hn Hs Hz. exists s. split; [exact Hs|]. split; [exact Hz|]. pose proof (u_pos prec) as U0. pose proof (u_small prec emax Hfmt) as U1.
  assert (N1 : rv_norm (V 0 0 s) = 1).
  { unfold rv_norm, rv_dot. cbn [vx vy vz]. eapply eq_trans; [|apply sqrt_1]. f_equal. destruct Hs as [-> | ->]; ring. }
  assert (Iu : 1000000 <= / u). { rewrite <- (Rinv_inv 1000000). apply Rinv_le_contravar; lra. }
  pose proof (tu_rot _ _ _ _ _ _ _ _ _ _ _ _ _ _ _ _ _ _ _ _ Ht) as HQ.
  destruct (turned_near prec emax Hfmt m Q (V (@n0 _ FN) (@n0 _ FN) nz) (V 0 0 s) HQ) as (K & HK & C1 & C2 & C3); [split; [apply (zero_isF prec emax)|split; [apply (zero_isF prec emax)|exact Hn]]|lra|].
  rewrite (unit_same _ N1) in C1, C2, C3. exists K. split; [exact HK|].
  destruct e_turn as (_ & E). split; [|split]; (eapply Rle_trans; [eassumption|exact E]).
Qed.
Lemma enormal_here n ft t x : M <= / (4096 * u) -> @ecyl_local _ FN fa fb fh m forg fdir = Some (n, ft) -> isf ft t -> ih t -> near3 prec M (P t) (X x) ->
  cap_normal prec emax e ez h Q n (X x) \/ side_normal prec emax e a b Q n (X x).
Proof.
  intros Mu E Hft Hit Nr. pose proof (hit_far prec emax M r v o d c fa fb fh m O U C a b h Q B Ht A NA t Hit) as Tl. pose proof TL as H.
  pose proof (ecyl_forms (N := FN) fa fb fh m forg fdir order_here) as G. rewrite E in G. destruct G as [(nz & zc & Z & -> & Et)|[S ->]].
  - left. destruct (ezl_le prec emax M r v o d c fa fb fh m O U C a b h Q B Ht A NA) as (Z0 & Z1 & Z2).
    assert (one : isf (@n1 _ FN) 1) by apply (one_isF prec emax (p6 prec emax Hfmt)).
    assert (Gs : exists s, isf nz s /\ (s = 1 \/ s = -1) /\ isf zc (s * h)).
    { pose proof H as H'. destruct H'. destruct Z as [[-> ->]|[-> ->]].
      - exists 1. split; [exact one|]. split; [auto|]. rewrite Rmult_1_l. exact tl_fh.
      - exists (-1). split; [replace (-1) with (- (1)) by ring; apply (isF_opp prec emax), one|]. split; [auto|]. replace (-1 * h) with (- h) by ring. exact tl_fn. }
    destruct Gs as (s & Hn & Hs & Hz). assert (Ac : Rabs (s * h) = h).
    { destruct (tu_sizes _ _ _ _ _ _ _ _ _ _ _ _ _ _ _ _ _ _ _ _ Ht) as (Sa & Sb & Sh). destruct k_facts as (r0 & _).
      rewrite Rabs_mult, (Rabs_pos_eq h) by lra. destruct Hs as [-> | ->]; [rewrite Rabs_pos_eq by lra|rewrite (Rabs_left (-1)) by lra]; ring. }
    destruct (cap_height prec emax Hfmt _ _ _ _ _ _ _ _ _ _ _ _ _ _ _ _ _ _ _ _ _ H zc (s * h) ft Hz Ac Et (proj1 (proj2 Hft))) as (t' & Ht' & _ & _ & Eh).
    rewrite (isF_fun prec emax _ _ _ Ht' Hft) in Eh. apply (ecapped nz s _ Hn Hs).
    destruct Nr as (_ & _ & N3). replace (vz (X x) - s * h) with ((vz (X x) - vz (P t)) + (vz A + t * vz B - s * h)) by (cbn [at_t rv_add rv_scale vz]; ring).
    eapply Rle_trans; [apply Rabs_two; [exact N3|exact Eh]|]. lra.
  - right. apply (eturned_side ft t _ Mu Hft Tl Nr).
    apply (side_Y prec emax M r v o d c fa fb fh m O U C a b h Q B Ht A t _ Nr), (side_t prec emax M r v o d c fa fb fh m O U C a b h Q B Ht A HA NA ft t S Hft).
Qed.
End Here.

(** The parameter found and the distance stored. *)
Lemma out_or_in n ft : outside e ez a b h (local C Q O) \/ deep_in e ez a b h (local C Q O) -> @cyl_local _ FN fa fb fh m forg fdir = Some (n, ft) ->
  M <= / (4096 * u) -> forall n', @ecyl_local _ FN fa fb fh m forg fdir = Some (n', ft) ->
  forall x, isf (@norm _ FN (@vscale _ FN ft fdir)) x -> cap_normal prec emax e ez h Q n' (X x) \/ side_normal prec emax e a b Q n' (X x).
Proof.
  intros Where E Mu n' E' x Hx. destruct (org_off prec emax M r v o d c fa fb fh m O U C a b h Q B Ht) as (A & HA & OA & NA).
  assert (Hit : exists t, isf ft t /\ PfTubeF8.in_hit prec a b h (vx A) (vy A) (vz A) (vx B) (vy B) (vz B) (Rm M r) t).
  { destruct Where as [Out|Dp].
    - rewrite <- (V_eta forg), <- (V_eta fdir) in E.
      destruct (local_out prec emax Hfmt _ _ _ _ _ _ _ _ _ _ _ _ _ _ _ _ _ _ _ _ _ (TL A HA NA) m n ft (out_org prec emax M r v o d c fa fb fh m O U C a b h Q B Ht A OA NA Out) E) as (t & Htt & Hit & _).
      exists t. split; assumption.
    - destruct (deep_org prec emax M r v o d c fa fb fh m O U C a b h Q B Ht A OA NA Dp) as (D1 & D2 & D3).
      destruct (dir_off prec emax M r v o d c fa fb fh m O U C a b h Q B Ht) as (_ & _ & NB). destruct sizes as (U0 & U1 & V1 & UM & UM1 & UM2 & _).
      destruct (local_in prec emax Hfmt _ _ _ _ _ _ _ _ _ _ _ _ _ _ _ _ _ _ _ _ _ (TL A HA NA) m D1 D2) as (n2 & ft2 & t & E2 & Htt & Hit).
      { intros [Z [Z1|[Z1 Z2]]]; [lra|]. assert (N0 : rv_norm B = 0) by (unfold rv_norm, rv_dot; rewrite Z, Z1, Z2; replace (0 * 0 + 0 * 0 + 0 * 0) with 0 by ring; apply sqrt_0). lra. }
      rewrite !V_eta, E in E2. injection E2 as <- <-. exists t. split; assumption. }
  destruct Hit as (t & Htt & Hit). pose proof (hit_far prec emax M r v o d c fa fb fh m O U C a b h Q B Ht A NA t Hit) as Tl.
  destruct (far_here prec emax M r v o d c fa fb fh m O U C a b h Q B Ht ft t Htt Tl) as (x' & Hx' & Xl & Ex).
  rewrite (isF_fun prec emax _ _ _ Hx' Hx) in Ex.
  apply (enormal_here A HA NA n' ft t x Mu E' Htt Hit). apply (X_dist prec emax M r v o d c fa fb fh m O U C a b h Q B Ht A OA); [lra|lra|exact Ex].
Qed.

(** The callback beside the native routine. *)
Lemma eagree rh g inst st ray id : r_org (rh_ray rh) = o -> r_dir (rh_ray rh) = d -> ci_org st = o -> ci_dir st = d ->
  outside e ez a b h (local C Q O) \/ deep_in e ez a b h (local C Q O) ->
  exists rh', @ecyl_intersect _ FN (ECyl c fa fb fh m (Some g)) 0 true inst rh = Ok rh' /\ same_ray rh rh' /\
    ((rh' = rh /\ @cylinder_intersect _ FN st (Cylinder c fa fb fh m id) ray = (false, st)) \/
     (exists st', @cylinder_intersect _ FN st (Cylinder c fa fb fh m id) ray = (true, st') /\
        e_prim (rh_hit rh') = Some 0%nat /\ e_geom (rh_hit rh') = Some g /\ r_tfar (rh_ray rh') = ci_hd st' /\
        (M <= / (4096 * u) -> forall x, isf (ci_hd st') x -> cap_normal prec emax e ez h Q (e_ng (rh_hit rh')) (X x) \/ side_normal prec emax e a b Q (e_ng (rh_hit rh')) (X x)))).
Proof.
  intros Ro Rd So Sd Where. rewrite (isect_shape prec emax o d c fa fb fh m st ray id So Sd).
  destruct (org_off prec emax M r v o d c fa fb fh m O U C a b h Q B Ht) as (A & HA & OA & NA). pose proof (same_here A HA OA NA Where) as S.
  unfold ecyl_intersect, user, at_. cbn [nth_error bind ec_center ec_a ec_b ec_h ec_rot ec_geom negb]. rewrite Ro, Rd.
  change (@mulmv _ FN (trans m) (@vsub _ FN o c)) with forg. change (@mulmv _ FN (trans m) d) with fdir.
  destruct (@ecyl_local _ FN fa fb fh m forg fdir) as [[n ft]|] eqn:E, (@cyl_local _ FN fa fb fh m forg fdir) as [[n' ft']|] eqn:E'; try destruct S as [].
  - eexists. split; [reflexivity|]. split; [split; [reflexivity|split; reflexivity]|]. right. eexists. split; [reflexivity|].
    cbn [set_ray_hit rh_hit rh_ray e_prim e_geom r_tfar e_ng ci_hd]. subst ft'. split; [reflexivity|]. split; [reflexivity|]. split; [reflexivity|].
    intros Mu x Hx. apply (out_or_in n' ft Where E' Mu n E x Hx).
  - eexists. split; [reflexivity|]. split; [split; [reflexivity|split; reflexivity]|]. left. split; reflexivity.
Qed.
End F.

(** The statements. *)
Section Say.
Variables prec emax : Z.
Context {Hprec : Prec_gt_0 prec} {Hmax : Prec_lt_emax prec emax}.
Notation FN := (Fnum prec emax).
Variables (M r v : R) (c : vec spec_float) (fa fb fh : spec_float) (m : mat spec_float) (O U C : vec R) (a b h : R) (Q : mat R) (B : vec R) (rh : rtc_rayhit spec_float).
Notation o := (r_org (rh_ray rh)).
Notation d := (r_dir (rh_ray rh)).
Hypothesis Ht : tube_ray prec emax M r v o d c fa fb fh m O U C a b h Q B.
Notation e := (tube_err prec M r).
Notation ez := (cap_err prec M).
Notation X t := (local C Q (at_t O U t)).
Notation good_normal n x := (M <= / (4096 * ulpf prec) -> cap_normal prec emax e ez h Q n (X x) \/ side_normal prec emax e a b Q n (X x)).
Let st0 : cyl_isect spec_float := CylIsect o o d fa (fa, fa) fa None.
Let ray0 : ray spec_float := @make_ray _ FN o d fa fa false.

Lemma ecyl_from_outside g inst : outside e ez a b h (local C Q O) ->
  exists rh', @ecyl_intersect _ FN (ECyl c fa fb fh m (Some g)) 0 true inst rh = Ok rh' /\ same_ray rh rh' /\
  (rh' = rh \/ exists x, records prec emax g rh' x /\ 0 <= x <= 3 * M /\ on_tube e ez a b h (X x) /\ good_normal (e_ng (rh_hit rh')) x /\
     forall t, 0 <= t <= x -> ~ deep_in e ez a b h (X t)).
Proof.
  intros Out. destruct (eagree prec emax M r v o d c fa fb fh m O U C a b h Q B Ht rh g inst st0 ray0 0%nat eq_refl eq_refl eq_refl eq_refl (or_introl Out)) as (rh' & E & S & G).
  exists rh'. split; [exact E|]. split; [exact S|]. destruct G as [[G _]|(st' & I & G1 & G2 & G3 & G4)]; [left; exact G|right].
  destruct (tube_from_outside prec emax M r v o d c fa fb fh m O U C a b h Q B Ht st0 ray0 0%nat st' eq_refl eq_refl I Out) as (_ & x & Hx & Xl & On & Bef).
  exists x. split; [split; [exact G1|split; [exact G2|rewrite G3; exact Hx]]|]. split; [exact Xl|]. split; [exact On|]. split; [intros Mu; apply (G4 Mu x Hx)|exact Bef].
Qed.
Lemma ecyl_not_missed g inst t' : clear_outside e ez a b h (local C Q O) -> 0 <= t' -> deep_in e ez a b h (X t') ->
  (forall t, 0 <= t <= t' -> ~ near_rim e ez a b h (X t)) ->
  exists rh' x, @ecyl_intersect _ FN (ECyl c fa fb fh m (Some g)) 0 true inst rh = Ok rh' /\ records prec emax g rh' x /\ x < t'.
Proof.
  intros Cl T0 Dp Rim. assert (Out : outside e ez a b h (local C Q O)) by (destruct Cl as [Cl|[_ Cl]]; [left|right]; exact Cl).
  destruct (eagree prec emax M r v o d c fa fb fh m O U C a b h Q B Ht rh g inst st0 ray0 0%nat eq_refl eq_refl eq_refl eq_refl (or_introl Out)) as (rh' & E & _ & G).
  destruct (tube_not_missed prec emax M r v o d c fa fb fh m O U C a b h Q B Ht st0 ray0 0%nat t' eq_refl eq_refl Cl T0 Dp Rim) as (s2 & x & I2 & Hx & Lt).
  destruct G as [[_ G]|(st' & I & G1 & G2 & G3 & _)]; [rewrite I2 in G; discriminate G|]. rewrite I2 in I. injection I as <-.
  exists rh', x. split; [exact E|]. split; [split; [exact G1|split; [exact G2|rewrite G3; exact Hx]]|exact Lt].
Qed.
Lemma ecyl_from_inside g inst : deep_in e ez a b h (local C Q O) ->
  exists rh' x, @ecyl_intersect _ FN (ECyl c fa fb fh m (Some g)) 0 true inst rh = Ok rh' /\ same_ray rh rh' /\ records prec emax g rh' x /\ 0 <= x <= 3 * M /\
    on_tube e ez a b h (X x) /\ good_normal (e_ng (rh_hit rh')) x /\ forall t, 0 <= t <= x -> in_tube e ez a b h (X t).
Proof.
  intros Dp. destruct (eagree prec emax M r v o d c fa fb fh m O U C a b h Q B Ht rh g inst st0 ray0 0%nat eq_refl eq_refl eq_refl eq_refl (or_intror Dp)) as (rh' & E & S & G).
  destruct (tube_from_inside prec emax M r v o d c fa fb fh m O U C a b h Q B Ht st0 ray0 0%nat eq_refl eq_refl Dp) as (s2 & x & I2 & _ & Hx & Xl & On & Bef).
  destruct G as [[_ G]|(st' & I & G1 & G2 & G3 & G4)]; [rewrite I2 in G; discriminate G|]. rewrite I2 in I. injection I as <-.
  exists rh', x. split; [exact E|]. split; [exact S|]. split; [split; [exact G1|split; [exact G2|rewrite G3; exact Hx]]|]. split; [exact Xl|]. split; [exact On|]. split; [intros Mu; apply (G4 Mu x Hx)|exact Bef].
Qed.
End Say.
