(** Queries on patches in IEEE arithmetic. *)

From Coq Require Import Reals ZArith List Bool Arith Lra Lia Psatz Floats.SpecFloat.
From Flocq Require Import Core IEEE754.BinarySingleNaN.
From Verif Require Import Num NumR NumF Vec Datatypes Ray Bvh Traverse Sphere Plane SpecBvh SpecReal SpecIEEE SpecAny SpecTriF SpecSphF SpecPlane SpecPlaneF.
From Verif Require Import PfBuild PfBuild2 PfSphere2 PfTrav2 PfNumbered PfReject PfAny PfLate PfIEEE PfIEEE2 PfIEEE3 PfIEEE4 PfTriF PfTriF2 PfDirF PfX PfSphF PfSphF2 PfPlane
  PfPlaneF PfPlaneF2 PfPlaneF3 PfPlaneF4 PfPlaneF5 PfPlaneF6 PfPlaneF7.
Import ListNotations.
Local Open Scope R_scope.

(** A collection in any arithmetic. *)
Section Any.
Context {T : Type} {N : num T}.
Variables (centers : list (vec T)) (dxs dys : list T) (rots : list (mat T)) (ps : planes T).
Hypothesis Hmake : make_planes centers dxs dys rots = Ok ps.
Lemma made_p : ps_centers ps = centers /\ ps_dxs ps = dxs /\ ps_dys ps = dys /\ ps_rots ps = rots /\
  mapM (fun i => do c <- at_ UBprim centers i; do dx <- at_ UBprim dxs i; do dy <- at_ UBprim dys i; do m <- at_ UBprim rots i;
                 Ok (plane_box c dx dy m)) (seq 0 (length centers)) = Ok (ps_box ps).
Proof. pose proof Hmake as H. unfold make_planes in H. apply bind_ok in H as (box & E & H). injection H as <-. auto. Qed.
Lemma stored_plane i c x y m : nth_error centers i = Some c -> nth_error dxs i = Some x -> nth_error dys i = Some y -> nth_error rots i = Some m ->
  c_prim (plane_coll ps) i = Ok (Plane c x y m i) /\ c_box (plane_coll ps) i = Ok (plane_box c x y m) /\ c_center (plane_coll ps) i = Ok c.
Proof.
  intros Ec Ex Ey Em. destruct made_p as (E1 & E2 & E3 & E4 & E5). cbn [c_prim c_box c_center plane_coll]. unfold plane_prim, at_. rewrite E1, E2, E3, E4, Ec, Ex, Ey, Em.
  split; [reflexivity|]. split; [|reflexivity].
  assert (Hi : (i < length centers)%nat) by (apply nth_error_Some; congruence).
  assert (En : nth_error (seq 0 (length centers)) i = Some i).
  { rewrite (nth_error_nth' _ 0%nat) by (rewrite seq_length; exact Hi). rewrite seq_nth by exact Hi. reflexivity. }
  destruct (mapM_nth _ _ _ E5 i i En) as (b & G & F). unfold at_ in F. rewrite Ec, Ex, Ey, Em in F. cbn [bind] in F. injection F as <-.
  rewrite G. reflexivity.
Qed.
Lemma planes_size : c_size (plane_coll ps) = length centers.
Proof. destruct made_p as (E & _). cbn [c_size plane_coll]. rewrite E. reflexivity. Qed.
Lemma min_kept_p (st : plane_isect T) p (r : ray T) h st' : plane_intersect st p r = (h, st') ->
  pi_org st' = pi_org st /\ pi_dir st' = pi_dir st /\ pi_min st' = pi_min st.
Proof.
  unfold plane_intersect. cbv zeta. repeat match goal with |- (if ?b then _ else _) = _ -> _ => destruct b; [intros [= _ <-]; auto|] end. intros [= _ <-]; auto.
Qed.
End Any.

Section F.
Variables prec emax : Z.
Context {Hprec : Prec_gt_0 prec} {Hmax : Prec_lt_emax prec emax}.
Notation FN := (Fnum prec emax).
Notation isf := (isF prec emax).
Notation rd := (rnd prec emax).
Notation u := (ulpf prec).
Notation q := (/ 1000000).
Variable M : R.
Variables (centers : list (vec spec_float)) (dxs dys : list spec_float) (rots : list (mat spec_float)).
Variables (C : nat -> vec R) (dx dy : nat -> R) (Q : nat -> mat R).
Variables (o d : vec spec_float) (tmin tmax : spec_float) (any : bool) (O D : vec R) (lo : R).
Hypothesis Hray : patch_ray prec emax M centers dxs dys rots C dx dy Q o d tmin tmax O D lo.
Variable ps : planes spec_float.
Hypothesis Hmake : @make_planes _ FN centers dxs dys rots = Ok ps.
Notation cl := (@plane_coll _ ps).
Notation U := (unit_of D).
Notation r := (@make_ray _ FN o d tmin tmax any).
Notation isx := (@plane_isector _ FN).
Notation lo1 := (lo_unit lo D).
Notation box i := (box_of prec emax centers dxs dys rots i).
Notation k i := (steepness (Q i) U).
Notation hit i t := (pierces (patch_err prec M) (C i) (dx i) (dy i) (Q i) O U lo1 t).

Lemma Pfmt : usual_format prec emax. Proof. apply Hray. Qed.
Lemma Pscale : scale_ok prec emax M. Proof. apply Hray. Qed.
Lemma PL : 1 - 4 * u <= rv_norm D <= / u. Proof. apply Hray. Qed.
Lemma Pdir : unit_near prec emax (direction r) U.
Proof.
  pose proof (u_small prec emax Pfmt). split; [|apply (normalize_near prec emax Pfmt d D); [apply Hray|destruct PL; split; lra]].
  unfold unit_of. rewrite rv_norm_scale. destruct PL. rewrite Rabs_pos_eq by (apply Rlt_le, Rinv_0_lt_compat; lra). apply Rinv_l. lra.
Qed.
Lemma Pdata i : (i < length centers)%nat -> exists c x y m, plane_isF prec emax M O c x y m (C i) (dx i) (dy i) (Q i) /\ coords M (C i) /\
  c_prim cl i = Ok (Plane c x y m i) /\ c_box cl i = Ok (@plane_box _ FN c x y m) /\ c_center cl i = Ok c /\ box i = @plane_box _ FN c x y m.
Proof.
  intros Hi. destruct (pr_patches _ _ _ _ _ _ _ _ _ _ _ _ _ _ _ _ _ _ Hray i Hi) as (c & x & y & m & E1 & E2 & E3 & E4 & H1 & H2).
  destruct (stored_plane centers dxs dys rots ps Hmake i c x y m E1 E2 E3 E4) as (F1 & F2 & F3). exists c, x, y, m.
  split; [exact H1|]. split; [exact H2|]. split; [exact F1|]. split; [exact F2|]. split; [exact F3|].
  unfold box_of. cbv zeta. rewrite (nth_error_nth _ _ _ E1), (nth_error_nth _ _ _ E2), (nth_error_nth _ _ _ E3), (nth_error_nth _ _ _ E4). reflexivity.
Qed.
Lemma Psize : c_size cl = length centers. Proof. apply (planes_size centers dxs dys rots ps Hmake). Qed.
Lemma Pnum : numbered cl pl_id. Proof. apply planes_numbered. Qed.

(** Boxes. *)
Lemma box_facts i : (i < length centers)%nat -> exists low high, visF prec emax (fst (box i)) low /\ visF prec emax (snd (box i)) high /\
  box_low (box i) = low /\ box_high (box i) = high /\ coords (3 * M) low /\ coords (3 * M) high /\ in_box low high (C i) /\
  axis_box (dx i / 2) (dy i / 2) (u * M) (vx low) (vx high) (vx (C i)) (vx (Q i)) /\
  axis_box (dx i / 2) (dy i / 2) (u * M) (vy low) (vy high) (vy (C i)) (vy (Q i)) /\
  axis_box (dx i / 2) (dy i / 2) (u * M) (vz low) (vz high) (vz (C i)) (vz (Q i)).
Proof.
  intros Hi. destruct (Pdata i Hi) as (c & x & y & m & Hp & (K1 & K2 & K3) & _ & _ & _ & ->).
  destruct (rows_near prec emax M m (Q i) (proj1 (proj2 (proj2 (proj2 Hp))))) as (R1 & R2 & R3).
  destruct Hp as ((H1 & H2 & H3) & Hx & Hy & _ & Bx & By & _).
  destruct (axis_F prec emax Pfmt M Pscale _ _ _ _ _ _ _ _ R1 H1 K1 Hx Hy Bx By) as (l1 & h1 & A1 & A2 & A3 & A4 & A5 & A6 & A7).
  destruct (axis_F prec emax Pfmt M Pscale _ _ _ _ _ _ _ _ R2 H2 K2 Hx Hy Bx By) as (l2 & h2 & B1 & B2 & B3 & B4 & B5 & B6 & B7).
  destruct (axis_F prec emax Pfmt M Pscale _ _ _ _ _ _ _ _ R3 H3 K3 Hx Hy Bx By) as (l3 & h3 & C1 & C2 & C3 & C4 & C5 & C6 & C7).
  rewrite (@box_axes _ FN). exists (V l1 l2 l3), (V h1 h2 h3). cbn [fst snd].
  split; [split; [|split]; assumption|]. split; [split; [|split]; assumption|].
  split. { unfold box_low, vmap. cbn [fst vx vy vz]. rewrite (proj2 (proj2 A1)), (proj2 (proj2 B1)), (proj2 (proj2 C1)). reflexivity. }
  split. { unfold box_high, vmap. cbn [snd vx vy vz]. rewrite (proj2 (proj2 A2)), (proj2 (proj2 B2)), (proj2 (proj2 C2)). reflexivity. }
  split; [repeat split; assumption|]. split; [repeat split; assumption|]. split; [repeat split; cbn [vx vy vz]; (apply A5 || apply B5 || apply C5)|].
  unfold axis_box. cbn [vx vy vz]. auto 10.
Qed.
Lemma Pboxes : boxes_areF prec emax cl (fun i => box_low (box i)) (fun i => box_high (box i)).
Proof.
  intros i Hi. rewrite Psize in Hi. destruct (box_facts i Hi) as (low & high & H1 & H2 & -> & -> & _).
  destruct (Pdata i Hi) as (c & x & y & m & _ & _ & _ & E & _ & Eb). rewrite Eb in *. eexists. split; [exact E|]. split; assumption.
Qed.
Lemma Pmoderate : moderate_boxes emax (c_size cl) (fun i => box_low (box i)) (fun i => box_high (box i)).
Proof.
  intros i Hi. rewrite Psize in Hi. destruct (box_facts i Hi) as (low & high & _ & _ & -> & -> & (A1 & A2 & A3) & (B1 & B2 & B3) & _).
  pose proof (Mk_top prec emax M Pscale 1 ltac:(lia)) as T. rewrite pow_1 in T. destruct Pscale as [V1 _]. split; repeat split; lra.
Qed.
Lemma plo1_ge : lo <= lo1 /\ lo * rv_norm D <= lo1 /\ 0 <= lo1.
Proof.
  pose proof (pr_lo _ _ _ _ _ _ _ _ _ _ _ _ _ _ _ _ _ _ Hray) as L0. unfold lo_unit.
  pose proof (Rmax_l 1 (rv_norm D)). pose proof (Rmax_r 1 (rv_norm D)).
  assert (lo * 1 <= lo * Rmax 1 (rv_norm D)) by (apply Rmult_le_compat_l; assumption). assert (lo * rv_norm D <= lo * Rmax 1 (rv_norm D)) by (apply Rmult_le_compat_l; assumption). lra.
Qed.
Lemma low_uu_p : least emax <= u * u.
Proof. unfold least, ulpf. rewrite <- bpow_plus. apply bpow_le. destruct Pfmt. lia. Qed.

(** A ray that pierces a patch meets its box. *)
Lemma patch_met i t : (i < length centers)%nat -> hit i t ->
  t + patch_err prec M / k i <= 4 * M /\ exists tau, tau * (1 + 4 * u) <= t + patch_err prec M / k i /\
    forall hd, at_least prec emax hd (tau * (1 + 4 * u)) ->
      meets_at prec emax (box_low (box i)) (box_high (box i)) O D lo hd tau.
Proof.
  intros Hi Ht. destruct plo1_ge as (G1 & G2 & G3).
  destruct (Pdata i Hi) as (c & x & y & m & Hp & _). pose proof Pdir as Hd.
  destruct (margin_facts prec emax Pfmt M Pscale c (direction r) x y m O (C i) U (dx i) (dy i) (Q i) Hd Hp lo1 t Ht G3)
    as (rr & Er & K & R1 & R2 & R3 & Em & Hz & Hx & Hy & Hl & Ht0).
  destruct (uM_facts prec emax Pfmt M Pscale) as (U0 & U1 & V1 & UM & UM1 & UM2 & LP & LS & T1 & T2).
  destruct (box_facts i Hi) as (low & high & _ & _ & -> & -> & _ & _ & _ & B1 & B2 & B3).
  destruct Hp as (_ & _ & _ & (HQ & _) & _).
  destruct (box_point (C i) O U (Q i) (dx i / 2) (dy i / 2) (u * M) rr (k i) t low high HQ (proj1 Hd) B1 B2 B3 Hz Hx Hy ltac:(lra) Er K
    (eq_sym (steep_W U (Q i)))) as (z & Z1 & Hin).
  rewrite Em. split; [lra|]. apply Rabs_le_inv in Z1.
  set (L := rv_norm D) in *. destruct PL as [L1 L2]. fold L in L1, L2. assert (L0 : 0 < L) by lra.
  exists (z / L). set (tau := z / L). assert (Et : tau * L = z) by (unfold tau; field; lra).
  assert (T0 : 0 < tau) by (unfold tau, Rdiv; apply Rmult_lt_0_compat; [lra|apply Rinv_0_lt_compat, L0]).
  assert (Tt : tau * (1 + 4 * u) <= z * (1 + 10 * u)).
  { rewrite <- Et. rewrite Rmult_assoc. apply Rmult_le_compat_l; [lra|].
    apply Rle_trans with ((1 - 4 * u) * (1 + 10 * u)); [|apply Rmult_le_compat_r; lra]. nra. }
  assert (zu : z * u <= 3.1 * M * u) by (apply Rmult_le_compat_r; lra).
  split; [lra|]. intros hd Hh. split; [|split; [|split; [|exact Hh]]].
  - apply Rmult_le_reg_r with L; [exact L0|]. rewrite Et. lra.
  - right. pose proof low_uu_p. split.
    + apply Rmult_le_reg_r with L; [exact L0|]. rewrite Et. apply Rle_trans with (2 * (u * u) * L); [apply Rmult_le_compat_r; lra|].
      assert (u * L <= 1). { apply Rle_trans with (u * / u); [apply Rmult_le_compat_l; lra|]. rewrite Rinv_r; lra. }
      assert (u * (u * L) <= u * 1) by (apply Rmult_le_compat_l; lra). lra.
    + assert (tau <= z * (1 + 10 * u)) by nra. lra.
  - unfold tau, L. replace (at_t O D (z / rv_norm D)) with (at_t O U z); [exact Hin|].
    fold L. unfold at_t, unit_of, rv_add, rv_scale. fold L. cbn [vx vy vz]. f_equal; field; lra.
Qed.

(** What the routine does with a stored patch. *)
Definition pstate_ok (i : plane_isect spec_float) : Prop :=
  (pi_org i = o /\ pi_dir i = direction r) /\ pi_min i = tmin /\ (pi_hd i = S754_infinity false \/ exists h, isf (pi_hd i) h).
Lemma pprepare_ok : pstate_ok (is_prepare isx r).
Proof.
  split; [split; reflexivity|]. split; [reflexivity|].
  destruct (pr_far _ _ _ _ _ _ _ _ _ _ _ _ _ _ _ _ _ _ Hray) as [E|(b & E & _)]; [left|right; exists b]; exact E.
Qed.
Lemma Plo : isf tmin lo. Proof. apply Hray. Qed.
Lemma paccept_ok st j p st' : (j < length centers)%nat -> c_prim cl j = Ok p -> (pi_org st = o /\ pi_dir st = direction r) -> pi_min st = tmin ->
  @plane_intersect _ FN st p r = (true, st') ->
  pstate_ok st' /\ pi_prim st' = Some j /\
  exists t x, isf (pi_hd st') x /\ 0 <= x <= 3.2 * M /\ Rabs (x - t) <= 125 * (u * M) /\ lo < t <= 3.1 * M /\
    near_patch (patch_err prec M) (C j) (dx j) (dy j) (Q j) (at_t O U x) /\ (forall h, isf (pi_hd st) h -> t < h) /\
    patch_normal prec emax M (C j) (dx j) (dy j) (Q j) O (at_t O U x) (@normalize _ FN (pi_normal st')).
Proof.
  intros Hk Ep Eo Em H. destruct (Pdata j Hk) as (c & x0 & y0 & m & Hs & _ & E & _). rewrite Ep in E. injection E as ->.
  assert (Hmin : isf (pi_min st) lo) by (rewrite Em; exact Plo).
  destruct (plane_sound prec emax Pfmt M Pscale o c (direction r) x0 y0 m O (C j) U (dx j) (dy j) (Q j) ltac:(apply Hray) Pdir Hs st r j Eo st' lo Hmin
    (pr_lo _ _ _ _ _ _ _ _ _ _ _ _ _ _ _ _ _ _ Hray) H) as (E1 & E2 & E3 & E5 & t & x & Hx & R).
  split; [|split; [exact E5|exists t, x; auto]]. split; [auto|]. split; [congruence|]. right. exists x. exact Hx.
Qed.
Lemma pfar_self : @nltb _ FN tmax tmax = false.
Proof.
  destruct (pr_far _ _ _ _ _ _ _ _ _ _ _ _ _ _ _ _ _ _ Hray) as [-> | (b & Hb & _)]; [reflexivity|]. rewrite (isF_ltb prec emax _ _ _ _ Hb Hb).
  destruct (Rltb b b) eqn:E; [|reflexivity]. apply Rltb_spec in E. lra.
Qed.
Lemma pfar_over x t : isf x t -> t <= 3.2 * M -> @nltb _ FN x tmax = true.
Proof.
  intros Hx Ht. destruct Pscale as [V1 _]. destruct (pr_far _ _ _ _ _ _ _ _ _ _ _ _ _ _ _ _ _ _ Hray) as [-> | (b & Hb & Hge)]; [apply (inf_ltb prec emax _ _ Hx)|].
  rewrite (isF_ltb prec emax _ _ _ _ Hx Hb). apply Rltb_spec. lra.
Qed.
Lemma pfar_at a : a <= 4 * M -> at_least prec emax tmax a.
Proof. intros H. destruct (pr_far _ _ _ _ _ _ _ _ _ _ _ _ _ _ _ _ _ _ Hray) as [F|(b & F & F')]; [left; exact F|right; exists b; split; [exact F|lra]]. Qed.

Variable part : (nat -> bool) -> list nat -> list nat * list nat.
Hypothesis Hpart : partition_ok part.
Variable opt : options.
Variables (nodes : list (node spec_float (Plane.plane spec_float))) (stt : stats).
Hypothesis Hbuild : @build _ FN _ part [] cl opt = Ok (nodes, stt).
Hypothesis Hdepth : forall j d, node_depth nodes j d -> (d <= 26)%nat.

Lemma patch_query_F rh :
  (@traverse _ FN _ _ isx nodes r rh = Ok (false, rh) /\ forall i t, (i < length centers)%nat -> ~ hit i t) \/
  (exists rh' j x, @traverse _ FN _ _ isx nodes r rh = Ok (true, rh') /\ (j < length centers)%nat /\ h_prim rh' = Some j /\
     isf (h_distance rh') x /\ lo - 125 * (u * M) <= x /\ near_patch (patch_err prec M) (C j) (dx j) (dy j) (Q j) (at_t O U x) /\
     patch_normal prec emax M (C j) (dx j) (dy j) (Q j) O (at_t O U x) (h_normal rh') /\
     (any = false -> forall i t, (i < length centers)%nat -> hit i t ->
        x <= t + patch_err prec M / k i + 128 * INR (length centers) * (u * M))).
Proof.
  pose proof Psize as Hsize. pose proof Pnum as Hnum. pose proof (p6 prec emax Pfmt) as Hp6.
  pose (bmin := fun i => box_low (box i)). pose (bmax := fun i => box_high (box i)).
  pose proof Pboxes as Hbx. fold bmin bmax in Hbx. pose proof Pmoderate as Hmd. fold bmin bmax in Hmd.
  assert (Htame : tame_ray prec emax o d tmin O D lo) by apply Hray.
  assert (Hz' : vz D = 0 -> forall i, (i < c_size cl)%nat -> vz O <> vz (bmin i) /\ vz O <> vz (bmax i)) by (rewrite Hsize; apply Hray).
  assert (Hrej : rejecting isx r) by (intros i p i'; exact (proj1 (proj2 (@all_reject _ FN (Spheres [] [] []) (Trimesh.Mesh [] [] [] [] [] []) r)) i p i')).
  destruct (uM_facts prec emax Pfmt M Pscale) as (U0 & U1 & V1 & UM & UM1 & UM2 & LP & LS & T1' & T2'). destruct plo1_ge as (G1 & G2 & G3).
  assert (Llo := pr_lo _ _ _ _ _ _ _ _ _ _ _ _ _ _ _ _ _ _ Hray).
  destruct (built_final cl part Hpart opt nodes stt Hbuild Hdepth isx r Hrej
    (fun p => exists i t, (i < c_size cl)%nat /\ c_prim cl i = Ok p /\ meets_at prec emax (bmin i) (bmax i) O D lo tmax t) rh)
    as (fin & Et & Hfin & Hkeep & Hlate).
  { intros ids mn mx i p Hlt Hb Hi Ei (j & t & Hj & Ej & Hm) nd E1 E2.
    assert (i = j) by (rewrite <- (Hnum i p Ei); apply (Hnum j p Ej)). subst j.
    apply (group_passes_hd prec emax Hp6 cl bmin bmax Hbx Hmd o d tmin tmax any O D lo Htame Hz' tmax ids mn mx i t Hlt Hb Hi Hm nd E1 E2). }
  rewrite Et. unfold verdict. change (max_hit_distance r) with tmax.
  assert (Hin : forall p, In p (stored nodes) -> exists j, (j < length centers)%nat /\ c_prim cl j = Ok p).
  { intros p Hp. destruct (@build_stores _ _ FN part Hpart cl opt nodes stt pl_id Hnum Hbuild) as [Q1 Q2].
    exists (pl_id p). split; [|apply Q2, Hp]. rewrite <- Hsize. apply in_map with (f := pl_id) in Hp.
    apply (Permutation.Permutation_in _ Q1), in_seq in Hp. lia. }
  assert (Hall : forall i p, (i < length centers)%nat -> c_prim cl i = Ok p -> In p (stored nodes)).
  { intros i p Hi E. destruct (@build_stores _ _ FN part Hpart cl opt nodes stt pl_id Hnum Hbuild) as [Q1 Q2].
    assert (Hi' : In i (map pl_id (stored nodes))).
    { apply (Permutation.Permutation_in _ (Permutation.Permutation_sym Q1)), in_seq. rewrite Hsize. lia. }
    apply in_map_iff in Hi' as (p' & <- & Hq'). specialize (Q2 p' Hq'). rewrite E in Q2. injection Q2 as ->. exact Hq'. }
  destruct Hfin as [[-> Hq]|(p & j & Hp & Ej & Hj)].
  - left. change (is_hd isx (is_prepare isx r)) with tmax. rewrite pfar_self. split; [reflexivity|]. intros i t Hi Hhit.
    destruct (patch_met i t Hi Hhit) as (F4 & tau & T1 & T3).
    destruct (Pdata i Hi) as (c & x & y & m & Hs & _ & E & _).
    assert (Hacc : fst (@plane_intersect _ FN (is_prepare isx r) (Plane c x y m i) r) = true).
    { destruct (plane_pierced prec emax Pfmt M Pscale o c (direction r) x y m O (C i) U (dx i) (dy i) (Q i) ltac:(apply Hray) Pdir Hs (is_prepare isx r) r i
        ltac:(split; reflexivity) lo lo1 t Plo Llo G1 Hhit) as [Q1 _]. apply Q1. apply pfar_at. exact F4. }
    specialize (Hq _ (Hall i _ Hi E)). cbn [is_prim plane_isector] in Hq. rewrite Hacc in Hq. discriminate Hq.
    exists i, tau. rewrite Hsize. split; [exact Hi|]. split; [exact E|]. apply T3, pfar_at. lra.
  - right. destruct (Hin p Hp) as (j0 & Hk & Ek). cbn [is_prim plane_isector] in Ej.
    assert (Ekeep : (pi_org j = o /\ pi_dir j = direction r) /\ pi_min j = tmin).
    { assert (K : (pi_org fin = o /\ pi_dir fin = direction r) /\ pi_min fin = tmin).
      { apply (Hkeep (fun st => (pi_org st = o /\ pi_dir st = direction r) /\ pi_min st = tmin)); [|split; [split|]; reflexivity].
        intros st p' h st' [[A1 A2] A3] E. destruct (min_kept_p _ _ _ _ _ E) as (B1 & B2 & B3). repeat split; congruence. }
      destruct K as [[A1 A2] A3]. destruct (min_kept_p _ _ _ _ _ Ej) as (B1 & B2 & B3). repeat split; congruence. }
    destruct (paccept_ok j j0 p fin Hk Ek (proj1 Ekeep) (proj2 Ekeep) Ej) as ((Efin & _) & Ep & (t & x & I1 & I2 & I3 & I4 & I5 & _ & I7)).
    change (is_hd isx fin) with (pi_hd fin). rewrite (pfar_over _ _ I1 ltac:(lra)).
    cbn [is_post plane_isector plane_post bind]. eexists _, j0, x. split; [reflexivity|]. cbn [h_distance h_prim h_normal].
    split; [exact Hk|]. split; [exact Ep|]. split; [exact I1|]. split; [apply Rabs_le_inv in I3; lra|]. split; [exact I5|]. split; [exact I7|].
    intros Hany i ti Hi Hhit. destruct (Pdata i Hi) as (c & fx & fy & m & Hs & _ & Eq & _).
    destruct (patch_met i ti Hi Hhit) as (F4 & tau & T1 & T3). set (top := ti + patch_err prec M / k i) in *.
    assert (Crossed : forall st, pstate_ok st -> (at_least prec emax (pi_hd st) top -> fst (@plane_intersect _ FN st (Plane c fx fy m i) r) = true) /\
      forall st', @plane_intersect _ FN st (Plane c fx fy m i) r = (true, st') -> exists x, isf (pi_hd st') x /\ x <= top).
    { intros st (S1 & S2 & S3).
      exact (plane_pierced prec emax Pfmt M Pscale o c (direction r) fx fy m O (C i) U (dx i) (dy i) (Q i) ltac:(apply Hray) Pdir Hs st r i
        S1 lo lo1 ti ltac:(rewrite S2; exact Plo) Llo G1 Hhit). }
    pose (Bd := fun (n : nat) x => exists a, isf x a /\ a <= top + 128 * INR n * (u * M)).
    assert (HB : Bd (c_size cl) (pi_hd fin)).
    { apply (Hlate (fun p => exists k, (k < length centers)%nat /\ c_prim cl k = Ok p) pstate_ok Bd (Plane c fx fy m i) i Hany).
      - intros st p' st' (k' & Hk' & Ek') Hst E'. cbn [is_prim plane_isector] in E'. destruct Hst as (S1 & S2 & S3).
        destruct (paccept_ok st k' p' st' Hk' Ek' S1 S2 E') as (Q1 & _ & (t' & x' & X1 & _ & X3 & _ & _ & X6 & _)). split; [exact Q1|].
        intros n (a & A1 & A2). exists x'. split; [exact X1|]. specialize (X6 a A1). apply Rabs_le_inv in X3. rewrite S_INR. lra.
      - intros st hh st' Hst E'. cbn [is_prim plane_isector] in E'. change (is_hd isx st') with (pi_hd st'). destruct (Crossed st Hst) as [Q1 Q2].
        destruct hh.
        + destruct (Q2 st' E') as (x' & X1 & X2). exists x'. split; [exact X1|]. cbn [INR]. lra.
        + pose proof (Hrej _ _ _ E'). subst st'. destruct Hst as (S1 & S2 & [S3|(h & Sh)]).
          * rewrite E' in Q1. specialize (Q1 (or_introl S3)). discriminate Q1.
          * exists h. split; [exact Sh|]. cbn [INR]. destruct (Rle_lt_dec top h) as [Lh|Lh]; [|lra].
            rewrite E' in Q1. specialize (Q1 (or_intror (ex_intro _ h (conj Sh Lh)))). discriminate Q1.
      - intros n x0 (a & A1 & A2). exists a. split; [exact A1|]. rewrite S_INR. lra.
      - apply pprepare_ok.
      - reflexivity.
      - exact Hin.
      - rewrite Hsize. exact Hi.
      - exact Eq.
      - intros ids mn mx j' st Hlt Hb Hj' Ej' Hst nd E1 E2 Ef. change (is_hd isx st) with (pi_hd st) in *. change (min_hit_distance r) with tmin in Ef.
        assert (j' = i) by (rewrite <- (Hnum j' _ Ej'); reflexivity). subst j'.
        destruct (proj2 (proj2 Hst)) as [Sh|(h & Sh)].
        + exfalso. rewrite (group_passes_hd prec emax Hp6 cl bmin bmax Hbx Hmd o d tmin tmax any O D lo Htame Hz' (pi_hd st) ids mn mx i tau Hlt Hb Hj'
            (T3 _ (or_introl Sh)) nd E1 E2) in Ef. discriminate Ef.
        + exists h. split; [exact Sh|]. cbn [INR]. destruct (Rle_lt_dec h (tau * (1 + 4 * u))) as [Lh|Lh]; [lra|exfalso].
          rewrite (group_passes_hd prec emax Hp6 cl bmin bmax Hbx Hmd o d tmin tmax any O D lo Htame Hz' (pi_hd st) ids mn mx i tau Hlt Hb Hj'
            (T3 _ (or_intror (ex_intro _ h (conj Sh (Rlt_le _ _ Lh))))) nd E1 E2) in Ef. discriminate Ef. }
    destruct HB as (a & A1 & A2). rewrite (isF_fun prec emax _ _ _ A1 I1), Hsize in A2. exact A2.
Qed.
End F.
