(** Queries on spheres in IEEE arithmetic. *)

From Coq Require Import Reals ZArith List Bool Arith Lra Lia Psatz Floats.SpecFloat.
From Flocq Require Import Core IEEE754.BinarySingleNaN.
From Verif Require Import Num NumR NumF Vec Datatypes Ray Bvh Traverse Sphere SpecBvh SpecReal SpecIEEE SpecAny SpecTriF SpecSphF.
From Verif Require Import PfBuild PfBuild2 PfSphere2 PfTrav2 PfNumbered PfReject PfAny PfLate PfIEEE PfIEEE2 PfIEEE3 PfIEEE4 PfTriF PfTriF2 PfDirF PfX PfSphF PfSphF2 PfSphF3 PfSphN.
Import ListNotations.
Local Open Scope R_scope.

(** A collection in any arithmetic. *)
Section Any.
Context {T : Type} {N : num T}.
Variables (centers : list (vec T)) (radii : list T) (ss : spheres T).
Hypothesis Hmake : make_spheres centers radii = Ok ss.
Lemma made : ss_centers ss = centers /\ ss_radii ss = radii /\
  mapM (fun i => do c <- at_ UBprim centers i; do r <- at_ UBprim radii i; Ok (sphere_box c r)) (seq 0 (length centers)) = Ok (ss_box ss).
Proof. pose proof Hmake as H. unfold make_spheres in H. apply bind_ok in H as (box & E & H). injection H as <-. auto. Qed.
Lemma stored_sphere i c fr : nth_error centers i = Some c -> nth_error radii i = Some fr ->
  c_prim (sphere_coll ss) i = Ok (Sphere c fr i) /\ c_box (sphere_coll ss) i = Ok (sphere_box c fr) /\ c_center (sphere_coll ss) i = Ok c.
Proof.
  intros Ec Er. destruct made as (E1 & E2 & E3). cbn [c_prim c_box c_center sphere_coll]. unfold sphere_prim, at_. rewrite E1, E2, Ec, Er.
  split; [reflexivity|]. split; [|reflexivity].
  assert (Hi : (i < length centers)%nat) by (apply nth_error_Some; congruence).
  assert (En : nth_error (seq 0 (length centers)) i = Some i).
  { rewrite (nth_error_nth' _ 0%nat) by (rewrite seq_length; exact Hi). rewrite seq_nth by exact Hi. reflexivity. }
  destruct (mapM_nth _ _ _ E3 i i En) as (b & G & F). unfold at_ in F. rewrite Ec, Er in F. cbn [bind] in F. injection F as <-.
  rewrite G. reflexivity.
Qed.
Lemma spheres_size : c_size (sphere_coll ss) = length centers.
Proof. destruct made as (E & _). cbn [c_size sphere_coll]. rewrite E. reflexivity. Qed.
Lemma sphere_posts i rh k c : si_prim i = Some k -> nth_error centers k = Some c ->
  exists rh', sphere_post ss i rh = Ok rh' /\ h_distance rh' = si_hd i /\ h_prim rh' = Some k /\
    h_normal rh' = normalize (vsub (vadd (si_org i) (vscale (si_hd i) (si_dir i))) c).
Proof.
  intros Ek Ec. destruct made as (E1 & _). unfold sphere_post. rewrite Ek. cbn [bind]. unfold at_. rewrite E1, Ec. cbn [bind].
  eexists. split; [reflexivity|]. cbn. auto.
Qed.
Lemma min_kept_s (st : sphere_isect T) p (r : ray T) h st' : sphere_intersect st p r = (h, st') ->
  si_org st' = si_org st /\ si_dir st' = si_dir st /\ si_min st' = si_min st.
Proof.
  unfold sphere_intersect. cbv zeta. destruct (_ <? _)%num; [intros [= _ <-]; auto|]. destruct (_ && _); [intros [= _ <-]; auto|].
  destruct (_ && _); intros [= _ <-]; auto.
Qed.
End Any.

Section F.
Variables prec emax : Z.
Context {Hprec : Prec_gt_0 prec} {Hmax : Prec_lt_emax prec emax}.
Notation FN := (Fnum prec emax).
Notation isf := (isF prec emax).
Notation rd := (rnd prec emax).
Notation u := (ulpf prec).
Notation q := (/ 1000000).
Variable M : R.
Variables (centers : list (vec spec_float)) (radii : list spec_float) (C : nat -> vec R) (rad : nat -> R).
Variables (o d : vec spec_float) (tmin tmax : spec_float) (any : bool) (O D : vec R) (lo : R).
Hypothesis Hray : sphere_ray prec emax M centers radii C rad o d tmin tmax O D lo.
Variable ss : spheres spec_float.
Hypothesis Hmake : @make_spheres _ FN centers radii = Ok ss.
Notation cl := (@sphere_coll _ ss).
Notation U := (unit_of D).
Notation r := (@make_ray _ FN o d tmin tmax any).
Notation isx := (@sphere_isector _ FN ss).
Notation Pw i x := (power (C i) (rad i) (at_t O U x)).
Notation lo1 := (lo_unit lo D).

Lemma Sfmt : usual_format prec emax. Proof. apply Hray. Qed.
Lemma Sscale : scale_ok prec emax M. Proof. apply Hray. Qed.
Lemma SL : 1 - 4 * u <= rv_norm D <= / u. Proof. apply Hray. Qed.
Lemma Su0 : 0 < u. Proof. apply (u_pos prec). Qed.
Lemma Su1 : u <= q. Proof. apply (u_small prec emax Sfmt). Qed.
Lemma SM : 1 <= M. Proof. apply Sscale. Qed.
Lemma SuM : 0 < u * M /\ u * M <= q * M /\ u <= u * M /\ 0 < u * M ^ 2 /\ u * M <= u * M ^ 2 /\ u * M ^ 2 <= q * M ^ 2.
Proof.
  pose proof Su0. pose proof Su1. pose proof SM. assert (M <= M ^ 2) by nra. repeat split; try nra.
Qed.
Lemma Sdir : unit_near prec emax (direction r) U.
Proof.
  split; [|apply (normalize_near prec emax Sfmt d D); [apply Hray|destruct SL; pose proof Su1; split; lra]].
  unfold unit_of. rewrite rv_norm_scale. destruct SL. pose proof Su1. rewrite Rabs_pos_eq by (apply Rlt_le, Rinv_0_lt_compat; lra). apply Rinv_l. lra.
Qed.
Lemma Sdata i : (i < length centers)%nat -> exists c fr, sphere_isF prec emax M O c fr (C i) (rad i) /\ coords M (C i) /\
  nth_error centers i = Some c /\
  c_prim cl i = Ok (Sphere c fr i) /\ c_box cl i = Ok (@sphere_box _ FN c fr) /\ c_center cl i = Ok c.
Proof.
  intros Hi. destruct (sr_spheres _ _ _ _ _ _ _ _ _ _ _ _ _ _ Hray i Hi) as (c & fr & E1 & E2 & H1 & H2).
  destruct (stored_sphere centers radii ss Hmake i c fr E1 E2) as (F1 & F2 & F3). exists c, fr. auto 10.
Qed.
Lemma Ssize : c_size cl = length centers. Proof. apply (spheres_size centers radii ss Hmake). Qed.
Lemma Snum : numbered cl sp_id. Proof. apply spheres_numbered. Qed.

(** Boxes. *)
Lemma Sends i : (i < length centers)%nat -> forall x, Rabs x <= M -> Rabs (x - rad i) <= 2 * M /\ Rabs (x + rad i) <= 2 * M.
Proof.
  intros Hi x Hx. destruct (Sdata i Hi) as (c & fr & (_ & _ & Hr & _) & _). apply Rabs_le_inv in Hx. split; apply Rabs_le; lra.
Qed.
Lemma Sboxes : boxes_areF prec emax cl (fun i => rlow prec emax (C i) (rad i)) (fun i => rhigh prec emax (C i) (rad i)).
Proof.
  intros i Hi. rewrite Ssize in Hi. destruct (Sdata i Hi) as (c & fr & ((H1 & H2 & H3) & Hr & _ & _) & (K1 & K2 & K3) & _ & _ & E & _).
  exists (@sphere_box _ FN c fr). split; [exact E|]. pose proof (Mk_top prec emax M Sscale 1 ltac:(lia)) as T. rewrite pow_1 in T. pose proof SM as V1.
  destruct (Sends i Hi _ K1) as [A1 B1]. destruct (Sends i Hi _ K2) as [A2 B2]. destruct (Sends i Hi _ K3) as [A3 B3].
  split; (split; [|split]); cbn [sphere_box fst snd vsubs vadds vmap vx vy vz rlow rhigh];
    (apply (isF_sub prec emax) || apply (isF_add prec emax)); try assumption; apply (rd_half_top prec emax (p6 prec emax Sfmt)); lra.
Qed.
Lemma Smoderate : moderate_boxes emax (c_size cl) (fun i => rlow prec emax (C i) (rad i)) (fun i => rhigh prec emax (C i) (rad i)).
Proof.
  intros i Hi. rewrite Ssize in Hi. destruct (Sdata i Hi) as (c & fr & ((H1 & H2 & H3) & Hr & _ & _) & (K1 & K2 & K3) & _).
  pose proof (Mk_top prec emax M Sscale 1 ltac:(lia)) as T. rewrite pow_1 in T. pose proof SM as V1.
  assert (G : forall x, Rabs x <= 2 * M -> Rabs (rd x) <= top emax / 8) by (intros x Hx; pose proof (rd_double prec emax x); lra).
  destruct (Sends i Hi _ K1) as [A1 B1]. destruct (Sends i Hi _ K2) as [A2 B2]. destruct (Sends i Hi _ K3) as [A3 B3].
  split; (split; [|split]); cbn [rlow rhigh vx vy vz]; apply G; assumption.
Qed.
Lemma lin_le i : (i < length centers)%nat -> Rabs (lin O (C i) U) <= 2 * M.
Proof.
  intros Hi. destruct (Sdata i Hi) as (c & fr & Hs & _). pose proof (vU_le prec emax M c (direction r) fr O (C i) U (rad i) Sdir Hs) as X.
  unfold lin. apply Rabs_le_inv in X. apply Rabs_le. lra.
Qed.
Lemma poly i t : Pw i t = t * t + lin O (C i) U * t + cst O (C i) (rad i).
Proof. apply (power_poly prec emax (direction r) O (C i) U (rad i) Sdir). Qed.
Lemma deep_inside i z : (i < length centers)%nat -> Pw i z <= - (200 * (u * M ^ 2)) ->
  in_box (rlow prec emax (C i) (rad i)) (rhigh prec emax (C i) (rad i)) (at_t O U z) /\ z <= 2 * M.
Proof.
  intros Hi Hz. destruct (Sdata i Hi) as (c & fr & ((H1 & H2 & H3) & Hr & Hrm & Hn) & (K1 & K2 & K3) & _).
  pose proof SuM as (W1 & W2 & W3 & W4 & W5 & W6). pose proof Su0 as U0. pose proof Su1 as U1. pose proof SM as V1.
  unfold power in Hz. set (X := at_t O U z) in *. set (w := rv_sub X (C i)) in *. rewrite <- (rv_norm_sq w) in Hz.
  pose proof (rv_norm_nonneg w) as N0. set (n := rv_norm w) in *.
  assert (R2 : 2.1 * (u * M) <= rad i).
  { apply sq_le_abs; [lra|]. replace (2.1 * (u * M) * (2.1 * (u * M))) with (4.41 * (u * (u * M ^ 2))) by lra.
    assert (u * (u * M ^ 2) <= q * (u * M ^ 2)) by (apply Rmult_le_compat_r; lra). pose proof (Rle_0_sqr n) as NN. unfold Rsqr in NN. lra. }
  assert (Nr : n <= rad i - 2.1 * (u * M)).
  { apply sq_le_abs; [lra|]. replace ((rad i - 2.1 * (u * M)) * (rad i - 2.1 * (u * M))) with (rad i * rad i - 4.2 * (u * M * rad i) + 2.1 * (u * M) * (2.1 * (u * M))) by lra.
    assert (u * M * rad i <= u * M * M) by (apply Rmult_le_compat_l; lra). replace (u * M * M) with (u * M ^ 2) in * by ring.
    assert (0 <= 2.1 * (u * M) * (2.1 * (u * M))) by (apply Rmult_le_pos; lra). lra. }
  destruct (comp_norm w) as (N1 & N2 & N3). fold n in N1, N2, N3.
  assert (G : forall fx x p, isf fx x -> Rabs x <= M -> Rabs (p - x) <= n -> rd (x - rad i) <= p <= rd (x + rad i)).
  { intros fx x p Hx Hxm Hp. apply Rabs_le_inv in Hp. destruct (Sends i Hi x Hxm) as [A B].
    pose proof (rd_sub_rel prec emax _ _ _ _ Hx Hr) as E1. pose proof (rd_add_rel prec emax _ _ _ _ Hx Hr) as E2.
    assert (u * Rabs (x - rad i) <= u * (2 * M)) by (apply Rmult_le_compat_l; lra). assert (u * Rabs (x + rad i) <= u * (2 * M)) by (apply Rmult_le_compat_l; lra).
    apply Rabs_le_inv in E1. apply Rabs_le_inv in E2. lra. }
  split.
  - unfold in_box, rlow, rhigh. cbn [vx vy vz]. split; [|split]; eapply G; eassumption.
  - assert (Z : Rabs z <= n + rv_norm (rv_sub O (C i))).
    { destruct Sdir as [Hu _]. replace (Rabs z) with (rv_norm (rv_scale z U)) by (rewrite rv_norm_scale, Hu; ring).
      replace (rv_scale z U) with (rv_add w (rv_scale (-1) (rv_sub O (C i)))).
      - eapply Rle_trans; [apply rv_norm_triangle|]. rewrite (rv_norm_scale (-1)). replace (Rabs (-1)) with 1 by (rewrite Rabs_left; lra). fold n. lra.
      - unfold w, X, at_t, rv_add, rv_sub, rv_scale. cbn [vx vy vz]. f_equal; ring. }
    apply Rabs_le_inv in Z. pose proof (Rle_abs z). lra.
Qed.
Lemma lo1_ge : lo <= lo1 /\ lo * rv_norm D <= lo1 /\ 0 <= lo1.
Proof.
  pose proof (sr_lo _ _ _ _ _ _ _ _ _ _ _ _ _ _ Hray) as L0. unfold lo_unit.
  pose proof (Rmax_l 1 (rv_norm D)). pose proof (Rmax_r 1 (rv_norm D)).
  assert (lo * 1 <= lo * Rmax 1 (rv_norm D)) by (apply Rmult_le_compat_l; assumption). assert (lo * rv_norm D <= lo * Rmax 1 (rv_norm D)) by (apply Rmult_le_compat_l; assumption). lra.
Qed.
Lemma low_uu : least emax <= u * u.
Proof. unfold least, ulpf. rewrite <- bpow_plus. apply bpow_le. destruct Sfmt. lia. Qed.
(** A ray that is deep inside a sphere meets its box. *)
Lemma box_met i z : (i < length centers)%nat -> lo1 <= z -> Pw i z <= - power_err prec M ->
  z <= 2 * M /\ exists tau, tau * (1 + 4 * u) <= z + 40 * (u * M) /\ tau * (1 + 4 * u) <= 4 * M /\
    forall hd, at_least prec emax hd (tau * (1 + 4 * u)) ->
      meets_at prec emax (rlow prec emax (C i) (rad i)) (rhigh prec emax (C i) (rad i)) O D lo hd tau.
Proof.
  intros Hi Hl Hz. pose proof SuM as (W1 & W2 & W3 & W4 & W5 & W6). pose proof Su0 as U0. pose proof Su1 as U1. pose proof SM as V1.
  unfold power_err in Hz. replace (256 * u * M ^ 2) with (256 * (u * M ^ 2)) in Hz by ring.
  destruct lo1_ge as (G1 & G2 & G3). destruct (deep_inside i z Hi ltac:(lra)) as [_ Hz2]. split; [exact Hz2|].
  pose proof (Rmax_l z (2 * u)) as Y1. pose proof (Rmax_r z (2 * u)) as Y2.
  assert (Y3 : Rmax z (2 * u) <= z + 2 * u) by (apply Rmax_lub; lra).
  set (y := Rmax z (2 * u)) in *.
  assert (Hy : Pw i y <= - (200 * (u * M ^ 2))).
  { replace (Pw i y) with (Pw i z + (y - z) * (2 * z + lin O (C i) U + (y - z))) by (rewrite !poly; ring).
    pose proof (lin_le i Hi) as Ll. apply Rabs_le_inv in Ll.
    assert ((y - z) * (2 * z + lin O (C i) U + (y - z)) <= 2 * u * (7 * M)).
    { apply Rle_trans with ((y - z) * (7 * M)); [apply Rmult_le_compat_l; lra|apply Rmult_le_compat_r; lra]. }
    lra. }
  destruct (deep_inside i y Hi Hy) as [Hin Hy2]. set (L := rv_norm D) in *. destruct SL as [L1 L2]. fold L in L1, L2. assert (L0 : 0 < L) by lra.
  exists (y / L). set (tau := y / L). assert (Et : tau * L = y) by (unfold tau; field; lra).
  assert (T0 : 0 < tau) by (unfold tau, Rdiv; apply Rmult_lt_0_compat; [lra|apply Rinv_0_lt_compat, L0]).
  assert (Tt : tau * (1 + 4 * u) <= y * (1 + 10 * u)).
  { rewrite <- Et. rewrite Rmult_assoc. apply Rmult_le_compat_l; [lra|].
    apply Rle_trans with ((1 - 4 * u) * (1 + 10 * u)); [|apply Rmult_le_compat_r; lra]. nra. }
  assert (yu : y * u <= 2 * M * u) by (apply Rmult_le_compat_r; lra).
  split; [lra|]. split; [lra|].
  intros hd Hh. split; [|split; [|split; [|exact Hh]]].
  - apply Rmult_le_reg_r with L; [exact L0|]. rewrite Et. lra.
  - right. pose proof low_uu. pose proof (Mk_top prec emax M Sscale 1 ltac:(lia)) as T. rewrite pow_1 in T. split.
    + apply Rmult_le_reg_r with L; [exact L0|]. rewrite Et. apply Rle_trans with (2 * (u * u) * L); [apply Rmult_le_compat_r; lra|].
      assert (u * L <= 1). { apply Rle_trans with (u * / u); [apply Rmult_le_compat_l; lra|]. rewrite Rinv_r; lra. }
      assert (u * (u * L) <= u * 1) by (apply Rmult_le_compat_l; lra). lra.
    + assert (tau <= y * (1 + 10 * u)) by nra. lra.
  - unfold tau, L. replace (at_t O D (y / rv_norm D)) with (at_t O U y); [exact Hin|].
    fold L. unfold at_t, unit_of, rv_add, rv_scale. fold L. cbn [vx vy vz]. f_equal; field; lra.
Qed.
(** A crossing has such a point. *)
Lemma cross_point i y0 y : lo1 <= y0 -> crosses (power_err prec M) (C i) (rad i) O U y0 y ->
  exists z, lo1 <= z <= y /\ Pw i z <= - power_err prec M.
Proof. intros H [Hy [[A B]|[A B]]]; [exists y|exists y0]; split; lra. Qed.

Lemma cross_near i y0 y : (i < length centers)%nat -> lo1 <= y0 -> crosses (power_err prec M) (C i) (rad i) O U y0 y ->
  exists y', y' <= 4 * M /\ crosses (power_err prec M) (C i) (rad i) O U y0 y'.
Proof.
  intros Hi H0 Hcr. destruct (Rle_lt_dec y (4 * M)) as [L|L]; [exists y; auto|]. exists (4 * M). split; [lra|].
  destruct Hcr as [Hy [[A B]|[A B]]].
  - pose proof (proj1 lo1_ge). destruct lo1_ge as (_ & _ & G). destruct (box_met i y Hi ltac:(lra) B) as [Q _]. lra.
  - destruct (box_met i y0 Hi H0 A) as [Q _]. pose proof SM as V1. pose proof SuM as (W1 & W2 & W3 & W4 & W5 & W6). split; [lra|]. right. split; [exact A|].
    rewrite poly. pose proof (lin_le i Hi) as Ll. apply Rabs_le_inv in Ll.
    destruct (Sdata i Hi) as (c & fr & (_ & _ & Hr & _) & _). unfold cst, power_err.
    set (v := rv_sub O (C i)). pose proof (rv_norm_sq v) as E. pose proof (Rle_0_sqr (rv_norm v)) as E0. unfold Rsqr in E0.
    assert (rad i * rad i <= M * M) by (apply Rmult_le_compat; lra). assert (-2 * M * (4 * M) <= lin O (C i) U * (4 * M)) by (apply Rmult_le_compat_r; lra).
    assert (M ^ 2 = M * M) by ring. rewrite <- E. lra.
Qed.

(** What the routine does with a stored sphere. *)
Definition state_ok (i : sphere_isect spec_float) : Prop :=
  (si_org i = o /\ si_dir i = direction r) /\ si_min i = tmin /\ (si_hd i = S754_infinity false \/ exists h, isf (si_hd i) h).
Lemma prepare_ok : state_ok (is_prepare isx r).
Proof.
  split; [split; reflexivity|]. split; [reflexivity|].
  destruct (sr_far _ _ _ _ _ _ _ _ _ _ _ _ _ _ Hray) as [E|(b & E & _)]; [left|right; exists b]; exact E.
Qed.
Lemma Slo : isf tmin lo. Proof. apply Hray. Qed.
Lemma accept_ok st k p st' : (k < length centers)%nat -> c_prim cl k = Ok p -> (si_org st = o /\ si_dir st = direction r) -> si_min st = tmin ->
  @sphere_intersect _ FN st p r = (true, st') ->
  state_ok st' /\ si_prim st' = Some k /\
  exists t x, isf (si_hd st') x /\ 0 <= x <= 2.2 * M /\ Rabs (x - t) <= 28 * (u * M) /\ lo < t <= 2.1 * M /\
    Rabs (Pw k x) <= power_err prec M /\ (forall h, isf (si_hd st) h -> t < h).
Proof.
  intros Hk Ep Eo Em H. destruct (Sdata k Hk) as (c & fr & Hs & _ & _ & E & _). rewrite Ep in E. injection E as ->.
  assert (Hmin : isf (si_min st) lo) by (rewrite Em; exact Slo).
  destruct (sphere_sound prec emax Sfmt M Sscale o c (direction r) fr O (C k) U (rad k) ltac:(apply Hray) Sdir Hs st r k Eo st' lo Hmin
    (sr_lo _ _ _ _ _ _ _ _ _ _ _ _ _ _ Hray) H) as (E1 & E2 & E3 & _ & E5 & t & x & Hx & R).
  split; [|split; [exact E5|exists t, x; auto]]. split; [auto|]. split; [congruence|]. right. exists x. exact Hx.
Qed.
Lemma far_self : @nltb _ FN tmax tmax = false.
Proof.
  destruct (sr_far _ _ _ _ _ _ _ _ _ _ _ _ _ _ Hray) as [-> | (b & Hb & _)]; [reflexivity|]. rewrite (isF_ltb prec emax _ _ _ _ Hb Hb).
  destruct (Rltb b b) eqn:E; [|reflexivity]. apply Rltb_spec in E. lra.
Qed.
Lemma far_over x t : isf x t -> t <= 2.2 * M -> @nltb _ FN x tmax = true.
Proof.
  intros Hx Ht. pose proof SM. destruct (sr_far _ _ _ _ _ _ _ _ _ _ _ _ _ _ Hray) as [-> | (b & Hb & Hge)]; [apply (inf_ltb prec emax _ _ Hx)|].
  rewrite (isF_ltb prec emax _ _ _ _ Hx Hb). apply Rltb_spec. lra.
Qed.

Variable part : (nat -> bool) -> list nat -> list nat * list nat.
Hypothesis Hpart : partition_ok part.
Variable opt : options.
Variables (nodes : list (node spec_float (sphere spec_float))) (stt : stats).
Hypothesis Hbuild : @build _ FN _ part [] cl opt = Ok (nodes, stt).
Hypothesis Hdepth : forall k d, node_depth nodes k d -> (d <= 26)%nat.

Lemma sphere_query_F rh :
  (@traverse _ FN _ _ isx nodes r rh = Ok (false, rh) /\
   forall i y0 y, (i < length centers)%nat -> lo1 <= y0 -> ~ crosses (power_err prec M) (C i) (rad i) O U y0 y) \/
  (exists rh' k x, @traverse _ FN _ _ isx nodes r rh = Ok (true, rh') /\ (k < length centers)%nat /\ h_prim rh' = Some k /\
     isf (h_distance rh') x /\ lo - 28 * (u * M) <= x /\ Rabs (Pw k x) <= power_err prec M /\
     (large prec M (rad k) -> normal_near prec emax M (C k) (rad k) (at_t O U x) (h_normal rh')) /\
     (any = false -> forall i y0 y, (i < length centers)%nat -> lo1 <= y0 -> crosses (power_err prec M) (C i) (rad i) O U y0 y ->
        x <= y + 40 * (INR (length centers) + 1) * (u * M))).
Proof.
  pose proof Ssize as Hsize. pose proof Snum as Hnum. pose proof (p6 prec emax Sfmt) as Hp6.
  pose (bmin := fun i => rlow prec emax (C i) (rad i)). pose (bmax := fun i => rhigh prec emax (C i) (rad i)).
  pose proof Sboxes as Hbx. fold bmin bmax in Hbx. pose proof Smoderate as Hmd. fold bmin bmax in Hmd.
  assert (Htame : tame_ray prec emax o d tmin O D lo) by apply Hray.
  assert (Hz' : vz D = 0 -> forall i, (i < c_size cl)%nat -> vz O <> vz (bmin i) /\ vz O <> vz (bmax i)) by (rewrite Hsize; apply Hray).
  assert (Hrej : rejecting isx r) by (intros i p i'; exact (proj1 (@all_reject _ FN ss (Trimesh.Mesh [] [] [] [] [] []) r) i p i')).
  pose proof SuM as (W1 & W2 & W3 & W4 & W5 & W6). pose proof SM as V1. destruct lo1_ge as (G1 & G2 & G3).
  assert (Llo := sr_lo _ _ _ _ _ _ _ _ _ _ _ _ _ _ Hray).
  destruct (built_final cl part Hpart opt nodes stt Hbuild Hdepth isx r Hrej
    (fun p => exists i t, (i < c_size cl)%nat /\ c_prim cl i = Ok p /\ meets_at prec emax (bmin i) (bmax i) O D lo tmax t) rh)
    as (fin & Et & Hfin & Hkeep & Hlate).
  { intros ids mn mx i p Hlt Hb Hi Ei (j & t & Hj & Ej & Hm) nd E1 E2.
    assert (i = j) by (rewrite <- (Hnum i p Ei); apply (Hnum j p Ej)). subst j.
    apply (group_passes_hd prec emax Hp6 cl bmin bmax Hbx Hmd o d tmin tmax any O D lo Htame Hz' tmax ids mn mx i t Hlt Hb Hi Hm nd E1 E2). }
  rewrite Et. unfold verdict. change (max_hit_distance r) with tmax.
  assert (Hin : forall p, In p (stored nodes) -> exists k, (k < length centers)%nat /\ c_prim cl k = Ok p).
  { intros p Hp. destruct (@build_stores _ _ FN part Hpart cl opt nodes stt sp_id Hnum Hbuild) as [Q1 Q2].
    exists (sp_id p). split; [|apply Q2, Hp]. rewrite <- Hsize. apply in_map with (f := sp_id) in Hp.
    apply (Permutation.Permutation_in _ Q1), in_seq in Hp. lia. }
  assert (Hall : forall i p, (i < length centers)%nat -> c_prim cl i = Ok p -> In p (stored nodes)).
  { intros i p Hi E. destruct (@build_stores _ _ FN part Hpart cl opt nodes stt sp_id Hnum Hbuild) as [Q1 Q2].
    assert (Hi' : In i (map sp_id (stored nodes))).
    { apply (Permutation.Permutation_in _ (Permutation.Permutation_sym Q1)), in_seq. rewrite Hsize. lia. }
    apply in_map_iff in Hi' as (p' & <- & Hq'). specialize (Q2 p' Hq'). rewrite E in Q2. injection Q2 as ->. exact Hq'. }
  destruct Hfin as [[-> Hq]|(p & j & Hp & Ej & Hj)].
  - left. change (is_hd isx (is_prepare isx r)) with tmax. rewrite far_self. split; [reflexivity|]. intros i y0 y9 Hi Hy0 Hcr9. destruct (cross_near i y0 y9 Hi Hy0 Hcr9) as (y & Hy & Hcr).
    destruct (cross_point i y0 y Hy0 Hcr) as (z & Hz & Hpz). destruct (box_met i z Hi ltac:(lra) Hpz) as (_ & tau & T1 & T2 & T3).
    destruct (Sdata i Hi) as (c & fr & Hs & _ & _ & E & _).
    assert (Hacc : fst (@sphere_intersect _ FN (is_prepare isx r) (Sphere c fr i) r) = true).
    { destruct (sphere_crossed prec emax Sfmt M Sscale o c (direction r) fr O (C i) U (rad i) ltac:(apply Hray) Sdir Hs (is_prepare isx r) r i
        ltac:(split; reflexivity) lo y0 y Slo Llo ltac:(lra) Hcr) as [Q _]. apply Q.
      destruct (sr_far _ _ _ _ _ _ _ _ _ _ _ _ _ _ Hray) as [F|(b & F & F')]; [left; exact F|right; exists b; split; [exact F|lra]]. }
    specialize (Hq _ (Hall i _ Hi E)). cbn [is_prim sphere_isector] in Hq. rewrite Hacc in Hq. discriminate Hq.
    exists i, tau. rewrite Hsize. split; [exact Hi|]. split; [exact E|]. apply T3.
    destruct (sr_far _ _ _ _ _ _ _ _ _ _ _ _ _ _ Hray) as [F|(b & F & F')]; [left; exact F|right; exists b; split; [exact F|lra]].
  - right. destruct (Hin p Hp) as (k & Hk & Ek). cbn [is_prim sphere_isector] in Ej.
    assert (Ekeep : (si_org j = o /\ si_dir j = direction r) /\ si_min j = tmin).
    { assert (K : (si_org fin = o /\ si_dir fin = direction r) /\ si_min fin = tmin).
      { apply (Hkeep (fun st => (si_org st = o /\ si_dir st = direction r) /\ si_min st = tmin)); [|split; [split|]; reflexivity].
        intros st p' h st' [[A1 A2] A3] E. destruct (min_kept_s _ _ _ _ _ E) as (B1 & B2 & B3). repeat split; congruence. }
      destruct K as [[A1 A2] A3]. destruct (min_kept_s _ _ _ _ _ Ej) as (B1 & B2 & B3). repeat split; congruence. }
    destruct (accept_ok j k p fin Hk Ek (proj1 Ekeep) (proj2 Ekeep) Ej) as ((Efin & _) & Ep & (t & x & I1 & I2 & I3 & I4 & I5 & _)).
    change (is_hd isx fin) with (si_hd fin). rewrite (far_over _ _ I1 ltac:(lra)).
    destruct (Sdata k Hk) as (ck & frk & Hsk & Hck & Enth & _).
    destruct (sphere_posts centers radii ss Hmake fin rh k ck Ep Enth) as (rh' & Er & R1 & R2 & R3).
    cbn [is_post sphere_isector]. rewrite Er. cbn [bind]. exists rh', k, x. rewrite R1.
    split; [reflexivity|]. split; [exact Hk|]. split; [exact R2|]. split; [exact I1|]. split; [apply Rabs_le_inv in I3; lra|]. split; [exact I5|]. split.
    { intros Hlg. rewrite R3. destruct Efin as [-> ->]. destruct Hsk as (Q1 & _ & Q3 & Q4).
      apply (normal_F prec emax Sfmt M Sscale); try assumption; [apply Hray|apply Sdir]. }
    intros Hany i y0 y Hi Hy0 Hcr. destruct (Sdata i Hi) as (c & fr & Hs & _ & _ & Eq & _).
    destruct (cross_point i y0 y Hy0 Hcr) as (z & Hz & Hpz). destruct (box_met i z Hi ltac:(lra) Hpz) as (_ & tau & T1 & T2 & T3).
    assert (Crossed : forall st, state_ok st -> (at_least prec emax (si_hd st) y -> fst (@sphere_intersect _ FN st (Sphere c fr i) r) = true) /\
      forall st', @sphere_intersect _ FN st (Sphere c fr i) r = (true, st') -> exists x, isf (si_hd st') x /\ x <= y + 28 * (u * M)).
    { intros st (S1 & S2 & S3).
      destruct (sphere_crossed prec emax Sfmt M Sscale o c (direction r) fr O (C i) U (rad i) ltac:(apply Hray) Sdir Hs st r i
        S1 lo y0 y ltac:(rewrite S2; exact Slo) Llo ltac:(lra) Hcr) as [Q1 Q2]. split; [exact Q1|exact (Q2 S3)]. }
    pose (Bd := fun (n : nat) x => exists a, isf x a /\ a <= y + 40 * (INR n + 1) * (u * M)).
    assert (HB : Bd (c_size cl) (si_hd fin)).
    { apply (Hlate (fun p => exists k, (k < length centers)%nat /\ c_prim cl k = Ok p) state_ok Bd (Sphere c fr i) i Hany).
      - intros st p' st' (k' & Hk' & Ek') Hst E'. cbn [is_prim sphere_isector] in E'. destruct Hst as (S1 & S2 & S3).
        destruct (accept_ok st k' p' st' Hk' Ek' S1 S2 E') as (Q1 & _ & (t' & x' & X1 & _ & X3 & _ & _ & X6)). split; [exact Q1|].
        intros n (a & A1 & A2). exists x'. split; [exact X1|]. specialize (X6 a A1). apply Rabs_le_inv in X3. rewrite S_INR. lra.
      - intros st hh st' Hst E'. cbn [is_prim sphere_isector] in E'. change (is_hd isx st') with (si_hd st'). destruct (Crossed st Hst) as [Q1 Q2].
        destruct hh.
        + destruct (Q2 st' E') as (x' & X1 & X2). exists x'. split; [exact X1|]. cbn [INR]. lra.
        + pose proof (Hrej _ _ _ E'). subst st'. destruct Hst as (S1 & S2 & [S3|(h & Sh)]).
          * rewrite E' in Q1. specialize (Q1 (or_introl S3)). discriminate Q1.
          * exists h. split; [exact Sh|]. cbn [INR]. destruct (Rle_lt_dec y h) as [Lh|Lh]; [|lra].
            rewrite E' in Q1. specialize (Q1 (or_intror (ex_intro _ h (conj Sh Lh)))). discriminate Q1.
      - intros n x0 (a & A1 & A2). exists a. split; [exact A1|]. rewrite S_INR. lra.
      - apply prepare_ok.
      - reflexivity.
      - exact Hin.
      - rewrite Hsize. exact Hi.
      - exact Eq.
      - intros ids mn mx j' st Hlt Hb Hj' Ej' Hst nd E1 E2 Ef. change (is_hd isx st) with (si_hd st) in *. change (min_hit_distance r) with tmin in Ef.
        assert (j' = i) by (rewrite <- (Hnum j' _ Ej'); reflexivity). subst j'.
        destruct (proj2 (proj2 Hst)) as [Sh|(h & Sh)].
        + exfalso. rewrite (group_passes_hd prec emax Hp6 cl bmin bmax Hbx Hmd o d tmin tmax any O D lo Htame Hz' (si_hd st) ids mn mx i tau Hlt Hb Hj'
            (T3 _ (or_introl Sh)) nd E1 E2) in Ef. discriminate Ef.
        + exists h. split; [exact Sh|]. cbn [INR]. destruct (Rle_lt_dec h (tau * (1 + 4 * u))) as [Lh|Lh]; [lra|exfalso].
          rewrite (group_passes_hd prec emax Hp6 cl bmin bmax Hbx Hmd o d tmin tmax any O D lo Htame Hz' (si_hd st) ids mn mx i tau Hlt Hb Hj'
            (T3 _ (or_intror (ex_intro _ h (conj Sh (Rlt_le _ _ Lh))))) nd E1 E2) in Ef. discriminate Ef. }
    destruct HB as (a & A1 & A2). rewrite (isF_fun prec emax _ _ _ A1 I1), Hsize in A2. exact A2.
Qed.
End F.
