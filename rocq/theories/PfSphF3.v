(** The sphere routine in IEEE arithmetic. *)

From Coq Require Import Reals ZArith Bool Lra Lia Psatz Floats.SpecFloat.
From Flocq Require Import Core IEEE754.BinarySingleNaN.
From Verif Require Import Num NumR NumF Vec Ray Sphere SpecReal SpecIEEE SpecTriF SpecSphF PfIEEE PfIEEE2 PfIEEE3 PfTriF PfTriF2 PfDirF PfX PfSphF PfSphF2.
Local Open Scope R_scope.

Lemma sq_dist x y : Rabs x <= Rabs y -> x * x <= y * y.
Proof. intros H. apply Rsqr_le_abs_1 in H. exact H. Qed.

(** Where approximate roots of a parabola lie. *)
Section Parabola.
Variables e M V Dl t0 t1 : R.
Hypothesis He : 0 < e <= / 1000000.
Hypothesis HM : 1 <= M.
Hypothesis H0 : Rabs ((t0 - V) * (t0 - V) - Dl) <= 193 * (e * M ^ 2).
Hypothesis H1 : Rabs ((t1 - V) * (t1 - V) - Dl) <= 193 * (e * M ^ 2).
Hypothesis L0 : t0 <= V + 64 * (e * M).
Hypothesis L1 : V - 64 * (e * M) <= t1.
Lemma eM2 : 0 < e * M ^ 2 /\ (64 * (e * M)) * (64 * (e * M)) <= 0.01 * (e * M ^ 2) /\ 0 <= e * M.
Proof.
  assert (P : 1 <= M ^ 2) by (apply pow_R1_Rle; exact HM).
  assert (A : 0 < e * M ^ 2) by (apply Rmult_lt_0_compat; lra). split; [exact A|]. split; [|apply Rmult_le_pos; lra].
  replace (64 * (e * M) * (64 * (e * M))) with (4096 * (e * (e * M ^ 2))) by ring.
  assert (e * (e * M ^ 2) <= / 1000000 * (e * M ^ 2)) by (apply Rmult_le_compat_r; lra). lra.
Qed.
Lemma below_inside z : (z - V) * (z - V) - Dl <= - (256 * (e * M ^ 2)) -> t0 < z < t1.
Proof.
  intros Hz. destruct eM2 as (A & B & Cc). apply Rabs_le_inv in H0. apply Rabs_le_inv in H1. pose proof (Rle_0_sqr (z - V)) as Z0. unfold Rsqr in Z0.
  split; apply Rnot_le_lt; intros Hle.
  - destruct (Rle_lt_dec t0 V) as [Hv|Hv].
    + assert ((t0 - V) * (t0 - V) <= (z - V) * (z - V)) by (apply sq_dist; rewrite !Rabs_left1 by lra; lra). lra.
    + assert ((t0 - V) * (t0 - V) <= (64 * (e * M)) * (64 * (e * M))) by (apply sq_dist; rewrite !Rabs_pos_eq by lra; lra). lra.
  - destruct (Rle_lt_dec V t1) as [Hv|Hv].
    + assert ((t1 - V) * (t1 - V) <= (z - V) * (z - V)) by (apply sq_dist; rewrite !Rabs_pos_eq by lra; lra). lra.
    + assert ((t1 - V) * (t1 - V) <= (64 * (e * M)) * (64 * (e * M))) by (apply sq_dist; rewrite (Rabs_left1 (t1 - V)), Rabs_pos_eq by lra; lra). lra.
Qed.
Lemma left_outside z y : z < y -> 256 * (e * M ^ 2) <= (z - V) * (z - V) - Dl -> (y - V) * (y - V) - Dl <= - (256 * (e * M ^ 2)) -> z < t0.
Proof.
  intros Hy Hz Hi. destruct eM2 as (A & B & Cc). apply Rabs_le_inv in H0. apply Rnot_le_lt. intros Hle.
  destruct (Rle_lt_dec z V) as [Hv|Hv].
  - assert ((z - V) * (z - V) <= (t0 - V) * (t0 - V)) by (apply sq_dist; rewrite !Rabs_left1 by lra; lra). lra.
  - assert ((z - V) * (z - V) <= (y - V) * (y - V)) by (apply sq_dist; rewrite !Rabs_pos_eq by lra; lra). lra.
Qed.
Lemma right_outside z y : y < z -> 256 * (e * M ^ 2) <= (z - V) * (z - V) - Dl -> (y - V) * (y - V) - Dl <= - (256 * (e * M ^ 2)) -> t1 < z.
Proof.
  intros Hy Hz Hi. destruct eM2 as (A & B & Cc). apply Rabs_le_inv in H1. apply Rnot_le_lt. intros Hle.
  destruct (Rle_lt_dec V z) as [Hv|Hv].
  - assert ((z - V) * (z - V) <= (t1 - V) * (t1 - V)) by (apply sq_dist; rewrite !Rabs_pos_eq by lra; lra). lra.
  - assert ((z - V) * (z - V) <= (y - V) * (y - V)) by (apply sq_dist; rewrite !Rabs_left1 by lra; lra). lra.
Qed.
End Parabola.

Section Any.
Context {T : Type} {N : num T}.
Local Open Scope num_scope.
Lemma go_any (st : sphere_isect T) (c : vec T) (fr : T) (id : nat) (r0 : ray T) (o d : vec T) : si_org st = o -> si_dir st = d ->
  sphere_intersect st (Sphere c fr id) r0 =
  let A := dot d d in let B := n2 * dot (vsub o c) d in let C := dot (vsub o c) (vsub o c) - fr * fr in
  let D := B * B - n4 * A * C in let t0 := nhalf * (n1 / A) * (- B - nsqrt D) in let t1 := nhalf * (n1 / A) * (- B + nsqrt D) in
  if D <? n0 then (false, st)
  else if ((si_min st <? t0) && (t0 <? si_hd st))%bool then (true, SphereIsect o d (si_min st) (si_uv st) (norm (vscale t0 d)) (Some id))
  else if ((si_min st <? t1) && (t1 <? si_hd st))%bool then (true, SphereIsect o d (si_min st) (si_uv st) (norm (vscale t1 d)) (Some id))
  else (false, st).
Proof. intros <- <-. reflexivity. Qed.
End Any.

Section F.
Variables prec emax : Z.
Context {Hprec : Prec_gt_0 prec} {Hmax : Prec_lt_emax prec emax}.
Hypothesis Hfmt : usual_format prec emax.
Notation FN := (Fnum prec emax).
Notation isf := (isF prec emax).
Notation rd := (rnd prec emax).
Notation u := (ulpf prec).
Notation low0 := (least emax).
Notation hi0 := (top emax).
Notation q := (/ 1000000).
Variable M : R.
Hypothesis HM : scale_ok prec emax M.
Variables (o c d : vec spec_float) (fr : spec_float) (O C U : vec R) (r : R).
Hypothesis Ho : visF prec emax o O.
Hypothesis Hd : unit_near prec emax d U.
Hypothesis Hs : sphere_isF prec emax M O c fr C r.
Notation P t := (power C r (at_t O U t)).

(** The recorded distance. *)
Lemma distance_F ft t : isf ft t -> Rabs t <= 2.1 * M -> exists x, isf (@norm _ FN (@vscale _ FN ft d)) x /\ 0 <= x /\ Rabs (x - Rabs t) <= 28 * (u * M).
Proof.
  intros Ht Hl. destruct Hd as [H1 Hn]. destruct (vn_dir prec emax M d U H1 Hn) as [_ (D & (D1 & D2 & D3) & ED)]. rewrite pow_O in ED.
  pose proof (u_pos prec) as U0. pose proof (u_small prec emax Hfmt) as U1. pose proof (M1' prec emax M HM) as V1.
  pose proof (Mk_top prec emax M HM 1 ltac:(lia)) as T. rewrite pow_1 in T. pose proof (Mk_top prec emax M HM 2 ltac:(lia)) as T2. pose proof (Mk_pos prec emax M HM 2) as Q2.
  assert (uM : u * M <= q * M) by (apply Rmult_le_compat_r; lra). assert (uM0 : u <= u * M) by (rewrite <- (Rmult_1_r u) at 1; apply Rmult_le_compat_l; lra).
  assert (ND : rv_norm D <= 1.00001) by (pose proof (norm_sub_le D U); lra).
  destruct (comp_norm D) as (N1 & N2 & N3).
  assert (Cp : forall fx x, isf fx x -> Rabs x <= rv_norm D -> isf (@nmul _ FN ft fx) (rd (t * x)) /\ Rabs (rd (t * x) - t * x) <= 2.101 * (u * M)).
  { intros fx x Hx Hlx. assert (A : Rabs (t * x) <= 2.1 * M * 1.00001) by (apply Rabs_mul_le; lra).
    pose proof (rd_abs prec emax Hfmt (t * x)) as R. assert (u * Rabs (t * x) <= u * (2.1 * M * 1.00001)) by (apply Rmult_le_compat_l; lra).
    split; [|lra]. apply (isF_mul prec emax); try assumption. apply (rd_half_top prec emax (p6 prec emax Hfmt)). lra. }
  destruct (Cp _ _ D1 N1) as [I1 E1]. destruct (Cp _ _ D2 N2) as [I2 E2]. destruct (Cp _ _ D3 N3) as [I3 E3].
  set (a := V (rd (t * vx D)) (rd (t * vy D)) (rd (t * vz D))).
  assert (Ha : visF prec emax (@vscale _ FN ft d) a) by (split; [|split]; assumption).
  assert (Na : rv_norm (rv_sub a (rv_scale t D)) <= 1.7321 * (2.101 * (u * M))) by (apply norm_const; [lra|assumption..]).
  assert (Nd : rv_norm (rv_sub (rv_scale t D) (rv_scale t U)) <= 2.1 * M * (8.67 * u)).
  { replace (rv_sub (rv_scale t D) (rv_scale t U)) with (rv_scale t (rv_sub D U)) by (unfold rv_sub, rv_scale; cbn [vx vy vz]; f_equal; ring).
    rewrite rv_norm_scale. apply Rmult_le_compat; [apply Rabs_pos|apply rv_norm_nonneg|exact Hl|lra]. }
  assert (Nu : rv_norm (rv_scale t U) = Rabs t) by (rewrite rv_norm_scale, H1; ring).
  pose proof (norm_sub_le a (rv_scale t D)) as G1. pose proof (norm_sub_le (rv_scale t D) (rv_scale t U)) as G2.
  pose proof (norm_sub_le (rv_scale t D) a) as G3. pose proof (norm_sub_le (rv_scale t U) (rv_scale t D)) as G4.
  rewrite norm_sub_sym in G3. rewrite (norm_sub_sym (rv_scale t U)) in G4.
  assert (Ea : Rabs (rv_norm a - Rabs t) <= 21.9 * (u * M)) by (apply Rabs_le; lra).
  assert (Nb : rv_norm a <= 2.11 * M) by lra. pose proof (rv_norm_nonneg a) as Na0.
  assert (Nbb : rv_norm a * rv_norm a <= 4.5 * M ^ 2).
  { apply Rle_trans with (2.11 * M * (2.11 * M)); [apply Rmult_le_compat; lra|]. replace (2.11 * M * (2.11 * M)) with (2.11 * 2.11 * M ^ 2) by ring. lra. }
  destruct (norm_F prec emax Hfmt _ a (4.5 * M ^ 2) Ha Nbb ltac:(lra) ltac:(lra)) as (x & Hx & X0 & Ex).
  exists x. split; [exact Hx|]. split; [exact X0|].
  assert (u * rv_norm a <= u * (2.11 * M)) by (apply Rmult_le_compat_l; lra).
  replace (x - Rabs t) with ((x - rv_norm a) + (rv_norm a - Rabs t)) by ring. eapply Rle_trans; [apply Rabs_add_le; [exact Ex|exact Ea]|]. lra.
Qed.

Notation lin := (PfSphF2.lin O C U).
Notation cst := (PfSphF2.cst O C r).
Lemma square_form t : P t = (t - - lin / 2) * (t - - lin / 2) - (lin * lin - 4 * cst) / 4.
Proof. rewrite (power_poly prec emax d O C U r Hd). field. Qed.

Variables (st : sphere_isect spec_float) (ray0 : ray spec_float) (id : nat).
Hypothesis Est : si_org st = o /\ si_dir st = d.
Notation go := (@sphere_intersect _ FN st (Sphere c fr id) ray0).
Notation D := (fD prec emax o c d fr).
Notation ft0 := (PfSphF2.ft0 prec emax o c d fr).
Notation ft1 := (PfSphF2.ft1 prec emax o c d fr).
Lemma go_eq : go =
  if @nltb _ FN D (@n0 _ FN) then (false, st)
  else if (@nltb _ FN (si_min st) ft0 && @nltb _ FN ft0 (si_hd st))%bool then
    (true, SphereIsect o d (si_min st) (si_uv st) (@norm _ FN (@vscale _ FN ft0 d)) (Some id))
  else if (@nltb _ FN (si_min st) ft1 && @nltb _ FN ft1 (si_hd st))%bool then
    (true, SphereIsect o d (si_min st) (si_uv st) (@norm _ FN (@vscale _ FN ft1 d)) (Some id))
  else (false, st).
Proof. destruct Est as [E1 E2]. exact (go_any st c fr id ray0 o d E1 E2). Qed.
Lemma D_sign D' : isf D D' -> @nltb _ FN D (@n0 _ FN) = Rltb D' 0.
Proof. intros H. apply (isF_ltb prec emax _ _ _ _ H (zero_isF prec emax)). Qed.

(** A sphere that is accepted. *)
Lemma sphere_sound st' lo : isf (si_min st) lo -> 0 <= lo -> go = (true, st') ->
  si_org st' = o /\ si_dir st' = d /\ si_min st' = si_min st /\ si_uv st' = si_uv st /\ si_prim st' = Some id /\
  exists t x, isf (si_hd st') x /\ 0 <= x <= 2.2 * M /\ Rabs (x - t) <= 28 * (u * M) /\ lo < t <= 2.1 * M /\
    Rabs (P x) <= power_err prec M /\ (forall h, isf (si_hd st) h -> t < h).
Proof.
  intros Hlo L0 Hgo. rewrite go_eq in Hgo. destruct (roots prec emax Hfmt M HM o c d fr O C U r Ho Hd Hs) as (Dv & HD & ED & Hr).
  rewrite (D_sign _ HD) in Hgo. destruct (Rltb Dv 0) eqn:Es; [discriminate Hgo|].
  assert (D0 : 0 <= Dv). { apply Rnot_lt_le. intros X. apply Rltb_spec in X. congruence. }
  destruct (Hr D0) as (t0 & t1 & I0 & I1 & _ & B0 & B1 & S0 & S1 & P0 & P1 & _).
  pose proof (u_pos prec) as U0. pose proof (u_small prec emax Hfmt) as U1. pose proof (M1' prec emax M HM) as V1.
  assert (uM0 : 0 <= u * M) by (apply Rmult_le_pos; lra). assert (uM : u * M <= q * M) by (apply Rmult_le_compat_r; lra).
  assert (Fin : forall ft t, isf ft t -> Rabs t <= 2.1 * M -> Rabs (2 * t + lin) <= 2.02 * M -> Rabs (P t) <= 193 * (u * M ^ 2) ->
    (@nltb _ FN (si_min st) ft && @nltb _ FN ft (si_hd st))%bool = true ->
    exists t x, isf (@norm _ FN (@vscale _ FN ft d)) x /\ 0 <= x <= 2.2 * M /\ Rabs (x - t) <= 28 * (u * M) /\ lo < t <= 2.1 * M /\
      Rabs (P x) <= power_err prec M /\ (forall h, isf (si_hd st) h -> t < h)).
  { intros ft t It Bt St Pt Hc. apply andb_true_iff in Hc as [Hc1 Hc2].
    rewrite (isF_ltb prec emax _ _ _ _ Hlo It) in Hc1. apply Rltb_spec in Hc1.
    destruct (distance_F ft t It Bt) as (x & Hx & X0 & Ex). rewrite (Rabs_pos_eq t) in Ex by lra. rewrite (Rabs_pos_eq t) in Bt by lra.
    exists t, x. split; [exact Hx|]. split; [apply Rabs_le_inv in Ex; lra|]. split; [exact Ex|]. split; [lra|]. split.
    - replace (P x) with (P t + (x - t) * ((2 * t + lin) + (x - t))) by (rewrite !(power_poly prec emax d O C U r Hd); ring).
      assert (W : Rabs ((x - t) * ((2 * t + lin) + (x - t))) <= 28 * (u * M) * (2.021 * M)).
      { apply Rabs_mul_le; [exact Ex|]. eapply Rle_trans; [apply Rabs_add_le; [exact St|exact Ex]|]. lra. }
      unfold power_err. replace (28 * (u * M) * (2.021 * M)) with (28 * 2.021 * (u * M ^ 2)) in W by ring.
      assert (0 <= u * M ^ 2) by (apply Rmult_le_pos; [lra|apply pow_le; lra]).
      eapply Rle_trans; [apply Rabs_add_le; [exact Pt|exact W]|]. lra.
    - intros h Hh. rewrite (isF_ltb prec emax _ _ _ _ It Hh) in Hc2. apply Rltb_spec in Hc2. exact Hc2. }
  destruct (@nltb _ FN (si_min st) ft0 && @nltb _ FN ft0 (si_hd st))%bool eqn:C0.
  - injection Hgo as <-. cbn [si_org si_dir si_min si_uv si_prim si_hd]. do 5 (split; [reflexivity|]). apply (Fin _ _ I0 B0 S0 P0 C0).
  - destruct (@nltb _ FN (si_min st) ft1 && @nltb _ FN ft1 (si_hd st))%bool eqn:C1; [|discriminate Hgo].
    injection Hgo as <-. cbn [si_org si_dir si_min si_uv si_prim si_hd]. do 5 (split; [reflexivity|]). apply (Fin _ _ I1 B1 S1 P1 C1).
Qed.
(** A sphere whose surface the ray crosses with a margin: it is accepted if the interval goes so
    far, and the recorded distance is not far beyond the crossing. *)
Lemma sphere_crossed lo y0 y : isf (si_min st) lo -> 0 <= lo -> lo <= y0 -> crosses (power_err prec M) C r O U y0 y ->
  (at_least prec emax (si_hd st) y -> fst go = true) /\
  (si_hd st = S754_infinity false \/ (exists h, isf (si_hd st) h) ->
   forall st', go = (true, st') -> exists x, isf (si_hd st') x /\ x <= y + 28 * (u * M)).
Proof.
  intros Hlo L0 Hy0 [Hyy Hcr]. rewrite go_eq. destruct (roots prec emax Hfmt M HM o c d fr O C U r Ho Hd Hs) as (Dv & HD & ED & Hr).
  pose proof (u_pos prec) as U0. pose proof (u_small prec emax Hfmt) as U1. pose proof (M1' prec emax M HM) as V1.
  assert (uM2 : 0 < u * M ^ 2) by (apply Rmult_lt_0_compat; [lra|apply pow_lt; lra]).
  unfold power_err in Hcr. rewrite !square_form in Hcr. replace (256 * u * M ^ 2) with (256 * (u * M ^ 2)) in Hcr by ring.
  set (V := - lin / 2) in *. set (Dl := (lin * lin - 4 * cst) / 4) in *.
  assert (DD : 4 * Dl = lin * lin - 4 * cst) by (unfold Dl; field). rewrite <- DD in ED. apply Rabs_le_inv in ED.
  assert (D0 : 0 <= Dv).
  { pose proof (Rle_0_sqr (y0 - V)) as Z0. pose proof (Rle_0_sqr (y - V)) as Z1. unfold Rsqr in Z0, Z1. destruct Hcr as [[_ Q]|[Q _]]; lra. }
  rewrite (D_sign _ HD). assert (Es : Rltb Dv 0 = false). { destruct (Rltb Dv 0) eqn:E; [|reflexivity]. apply Rltb_spec in E. lra. } rewrite Es.
  destruct (Hr D0) as (t0 & t1 & I0 & I1 & T01 & B0 & B1 & _ & _ & P0 & P1 & G0 & G1). rewrite square_form in P0, P1. fold V Dl in P0, P1, G0, G1.
  assert (Hu : 0 < u <= / 1000000) by lra.
  assert (In : forall z, (z - V) * (z - V) - Dl <= - (256 * (u * M ^ 2)) -> t0 < z < t1) by (intros z; apply (below_inside u M V Dl t0 t1); assumption).
  assert (T : t0 < y /\ (y0 < t0 \/ (y0 < t1 /\ t1 < y))).
  { destruct Hcr as [[Q1 Q2]|[Q1 Q2]].
    - destruct (In _ Q2). split; [assumption|]. left. apply (left_outside u M V Dl t0) with (y := y); assumption.
    - destruct (In _ Q1). split; [lra|]. right. split; [assumption|]. apply (right_outside u M V Dl t1) with (y := y0); assumption. }
  destruct T as [T0 T1].
  assert (Up : forall t, at_least prec emax (si_hd st) y -> t < y -> forall ft, isf ft t -> @nltb _ FN ft (si_hd st) = true).
  { intros t Hal Ht ft It. destruct Hal as [-> | (b & Hb & Hge)]; [apply (inf_ltb prec emax _ _ It)|].
    rewrite (isF_ltb prec emax _ _ _ _ It Hb). apply Rltb_spec. lra. }
  split.
  - intros Hal. rewrite (Up t0 Hal T0 _ I0), andb_true_r. rewrite (isF_ltb prec emax _ _ _ _ Hlo I0).
    destruct (Rltb lo t0) eqn:E0; [reflexivity|]. destruct T1 as [T1|[T1 T2]].
    + exfalso. assert (X : Rltb lo t0 = true) by (apply Rltb_spec; lra). congruence.
    + rewrite (Up t1 Hal T2 _ I1), andb_true_r. rewrite (isF_ltb prec emax _ _ _ _ Hlo I1). assert (X : Rltb lo t1 = true) by (apply Rltb_spec; lra). rewrite X. reflexivity.
  - assert (Fin : forall ft t, isf ft t -> Rabs t <= 2.1 * M -> lo < t -> t < y -> exists x, isf (@norm _ FN (@vscale _ FN ft d)) x /\ x <= y + 28 * (u * M)).
    { intros ft t It Bt Hlt Hty. destruct (distance_F ft t It Bt) as (x & Hx & X0 & Ex). rewrite (Rabs_pos_eq t) in Ex by lra. apply Rabs_le_inv in Ex. exists x. split; [exact Hx|lra]. }
    intros Hhd st'. rewrite (isF_ltb prec emax _ _ _ _ Hlo I0), (isF_ltb prec emax _ _ _ _ Hlo I1).
    destruct (Rltb lo t0) eqn:E0; cbn [andb].
    + apply Rltb_spec in E0. destruct (@nltb _ FN ft0 (si_hd st)) eqn:F0.
      * intros [= <-]. apply (Fin _ _ I0 B0 E0 T0).
      * destruct (Rltb lo t1) eqn:E1; cbn [andb]; [|discriminate]. destruct (@nltb _ FN ft1 (si_hd st)) eqn:F1; [|discriminate].
        intros [= <-]. apply Rltb_spec in E1. exfalso.
        destruct Hhd as [E|(h & Hh)].
        -- rewrite E, (inf_ltb prec emax _ _ I0) in F0. discriminate F0.
        -- rewrite (isF_ltb prec emax _ _ _ _ I0 Hh) in F0. rewrite (isF_ltb prec emax _ _ _ _ I1 Hh) in F1. apply Rltb_spec in F1.
           assert (X : Rltb t0 h = true) by (apply Rltb_spec; lra). congruence.
    + destruct T1 as [T1|[T1 T2]]; [exfalso; assert (X : Rltb lo t0 = true) by (apply Rltb_spec; lra); congruence|].
      destruct (Rltb lo t1) eqn:E1; cbn [andb]; [|discriminate]. destruct (@nltb _ FN ft1 (si_hd st)); [|discriminate].
      intros [= <-]. apply Rltb_spec in E1. apply (Fin _ _ I1 B1 E1 T2).
Qed.
End F.
