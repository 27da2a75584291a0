(** Nearest hits of Embree-backed scenes with rounding. *)

From Coq Require Import Reals ZArith List Bool Arith Lra Lia Psatz Floats.SpecFloat.
From Flocq Require Import Core IEEE754.BinarySingleNaN.
From Verif Require Import Num NumR NumF Vec Ray Bvh Sphere Plane Scene Embree EmbreeScene SpecBvh SpecReal SpecIEEE SpecTriF SpecSphF SpecPlane SpecPlaneF SpecScene SpecEmbScene SpecEmbF.
From Verif Require Import PfBuild PfIEEE PfIEEE2 PfIEEE3 PfTriF PfTriF2 PfDirF PfX PfEmbScene PfSphF PfSphF2 PfSphF3 PfPlane PfPlaneF2 PfPlaneF3 PfPlaneF5 PfPlaneF6 PfPlaneF7 PfEmbreeF.
Import ListNotations.
Local Open Scope R_scope.

Section F.
Variables prec emax : Z.
Context {Hprec : Prec_gt_0 prec} {Hmax : Prec_lt_emax prec emax}.
Hypothesis Hfmt : usual_format prec emax.
Notation FN := (Fnum prec emax).
Notation isf := (isF prec emax).
Notation rd := (rnd prec emax).
Notation u := (ulpf prec).
Notation q6 := (/ 1000000).
Variable M : R.
Hypothesis HM : scale_ok prec emax M.

(** ** Bounds *)
Lemma ball_box O U c fr C r z : sphere_isF prec emax M O c fr C r -> coords M C -> power C r (at_t O U z) <= - power_err prec M ->
  exists low high, visF prec emax (fst (@sphere_box _ FN c fr)) low /\ visF prec emax (snd (@sphere_box _ FN c fr)) high /\ in_box low high (at_t O U z).
Proof.
  intros ((H1 & H2 & H3) & Hr & Hrm & _) (K1 & K2 & K3) Hz.
  pose proof (u_pos prec) as U0. pose proof (u_small prec emax Hfmt) as U1. pose proof (M1' prec emax M HM) as V1.
  pose proof (Mk_top prec emax M HM 1 ltac:(lia)) as T. rewrite pow_1 in T.
  assert (uM0 : 0 < u * M) by (apply Rmult_lt_0_compat; lra). assert (uM2 : 0 < u * M ^ 2) by (apply Rmult_lt_0_compat; [lra|apply pow_lt; lra]).
  unfold power_err in Hz. unfold power in Hz. set (X := at_t O U z) in *. set (w := rv_sub X C) in *. rewrite <- (rv_norm_sq w) in Hz.
  pose proof (rv_norm_nonneg w) as N0. set (n := rv_norm w) in *.
  assert (R2 : 2.1 * (u * M) <= r).
  { apply sq_le_abs; [lra|]. replace (2.1 * (u * M) * (2.1 * (u * M))) with (4.41 * (u * (u * M ^ 2))) by lra.
    assert (u * (u * M ^ 2) <= q6 * (u * M ^ 2)) by (apply Rmult_le_compat_r; lra). pose proof (Rle_0_sqr n) as NN. unfold Rsqr in NN. lra. }
  assert (Nr : n <= r - 2.1 * (u * M)).
  { apply sq_le_abs; [lra|]. replace ((r - 2.1 * (u * M)) * (r - 2.1 * (u * M))) with (r * r - 4.2 * (u * M * r) + 2.1 * (u * M) * (2.1 * (u * M))) by lra.
    assert (u * M * r <= u * M * M) by (apply Rmult_le_compat_l; lra). replace (u * M * M) with (u * M ^ 2) in * by ring.
    assert (0 <= 2.1 * (u * M) * (2.1 * (u * M))) by (apply Rmult_le_pos; lra). lra. }
  destruct (comp_norm w) as (N1 & N2 & N3). fold n in N1, N2, N3.
  assert (Ends : forall x, Rabs x <= M -> Rabs (x - r) <= 2 * M /\ Rabs (x + r) <= 2 * M).
  { intros x Hx. apply Rabs_le_inv in Hx. split; apply Rabs_le; lra. }
  assert (G : forall fx x p, isf fx x -> Rabs x <= M -> Rabs (p - x) <= n -> rd (x - r) <= p <= rd (x + r)).
  { intros fx x p Hx Hxm Hp. apply Rabs_le_inv in Hp. destruct (Ends x Hxm) as [A B].
    pose proof (rd_sub_rel prec emax _ _ _ _ Hx Hr) as E1. pose proof (rd_add_rel prec emax _ _ _ _ Hx Hr) as E2.
    assert (u * Rabs (x - r) <= u * (2 * M)) by (apply Rmult_le_compat_l; lra). assert (u * Rabs (x + r) <= u * (2 * M)) by (apply Rmult_le_compat_l; lra).
    apply Rabs_le_inv in E1. apply Rabs_le_inv in E2. lra. }
  destruct (Ends _ K1) as [A1 B1]. destruct (Ends _ K2) as [A2 B2]. destruct (Ends _ K3) as [A3 B3].
  exists (rlow prec emax C r), (rhigh prec emax C r). split; [|split].
  1, 2: split; [|split]; cbn [sphere_box fst snd vsubs vadds vmap vx vy vz rlow rhigh];
    (apply (isF_sub prec emax) || apply (isF_add prec emax)); try assumption; apply (rd_half_top prec emax (p6 prec emax Hfmt)); lra.
  unfold in_box, rlow, rhigh. cbn [vx vy vz]. split; [|split]; eapply G; eassumption.
Qed.

Lemma patch_box O U d c fx fy m C dx dy Q lo t : unit_near prec emax d U -> plane_isF prec emax M O c fx fy m C dx dy Q -> coords M C -> 0 <= lo ->
  pierces (patch_err prec M) C dx dy Q O U lo t ->
  exists low high z, visF prec emax (fst (@plane_box _ FN c fx fy m)) low /\ visF prec emax (snd (@plane_box _ FN c fx fy m)) high /\
    in_box low high (at_t O U z) /\ lo <= z /\ z <= t + patch_err prec M / steepness Q U.
Proof.
  intros Hd Hp (K1 & K2 & K3) Hlo Ht.
  destruct (margin_facts prec emax Hfmt M HM c d fx fy m O C U dx dy Q Hd Hp lo t Ht Hlo) as (rr & Er & K & R1 & R2 & R3 & Em & Hz & Hx & Hy & Hl & Ht0).
  destruct (uM_facts prec emax Hfmt M HM) as (U0 & U1 & V1 & UM & UM1 & UM2 & LP & LS & T1 & T2).
  destruct (rows_near prec emax M m Q (proj1 (proj2 (proj2 (proj2 Hp))))) as (W1 & W2 & W3).
  destruct Hp as ((H1 & H2 & H3) & Ix & Iy & (HQ & _) & Bx & By & _).
  destruct (axis_F prec emax Hfmt M HM _ _ _ _ _ _ _ _ W1 H1 K1 Ix Iy Bx By) as (l1 & h1 & A1 & A2 & A3 & A4 & A5 & A6 & A7).
  destruct (axis_F prec emax Hfmt M HM _ _ _ _ _ _ _ _ W2 H2 K2 Ix Iy Bx By) as (l2 & h2 & B1 & B2 & B3 & B4 & B5 & B6 & B7).
  destruct (axis_F prec emax Hfmt M HM _ _ _ _ _ _ _ _ W3 H3 K3 Ix Iy Bx By) as (l3 & h3 & C1 & C2 & C3 & C4 & C5 & C6 & C7).
  rewrite (@box_axes _ FN).
  destruct (box_point C O U Q (dx / 2) (dy / 2) (u * M) rr (steepness Q U) t (V l1 l2 l3) (V h1 h2 h3) HQ (proj1 Hd)
    ltac:(unfold axis_box; cbn [vx vy vz]; auto) ltac:(unfold axis_box; cbn [vx vy vz]; auto) ltac:(unfold axis_box; cbn [vx vy vz]; auto)
    Hz Hx Hy ltac:(lra) Er K (eq_sym (steep_W U Q))) as (z & Z1 & Hin).
  exists (V l1 l2 l3), (V h1 h2 h3), z. cbn [fst snd]. split; [split; [|split]; assumption|]. split; [split; [|split]; assumption|].
  split; [exact Hin|]. rewrite Em. apply Rabs_le_inv in Z1. lra.
Qed.

(** ** One callback *)
Variables (mesh : nat -> R -> Prop) (e : R) (O U : vec R) (lo : R).
Hypothesis E0 : 0 <= e.
Hypothesis L0 : 0 <= lo.
Variable tri : nat -> list (vec spec_float) -> list (vec nat) -> rtc_rayhit spec_float -> rtc_rayhit spec_float.
Hypothesis Htri : finds_near prec emax mesh e tri O U lo.
Notation w := (125 * (u * M) + e).
Notation Meets := (meets_by prec M mesh O U lo).
Notation far rh := (r_tfar (rh_ray rh)).
Lemma w_pos : 0 < w.
Proof. pose proof (u_pos prec). pose proof (M1' prec emax M HM). assert (0 < u * M) by (apply Rmult_lt_0_compat; lra). lra. Qed.

Definition ready (rh : rtc_rayhit spec_float) : Prop :=
  visF prec emax (r_org (rh_ray rh)) O /\ unit_near prec emax (r_dir (rh_ray rh)) U /\ isf (r_tnear (rh_ray rh)) lo /\ limit prec emax (far rh).
Definition user_prim (s : shape) (rh : rtc_rayhit spec_float) : Prop := s <> Triangles -> e_prim (rh_hit rh) = Some 0%nat.
Definition stepped (g : nat) (s : shape) (f : res (rtc_rayhit spec_float)) (rh : rtc_rayhit spec_float) : Prop :=
  exists rh', f = Ok rh' /\ same_ray rh rh' /\
  ((rh' = rh /\ forall y, Meets g s y -> ~ at_least prec emax (far rh) y) \/
   (exists t x, e_geom (rh_hit rh') = Some g /\ user_prim s rh' /\ isf (far rh') x /\ lo < t /\ Rabs (x - t) <= w /\
      shape_near prec emax M mesh e O U g s t x (e_ng (rh_hit rh')) /\
      (forall h, isf (far rh) h -> t < h + w) /\ (forall y, Meets g s y -> x <= y + w))).

Lemma call_stepped o g s rh : shape_isF prec emax M O o s ->
  match o with GSphere e => es_geom e = Some g | GPlane e => ep_geom e = Some g | _ => True end -> ready rh ->
  stepped g s (match o with
    | GMesh vs fs => Ok (tri g vs fs rh)
    | GSphere e => @esphere_intersect _ FN e 0 true None rh
    | GPlane e => @eplane_intersect _ FN e 0 true None rh
    | GCyl e => @ecyl_intersect _ FN e 0 true None rh end) rh.
Proof.
  intros Hs Hg (HO & HU & Hlo & Hfar). pose proof w_pos as W0.
  assert (uM : 0 <= u * M). { pose proof (u_pos prec). pose proof (M1' prec emax M HM). apply Rmult_le_pos; lra. }
  destruct o as [vs fs|[c fr ge]|[c fx fy m ge]|ec], s as [C r|C dx dy Q|]; try destruct Hs; cbn [es_center es_radius es_geom ep_center ep_d1 ep_d2 ep_rot ep_geom] in *.
  - destruct (Htri g vs fs rh HO HU Hlo Hfar) as (Sr & [[E N]|(t & x & Ht & Lt & Ex & Hx & Eg & Lh & Ly)]); eexists; (split; [reflexivity|]); (split; [exact Sr|]).
    + left. split; [exact E|]. intros y (Hy & Hm). apply N; assumption.
    + right. exists t, x. split; [exact Eg|]. split; [intros X; destruct X; reflexivity|]. split; [exact Hx|]. split; [exact Lt|]. split; [lra|]. split; [split; assumption|].
      split; [intros h Hh; specialize (Lh h Hh); lra|]. intros y (Hy & Hm). specialize (Ly y Hm Hy). lra.
  - subst ge. destruct (esphere_F prec emax Hfmt M HM rh O U lo HO HU Hlo L0 c fr C r g None H Hfar) as (rh' & E & Sr & D). exists rh'. split; [exact E|]. split; [exact Sr|].
    destruct D as [[E' N]|(t & x & (P1 & P2 & P3) & Lt & Nr & Lh & Ly)].
    + left. split; [exact E'|]. intros y (y0 & Hy & Hc). exact (N y0 y Hy Hc).
    + right. exists t, x. split; [exact P2|]. split; [intros _; exact P1|]. split; [exact P3|]. split; [exact Lt|]. split; [destruct Nr as (_ & Ex & _); lra|]. split; [exact Nr|].
      split; [intros h Hh; specialize (Lh h Hh); lra|]. intros y (y0 & Hy & Hc). specialize (Ly y0 y Hy Hc). lra.
  - subst ge. destruct (eplane_F prec emax Hfmt M HM rh O U lo HO HU Hlo L0 c fx fy m C dx dy Q g None H) as (rh' & E & Sr & D). exists rh'. split; [exact E|]. split; [exact Sr|].
    destruct D as [[E' N]|(t & x & (P1 & P2 & P3) & Lt & Nr & Lh & Ly)].
    + left. split; [exact E'|]. intros y (t & Hc & ->). apply (N lo t); [lra|exact Hc].
    + right. exists t, x. split; [exact P2|]. split; [intros _; exact P1|]. split; [exact P3|]. split; [exact Lt|]. split; [destruct Nr as (_ & Ex & _); lra|]. split; [exact Nr|].
      split; [intros h Hh; specialize (Lh h Hh); lra|]. intros y (t' & Hc & ->). specialize (Ly lo t' ltac:(lra) Hc). lra.
Qed.

(** ** The committed scene *)
Variable s : escene spec_float.
Variable sh : nat -> shape.
Hypothesis Hall : firstn (q_built s) (q_geoms s) = q_geoms s.
Hypothesis Hlive : forall g o, nth_error (q_geoms s) g = Some o -> live s g o = true.
Hypothesis Hfine : forall g o, nth_error (q_geoms s) g = Some o -> shape_isF prec emax M O o (sh g).
Hypothesis Hids : forall g o, nth_error (q_geoms s) g = Some o ->
  match o with GSphere e => es_geom e = Some g | GPlane e => ep_geom e = Some g | _ => True end.

Lemma call_step g rh : (g < length (q_geoms s))%nat -> ready rh -> stepped g (sh g) (@intersect_call _ FN tri s g rh) rh.
Proof.
  intros Hg Hr. destruct (nth_error (q_geoms s) g) as [o|] eqn:Ho; [|apply nth_error_None in Ho; lia].
  pose proof (call_stepped o g (sh g) rh (Hfine g o Ho) (Hids g o Ho) Hr) as St. unfold intersect_call, at_. rewrite Hall, Ho. cbn [bind]. rewrite (Hlive _ _ Ho). exact St.
Qed.

(** The record after [n] callbacks on a ray that ended at [hi]. *)
Definition after (done : nat -> Prop) (n : nat) (hi : spec_float) (rh : rtc_rayhit spec_float) : Prop :=
  ready rh /\
  (forall g y, done g -> Meets g (sh g) y -> at_least prec emax hi y ->
     e_geom (rh_hit rh) <> None /\ exists x, isf (far rh) x /\ x <= y + (1 + 2 * INR n) * w) /\
  ((e_geom (rh_hit rh) = None /\ far rh = hi) \/
   exists g t x, (g < length (q_geoms s))%nat /\ e_geom (rh_hit rh) = Some g /\ user_prim (sh g) rh /\ isf (far rh) x /\ lo < t /\
     Rabs (x - t) <= w /\ shape_near prec emax M mesh e O U g (sh g) t x (e_ng (rh_hit rh)) /\
     (forall h, isf hi h -> x < h + 2 * INR n * w)).

Lemma call_after done n hi rh g : after done n hi rh -> (g < length (q_geoms s))%nat ->
  exists rh', @intersect_call _ FN tri s g rh = Ok rh' /\ after (fun k => done k \/ k = g) (S n) hi rh'.
Proof.
  intros (Hr & Hd & Hn) Hg. pose proof w_pos as W0. destruct (call_step g rh Hg Hr) as (rh' & E & (S1 & S2 & S3) & D). exists rh'. split; [exact E|].
  assert (N0 := pos_INR n). assert (NW : 0 <= INR n * w) by (apply Rmult_le_pos; lra).
  destruct D as [[-> N]|(t & x & Eg & Up & Hx & Lt & Ex & Nr & Lh & Ly)].
  - split; [exact Hr|]. split.
    + intros k y [Hk| ->] Hm Hal.
      * destruct (Hd k y Hk Hm Hal) as (A & x & B & D). split; [exact A|]. exists x. rewrite S_INR. split; [exact B|lra].
      * destruct Hn as [[En Ef]|(k & t & x & _ & Ek & _ & Hx & _)]; [rewrite Ef in N; destruct (N y Hm Hal)|].
        split; [rewrite Ek; discriminate|]. exists x. split; [exact Hx|]. rewrite S_INR. destruct (Rlt_le_dec x y) as [L|L]; [lra|].
        destruct (N y Hm). right. exists x. auto.
    + destruct Hn as [[En Ef]|(k & t & x & K1 & K2 & K3 & K4 & K5 & K6 & K7 & K8)]; [left; auto|]. right. exists k, t, x. repeat (split; [assumption|]).
      intros h Hh. specialize (K8 h Hh). rewrite S_INR. lra.
  - apply Rabs_le_inv in Ex as Ex'. destruct Hr as (R1 & R2 & R3 & R4). split; [|split].
    + unfold ready. rewrite S1, S2, S3. repeat (split; [assumption|]). right. eauto.
    + intros k y Hk Hm Hal. split; [rewrite Eg; discriminate|]. exists x. split; [exact Hx|]. rewrite S_INR. destruct Hk as [Hk| ->].
      * destruct (Hd k y Hk Hm Hal) as (_ & x1 & B & D). specialize (Lh x1 B). lra.
      * specialize (Ly y Hm). lra.
    + right. exists g, t, x. repeat (split; [assumption|]). intros h Hh. rewrite S_INR.
      destruct Hn as [[_ Ef]|(k & t1 & x1 & _ & _ & _ & Hx1 & _ & _ & _ & K8)].
      * rewrite <- Ef in Hh. specialize (Lh h Hh). lra.
      * specialize (Lh x1 Hx1). specialize (K8 h Hh). lra.
Qed.

Lemma calls_after ids : forall done n hi rh, after done n hi rh -> (forall g, In g ids -> (g < length (q_geoms s))%nat) ->
  exists rh', @intersect_calls _ FN tri s ids rh = Ok rh' /\ after (fun g => done g \/ In g ids) (length ids + n) hi rh'.
Proof.
  induction ids as [|g ids IH]; intros done n hi rh Hq Hin.
  - exists rh. split; [reflexivity|]. destruct Hq as (A & B & C). split; [exact A|]. split; [|exact C]. intros g y [H|[]]. exact (B g y H).
  - cbn [intersect_calls]. destruct (call_after done n hi rh g Hq (Hin g (or_introl eq_refl))) as (q1 & E1 & A1). rewrite E1. cbn [bind].
    destruct (IH _ _ hi q1 A1) as (q' & E2 & A2). { intros k Hk. apply Hin. right. exact Hk. }
    exists q'. split; [exact E2|]. replace (length (g :: ids) + n)%nat with (length ids + S n)%nat by (cbn; lia).
    destruct A2 as (a & b & c). split; [exact a|]. split; [|exact c]. intros k y Hk. apply b. cbn in Hk. intuition.
Qed.

(** Left-out geometries. *)
Lemma covered q ids : ready q -> covers_near prec emax mesh s ids O U lo q ->
  forall g y, (g < length (q_geoms s))%nat -> ~ In g ids -> Meets g (sh g) y -> exists h, isf (far q) h /\ h <= y.
Proof.
  intros (_ & Hd & _ & Hlim) Hc g y Hg Hin Hm. destruct (nth_error (q_geoms s) g) as [o|] eqn:Ho; [|apply nth_error_None in Ho; lia].
  specialize (Hc g o Ho Hin). unfold bounds_call in Hc. rewrite (Hlive _ _ Ho) in Hc. pose proof (Hfine _ _ Ho) as Hf.
  assert (G : forall z, z <= y -> ~ (forall h, isf (far q) h -> z < h) -> exists h, isf (far q) h /\ h <= y).
  { intros z Hz Hno. destruct Hlim as [Hi|(h & Hh)].
    - destruct Hno. intros h Hh. rewrite Hi in Hh. destruct Hh as (_ & Hh & _). discriminate Hh.
    - exists h. split; [exact Hh|]. destruct (Rle_lt_dec h z) as [L|L]; [lra|]. destruct Hno. intros h' Hh'. rewrite (isF_fun prec emax _ _ _ Hh' Hh). exact L. }
  destruct o as [vs fs|[c fr ge]|[c fx fy m ge]|ec], (sh g) as [C r|C dx dy Q|]; try destruct Hf; cbn [es_center es_radius es_geom ep_center ep_d1 ep_d2 ep_rot ep_geom] in *.
  - destruct Hm as [Hy Hm]. apply (G y); [lra|]. apply Hc; assumption.
  - destruct Hm as (y0 & Hy & [Hyy Hcr]).
    assert (Z : exists z, lo <= z <= y /\ power C r (at_t O U z) <= - power_err prec M) by (destruct Hcr as [[_ Q2]|[Q1 _]]; [exists y|exists y0]; (split; [lra|assumption])).
    destruct Z as (z & Hz & Pz). destruct (ball_box O U c fr C r z H H0 Pz) as (low & high & B1 & B2 & B3).
    apply (G z); [lra|]. intros Hlt. exact (Hc low high z B1 B2 (proj1 Hz) Hlt B3).
  - destruct Hm as (t & Hp & ->). destruct (patch_box O U _ c fx fy m C dx dy Q lo t Hd H H0 L0 Hp) as (low & high & z & B1 & B2 & B3 & Z1 & Z2).
    apply (G z); [lra|]. intros Hlt. exact (Hc low high z B1 B2 Z1 Hlt B3).
Qed.
End F.

Theorem embree_near_F prec emax {Hprec : Prec_gt_0 prec} {Hmax : Prec_lt_emax prec emax} M part tri calls opt cs q l O U lo mesh e sh ids r rh :
  usual_format prec emax -> scale_ok prec emax M ->
  (forall c, In c cs -> first_given c) ->
  @e_run _ (Fnum prec emax) part true tri calls (@new_escene _ opt) (cs ++ [Commit]) = Ok (q, l) ->
  (forall g o, nth_error (q_geoms q) g = Some o -> shape_isF prec emax M O o (sh g)) ->
  visF prec emax (origin r) O -> unit_near prec emax (direction r) U -> isF prec emax (min_hit_distance r) lo -> 0 <= lo ->
  limit prec emax (max_hit_distance r) ->
  0 <= e -> finds_near prec emax mesh e tri O U lo ->
  (forall g, In g ids -> (g < length cs)%nat) ->
  (forall w, @intersect_calls _ (Fnum prec emax) tri q ids (@rtc_start _ (Fnum prec emax) r) = Ok w ->
     covers_near prec emax mesh q ids O U lo w) ->
  let err := 125 * (ulpf prec * M) + e in
  let k := INR (length ids) in
  exists b rh', @e_intersect1 _ (Fnum prec emax) true tri ids q r rh = Ok (b, rh') /\
    (b = false -> rh' = rh /\ forall g y, (g < length cs)%nat -> meets_by prec M mesh O U lo g (sh g) y ->
       ~ at_least prec emax (max_hit_distance r) (y + err)) /\
    (b = true -> exists g t x, (g < length cs)%nat /\ isF prec emax (h_distance rh') x /\ lo < t /\
       shape_near prec emax M mesh e O U g (sh g) t x (h_normal rh') /\ Rabs (x - t) <= err /\
       (sh g <> Triangles -> h_prim rh' = Some 0%nat) /\
       (forall h, isF prec emax (max_hit_distance r) h -> x < h + 2 * k * err) /\
       forall g' y, (g' < length cs)%nat -> meets_by prec M mesh O U lo g' (sh g') y ->
         at_least prec emax (max_hit_distance r) y -> x <= y + (1 + 2 * k) * err).
Proof.
  intros Hfmt HM Hg Hrun Hfine HO HU Hm Hm0 Hfar He Htri Hin Hcov err k.
  destruct (@float_adds _ (Fnum prec emax) part tri calls opt cs Hg) as (q0 & E0 & A0).
  rewrite e_run_app, E0 in Hrun. cbn [bind e_run e_step] in Hrun.
  apply bind_ok in Hrun as ([q1 l1] & Ec & Hrun). injection Hrun as <- <-.
  apply bind_ok in Ec as ([q2 a2] & Ec & Ec'). injection Ec' as -> <-.
  apply bind_ok in Ec as ([q3 b3] & Ec & Ec'). injection Ec' as <- <-.
  pose proof A0 as (L & _ & Hnc & G & _). unfold e_commit in Ec. rewrite Hnc in Ec.
  apply bind_ok in Ec as (bs & Eb & Ec). injection Ec as <- <-.
  set (q := EScene _ _ _ _ _ _ _) in *.
  assert (Hgeoms : q_geoms q = q_geoms q0) by reflexivity.
  assert (Hall : firstn (q_built q) (q_geoms q) = q_geoms q) by (cbn; apply firstn_all).
  assert (Hlive : forall g o, nth_error (q_geoms q) g = Some o -> live q g o = true).
  { intros g o Ho. exact (proj1 (@bounds_calls_ok _ (Fnum prec emax) q0 (q_geoms q0) 0) (ex_intro _ bs Eb) g o Ho). }
  assert (Hids : forall g o, nth_error (q_geoms q) g = Some o ->
    match o with GSphere e => es_geom e = Some g | GPlane e => ep_geom e = Some g | _ => True end).
  { intros g o Ho. assert (Hl : (g < length cs)%nat) by (rewrite <- L; apply nth_error_Some; rewrite <- Hgeoms; congruence).
    destruct (nth_error cs g) as [c|] eqn:E; [|apply nth_error_None in E; lia].
    destruct (G _ _ E) as (o' & Eo & At). rewrite <- Hgeoms in Eo. assert (o' = o) by congruence. subst o'.
    destruct c, o; cbn in At; try destruct At; try exact I; tauto. }
  assert (Lq : length (q_geoms q) = length cs) by (rewrite Hgeoms; exact L).
  assert (A1 : after prec emax M mesh e O U lo q sh (fun _ => False) 0 (max_hit_distance r) (@rtc_start _ (Fnum prec emax) r)).
  { split; [split; [exact HO|split; [exact HU|split; [exact Hm|exact Hfar]]]|]. split; [intros g y []|]. left. split; reflexivity. }
  destruct (calls_after prec emax Hfmt M HM mesh e O U lo He Hm0 tri Htri q sh Hall Hlive Hfine Hids ids _ _ _ _ A1) as (w & Ew & Rw & Dw & Nw).
  { intros g Hi. rewrite Lq. auto. }
  specialize (Hcov w Ew). rewrite Nat.add_0_r in Dw, Nw. fold err k in Dw, Nw.
  assert (W0 : 0 < err) by exact (w_pos prec emax M HM e He).
  assert (K0 : 0 <= k * err) by (apply Rmult_le_pos; [apply pos_INR|lra]).
  pose proof (covered prec emax Hfmt M HM mesh O U lo Hm0 q sh Hlive Hfine w ids Rw Hcov) as Cv. rewrite Lq in Cv, Nw.
  unfold e_intersect1. rewrite Ew. cbn [bind].
  destruct Nw as [(Eg & Ef)|(g & t & x & N1 & Eg & N3 & N4 & N5 & N6 & N7 & N8)]; rewrite Eg.
  - do 2 eexists. split; [reflexivity|]. split; [|discriminate]. intros _. split; [reflexivity|]. intros g y Hgl Hme Hal.
    destruct (in_dec Nat.eq_dec g ids) as [Hi|Hi].
    + destruct (Dw g y (or_intror Hi) Hme) as [X _]; [|exact (X Eg)]. destruct Hal as [Hal|(b & Hb & Hle)]; [left; exact Hal|right; exists b; split; [exact Hb|lra]].
    + destruct (Cv g y Hgl Hi Hme) as (h & Hh & Hle). rewrite Ef in Hh. destruct Hal as [Hal|(b & Hb & Hge)].
      * rewrite Hal in Hh. destruct Hh as (_ & Hh & _). discriminate Hh.
      * rewrite (isF_fun prec emax _ _ _ Hb Hh) in Hge. lra.
  - do 2 eexists. split; [reflexivity|]. cbn [h_distance h_prim h_normal]. split; [discriminate|]. intros _. exists g, t, x.
    split; [exact N1|]. split; [exact N4|]. split; [exact N5|]. split; [exact N7|]. split; [exact N6|]. split; [exact N3|]. split; [exact N8|].
    intros g' y Hgl Hme Hal. destruct (in_dec Nat.eq_dec g' ids) as [Hi|Hi].
    + destruct (Dw g' y (or_intror Hi) Hme Hal) as (_ & x' & Hx' & Le). rewrite (isF_fun prec emax _ _ _ N4 Hx'). exact Le.
    + destruct (Cv g' y Hgl Hi Hme) as (h & Hh & Hle). rewrite (isF_fun prec emax _ _ _ N4 Hh). lra.
Qed.
