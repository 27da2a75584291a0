(** The path loop never fails and gives finite, nonnegative colours. *)

From Coq Require Import Reals ZArith List Bool Arith Lra Lia Psatz.
From Verif Require Import Num NumR NumX Vec Datatypes Ray Bvh Traverse Trimesh PathTracer SpecBvh SpecReal SpecNearest SpecTri.
From Verif Require Import SpecOptics SpecLight SpecScatter SpecPath PfX PfTri2 PfOptics PfScatter PfLight PfLight2 PfSound.
Import ListNotations.
Local Open Scope R_scope.

Lemma nonneg_add a b : vnonneg a -> vnonneg b -> vnonneg (rv_add a b).
Proof. unfold vnonneg, rv_add. cbn. lra. Qed.
Lemma nonneg_scale s a : 0 <= s -> vnonneg a -> vnonneg (rv_scale s a).
Proof. intros Hs (A & B & C). unfold vnonneg, rv_scale. cbn. repeat split; apply Rmult_le_pos; assumption. Qed.
Definition rv_mulc (a b : vec R) : vec R := V (vx a * vx b) (vy a * vy b) (vz a * vz b).
Lemma nonneg_mulc a b : vnonneg a -> vnonneg b -> vnonneg (rv_mulc a b).
Proof. intros (A & B & C) (D & E & F). unfold vnonneg, rv_mulc. cbn. repeat split; apply Rmult_le_pos; assumption. Qed.

Section S.
Variables big tiny eps : R.
Notation XN := (Xnum big tiny eps).

Lemma visR_mulc u v a b : visR u a -> visR v b -> visR (@vmulc _ XN u v) (rv_mulc a b).
Proof. intros (A & B & C) (D & E & F). repeat split; cbn; apply isR_mul; assumption. Qed.

Lemma colour_add u v : colour u -> colour v -> colour (@vadd _ XN u v).
Proof. intros (a & A & A') (b & B & B'). exists (rv_add a b). split; [apply visR_add|apply nonneg_add]; assumption. Qed.
Lemma colour_mulc u v : colour u -> colour v -> colour (@vmulc _ XN u v).
Proof. intros (a & A & A') (b & B & B'). exists (rv_mulc a b). split; [apply visR_mulc|apply nonneg_mulc]; assumption. Qed.
Lemma colour_scaler s v a : isR s a -> 0 <= a -> colour v -> colour (@vscaler _ XN v s).
Proof. intros A A' (b & B & B'). exists (rv_scale a b). split; [apply visR_scaler|apply nonneg_scale]; assumption. Qed.
Lemma colour_scale s v a : isR s a -> 0 <= a -> colour v -> colour (@vscale _ XN s v).
Proof. intros A A' (b & B & B'). exists (rv_scale a b). split; [apply visR_scale|apply nonneg_scale]; assumption. Qed.
Lemma colour_divs s v a : isR s a -> 0 < a -> colour v -> colour (@vdivs _ XN v s).
Proof.
  intros A A' (b & B & B'). exists (rv_scale (/ a) b). split; [apply visR_divs; [assumption|lra|assumption]|].
  apply nonneg_scale; [|assumption]. left. apply Rinv_0_lt_compat, A'.
Qed.
Lemma colour_inf v : colour v -> colour (@vdivs _ XN v (Xinf false)).
Proof.
  intros (b & (A & B & C) & _). exists rv_zero. apply isR_ex in A as (s1 & A). apply isR_ex in B as (s2 & B). apply isR_ex in C as (s3 & C).
  split; [|unfold vnonneg; cbn; lra]. unfold vdivs, vmap. rewrite A, B, C. repeat split.
Qed.

(** The direction of a ray made from a finite vector. *)
Lemma direction_kinds d D : visR d D -> (D <> rv_zero /\ visR (@normalize _ XN d) (unit_of D)) \/ nan_vec (@normalize _ XN d).
Proof.
  intros H. destruct (Req_EM_T (rv_norm D) 0) as [E|E].
  - right. pose proof (isR_norm big tiny eps _ _ H) as Hn. rewrite E in Hn. apply isR_ex in Hn as (s & Hn).
    apply rv_norm_zero in E. subst D. destruct H as (A & B & C).
    apply isR_ex in A as (s1 & A). apply isR_ex in B as (s2 & B). apply isR_ex in C as (s3 & C).
    unfold normalize, nan_vec. rewrite Hn. unfold vdivs, vmap. cbn [vx vy vz]. rewrite A, B, C.
    assert (Z : forall s s', @ndiv _ XN (Xf s 0) (Xf s' 0) = Xnan).
    { intros. cbn. destruct (Req_EM_T 0 0); [reflexivity|congruence]. }
    cbn [vx vy vz rv_zero]. rewrite !Z. auto.
  - left. split; [|apply visR_normalize; assumption]. intros ->. apply E. unfold rv_norm, rv_dot, rv_zero. cbn.
    replace (0 * 0 + 0 * 0 + 0 * 0) with 0 by ring. apply sqrt_0.
Qed.

Variables (vertices : list (vec xr)) (faces : list (vec nat)) (P : nat -> vec R) (ms : mesh xr).
Hypothesis Hdata : mesh_are vertices faces P.
Hypothesis Hmake : @make_mesh _ XN vertices faces = Ok ms.
Variable part : (nat -> bool) -> list nat -> list nat * list nat.
Hypothesis Hpart : partition_ok part.
Variable opt : options.
Variables (nodes : list (node xr (triangle xr))) (st : stats).
Hypothesis Hbuild : @build _ XN _ part [] (@mesh_coll _ XN ms) opt = Ok (nodes, st).
Hypothesis Hdepth : forall k d, node_depth nodes k d -> (d <= 26)%nat.
Hypothesis Hproper : proper P faces.
Hypothesis Hnormals : normals_defined (4 * eps) faces P.
Variables (material_ids : list Z) (materials : list (material xr)) (sf : nat -> surface) (lights : list (nat * Z)).
Hypothesis Hmats : materials_valid faces material_ids materials sf.
Hypothesis Hlights : @make_light _ XN faces material_ids materials = Ok lights.
Hypothesis Hlit : lights <> [].
Hypothesis Hfew : (Z.of_nat (length faces) < 4294967296)%Z.
Variables (fcos fsin : xr -> xr) (pi : xr) (p : R) (floor_u : xr -> option Z) (rand_max : Z).
Hypothesis Hcos : computes fcos cos.
Hypothesis Hsin : computes fsin sin.
Hypothesis Hpi : isR pi p.
Hypothesis Hp : 0 < p.
Hypothesis Hfloor : floors floor_u.

Notation rnd01 := (@uniform01 _ XN rand_max).
Lemma rnd_is k : random_number rand_max k -> isR (rnd01 k) (unit_share rand_max k).
Proof.
  intros H. unfold uniform01. pose proof (isR_uniform big tiny eps rand_max k _ _ _ _ H (isR_ofZ big tiny eps 0) (isR_ofZ big tiny eps 1)) as Q.
  replace (unit_share rand_max k) with (0 + unit_share rand_max k * (1 - 0)) by ring. exact Q.
Qed.

Lemma lights_few : (length lights <= length faces)%nat.
Proof.
  destruct (make_light_ok _ _ _ _ Hlights) as [Hs Hin].
  assert (Hnd : NoDup (map fst lights)).
  { clear - Hs. induction Hs as [|a l Hs IH Ha]; [constructor|]. constructor; [|exact IH].
    intros Hi. rewrite Forall_forall in Ha. specialize (Ha a Hi). lia. }
  rewrite <- (map_length fst). rewrite <- (seq_length (length faces) 0). apply NoDup_incl_length; [exact Hnd|].
  intros f Hf. apply in_map_iff in Hf as ((f' & id) & <- & Hl). apply Hin in Hl. apply in_seq. cbn. lia.
Qed.

Lemma sample_sound x k1 k2 : finite x -> random_number rand_max k1 -> random_number rand_max k2 ->
  exists l, @sample_direct _ XN floor_u lights vertices faces materials x (rnd01 k1) (rnd01 k2) = Ok l /\
    ((isR (ls_pdf l) 0) \/
     (exists rad, ls_rad l = Some rad /\ colour rad /\ finite (ls_dir l) /\ (exists d, isR (ls_dist l) d) /\
        ((exists q, isR (ls_pdf l) q /\ 0 < q) \/ ls_pdf l = Xinf false))).
Proof.
  intros (X & HX) R1 R2. destruct Hmats as (M1 & M2 & M3).
  destruct (make_light_ok _ _ _ _ Hlights) as [Hs Hin]. pose proof lights_few.
  destruct (sample_ok big tiny eps floor_u lights vertices faces P materials sf x X (rnd01 k1) (rnd01 k2)
    (unit_share rand_max k1) (unit_share rand_max k2)) as (i & f & id & l & H1 & H2 & H3 & _ & H4); auto using rnd_is, share_range.
  - intros f id Hl. apply Hin in Hl as (Hf & m & (_ & Hid & _) & _). auto.
  - destruct lights; [congruence|cbn; lia].
  - lia.
  - exists l. split; [exact H2|].
    assert (Hl : In (f, id) lights) by (eapply nth_error_In, H1). apply Hin in Hl as (Hf & m & (_ & Hid & _) & _).
    destruct H4 as (D1 & D2 & D3).
    { apply Hproper. apply nth_In, Hf. }
    set (q := rv_sub _ _) in *. destruct (Rle_lt_dec (rv_norm q) (1 / 1000000)) as [Hle|Hgt]; [left; apply D2, Hle|].
    right. destruct (D3 Hgt) as (E1 & (rad & E2 & E3) & E4 & E5). clear D2 D3.
    set (c := cos_at_light _ _ _ _) in *. assert (Hc : 0 <= c) by (unfold c, cos_at_light; apply Rmax_r).
    exists rad. split; [exact E2|]. split.
    { eexists. split; [exact E3|]. apply nonneg_scale; [exact Hc|]. apply (M2 (Z.to_nat id)). lia. }
    split; [eexists; exact E1|]. split; [eexists; exact D1|].
    destruct Hc as [Hc|Hc]; [left|right; apply E5; auto].
    eexists. split; [apply E4, Hc|].
    assert (0 < INR (length lights)) by (apply lt_0_INR; destruct lights; [congruence|cbn; lia]).
    assert (Har : 0 < tri_area (fa faces P f) (fb faces P f) (fc faces P f)).
    { unfold tri_area. pose proof (rv_norm_nonneg (tri_cross (fa faces P f) (fb faces P f) (fc faces P f))) as Hn.
      destruct Hn as [Hn|Hn]; [lra|]. symmetry in Hn. apply rv_norm_zero in Hn. exfalso. revert Hn. apply Hproper. apply nth_In, Hf. }
    apply Rdiv_lt_0_compat; [nra|]. apply Rmult_lt_0_compat; [apply Rmult_lt_0_compat; assumption|exact Hc].
Qed.

Lemma occluder_defined a b : finite a -> finite b -> exists r, @check_for_occluder _ XN a b ms nodes = Ok r.
Proof.
  intros (A & HA) (B & HB). unfold check_for_occluder, shadow_ray.
  pose proof (visR_sub big tiny eps _ _ _ _ HB HA) as Hd.
  assert (He : isR (@ray_eps _ XN) (1 / 100000)) by (apply isR_div; [reflexivity|reflexivity|lra]).
  destruct (mesh_sound big tiny eps vertices faces P ms Hdata Hmake part Hpart opt nodes st Hbuild Hdepth
    (@make_ray _ XN a (@vsub _ XN b a) (@ray_eps _ XN) (@nsub _ XN (@norm _ XN (@vsub _ XN b a)) (@ray_eps _ XN)) true)
    (@new_rayhit _ XN) A (1 / 100000)) as (r & rh & E & _).
  - exact HA.
  - exact He.
  - cbn [direction make_ray]. destruct (direction_kinds _ _ Hd) as [[_ H]|H]; eauto.
  - rewrite E. cbn [bind fst]. eauto.
Qed.

Lemma direct_sound m s x nrm weight color k1 k2 : material_is m s -> physical s -> finite x -> finite nrm ->
  colour weight -> colour color -> random_number rand_max k1 -> random_number rand_max k2 ->
  exists c, @direct_light _ XN pi floor_u rand_max ms nodes materials lights m x nrm weight color k1 k2 = Ok c /\ colour c.
Proof.
  intros Hm Hs Hx Hn Hw Hc R1 R2. unfold direct_light.
  destruct (mesh_facts big tiny eps vertices P (proj1 Hdata) faces (proj2 Hdata) ms Hmake) as (F1 & F2 & _). rewrite F1, F2.
  destruct (sample_sound x k1 k2 Hx R1 R2) as (l & E & Hl). rewrite E. cbn [bind].
  change (@nltb _ XN) with xltb. destruct Hl as [H0|(rad & E2 & Hrad & (W & HW) & (d & Hd) & Hpdf)].
  - rewrite (isR_ltb _ _ _ _ (isR_n0 big tiny eps) H0). replace (Rltb 0 0) with false by (symmetry; apply Rltb_false; lra). eauto.
  - assert (Hlt : xltb (@n0 _ XN) (ls_pdf l) = true).
    { destruct Hpdf as [(q & Hq & Hq0)| ->]; [|reflexivity]. rewrite (isR_ltb _ _ _ _ (isR_n0 big tiny eps) Hq). apply Rltb_spec, Hq0. }
    rewrite Hlt, E2. destruct Hx as (X & HX), Hn as (Nn & HN).
    destruct (occluder_defined x (@vadd _ XN x (@vscaler _ XN (ls_dir l) (ls_dist l)))) as (occ & Eo).
    { exists X. exact HX. }
    { eexists. apply visR_add; [exact HX|]. apply visR_scaler; eassumption. }
    rewrite Eo. cbn [bind]. eexists. split; [reflexivity|]. apply colour_add; [exact Hc|].
    assert (Hip : isR (@ndiv _ XN (@n1 _ XN) pi) (1 / p)) by (apply isR_div; [reflexivity|exact Hpi|lra]).
    assert (0 < 1 / p) by (apply Rdiv_lt_0_compat; lra).
    assert (Hl : colour (@vscaler _ XN (@vmulc _ XN (@vscale _ XN (@ndiv _ XN (@n1 _ XN) pi) (mt_diffuse m)) rad)
      (@nabs _ XN (@dot _ XN (ls_dir l) nrm)))).
    { eapply colour_scaler; [apply isR_abs; apply isR_dot; eassumption|apply Rabs_pos|].
      apply colour_mulc; [|exact Hrad]. eapply colour_scale; [exact Hip|lra|]. eexists. split; [apply Hm|apply Hs]. }
    assert (Hb : exists b, isR (if negb occ then @nofZ _ XN 1 else @nofZ _ XN 0) b /\ 0 <= b).
    { destruct occ; [exists 0|exists 1]; (split; [reflexivity|lra]). }
    destruct Hb as (b & Hb & Hb0). eapply colour_scaler; [exact Hb|exact Hb0|]. apply colour_mulc; [|exact Hw].
    destruct Hpdf as [(q & Hq & Hq0)| ->]; [eapply colour_divs; eassumption|apply colour_inf, Hl].
Qed.


Lemma bounce_sound b rnd q : (forall k, random_number rand_max (rnd k)) -> path_ok q ->
  exists go q', @bounce _ XN fcos fsin pi floor_u rand_max ms nodes material_ids materials lights b rnd q = Ok (go, q') /\ path_ok q'.
Proof.
  intros Hr ((O & HO) & (D & HD) & HC & HW). unfold bounce.
  destruct ((3 <? b)%nat && @nltb _ XN (rnd01 (rnd 0%nat)) (@ndiv _ XN (@nofZ _ XN 1) (@nofZ _ XN 5))).
  { eexists false, q. split; [reflexivity|]. split; [exists O|split; [exists D|split]]; assumption. }
  assert (H5 : isR (@ndiv _ XN (@nofZ _ XN 1) (@nofZ _ XN 5)) (1 / 5)) by (apply isR_div; [reflexivity|reflexivity|lra]).
  assert (Hf : exists z, isR (@ndiv _ XN (@n1 _ XN) (if (3 <? b)%nat then @nsub _ XN (@n1 _ XN) (@ndiv _ XN (@nofZ _ XN 1) (@nofZ _ XN 5)) else @n1 _ XN)) z /\ 0 <= z).
  { destruct (3 <? b)%nat.
    - exists (1 / (1 - 1 / 5)). split; [|lra]. apply isR_div; [reflexivity|apply isR_sub; [reflexivity|exact H5]|lra].
    - exists (1 / 1). split; [|lra]. apply isR_div; [reflexivity|reflexivity|lra]. }
  destruct Hf as (z & Hz & Hz0).
  set (weight := @vscaler _ XN (pa_weight q) _).
  assert (Hw : colour weight) by (eapply colour_scaler; eassumption).
  assert (Hmin : isR (@ndiv _ XN (@nofZ _ XN 1) (@nofZ _ XN 1000)) (1 / 1000)) by (apply isR_div; [reflexivity|reflexivity|lra]).
  set (r := @make_ray _ XN (pa_org q) (pa_dir q) _ _ false).
  assert (Hor : visR (origin r) O) by exact HO. assert (Hmr : isR (min_hit_distance r) (1 / 1000)) by exact Hmin.
  pose proof (direction_kinds _ _ HD) as Hk. change (@normalize _ XN (pa_dir q)) with (direction r) in Hk.
  destruct (mesh_sound big tiny eps vertices faces P ms Hdata Hmake part Hpart opt nodes st Hbuild Hdepth
    r (@new_rayhit _ XN) O (1 / 1000) Hor Hmr) as (hit & rh & E & Hhit).
  { destruct Hk as [[_ H]|H]; eauto. }
  rewrite E. cbn [bind]. destruct hit; cbn [negb].
  2:{ eexists false, _. split; [reflexivity|]. split; [exists O|split; [exists D|split]]; assumption. }
  destruct (Hhit eq_refl) as (U & i & t & HU & (I1 & (I2 & (u & v & I3) & I4) & I5) & Epr & Ht & (u' & v' & _ & _ & Eb & Hnm)). clear Hhit.
  assert (HU1 : rv_dot U U = 1).
  { destruct Hk as [[Hne Hk]|(Hk & _)].
    - assert (U = unit_of D) as ->.
      { destruct HU as (A & B & C), Hk as (A' & B' & C'). apply vec_eq; eapply isR_inj; eassumption. }
      apply unit_of_unit. intros F. apply Hne, rv_norm_zero, F.
    - destruct HU as (A & _). rewrite Hk in A. destruct A. }
  set (org := @vadd _ XN (pa_org q) _).
  assert (Horg : finite org) by (eexists; apply visR_add; [exact HO|]; apply visR_scaler; [exact Ht|exact HU]).
  assert (Hcr : tri_cross (fa faces P i) (fb faces P i) (fc faces P i) <> rv_zero) by (apply Hproper, nth_In, I1).
  assert (Huv : u' = u /\ v' = v).
  { apply (bary_inj _ _ _ _ _ _ _ Hcr). rewrite <- Eb. apply I3. }
  destruct Huv as [-> ->].
  assert (Hmn : mixed_normal P faces i u v <> rv_zero) by (eapply Hnormals; eassumption).
  specialize (Hnm Hproper Hmn). set (Nn := unit_of (mixed_normal P faces i u v)) in *.
  assert (HN1 : rv_dot Nn Nn = 1) by (apply unit_of_unit; intros F; apply Hmn, rv_norm_zero, F).
  destruct (normals_ok big tiny eps (h_normal rh) (direction r) Nn U Hnm HU) as (S1 & _ & W & S2 & S3 & _).
  assert (HW1 : rv_dot W W = 1).
  { destruct S3 as [-> | ->]; [exact HN1|]. rewrite <- HN1. unfold rv_dot, rv_scale. cbn. ring. }
  destruct Hmats as (M1 & M2 & M3). destruct (M3 i I1) as (id & m & Hid & Hidr & Em).
  destruct (M1 (Z.to_nat id)) as (m' & Em' & Hm); [lia|]. rewrite Em in Em'. injection Em' as <-.
  pose proof (M2 (Z.to_nat id) ltac:(lia)) as Hph.
  destruct (ratio_ok big tiny eps (h_normal rh) (direction r) Nn U (mt_ior m) (sf_ior (sf (Z.to_nat id))) Hnm HU) as [Ra Rb].
  { apply Hm. }
  { destruct Hph as (_ & _ & _ & _ & Hior & _). lra. }
  pose proof (fun e He Hpos => reflectance_ok big tiny eps (h_normal rh) (direction r) Nn U
    (@index_ratio _ XN (mt_ior m) (@inside _ XN (direction r) (fst (@shading_normals _ XN (h_normal rh) (direction r))))) e Hnm HU HU1 HN1 He Hpos) as Hrefl.
  destruct (@shading_normals _ XN (h_normal rh) (direction r)) as [original nrm] eqn:Esn. cbn [fst snd] in *.
  rewrite Epr. cbn [bind]. rewrite (proj2 (at_some _ _ _ _) Hid). cbn [bind]. rewrite (proj2 (atZ_ok _ _ _ _) (conj Hidr Em)). cbn [bind].
  set (ins := @inside _ XN (direction r) original) in *. set (eta := @index_ratio _ XN (mt_ior m) ins) in *.
  assert (Heta : exists e, isR eta e /\ 0 < e /\ exists w, isR ins w /\ w * w = 1).
  { destruct Hph as (_ & _ & _ & _ & Hior & _). destruct (Rle_lt_dec (rv_dot U Nn) 0) as [Hle|Hgt].
    - destruct (Ra Hle) as [G1 G2]. eexists. split; [exact G2|]. split; [exact Hior|]. exists 1. split; [exact G1|lra].
    - destruct (Rb Hgt) as [G1 G2]. eexists. split; [exact G2|]. split; [apply Rinv_0_lt_compat, Hior|]. exists (-1). split; [exact G1|lra]. }
  destruct Heta as (e & He & Hepos & w & Hins & Hw1).
  destruct (Hrefl e He Hepos) as (Hfr & Hfr1 & Hfr0). cbv zeta in Hfr.
  set (fresnel := @fresnel_schlick _ XN _ _ _) in *. clear Hrefl Ra Rb.
  destruct Hm as (Hm1 & Hm2 & Hm3 & Hm4 & Hm5 & Hm6). destruct Hph as (Q1 & Q2 & Q3 & Q4 & Q5 & Q6).
  destruct (choose_event _ _).
  - eexists true, _. split; [reflexivity|]. split; [exact Horg|]. split.
    + destruct (reflect_ok big tiny eps (direction r) nrm U W HU S2 HW1) as (Z & HZ & _). exists Z. exact HZ.
    + split; [exact HC|]. cbn [pa_weight]. apply colour_mulc; [exact Hw|eexists; split; eassumption].
  - destruct (direct_sound m (sf (Z.to_nat id)) org nrm weight (pa_color q) (rnd 2%nat) (rnd 3%nat)) as (c & Ec & Hc'); auto.
    { exact (conj Hm1 (conj Hm2 (conj Hm3 (conj Hm4 (conj Hm5 Hm6))))). }
    { exact (conj Q1 (conj Q2 (conj Q3 (conj Q4 (conj Q5 Q6))))). }
    { exists W. exact S2. }
    rewrite Ec. cbn [bind]. eexists true, _. split; [reflexivity|]. split; [exact Horg|]. split.
    + destruct (cos_theta_ok big tiny eps fcos fsin pi p rand_max (rnd 4%nat) (rnd 5%nat) nrm W Hcos Hsin Hpi (Hr _) (Hr _) S2 HW1)
        as (Z & _ & _ & HZ & _). exists Z. exact HZ.
    + split; [exact Hc'|]. cbn [pa_weight]. apply colour_mulc; [exact Hw|eexists; split; eassumption].
  - eexists true, _. split; [reflexivity|]. split; [exact Horg|]. split.
    + cbn [pa_dir].
      assert (HV : visR (@vscale _ XN (@nopp _ XN ins) original) (rv_scale (- w) (rv_scale (-1) Nn))).
      { apply visR_scale; [apply isR_opp, Hins|exact S1]. }
      assert (HV1 : rv_dot (rv_scale (- w) (rv_scale (-1) Nn)) (rv_scale (- w) (rv_scale (-1) Nn)) = 1).
      { transitivity (w * w * rv_dot Nn Nn); [unfold rv_dot, rv_scale; cbn; ring|]. rewrite Hw1, HN1. ring. }
      destruct (refract_ok big tiny eps (direction r) _ eta U _ e HU HV He HU1 HV1) as [K1 K2].
      destruct (Rlt_le_dec (1 - e * e * (1 - rv_dot (rv_scale (- w) (rv_scale (-1) Nn)) U * rv_dot (rv_scale (- w) (rv_scale (-1) Nn)) U)) 0) as [Hneg|Hnn].
      * exists rv_zero. apply K1, Hneg.
      * destruct (K2 Hnn) as (Z & HZ & _). exists Z. exact HZ.
    + split; [exact HC|]. cbn [pa_weight]. apply colour_mulc; [exact Hw|eexists; split; eassumption].
  - eexists false, _. split; [reflexivity|]. split; [exact Horg|]. split; [exists D; exact HD|]. split; [|exact Hw].
    cbn [pa_color]. destruct (pa_emit q); [|exact HC]. apply colour_add; [exact HC|].
    eapply colour_scale; [apply isR_smax; [apply isR_dot; eassumption|apply isR_n0]|apply Rmax_r|].
    apply colour_mulc; [eexists; split; eassumption|exact Hw].
  - eexists false, _. split; [reflexivity|]. split; [exact Horg|]. split; [exists D; exact HD|]. split; assumption.
Qed.

Lemma bounces_sound n : forall b rnd q, (forall i k, random_number rand_max (rnd i k)) -> path_ok q ->
  exists q', @bounces _ XN fcos fsin pi floor_u rand_max ms nodes material_ids materials lights n b rnd q = Ok q' /\ path_ok q'.
Proof.
  induction n as [|n IH]; intros b rnd q Hr Hq; cbn [bounces]; [eauto|].
  destruct (bounce_sound b (rnd b) q (Hr b) Hq) as (go & q' & E & Hq'). rewrite E. cbn [bind]. destruct go; [|eauto].
  apply IH; assumption.
Qed.

Lemma sample_pixel_sound width height x y k1 k2 rnd : (0 < width)%Z -> (0 < height)%Z ->
  random_number rand_max k1 -> random_number rand_max k2 -> (forall i k, random_number rand_max (rnd i k)) ->
  exists c, @pixel_sample _ XN fcos fsin pi floor_u rand_max ms nodes material_ids materials lights width height x y k1 k2 rnd = Ok c /\ colour c.
Proof.
  intros Hw Hh R1 R2 Hr. unfold pixel_sample. apply IZR_lt in Hw, Hh.
  assert (Hhalf : isR (@nhalf _ XN) (1 / 2)) by (apply isR_div; [reflexivity|reflexivity|lra]).
  assert (Hg : forall z k w, random_number rand_max k -> 0 < IZR w ->
    exists a, isR (@nsub _ XN (@ndiv _ XN (@nadd _ XN (@nofZ _ XN z) (@uniform _ XN rand_max k (@nopp _ XN (@nhalf _ XN)) (@nhalf _ XN))) (@nofZ _ XN w)) (@nhalf _ XN)) a).
  { intros z k w Hk Hpos. eexists. apply isR_sub; [|exact Hhalf].
    apply isR_div; [|apply isR_ofZ|lra]. apply isR_add; [apply isR_ofZ|].
    apply isR_uniform; [exact Hk|apply isR_opp, Hhalf|exact Hhalf]. }
  destruct (Hg x k1 width R1 Hw) as (a & Ha). destruct (Hg y k2 height R2 Hh) as (b & Hb).
  destruct (bounces_sound uMaxBounces 0 rnd (Path (V (@nofZ _ XN 0) (@nofZ _ XN 5) (@nofZ _ XN 20))
    (V (@nsub _ XN (@ndiv _ XN (@nadd _ XN (@nofZ _ XN x) (@uniform _ XN rand_max k1 (@nopp _ XN (@nhalf _ XN)) (@nhalf _ XN))) (@nofZ _ XN width)) (@nhalf _ XN))
       (@nsub _ XN (@ndiv _ XN (@nadd _ XN (@nofZ _ XN y) (@uniform _ XN rand_max k2 (@nopp _ XN (@nhalf _ XN)) (@nhalf _ XN))) (@nofZ _ XN height)) (@nhalf _ XN))
       (@nofZ _ XN (-1))) (vconst (@nofZ _ XN 0)) (vconst (@nofZ _ XN 1)) true) Hr) as (q & E & Hq).
  - split; [exists (V 0 5 20); repeat split|]. split; [exists (V a b (-1)); repeat split; assumption|].
    split; [exists (V 0 0 0)|exists (V 1 1 1)]; (split; [repeat split|unfold vnonneg; cbn; lra]).
  - rewrite E. cbn [bind]. eexists. split; [reflexivity|apply Hq].
Qed.

Lemma pixel_sound width height x y ks rnd : (0 < width)%Z -> (0 < height)%Z ->
  (forall i, random_number rand_max (fst (ks i)) /\ random_number rand_max (snd (ks i))) ->
  (forall s i k, random_number rand_max (rnd s i k)) ->
  exists c, @pixel _ XN fcos fsin pi floor_u rand_max ms nodes material_ids materials lights width height x y ks rnd = Ok c /\ colour c.
Proof.
  intros Hw Hh Hks Hr. unfold pixel.
  assert (Hsum : forall n acc, colour acc -> exists c,
    @pixel_sum _ XN fcos fsin pi floor_u rand_max ms nodes material_ids materials lights n width height x y ks rnd acc = Ok c /\ colour c).
  { induction n as [|n IH]; intros acc Ha; cbn [pixel_sum]; [eauto|].
    destruct (sample_pixel_sound width height x y (fst (ks n)) (snd (ks n)) (rnd n) Hw Hh (proj1 (Hks n)) (proj2 (Hks n)) (Hr n)) as (c & E & Hc).
    rewrite E. cbn [bind]. apply IH, colour_add; assumption. }
  destruct (Hsum SPP (vconst (@nofZ _ XN 0))) as (c & E & Hc).
  { exists (V 0 0 0). split; [repeat split|unfold vnonneg; cbn; lra]. }
  rewrite E. cbn [bind]. eexists. split; [reflexivity|].
  eapply colour_scaler; [apply isR_div; [apply isR_ofZ|apply isR_ofZ|]|..|exact Hc]; unfold SPP; cbn; lra.
Qed.
End S.

(** The same without the section. *)
Lemma pixel_sound_all : forall big tiny eps vertices faces P ms part opt nodes st material_ids materials sf lights fcos fsin pi p floor_u rand_max width height x y ks rnd,
  mesh_are vertices faces P -> @make_mesh _ (Xnum big tiny eps) vertices faces = Ok ms -> partition_ok part ->
  @build _ (Xnum big tiny eps) _ part [] (@mesh_coll _ (Xnum big tiny eps) ms) opt = Ok (nodes, st) ->
  (forall k d, node_depth nodes k d -> (d <= 26)%nat) -> proper P faces -> normals_defined (4 * eps) faces P ->
  materials_valid faces material_ids materials sf ->
  @make_light _ (Xnum big tiny eps) faces material_ids materials = Ok lights -> lights <> [] ->
  (Z.of_nat (length faces) < 4294967296)%Z ->
  computes fcos cos -> computes fsin sin -> isR pi p -> 0 < p -> floors floor_u ->
  (0 < width)%Z -> (0 < height)%Z ->
  (forall i, random_number rand_max (fst (ks i)) /\ random_number rand_max (snd (ks i))) ->
  (forall s i k, random_number rand_max (rnd s i k)) ->
  exists c, @pixel _ (Xnum big tiny eps) fcos fsin pi floor_u rand_max ms nodes material_ids materials lights width height x y ks rnd = Ok c /\ colour c.
Proof. intros. eapply pixel_sound; eauto. Qed.
Lemma bounce_sound_all : forall big tiny eps vertices faces P ms part opt nodes st material_ids materials sf lights fcos fsin pi p floor_u rand_max b rnd q,
  mesh_are vertices faces P -> @make_mesh _ (Xnum big tiny eps) vertices faces = Ok ms -> partition_ok part ->
  @build _ (Xnum big tiny eps) _ part [] (@mesh_coll _ (Xnum big tiny eps) ms) opt = Ok (nodes, st) ->
  (forall k d, node_depth nodes k d -> (d <= 26)%nat) -> proper P faces -> normals_defined (4 * eps) faces P ->
  materials_valid faces material_ids materials sf ->
  @make_light _ (Xnum big tiny eps) faces material_ids materials = Ok lights -> lights <> [] ->
  (Z.of_nat (length faces) < 4294967296)%Z ->
  computes fcos cos -> computes fsin sin -> isR pi p -> 0 < p -> floors floor_u ->
  (forall k, random_number rand_max (rnd k)) -> path_ok q ->
  exists go q', @bounce _ (Xnum big tiny eps) fcos fsin pi floor_u rand_max ms nodes material_ids materials lights b rnd q = Ok (go, q') /\ path_ok q'.
Proof. intros. eapply bounce_sound; eauto. Qed.
