(** Centers and hierarchies of meshes in IEEE arithmetic. *)

From Coq Require Import Reals ZArith List Bool Arith Lra Lia Psatz Floats.SpecFloat.
From Flocq Require Import Core IEEE754.BinarySingleNaN.
From Verif Require Import Num NumR NumF Vec Datatypes Ray Bvh Traverse Trimesh SpecBvh SpecReal SpecIEEE SpecAny SpecTri SpecTriF.
From Verif Require Import PfBuild PfNumbered PfTrav2 PfIEEE PfIEEE2 PfIEEE3 PfTri2 PfTriF PfTriF2 PfTriF3 PfTriF4 PfTriF5.
Import ListNotations.
Local Open Scope R_scope.

Section F.
Variables prec emax : Z.
Context {Hprec : Prec_gt_0 prec} {Hmax : Prec_lt_emax prec emax}.
Hypothesis Hfmt : usual_format prec emax.
Notation FN := (Fnum prec emax).
Notation isf := (isF prec emax).
Notation rd := (rnd prec emax).
Notation u := (ulpf prec).
Variable M : R.
Hypothesis HM : scale_ok prec emax M.

Lemma three_isF : isf (@nofZ _ FN 3) 3.
Proof.
  replace 3 with (IZR 3 * bpow radix2 0) by (cbn; lra). apply (@isF_lit prec emax Hprec Hmax (p6 prec emax Hfmt)).
  - destruct Hfmt. change (Z.abs 3) with 3%Z. apply Z.lt_le_trans with (2 ^ 6)%Z; [reflexivity|]. apply Z.pow_le_mono_r; lia.
  - destruct Hfmt. unfold Prec_lt_emax in Hmax. lia.
Qed.

Lemma mean_F x y z X Y Z : isf x X -> isf y Y -> isf z Z -> Rabs X <= M -> Rabs Y <= M -> Rabs Z <= M ->
  exists m, isf (@ndiv _ FN (@nadd _ FN (@nadd _ FN x y) z) (@nofZ _ FN 3)) m /\ Rabs (m - / 3 * (X + Y + Z)) <= 4 * u * M.
Proof.
  intros Hx Hy Hz Bx By Bz.
  assert (G : forall a A, isf a A -> Rabs A <= M -> ap prec emax M 1 1 0 a A).
  { intros a A0 Ha Hb. apply ap_exact; [exact Ha|]. rewrite pow_1. lra. }
  pose proof (ap_add prec emax Hfmt M HM 1 1 0 1 0 2.1 x y X Y (G _ _ Hx Bx) (G _ _ Hy By)) as S1.
  specialize (S1 ltac:(lia) ltac:(lra) ltac:(lra) ltac:(lra) ltac:(lra)).
  pose proof (ap_add prec emax Hfmt M HM 1 (1 + 1) 2.1 1 0 5.2 _ z _ Z S1 (G _ _ Hz Bz)) as S2.
  specialize (S2 ltac:(lia) ltac:(lra) ltac:(lra) ltac:(lra) ltac:(lra)).
  destruct (ap_val prec emax M _ _ _ _ _ S2) as (s & Hs & V & E & _).
  assert (V' : Rabs (/ 3 * (X + Y + Z)) <= 1 * M ^ 1).
  { rewrite Rabs_mult, (Rabs_pos_eq (/ 3)) by lra. lra. }
  assert (E' : Rabs (s / 3 - / 3 * (X + Y + Z)) <= 1.8 * u * M ^ 1).
  { replace (s / 3 - / 3 * (X + Y + Z)) with (/ 3 * (s - (X + Y + Z))) by field.
    rewrite Rabs_mult, (Rabs_pos_eq (/ 3)) by lra. pose proof (u_pos prec). pose proof (Mk_pos prec emax M HM 1). nra. }
  destruct (round_step prec emax Hfmt M HM 1 1 1.8 4 (s / 3) _ (le_S _ _ (le_S _ _ (le_n 1))) ltac:(lra) ltac:(lra) ltac:(lra) V' E' ltac:(lra)) as [R1 R2].
  rewrite pow_1 in R2. exists (rd (s / 3)). split; [|exact R2]. apply (isF_div prec emax); [exact Hs|apply three_isF|lra|exact R1].
Qed.

Lemma center_F a b c A B C : visF prec emax a A -> visF prec emax b B -> visF prec emax c C -> coords M A -> coords M B -> coords M C ->
  exists m, visF prec emax (@tri_center _ FN a b c) m /\ coords (4 * u * M) (rv_sub m (centroid A B C)).
Proof.
  intros (a1 & a2 & a3) (b1 & b2 & b3) (c1 & c2 & c3) (A1 & A2 & A3) (B1 & B2 & B3) (C1 & C2 & C3).
  destruct (mean_F _ _ _ _ _ _ a1 b1 c1 A1 B1 C1) as (x & X1 & X2).
  destruct (mean_F _ _ _ _ _ _ a2 b2 c2 A2 B2 C2) as (y & Y1 & Y2).
  destruct (mean_F _ _ _ _ _ _ a3 b3 c3 A3 B3 C3) as (z & Z1 & Z2).
  exists (V x y z). split; [split; [|split]; cbn [vx vy vz tri_center vdivs vadd vmap vmap2]; assumption|].
  unfold coords, centroid. cbn [vx vy vz rv_sub rv_scale rv_add]. auto.
Qed.

Variables (vertices : list (vec spec_float)) (faces : list (vec nat)) (P : nat -> vec R).
Hypothesis Hare : mesh_areF prec emax M vertices faces P.
Notation A i := (fa faces P i).
Notation B i := (fb faces P i).
Notation C i := (fc faces P i).
Variable opt : options.
Notation size := (bin_size opt).
Hypothesis Hsize : (1 <= size)%nat.
Hypothesis Hsmall : (3 * Z.of_nat size < 4294967296)%Z.
Hypothesis Hapart : extents_wide (bin_extent prec M size) faces P.
Variable part : (nat -> bool) -> list nat -> list nat * list nat.
Hypothesis Hpart : partition_ok part.

Lemma mesh_built_F : exists ms, @make_mesh _ FN vertices faces = Ok ms /\
  forall nodes, exists nodes' st, @build _ FN _ part nodes (@mesh_coll _ FN ms) opt = Ok (nodes', st).
Proof.
  destruct (@make_mesh_any _ FN vertices faces (proj2 Hare)) as (ms & Hm). exists ms. split; [exact Hm|].
  pose proof (mesh_size vertices faces (proj2 Hare) ms Hm) as Hn.
  pose proof (u_pos prec) as U0. pose proof (u_small prec emax Hfmt) as U1. pose proof (M1 prec emax M HM) as HM1.
  assert (Hs1 : 1 <= INR size) by (change 1 with (INR 1); apply le_INR, Hsize).
  assert (He : (34 <= emax)%Z) by (destruct Hfmt; lia).
  assert (HuM : u <= u * M) by nra.
  pose (ctr i := match nth_error (m_centers ms) i with Some v => V (SF2R radix2 (vx v)) (SF2R radix2 (vy v)) (SF2R radix2 (vz v)) | None => V 0 0 0 end).
  apply (build_slack prec emax (p6 prec emax Hfmt) _ _ _
    (mesh_boxesF prec emax M vertices faces P ms Hare Hm) (mesh_moderate prec emax M HM vertices faces P ms Hare Hm)
    He opt Hsize Hsmall) with (slack := 4 * u * M) (ctr := ctr).
  - intros i j Hi Hj. rewrite Hn in Hi, Hj. destruct (Hapart i j Hi Hj) as (X & Y & Z).
    assert (G : forall a b, wide (bin_extent prec M size) a b -> spread emax a b).
    { intros a b [E|E]; [left; exact E|right]. eapply Rle_trans; [|exact E].
      apply Rle_trans with (u * u); [apply (low_uu prec emax Hfmt)|]. unfold bin_extent.
      assert (u * u <= u * M) by nra. assert (u * M <= INR size * (u * M)) by nra. nra. }
    split; [|split]; apply G; assumption.
  - nra.
  - intros i j Hi Hj. rewrite Hn in Hi, Hj. destruct (Hapart i j Hi Hj) as (X & Y & Z).
    replace (64 * INR size * (4 * u * M)) with (bin_extent prec M size) by (unfold bin_extent; ring). auto.
  - intros i Hi. rewrite Hn in Hi.
    destruct (mesh_face vertices faces (proj2 Hare) ms Hm i Hi) as (a & b & c & Ea & Eb & Ec & _ & _ & E).
    assert (G : forall j x, nth_error vertices j = Some x -> visF prec emax x (P j) /\ coords M (P j)).
    { intros j x Ex. destruct (proj1 Hare j) as (x' & Ex' & H1 & H2); [apply nth_error_Some; congruence|].
      rewrite Ex in Ex'. injection Ex' as <-. auto. }
    destruct (G _ _ Ea) as [Va Sa], (G _ _ Eb) as [Vb Sb], (G _ _ Ec) as [Vc Sc].
    fold (A i) in Va, Sa. fold (B i) in Vb, Sb. fold (C i) in Vc, Sc.
    destruct (center_F _ _ _ _ _ _ Va Vb Vc Sa Sb Sc) as (m & Vm & Dm). exists (@tri_center _ FN a b c). split; [exact E|].
    assert (Em : ctr i = m).
    { unfold ctr. cbn [c_center mesh_coll] in E. unfold at_ in E. destruct (nth_error (m_centers ms) i); [|discriminate]. injection E as ->.
      destruct Vm as ((_ & _ & V1) & (_ & _ & V2) & (_ & _ & V3)). destruct m as [p q w]. cbn [vx vy vz] in *. rewrite V1, V2, V3. reflexivity. }
    rewrite Em. split; [exact Vm|].
    assert (K : forall x y z w, Rabs x <= M -> Rabs y <= M -> Rabs z <= M -> Rabs (w - / 3 * (x + y + z)) <= 4 * u * M ->
      Rabs w <= top emax / 8 /\ Rmin x (Rmin y z) - 4 * u * M <= w <= Rmax x (Rmax y z) + 4 * u * M).
    { intros x y z w X Y Z W. apply Rabs_le_inv in X, Y, Z, W. split.
      - apply Rabs_le. pose proof (Mk_top prec emax M HM 1 ltac:(lia)) as T. rewrite pow_1 in T. nra.
      - unfold Rmin, Rmax. repeat destruct (Rle_dec _ _); lra. }
    destruct Sa as (a1 & a2 & a3), Sb as (b1 & b2 & b3), Sc as (c1 & c2 & c3), Dm as (d1 & d2 & d3).
    cbn [vx vy vz rv_sub centroid rv_scale rv_add] in d1, d2, d3.
    destruct (K _ _ _ _ a1 b1 c1 d1) as [k1 l1]. destruct (K _ _ _ _ a2 b2 c2 d2) as [k2 l2]. destruct (K _ _ _ _ a3 b3 c3 d3) as [k3 l3].
    split; [unfold moderate; auto|]. unfold in_box, tri_lower, tri_upper. cbn [vx vy vz rv_sub rv_add]. auto.
  - exact Hpart.
  - intros i Hi. rewrite Hn in Hi. destruct (mesh_face vertices faces (proj2 Hare) ms Hm i Hi) as (a & b & c & _ & _ & _ & E & _). eauto.
Qed.
End F.

Lemma mesh_built_ready prec emax (Hprec : Prec_gt_0 prec) (Hmax : Prec_lt_emax prec emax) : usual_format prec emax ->
  forall M, scale_ok prec emax M -> forall vertices faces P, mesh_areF prec emax M vertices faces P ->
  forall opt, (1 <= bin_size opt)%nat -> (3 * Z.of_nat (bin_size opt) < 4294967296)%Z ->
  extents_wide (bin_extent prec M (bin_size opt)) faces P ->
  forall part, partition_ok part ->
  exists ms, @make_mesh _ (Fnum prec emax) vertices faces = Ok ms /\
    forall nodes, exists nodes' st, @build _ (Fnum prec emax) _ part nodes (@mesh_coll _ (Fnum prec emax) ms) opt = Ok (nodes', st).
Proof. intros Hf M HM vs fs P Ha opt H1 H2 He part Hp. exact (mesh_built_F prec emax Hf M HM vs fs P Ha opt H1 H2 He part Hp). Qed.

Lemma center_ready prec emax (Hprec : Prec_gt_0 prec) (Hmax : Prec_lt_emax prec emax) : usual_format prec emax ->
  forall M, scale_ok prec emax M -> forall a b c A B C,
  visF prec emax a A -> visF prec emax b B -> visF prec emax c C -> coords M A -> coords M B -> coords M C ->
  exists m, visF prec emax (@tri_center _ (Fnum prec emax) a b c) m /\ coords (4 * ulpf prec * M) (rv_sub m (centroid A B C)).
Proof. intros Hf M HM. exact (center_F prec emax Hf M HM). Qed.

(** From the vertices to the answer. *)
Lemma mesh_answer prec emax (Hprec : Prec_gt_0 prec) (Hmax : Prec_lt_emax prec emax) M vertices faces P o d tmin tmax O D lo :
  mesh_ray prec emax M vertices faces P o d tmin tmax O D lo ->
  forall opt, (1 <= bin_size opt)%nat -> (3 * Z.of_nat (bin_size opt) < 4294967296)%Z -> shallow opt (length faces) ->
  extents_wide (bin_extent prec M (bin_size opt)) faces P ->
  forall part, partition_ok part ->
  exists ms nodes st, @make_mesh _ (Fnum prec emax) vertices faces = Ok ms /\
    @build _ (Fnum prec emax) _ part [] (@mesh_coll _ (Fnum prec emax) ms) opt = Ok (nodes, st) /\
  forall any rh,
  (@traverse _ (Fnum prec emax) _ _ (@tri_isector _ (Fnum prec emax) ms) nodes (@make_ray _ (Fnum prec emax) o d tmin tmax any) rh = Ok (false, rh) /\
   forall i s, (i < length faces)%nat -> ~ surely_hit prec M faces P O (unit_of D) (lo_unit lo D) i s) \/
  (exists rh' k t u v,
     @traverse _ (Fnum prec emax) _ _ (@tri_isector _ (Fnum prec emax) ms) nodes (@make_ray _ (Fnum prec emax) o d tmin tmax any) rh = Ok (true, rh') /\
     (k < length faces)%nat /\ h_prim rh' = Some k /\
     isF prec emax (h_distance rh') t /\ isF prec emax (fst (h_uv rh')) u /\ isF prec emax (snd (h_uv rh')) v /\
     nearly_hit prec M faces P O (unit_of D) lo k t u v /\
     (any = false -> forall i s, (i < length faces)%nat -> surely_hit prec M faces P O (unit_of D) (lo_unit lo D) i s ->
        not_behind prec M faces P O (unit_of D) i s (length faces) t)).
Proof.
  intros Hr opt H1 H2 H3 He part Hp.
  destruct (mesh_built_ready prec emax Hprec Hmax (mr_format _ _ _ _ _ _ _ _ _ _ _ _ _ Hr) M (mr_scale _ _ _ _ _ _ _ _ _ _ _ _ _ Hr)
    vertices faces P (mr_mesh _ _ _ _ _ _ _ _ _ _ _ _ _ Hr) opt H1 H2 He part Hp) as (ms & Hm & Hb).
  destruct (Hb []) as (nodes & st & Eb). exists ms, nodes, st. split; [exact Hm|]. split; [exact Eb|].
  assert (Ef : m_faces ms = faces) by (unfold make_mesh in Hm; apply bind_ok in Hm as ([[[? ?] ?] ?] & _ & Hm); injection Hm as <-; reflexivity).
  exact (mesh_query_ready prec emax Hprec Hmax M vertices faces P o d tmin tmax O D lo Hr ms Hm part Hp opt nodes st Eb
    (shallow_depth part Hp _ opt nodes st Eb ltac:(cbn [c_size mesh_coll]; rewrite Ef; exact H3))).
Qed.

(** Vertices on a grid. *)
Lemma Rmin_grid g a b : 0 < g -> Rmin (g * IZR a) (g * IZR b) = g * IZR (Z.min a b).
Proof.
  intros Hg. destruct (Z.le_ge_cases a b) as [H|H]; [rewrite Z.min_l by exact H; apply Rmin_left|rewrite Z.min_r by exact H; apply Rmin_right];
    apply Rmult_le_compat_l; try lra; apply IZR_le; exact H.
Qed.
Lemma Rmax_grid g a b : 0 < g -> Rmax (g * IZR a) (g * IZR b) = g * IZR (Z.max a b).
Proof.
  intros Hg. destruct (Z.le_ge_cases a b) as [H|H]; [rewrite Z.max_r by exact H; apply Rmax_right|rewrite Z.max_l by exact H; apply Rmax_left];
    apply Rmult_le_compat_l; try lra; apply IZR_le; exact H.
Qed.
Lemma wide_grid g w a b : w <= g -> 0 < g -> wide w (g * IZR a) (g * IZR b).
Proof.
  intros Hw Hg. unfold wide. rewrite <- Rmult_minus_distr_l, <- minus_IZR. destruct (Z.eq_dec (b - a) 0) as [E|E].
  - left. rewrite E. ring.
  - right. rewrite Rabs_mult, <- abs_IZR, (Rabs_pos_eq g) by lra.
    assert (1 <= IZR (Z.abs (b - a))) by (apply IZR_le; lia). nra.
Qed.
Lemma grid_wide g {T} (vertices : list (vec T)) faces P w : w <= g -> 0 < g ->
  (forall f, In f faces -> (vx f < length vertices /\ vy f < length vertices /\ vz f < length vertices)%nat) ->
  on_grid g (length vertices) P -> extents_wide w faces P.
Proof.
  intros Hw Hg Hf Hgrid i j Hi Hj. cbv zeta.
  assert (G : forall i, (i < length faces)%nat -> exists l m : vec Z,
    tri_lower (fa faces P i) (fb faces P i) (fc faces P i) = V (g * IZR (vx l)) (g * IZR (vy l)) (g * IZR (vz l)) /\
    tri_upper (fa faces P i) (fb faces P i) (fc faces P i) = V (g * IZR (vx m)) (g * IZR (vy m)) (g * IZR (vz m))).
  { intros k Hk. destruct (Hf (face faces k)) as (F1 & F2 & F3); [apply nth_In, Hk|].
    destruct (Hgrid _ F1) as (a1 & a2 & a3 & Ea), (Hgrid _ F2) as (b1 & b2 & b3 & Eb), (Hgrid _ F3) as (c1 & c2 & c3 & Ec).
    exists (V (Z.min a1 (Z.min b1 c1)) (Z.min a2 (Z.min b2 c2)) (Z.min a3 (Z.min b3 c3))),
      (V (Z.max a1 (Z.max b1 c1)) (Z.max a2 (Z.max b2 c2)) (Z.max a3 (Z.max b3 c3))).
    unfold tri_lower, tri_upper, fa, fb, fc. rewrite Ea, Eb, Ec. cbn [vx vy vz]. rewrite !Rmin_grid, !Rmax_grid by exact Hg. auto. }
  destruct (G i Hi) as (l & _ & -> & _), (G j Hj) as (_ & m & _ & ->). cbn [vx vy vz].
  split; [|split]; apply wide_grid; assumption.
Qed.
