(** The builder is defined in IEEE arithmetic on collections of moderate extent. *)

From Coq Require Import Reals ZArith List Bool Arith Lra Lia Floats.SpecFloat.
From Flocq Require Import Core Relative Plus_error IEEE754.BinarySingleNaN.
From Verif Require Import Num NumR NumF Vec Datatypes Bvh SpecBvh SpecReal SpecIEEE PfIEEE PfIEEE2 PfDefined.
Import ListNotations.
Local Open Scope R_scope.

Local Arguments Nat.ltb : simpl never.
Local Arguments Nat.leb : simpl never.

Section F.
Variables prec emax : Z.
Context {Hprec : Prec_gt_0 prec} {Hmax : Prec_lt_emax prec emax}.
Hypothesis Hp6 : (6 <= prec)%Z.
Notation FN := (Fnum prec emax).
Notation isf := (isF prec emax).
Notation rd := (rnd prec emax).
Notation u := (ulpf prec).
Notation low0 := (least emax).
Notation hi0 := (top emax).
Local Notation isF_ofZ := (@PfIEEE.isF_ofZ prec emax Hprec Hmax).
Local Notation isF_sub := (@PfIEEE.isF_sub prec emax Hprec Hmax).
Local Notation isF_mul := (@PfIEEE.isF_mul prec emax Hprec Hmax).
Local Notation isF_div := (@PfIEEE.isF_div prec emax Hprec Hmax).
Local Notation isF_ltb := (PfIEEE.isF_ltb prec emax).
Local Notation isF_opp := (@PfIEEE.isF_opp prec emax).
Local Notation rd_mono := (@PfIEEE.rd_mono prec emax Hprec).
Local Notation rd_0 := (PfIEEE.rd_0 prec emax).
Local Notation rd_pos := (@PfIEEE.rd_pos prec emax Hprec).
Local Notation rd_rel := (@PfIEEE.rd_rel prec emax Hprec).
Local Notation rd_bpow := (@PfIEEE2.rd_bpow prec emax Hprec).

(** Dyadic literals. *)
Lemma isF_lit m e : (Z.abs m < 2 ^ prec)%Z -> (3 - emax - prec <= e <= emax - prec)%Z ->
  isf (SpecFloat.binary_normalize prec emax m e false) (IZR m * bpow radix2 e).
Proof.
  intros Hm He. rewrite (normalize_eq prec emax).
  pose proof (binary_normalize_correct prec emax Hprec Hmax mode_NE m e false) as C. cbv zeta in C.
  assert (E : round radix2 (SpecFloat.fexp prec emax) (round_mode mode_NE) (F2R (Float radix2 m e)) = F2R (Float radix2 m e)).
  { apply round_generic; auto with typeclass_instances. apply generic_format_FLT.
    exists (Float radix2 m e); [reflexivity|exact Hm|]. cbn [Fexp]. unfold SpecFloat.emin. lia. }
  rewrite E in C. rewrite Rlt_bool_true in C.
  - destruct C as (C1 & C2 & _). unfold F2R in C1. cbn [Defs.Fnum Fexp] in C1. rewrite <- C1. apply B_isF, C2.
  - unfold F2R. cbn [Defs.Fnum Fexp]. rewrite Rabs_mult, (Rabs_pos_eq (bpow _ _)) by apply bpow_ge_0.
    rewrite <- abs_IZR. apply Rlt_le_trans with (bpow radix2 prec * bpow radix2 e).
    + apply Rmult_lt_compat_r; [apply bpow_gt_0|]. rewrite <- IZR_Zpower by lia. apply IZR_lt. exact Hm.
    + rewrite <- bpow_plus. apply bpow_le. lia.
Qed.

Lemma zero_isF : isf (@n0 _ FN) 0.
Proof. split; [reflexivity|]. split; reflexivity. Qed.

Definition maxv : R := IZR (2 ^ prec - 1) * bpow radix2 (emax - prec).
Lemma max_isF : isf (@nmaxv _ FN) maxv.
Proof.
  pose proof (emax_big prec emax Hp6). apply isF_lit; [|lia].
  assert (1 <= 2 ^ prec)%Z by (apply (Z.pow_le_mono_r 2 0); lia). rewrite Z.abs_eq; lia.
Qed.
Lemma max_big : hi0 / 2 <= maxv.
Proof.
  unfold maxv, top. replace (bpow radix2 emax) with (bpow radix2 prec * bpow radix2 (emax - prec)).
  2: { rewrite <- bpow_plus. f_equal. lia. }
  rewrite minus_IZR. change (2 ^ prec)%Z with (radix2 ^ prec)%Z. rewrite IZR_Zpower by lia.
  pose proof (bpow_gt_0 radix2 (emax - prec)). pose proof (bpow_le radix2 6 prec Hp6) as B.
  change (bpow radix2 6) with 64 in B. nra.
Qed.

Lemma isF_smin x y a b : isf x a -> isf y b -> isf (@smin _ FN x y) (Rmin b a).
Proof.
  intros Hx Hy. unfold smin. rewrite (isF_ltb _ _ _ _ Hy Hx). unfold Rltb, Rmin.
  destruct (Rlt_dec b a), (Rle_dec b a); try lra; try assumption. replace b with a in * by lra. assumption.
Qed.
Lemma isF_smax x y a b : isf x a -> isf y b -> isf (@smax _ FN x y) (Rmax a b).
Proof.
  intros Hx Hy. unfold smax. rewrite (isF_ltb _ _ _ _ Hx Hy). unfold Rltb, Rmax.
  destruct (Rlt_dec a b), (Rle_dec a b); try lra; try assumption. replace b with a in * by lra. assumption.
Qed.

(** One axis of the bounding box: the value is attained and bounds every box. *)
Section Coll.
Context {P : Type}.
Variable c : coll spec_float P.
Variables bmin bmax : nat -> vec R.
Hypothesis Hbox : boxes_areF prec emax c bmin bmax.

Definition least_of (g : vec R -> R) (a0 a : R) (ids : list nat) : Prop :=
  a <= a0 /\ (forall i, In i ids -> a <= g (bmin i)) /\ (a = a0 \/ exists i, In i ids /\ a = g (bmin i)).
Definition most_of (g : vec R -> R) (a0 a : R) (ids : list nat) : Prop :=
  a0 <= a /\ (forall i, In i ids -> g (bmax i) <= a) /\ (a = a0 \/ exists i, In i ids /\ a = g (bmax i)).

Lemma least_step g a0 a i ids : least_of g (Rmin a0 (g (bmin i))) a ids -> least_of g a0 a (i :: ids).
Proof.
  intros (L1 & L2 & L3). pose proof (Rmin_l a0 (g (bmin i))). pose proof (Rmin_r a0 (g (bmin i))).
  split; [lra|]. split.
  - intros j [<-|Hj]; [lra|auto].
  - destruct L3 as [L3|(j & Hj & L3)]; [|right; exists j; split; [right; exact Hj|exact L3]].
    rewrite L3. unfold Rmin. destruct (Rle_dec _ _); [left; reflexivity|].
    right. exists i. split; [left; reflexivity|reflexivity].
Qed.
Lemma most_step g a0 a i ids : most_of g (Rmax (g (bmax i)) a0) a ids -> most_of g a0 a (i :: ids).
Proof.
  intros (L1 & L2 & L3). pose proof (Rmax_l (g (bmax i)) a0). pose proof (Rmax_r (g (bmax i)) a0).
  split; [lra|]. split.
  - intros j [<-|Hj]; [lra|auto].
  - destruct L3 as [L3|(j & Hj & L3)]; [|right; exists j; split; [right; exact Hj|exact L3]].
    rewrite L3. unfold Rmax. destruct (Rle_dec _ _); [left; reflexivity|].
    right. exists i. split; [left; reflexivity|reflexivity].
Qed.

Lemma bbox_F : forall ids mn mx a A mn' mx',
  (forall i, In i ids -> (i < c_size c)%nat) ->
  visF prec emax mn a -> visF prec emax mx A ->
  @bbox_loop _ FN _ c mn mx ids = Ok (mn', mx') ->
  exists a' A', visF prec emax mn' a' /\ visF prec emax mx' A' /\
    (least_of vx (vx a) (vx a') ids /\ least_of vy (vy a) (vy a') ids /\ least_of vz (vz a) (vz a') ids) /\
    (most_of vx (vx A) (vx A') ids /\ most_of vy (vy A) (vy A') ids /\ most_of vz (vz A) (vz A') ids).
Proof.
  induction ids as [|i ids IH]; intros mn mx a A mn' mx' Hlt Hmn Hmx H.
  - injection H as <- <-. exists a, A. split; [exact Hmn|]. split; [exact Hmx|].
    unfold least_of, most_of. repeat split; try lra; try (intros i []); left; reflexivity.
  - cbn [bbox_loop] in H. destruct (Hbox i (Hlt i (or_introl eq_refl))) as ([b1 b2] & Eb & Hb1 & Hb2).
    rewrite Eb in H. cbn [bind fst snd] in *. unfold unity in H.
    set (mn1 := vmap2 smin b1 mn) in H. set (mx1 := vmap2 smax b2 mx) in H.
    assert (H1 : visF prec emax mn1 (V (Rmin (vx a) (vx (bmin i))) (Rmin (vy a) (vy (bmin i))) (Rmin (vz a) (vz (bmin i))))).
    { destruct Hmn as (? & ? & ?), Hb1 as (? & ? & ?). split; [|split]; cbn; apply isF_smin; assumption. }
    assert (H2 : visF prec emax mx1 (V (Rmax (vx (bmax i)) (vx A)) (Rmax (vy (bmax i)) (vy A)) (Rmax (vz (bmax i)) (vz A)))).
    { destruct Hmx as (? & ? & ?), Hb2 as (? & ? & ?). split; [|split]; cbn; apply isF_smax; assumption. }
    destruct (IH _ _ _ _ _ _ (fun j Hj => Hlt j (or_intror Hj)) H1 H2 H) as
      (a' & A' & R1 & R2 & (L1 & L2 & L3) & (U1 & U2 & U3)). cbn [vx vy vz] in *.
    exists a', A'. split; [exact R1|]. split; [exact R2|].
    split; (split; [|split]); apply least_step || apply most_step; assumption.
Qed.

Hypothesis Hmod : moderate_boxes emax (c_size c) bmin bmax.

Definition attained (g : vec R -> R) (a A : R) (ids : list nat) : Prop :=
  (forall i, In i ids -> a <= g (bmin i) /\ g (bmax i) <= A) /\
  (exists i, In i ids /\ a = g (bmin i)) /\ (exists i, In i ids /\ A = g (bmax i)).

Lemma attain g ids i0 a A : In i0 ids -> (forall i, In i ids -> Rabs (g (bmin i)) <= hi0 / 8 /\ Rabs (g (bmax i)) <= hi0 / 8) ->
  least_of g maxv a ids -> most_of g (- maxv) A ids -> attained g a A ids.
Proof.
  intros Hi Hb (L1 & L2 & L3) (M1 & M2 & M3). pose proof max_big. pose proof (hi0_big prec emax Hp6).
  destruct (Hb i0 Hi) as [B1 B2]. apply Rabs_le_inv in B1, B2.
  split; [auto|]. split.
  - destruct L3 as [->|L3]; [|exact L3]. pose proof (L2 i0 Hi). lra.
  - destruct M3 as [->|M3]; [|exact M3]. pose proof (M2 i0 Hi). lra.
Qed.

Lemma compute_F ids mn mx i0 :
  (forall i, In i ids -> (i < c_size c)%nat) -> In i0 ids ->
  @compute_bounding_box _ FN _ c ids = Ok (mn, mx) ->
  exists a A, visF prec emax mn a /\ visF prec emax mx A /\
    attained vx (vx a) (vx A) ids /\ attained vy (vy a) (vy A) ids /\ attained vz (vz a) (vz A) ids.
Proof.
  intros Hlt Hi0 H. unfold compute_bounding_box in H. pose proof max_isF as HM.
  assert (H1 : visF prec emax (vconst (@nmaxv _ FN)) (V maxv maxv maxv)) by (split; [|split]; exact HM).
  assert (H2 : visF prec emax (vconst (@nopp _ FN (@nmaxv _ FN))) (V (- maxv) (- maxv) (- maxv)))
    by (split; [|split]; apply isF_opp; exact HM).
  destruct (bbox_F _ _ _ _ _ _ _ Hlt H1 H2 H) as (a & A & R1 & R2 & (L1 & L2 & L3) & (U1 & U2 & U3)).
  cbn [vx vy vz] in *. exists a, A. split; [exact R1|]. split; [exact R2|].
  split; [|split]; eapply attain; eauto; intros i Hi; destruct (Hmod i (Hlt i Hi)) as [(? & ? & ?) (? & ? & ?)]; auto.
Qed.

(** The conversion of a bin index. *)
Lemma round_u_F x a : isf x a -> - (1 / 2) < a <= IZR (2 ^ 31) -> exists z, @nround_u _ FN x = Some z.
Proof.
  intros (_ & Fi & E) Ha. cbn [nround_u Fnum]. unfold sf_round_u.
  destruct x as [s|s| |s m e]; try discriminate.
  - cbn. eauto.
  - cbn [sf_round_Z]. set (q := if (0 <=? e)%Z then _ else _).
    cbn [SF2R] in E. unfold F2R in E. cbn [Defs.Fnum Fexp] in E. pose proof (bpow_gt_0 radix2 e) as Hb.
    assert (Hm1 : 1 <= IZR (Zpos m)) by (apply IZR_le; lia).
    assert (Hneg : (e < 0)%Z -> (0 < 2 ^ (- e - 1))%Z /\ (2 ^ (- e) = 2 * 2 ^ (- e - 1))%Z /\ IZR (2 ^ (- e)) * bpow radix2 e = 1).
    { intros He. split; [apply Z.pow_pos_nonneg; lia|]. split.
      - replace (- e)%Z with (1 + (- e - 1))%Z at 1 by lia. rewrite Z.pow_add_r by lia. reflexivity.
      - change 2%Z with (radix_val radix2). rewrite IZR_Zpower by lia. rewrite <- bpow_plus.
        replace (- e + e)%Z with 0%Z by lia. reflexivity. }
    destruct s; cbn [cond_Zopp] in E.
    + rewrite opp_IZR in E. assert (Hq : q = 0%Z).
      { unfold q. destruct (Z.leb_spec 0 e) as [He|He].
        - exfalso. assert (1 <= bpow radix2 e) by (change 1 with (bpow radix2 0); apply bpow_le, He). nra.
        - destruct (Hneg He) as (Hh & Hd & H1). apply Z.div_small. split; [lia|].
          assert (Zpos m < 2 ^ (- e - 1))%Z; [|lia]. apply lt_IZR.
          assert (Hd' : IZR (2 ^ (- e)) = 2 * IZR (2 ^ (- e - 1))) by (rewrite Hd, mult_IZR; reflexivity). nra. }
      rewrite Hq. cbn. eauto.
    + unfold u32_of_Z. assert (Hq : (0 <= q < 4294967296)%Z).
      { unfold q. destruct (Z.leb_spec 0 e) as [He|He].
        - split; [pose proof (Z.pow_nonneg 2 e); nia|]. apply lt_IZR. rewrite mult_IZR.
          change 2%Z with (radix_val radix2) at 1. rewrite IZR_Zpower by exact He. rewrite E.
          apply Rle_lt_trans with (1 := proj2 Ha). apply IZR_lt. reflexivity.
        - destruct (Hneg He) as (Hh & Hd & H1).
          split; [apply Z.div_pos; lia|].
          apply Z.div_lt_upper_bound; [lia|].
          assert (Hm : (Zpos m <= 2 ^ (- e) * 2 ^ 31)%Z).
          { apply le_IZR. rewrite mult_IZR. apply Rmult_le_reg_r with (bpow radix2 e); [exact Hb|]. rewrite E.
            rewrite Rmult_assoc, (Rmult_comm (IZR (2 ^ 31))), <- Rmult_assoc, H1. lra. }
          change (2 ^ 31)%Z with 2147483648%Z in Hm. nia. }
      replace (0 <=? q)%Z with true by (symmetry; apply Z.leb_le; lia).
      replace (q <? 4294967296)%Z with true by (symmetry; apply Z.ltb_lt; lia). cbn. eauto.
Qed.

Lemma rd_le a b e : isf e b -> a <= b -> rd a <= b.
Proof. intros He H. rewrite <- (PfIEEE.rd_id prec emax _ _ He). apply rd_mono, H. Qed.

Hypothesis He34 : (34 <= emax)%Z.
Lemma hi34 : IZR (2 ^ 34) <= hi0.
Proof. change (IZR (2 ^ 34)) with (bpow radix2 34). apply bpow_le, He34. Qed.

Lemma five_quarters a : a <= 5 / 4 -> rd a <= 5 / 4.
Proof.
  intros H. pose proof (u_range prec Hp6). pose proof (emax_big prec emax Hp6).
  replace (5 / 4) with (IZR 5 * bpow radix2 (-2)) by (change (bpow radix2 (-2)) with (/ 4); lra).
  apply rd_le with (SpecFloat.binary_normalize prec emax 5 (-2) false).
  - apply isF_lit; [|unfold Prec_lt_emax in Hmax; lia].
    change (Z.abs 5) with 5%Z. apply Z.lt_le_trans with (2 ^ 6)%Z; [reflexivity|]. apply Z.pow_le_mono_r; lia.
  - change (bpow radix2 (-2)) with (/ 4). lra.
Qed.

(** Rounding at most doubles. *)
Lemma rd_double a : Rabs (rd a) <= 2 * Rabs a.
Proof.
  assert (H : Rabs (rd a - a) <= Rabs (0 - a)).
  { apply (round_N_pt radix2 (SpecFloat.fexp prec emax) (fun x => negb (Z.even x)) a). apply generic_format_0. }
  rewrite Rminus_0_l, Rabs_Ropp in H. pose proof (Rabs_triang (rd a - a) a) as T. replace (rd a - a + a) with (rd a) in T by ring. lra.
Qed.

Variable opt : options.
Notation size := (bin_size opt).
Hypothesis Hsize : (1 <= size)%nat.
Hypothesis Hsmall : (3 * Z.of_nat size < 4294967296)%Z.

Lemma count_F : exists k, isf (@nofZ _ FN (Z.of_nat size - 1)) k /\ 0 <= k <= 3 / 2 * IZR (2 ^ 30) /\ k <= 2 * INR size.
Proof.
  set (z := (Z.of_nat size - 1)%Z). assert (Hz : (0 <= z < 1431655765)%Z) by (unfold z; lia).
  pose proof hi34 as H34. change (IZR (2 ^ 34)) with 17179869184 in H34. change (IZR (2 ^ 30)) with 1073741824.
  pose proof (emax_big prec emax Hp6).
  assert (H0 : 0 <= IZR z <= 1431655765) by (split; apply IZR_le; lia).
  assert (Hr : 0 <= rd (IZR z) <= 1610612736).
  { split; [apply rd_pos; lra|].
    replace 1610612736 with (IZR 3 * bpow radix2 29) by (change (bpow radix2 29) with 536870912; lra).
    destruct (Z_le_gt_dec 29 (emax - prec)) as [Hc|Hc].
    - apply rd_le with (SpecFloat.binary_normalize prec emax 3 29 false).
      + apply isF_lit; [|lia]. change (Z.abs 3) with 3%Z.
        apply Z.lt_le_trans with (2 ^ 6)%Z; [reflexivity|]. apply Z.pow_le_mono_r; lia.
      + change (bpow radix2 29) with 536870912. lra.
    - assert (E : rd (IZR 3 * bpow radix2 29) = IZR 3 * bpow radix2 29).
      { apply round_generic; auto with typeclass_instances. apply generic_format_FLT.
        exists (Float radix2 3 29); [reflexivity| |cbn [Fexp]; unfold SpecFloat.emin; lia].
        cbn [Defs.Fnum]. apply Z.lt_le_trans with (2 ^ 6)%Z; [reflexivity|].
        change (radix_val radix2) with 2%Z. apply Z.pow_le_mono_r; lia. }
      rewrite <- E. apply rd_mono. change (bpow radix2 29) with 536870912. lra. }
  exists (rd (IZR z)). split; [apply isF_ofZ; rewrite Rabs_pos_eq; lra|]. split; [lra|].
  pose proof (rd_double (IZR z)) as D. rewrite !Rabs_pos_eq in D by lra. rewrite INR_IZR_INZ.
  assert (IZR z <= IZR (Z.of_nat size)) by (apply IZR_le; unfold z; lia). lra.
Qed.

Hypothesis Hspread : spread_boxes emax (c_size c) bmin bmax.
(** Centers may lie outside their boxes by [slack]. *)
Variable slack : R.
Hypothesis Hslack : 0 <= slack.
Notation apart a b := (b - a = 0 \/ 64 * INR size * slack <= Rabs (b - a)).
Hypothesis Hapart : forall i j, (i < c_size c)%nat -> (j < c_size c)%nat ->
  apart (vx (bmin i)) (vx (bmax j)) /\ apart (vy (bmin i)) (vy (bmax j)) /\ apart (vz (bmin i)) (vz (bmax j)).

Lemma size_pos : 1 <= INR size.
Proof. change 1 with (INR 1). apply le_INR, Hsize. Qed.

(** One normalised coordinate. *)
Lemma coord_F fm fM fc m M x fk k :
  isf fm m -> isf fM M -> isf fc x -> isf fk k -> 0 <= k <= 3 / 2 * IZR (2 ^ 30) -> k <= 2 * INR size ->
  Rabs m <= hi0 / 8 -> Rabs M <= hi0 / 8 -> Rabs x <= hi0 / 8 -> m - slack <= x <= M + slack -> spread emax m M -> apart m M ->
  let s := @nsub _ FN fM fm in
  let inv := if @nltb _ FN (@n0 _ FN) s then @ndiv _ FN (@n1 _ FN) s else @n0 _ FN in
  exists z, @nround_u _ FN (@nmul _ FN (@nmul _ FN (@nsub _ FN fc fm) inv) fk) = Some z.
Proof.
  intros Hm HM Hx Hk Hkr Hk2 Bm BM Bx Hxr Hsp Hap s inv.
  pose proof (hi0_big prec emax Hp6) as Hhi. pose proof (low0_pos emax) as Hlo. pose proof (low0_inv emax) as Hli.
  pose proof (u_range prec Hp6) as Hu. pose proof hi34 as H34. pose proof size_pos as Hs1.
  change (IZR (2 ^ 34)) with 17179869184 in H34. change (IZR (2 ^ 30)) with 1073741824 in *.
  apply Rabs_le_inv in Bm, BM, Bx.
  assert (Hs : isf s (rd (M - m))).
  { apply isF_sub; [exact HM|exact Hm|]. apply (rd_half_top prec emax Hp6). apply Rabs_le. lra. }
  assert (Hd : isf (@nsub _ FN fc fm) (rd (x - m))).
  { apply isF_sub; [exact Hx|exact Hm|]. apply (rd_half_top prec emax Hp6). apply Rabs_le. lra. }
  set (S := rd (M - m)) in *. set (X := rd (x - m)) in *.
  assert (Hinv : exists I, isf inv I /\ - 1 <= X * I <= 5 / 4 /\ - (1 / 10) < X * I * k).
  { unfold inv. rewrite (isF_ltb _ _ _ _ zero_isF Hs). unfold Rltb. destruct (Rlt_dec 0 S) as [Hp|Hp].
    - assert (HW : 0 < M - m).
      { destruct (Rlt_le_dec 0 (M - m)) as [E|E]; [exact E|]. pose proof (PfIEEE.rd_neg prec emax _ E) as H0. fold S in H0. lra. }
      assert (HW1 : low0 <= M - m).
      { destruct Hsp as [Hsp|Hsp]; [lra|]. rewrite Rabs_pos_eq in Hsp; lra. }
      assert (HW2 : 64 * INR size * slack <= M - m).
      { destruct Hap as [Hap|Hap]; [lra|]. rewrite Rabs_pos_eq in Hap; lra. }
      assert (HW3 : 64 * slack <= M - m) by nra.
      assert (HS1 : low0 <= S).
      { unfold S, least. rewrite <- (rd_bpow (3 - emax - 1)) by lia. apply rd_mono. exact HW1. }
      assert (HS3 : (M - m) * (1 - u) <= S).
      { assert (R : Rabs (rd (M - m) - (M - m)) <= u * Rabs (M - m)) by (apply rd_rel; rewrite Rabs_pos_eq; lra).
        rewrite (Rabs_pos_eq (M - m)) in R by lra. apply Rabs_le_inv in R. fold S in R. lra. }
      assert (HS2 : S <= hi0 / 4).
      { unfold S. assert (E4 : hi0 / 4 = bpow radix2 (emax - 2)).
        { unfold top, Zminus. rewrite bpow_plus. change (bpow radix2 (- (2))) with (/ 4). lra. }
        rewrite E4, <- (rd_bpow (emax - 2)) by (pose proof (emax_big prec emax Hp6); unfold Prec_gt_0 in *; lia).
        apply rd_mono. rewrite <- E4. lra. }
      assert (Hi1 : low0 <= / S).
      { rewrite <- (Rinv_inv low0). apply Rinv_le; [exact Hp|]. rewrite Hli. exact HS2. }
      assert (Hi2 : / S <= hi0 / 4) by (rewrite <- Hli; apply Rinv_le; assumption).
      assert (Hr : Rabs (rd (/ S) - / S) <= u * Rabs (/ S)).
      { apply rd_rel. rewrite Rabs_pos_eq; lra. }
      rewrite (Rabs_pos_eq (/ S)) in Hr by lra. apply Rabs_le_inv in Hr.
      assert (HI0 : 0 <= rd (/ S)) by (apply rd_pos; lra).
      assert (HIS : rd (/ S) * S <= 1 + u).
      { apply Rle_trans with (/ S * (1 + u) * S); [apply Rmult_le_compat_r; lra|].
        replace (/ S * (1 + u) * S) with ((1 + u) * (/ S * S)) by ring. rewrite Rinv_l by lra. lra. }
      assert (HIW : rd (/ S) * (M - m) <= 11 / 10).
      { assert (rd (/ S) * ((M - m) * (1 - u)) <= 1 + u) by (apply Rle_trans with (rd (/ S) * S); [apply Rmult_le_compat_l; assumption|exact HIS]).
        assert (0 <= rd (/ S) * (M - m)) by (apply Rmult_le_pos; lra). nra. }
      assert (Hlow : - (2 * slack) <= X).
      { destruct (Rle_lt_dec 0 (x - m)) as [Hc|Hc]; [pose proof (rd_pos _ Hc) as H0; fold X in H0; lra|].
        pose proof (rd_double (x - m)) as D. fold X in D. rewrite (Rabs_left (x - m)) in D by lra.
        apply Rabs_le_inv in D. lra. }
      assert (Hup : X <= 34 / 32 * (M - m)).
      { destruct (Rle_lt_dec (x - m) (M - m)) as [Hc|Hc].
        - apply Rle_trans with S; [apply rd_mono, Hc|].
          assert (R : Rabs (rd (M - m) - (M - m)) <= u * Rabs (M - m)) by (apply rd_rel; rewrite Rabs_pos_eq; lra).
          rewrite (Rabs_pos_eq (M - m)) in R by lra. apply Rabs_le_inv in R. fold S in R. nra.
        - assert (R : Rabs (rd (x - m) - (x - m)) <= u * Rabs (x - m)) by (apply rd_rel; rewrite Rabs_pos_eq; lra).
          rewrite (Rabs_pos_eq (x - m)) in R by lra. apply Rabs_le_inv in R. fold X in R. nra. }
      assert (Hc : slack * rd (/ S) * (64 * INR size) <= 11 / 10).
      { apply Rle_trans with ((M - m) * rd (/ S)); [|lra].
        replace (slack * rd (/ S) * (64 * INR size)) with (64 * INR size * slack * rd (/ S)) by ring. apply Rmult_le_compat_r; assumption. }
      assert (Hsl : 0 <= slack * rd (/ S)) by (apply Rmult_le_pos; assumption).
      assert (Hlow' : - (2 * (slack * rd (/ S))) <= X * rd (/ S)).
      { replace (- (2 * (slack * rd (/ S)))) with (- (2 * slack) * rd (/ S)) by ring. apply Rmult_le_compat_r; assumption. }
      exists (rd (/ S)). split; [|split].
      + replace (/ S) with (1 / S) by (field; lra). apply isF_div; [apply (one_isF prec emax Hp6)|exact Hs|lra|].
        apply (rd_half_top prec emax Hp6). replace (1 / S) with (/ S) by (field; lra). rewrite Rabs_pos_eq; lra.
      + split; [nra|]. apply Rle_trans with (34 / 32 * (M - m) * rd (/ S)); [apply Rmult_le_compat_r; assumption|]. lra.
      + assert (slack * rd (/ S) * k <= slack * rd (/ S) * (2 * INR size)) by (apply Rmult_le_compat_l; assumption).
        apply Rlt_le_trans with (- (2 * (slack * rd (/ S))) * k); [lra|]. apply Rmult_le_compat_r; [lra|assumption].
    - exists 0. split; [apply zero_isF|]. rewrite Rmult_0_r, Rmult_0_l. lra. }
  destruct Hinv as (I & HI & HXI & HXk).
  assert (Hq : rd (X * I) <= 5 / 4) by (apply five_quarters; lra).
  assert (Hqn : X * I < 0 -> 2 * (X * I) <= rd (X * I)).
  { intros Hn. pose proof (rd_double (X * I)) as D. rewrite (Rabs_left (X * I)) in D by exact Hn. apply Rabs_le_inv in D. lra. }
  assert (Hqk : - (2 / 10) < rd (X * I) * k).
  { destruct (Rle_lt_dec 0 (X * I)) as [Hc|Hc].
    - assert (0 <= rd (X * I) * k) by (apply Rmult_le_pos; [apply rd_pos; exact Hc|lra]). lra.
    - assert (2 * (X * I) * k <= rd (X * I) * k) by (apply Rmult_le_compat_r; [lra|apply Hqn, Hc]). lra. }
  assert (Hw : rd (X * I) * k <= 2147483648) by nra.
  assert (Hv : - (1 / 2) < rd (rd (X * I) * k) <= 2147483648).
  { split.
    - destruct (Rle_lt_dec 0 (rd (X * I) * k)) as [Hc|Hc]; [pose proof (rd_pos _ Hc); lra|].
      pose proof (rd_double (rd (X * I) * k)) as D. rewrite (Rabs_left (rd (X * I) * k)) in D by exact Hc. apply Rabs_le_inv in D. lra.
    - change 2147483648 with (bpow radix2 31) in *. rewrite <- (rd_bpow 31) by lia. apply rd_mono. lra. }
  assert (HQ : isf (@nmul _ FN (@nsub _ FN fc fm) inv) (rd (X * I))).
  { apply isF_mul; [exact Hd|exact HI|]. pose proof (rd_double (X * I)) as D.
    assert (Rabs (X * I) <= 5 / 4) by (apply Rabs_le; lra). lra. }
  apply round_u_F with (rd (rd (X * I) * k)); [|exact Hv].
  apply isF_mul; [exact HQ|exact Hk|]. apply Rabs_lt. lra.
Qed.

Variable ctr : nat -> vec R.
Hypothesis Hctr : forall i, (i < c_size c)%nat -> exists v, c_center c i = Ok v /\ visF prec emax v (ctr i) /\ moderate emax (ctr i) /\
  in_box (rv_sub (bmin i) (V slack slack slack)) (rv_add (bmax i) (V slack slack slack)) (ctr i).

Lemma bins_loop_F mn mx a A : visF prec emax mn a -> visF prec emax mx A ->
  moderate emax a -> moderate emax A ->
  (spread emax (vx a) (vx A) /\ spread emax (vy a) (vy A) /\ spread emax (vz a) (vz A)) ->
  (apart (vx a) (vx A) /\ apart (vy a) (vy A) /\ apart (vz a) (vz A)) ->
  forall ids bins, length bins = (3 * size)%nat ->
  (forall i, In i ids -> (i < c_size c)%nat /\ in_box (rv_sub a (V slack slack slack)) (rv_add A (V slack slack slack)) (ctr i)) ->
  exists bins', @bins_loop _ FN _ c size mn
      (vmap (fun s => if @nltb _ FN (@n0 _ FN) s then @ndiv _ FN (@n1 _ FN) s else @n0 _ FN) (@vsub _ FN mx mn)) ids bins
    = Ok bins' /\ length bins' = (3 * size)%nat.
Proof.
  intros Hmn Hmx Ha HA Hsp Hap. destruct count_F as (k & Hk & Hkr & Hk2).
  induction ids as [|i ids IH]; intros bins Hl Hi; cbn [bins_loop]; [eauto|].
  destruct (Hi i (or_introl eq_refl)) as [Hlt (I1 & I2 & I3)].
  destruct (Hbox i Hlt) as ([bmn bmx] & -> & _ & _). cbn [bind].
  destruct (Hctr i Hlt) as (v & -> & Hv & (m1 & m2 & m3) & _). cbn [bind]. cbn [vx vy vz rv_sub rv_add] in I1, I2, I3.
  rewrite (usub1_small opt Hsize Hsmall).
  destruct Hmn as (M1 & M2 & M3), Hmx as (X1 & X2 & X3), Hv as (C1 & C2 & C3), Hsp as (S1 & S2 & S3), Hap as (P1 & P2 & P3).
  destruct Ha as (a1 & a2 & a3), HA as (A1 & A2 & A3).
  destruct (coord_F _ _ _ _ _ _ _ _ M1 X1 C1 Hk Hkr Hk2 a1 A1 m1 I1 S1 P1) as (z1 & Z1).
  destruct (coord_F _ _ _ _ _ _ _ _ M2 X2 C2 Hk Hkr Hk2 a2 A2 m2 I2 S2 P2) as (z2 & Z2).
  destruct (coord_F _ _ _ _ _ _ _ _ M3 X3 C3 Hk Hkr Hk2 a3 A3 m3 I3 S3 P3) as (z3 & Z3).
  destruct (@bin_add_ok _ FN opt Hsize Hsmall 0 _ bmn bmx bins z1 (Nat.lt_0_succ _) Hl Z1) as (b1 & E1 & L1).
  destruct (@bin_add_ok _ FN opt Hsize Hsmall 1 _ bmn bmx b1 z2 (le_n_S _ _ (le_n_S _ _ (Nat.le_0_l _))) L1 Z2) as (b2 & E2 & L2).
  destruct (@bin_add_ok _ FN opt Hsize Hsmall 2 _ bmn bmx b2 z3 (le_n 3) L2 Z3) as (b3 & E3 & L3).
  cbn [vscaler vmulc vsub vmap vmap2 vx vy vz].
  cbn [vscaler vmulc vsub vmap vmap2 vx vy vz] in E1, E2, E3.
  match type of E1 with ?l = _ => match goal with |- context [bind ?l' _] => change l' with l end end.
  rewrite E1. cbn [bind].
  match type of E2 with ?l = _ => match goal with |- context [bind ?l' _] => change l' with l end end.
  rewrite E2. cbn [bind].
  match type of E3 with ?l = _ => match goal with |- context [bind ?l' _] => change l' with l end end.
  rewrite E3. cbn [bind].
  apply IH; [exact L3|]. intros; apply Hi; right; assumption.
Qed.

Lemma bins_F ids mn mx : (forall i, In i ids -> (i < c_size c)%nat) ->
  @compute_bounding_box _ FN _ c ids = Ok (mn, mx) ->
  exists bins, @sort_collection_into_bins _ FN _ c ids mn mx opt = Ok bins /\ length bins = (3 * size)%nat.
Proof.
  intros Hi Hb. unfold sort_collection_into_bins.
  assert (Hl : length (repeat (@new_bin _ FN) (3 * size)) = (3 * size)%nat) by apply repeat_length.
  destruct ids as [|i0 ids0]; [cbn [bins_loop]; eauto|].
  destruct (compute_F (i0 :: ids0) mn mx i0 Hi (or_introl eq_refl) Hb) as (a & A & Ha & HA & X & Y & Z).
  destruct X as (X & (i1 & I1 & X1) & (j1 & J1 & X2)), Y as (Y & (i2 & I2 & Y1) & (j2 & J2 & Y2)),
    Z as (Z & (i3 & I3 & Z1) & (j3 & J3 & Z2)). pose proof Hmod as Hm. pose proof Hspread as Hs.
  apply (bins_loop_F mn mx a A Ha HA).
  - unfold moderate. rewrite X1, Y1, Z1. repeat split; apply (Hm _ (Hi _ I1)) || apply (Hm _ (Hi _ I2)) || apply (Hm _ (Hi _ I3)).
  - unfold moderate. rewrite X2, Y2, Z2. repeat split; apply (Hm _ (Hi _ J1)) || apply (Hm _ (Hi _ J2)) || apply (Hm _ (Hi _ J3)).
  - rewrite X1, Y1, Z1, X2, Y2, Z2.
    repeat split; apply (Hs _ _ (Hi _ I1) (Hi _ J1)) || apply (Hs _ _ (Hi _ I2) (Hi _ J2)) || apply (Hs _ _ (Hi _ I3) (Hi _ J3)).
  - rewrite X1, Y1, Z1, X2, Y2, Z2. pose proof Hapart as Hp.
    repeat split; apply (Hp _ _ (Hi _ I1) (Hi _ J1)) || apply (Hp _ _ (Hi _ I2) (Hi _ J2)) || apply (Hp _ _ (Hi _ I3) (Hi _ J3)).
  - exact Hl.
  - intros i Hin. split; [auto|].
    pose proof (X i Hin). pose proof (Y i Hin). pose proof (Z i Hin).
    destruct (Hctr i (Hi i Hin)) as (v & _ & _ & _ & (V1 & V2 & V3)). unfold in_box. cbn [vx vy vz rv_sub rv_add] in *. lra.
Qed.

Variable part : (nat -> bool) -> list nat -> list nat * list nat.
Hypothesis Hpart : partition_ok part.
Hypothesis Hprim : forall i, (i < c_size c)%nat -> exists b, c_prim c i = Ok b.

Lemma build_slack nodes : exists nodes' st, @build _ FN _ part nodes c opt = Ok (nodes', st).
Proof.
  apply (@build_defined _ _ FN part Hpart c opt Hsize Hsmall).
  - intros i Hi. destruct (Hbox i Hi) as (b & E & _). eauto.
  - intros i Hi. destruct (Hctr i Hi) as (b & E & _). eauto.
  - exact Hprim.
  - apply bins_F.
Qed.
End Coll.

Lemma build_ieee (P : Type) (c : coll spec_float P) bmin bmax :
  boxes_areF prec emax c bmin bmax -> moderate_boxes emax (c_size c) bmin bmax -> (34 <= emax)%Z ->
  forall opt, (1 <= bin_size opt)%nat -> (3 * Z.of_nat (bin_size opt) < 4294967296)%Z ->
  spread_boxes emax (c_size c) bmin bmax ->
  forall ctr, (forall i, (i < c_size c)%nat -> exists v, c_center c i = Ok v /\ visF prec emax v (ctr i) /\
    in_box (bmin i) (bmax i) (ctr i)) ->
  forall part, partition_ok part -> (forall i, (i < c_size c)%nat -> exists b, c_prim c i = Ok b) ->
  forall nodes, exists nodes' st, @build _ FN _ part nodes c opt = Ok (nodes', st).
Proof.
  intros Hbox Hmod He opt H1 H2 Hsp ctr Hc part Hpart Hprim nodes.
  apply (build_slack c bmin bmax Hbox Hmod He opt H1 H2 Hsp 0 (Rle_refl 0)) with (ctr := ctr); try assumption.
  - intros i j _ _. rewrite Rmult_0_r. repeat split; right; apply Rabs_pos.
  - intros i Hi. destruct (Hc i Hi) as (v & E & Hv & Hb). exists v. split; [exact E|]. split; [exact Hv|].
    destruct (Hmod i Hi) as [(A1 & A2 & A3) (B1 & B2 & B3)], Hb as (C1 & C2 & C3).
    split.
    + repeat split; apply Rabs_le_inv in A1, A2, A3, B1, B2, B3; apply Rabs_le; lra.
    + unfold in_box. cbn [vx vy vz rv_sub rv_add]. lra.
Qed.
End F.
