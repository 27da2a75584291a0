(** Sampling an area light. *)

From Coq Require Import Reals ZArith List Bool Arith Lra Lia Psatz.
From Verif Require Import Num NumR NumX Vec Trimesh PathTracer SpecReal SpecTri SpecOptics SpecLight PfX PfTri2 PfOptics PfLight.
Import ListNotations.
Local Open Scope R_scope.

Lemma xdiv_zero x s a : isR x a -> 0 < a -> xdiv x (Xf s 0) = Xinf (xorb false s).
Proof.
  intros H Ha. apply isR_ex in H as (s' & ->). unfold xdiv. destruct (Req_EM_T 0 0) as [_|F]; [|congruence].
  destruct (Req_EM_T a 0); [lra|]. cbn [xsign]. destruct (Rlt_dec a 0); [lra|]. destruct (Rlt_dec 0 a); [|lra].
  destruct (Rlt_dec 0 0); [lra|]. reflexivity.
Qed.

Lemma int_part_bounds a (z : Z) : IZR z <= a < IZR z + 1 -> Int_part a = z.
Proof.
  intros H. pose proof (base_Int_part a) as [A B].
  apply Z.le_antisymm; apply Z.lt_succ_r; apply lt_IZR; rewrite succ_IZR; lra.
Qed.

Section S.
Variables big tiny eps : R.
Notation XN := (Xnum big tiny eps).

Lemma sample_ok floor_u lights vertices faces P materials sf x X xi1 xi2 x1 x2 :
  floors floor_u -> mesh_are vertices faces P -> materials_are materials sf ->
  (forall f id, In (f, id) lights -> (f < length faces)%nat /\ (0 <= id < Z.of_nat (length materials))%Z) ->
  (0 < length lights)%nat -> (Z.of_nat (length lights) < 4294967296)%Z ->
  visR x X -> isR xi1 x1 -> isR xi2 x2 -> 0 <= x1 <= 1 -> 0 <= x2 <= 1 ->
  exists i f id l, nth_error lights i = Some (f, id) /\
    @sample_direct _ XN floor_u lights vertices faces materials x xi1 xi2 = Ok l /\
    INR i <= x1 * INR (length lights) <= INR i + 1 /\ (x1 < 1 -> x1 * INR (length lights) < INR i + 1) /\
    (tri_cross (fa faces P f) (fb faces P f) (fc faces P f) <> rv_zero ->
     sample_says (length lights) (fa faces P f) (fb faces P f) (fc faces P f) (sf_emission (sf (Z.to_nat id)))
       (sampled (fa faces P f) (fb faces P f) (fc faces P f) (x1 * INR (length lights) - INR i) x2) X l).
Proof.
  intros Hfl Hmesh Hmat Hl Hn Hn' Hx H1 H2 R1 R2.
  set (n := length lights) in *.
  assert (Hnn : 0 < INR n) by (apply lt_0_INR, Hn).
  assert (En : IZR (Z.of_nat n) = INR n) by (symmetry; apply INR_IZR_INZ).
  assert (Hnr : INR n < 4294967296) by (rewrite <- En; apply (IZR_lt _ 4294967296), Hn').
  assert (Hm : isR (@nmul _ XN xi1 (@nofZ _ XN (Z.of_nat n))) (x1 * INR n)).
  { apply isR_mul; [exact H1|]. rewrite <- En. reflexivity. }
  assert (Hrange : 0 <= x1 * INR n <= INR n) by nra.
  set (k := Int_part (x1 * INR n)).
  pose proof (base_Int_part (x1 * INR n)) as [K1 K2]. fold k in K1, K2.
  assert (Hk0 : (0 <= k)%Z). { apply Z.lt_succ_r, lt_IZR. rewrite succ_IZR. lra. }
  assert (Hkn : (k <= Z.of_nat n)%Z). { apply le_IZR. rewrite En. lra. }
  assert (Eu : u32 (Z.of_nat n - 1) = (Z.of_nat n - 1)%Z) by (unfold u32; apply Z.mod_small; lia).
  set (i := Z.to_nat (Z.min k (Z.of_nat n - 1))).
  assert (Hi : Z.min k (Z.of_nat n - 1) = Z.of_nat i) by (unfold i; rewrite Z2Nat.id; lia).
  assert (Hin : (i < n)%nat) by lia.
  assert (Ei : IZR (Z.of_nat i) = INR i) by (symmetry; apply INR_IZR_INZ).
  assert (Hb : INR i <= x1 * INR n <= INR i + 1 /\ (x1 < 1 -> x1 * INR n < INR i + 1)).
  { destruct (Z_le_gt_dec k (Z.of_nat n - 1)) as [Hle|Hgt].
    - rewrite Z.min_l in Hi by exact Hle. rewrite <- Ei, <- Hi. split; lra.
    - assert (Ek : k = Z.of_nat n) by lia. rewrite Z.min_r in Hi by lia.
      assert (Ein : INR i = INR n - 1). { rewrite <- Ei, <- Hi, minus_IZR, En. reflexivity. }
      rewrite Ek, En in K1. rewrite Ein. split; [lra|]. intros Hlt. nra. }
  destruct (nth_error lights i) as [[f id]|] eqn:El; [|apply nth_error_None in El; fold n in El; lia].
  destruct (Hl f id (nth_error_In _ _ El)) as [Hf Hid].
  assert (Ef : nth_error faces f = Some (face faces f)) by (apply nth_error_nth', Hf).
  destruct Hmesh as [Hv Hfs].
  destruct (face_vertices_ok vertices P Hv (face faces f)) as (a & b & c & E & Va & Vb & Vc).
  { apply Hfs. eapply nth_error_In, Ef. }
  destruct (Hmat (Z.to_nat id)) as (m & Em & Mm); [lia|].
  assert (Hpos : 0 <= x1 * INR n - INR i <= 1) by lra.
  assert (Hxi : isR (@nsub _ XN (@nmul _ XN xi1 (@nofZ _ XN (Z.of_nat n))) (@nofZ _ XN (Z.of_nat i))) (x1 * INR n - INR i)).
  { apply isR_sub; [exact Hm|]. rewrite <- Ei. reflexivity. }
  unfold sample_direct. fold n.
  rewrite (Hfl _ _ Hm) by lra. cbn [bind]. rewrite Eu. fold k. rewrite Hi.
  assert (Eat : atZ UBprim lights (Z.of_nat i) = Ok (f, id)).
  { apply atZ_ok. rewrite Nat2Z.id. split; [|exact El]. fold n. lia. }
  rewrite Eat. cbn [bind fst snd]. rewrite (proj2 (at_some _ _ _ _) Ef). cbn [bind].
  rewrite E. cbn [bind]. rewrite (proj2 (atZ_ok _ _ _ _) (conj Hid Em)). cbn [bind].
  set (A := fa faces P f) in *. set (B := fb faces P f) in *. set (C := fc faces P f) in *.
  change (P (vx (face faces f))) with A in Va. change (P (vy (face faces f))) with B in Vb. change (P (vz (face faces f))) with C in Vc.
  set (y := x1 * INR n - INR i) in *.
  assert (Hs : isR (@nsqrt _ XN (@nsub _ XN (@nmul _ XN xi1 (@nofZ _ XN (Z.of_nat n))) (@nofZ _ XN (Z.of_nat i)))) (sqrt y)).
  { apply isR_sqrt; [exact Hxi|lra]. }
  set (s := @nsqrt _ XN _) in *.
  set (p := sampled A B C y x2).
  assert (Hlp : visR (@vadd _ XN (@vadd _ XN (@vscale _ XN (@nsub _ XN (@n1 _ XN) s) a) (@vscale _ XN (@nmul _ XN s (@nsub _ XN (@n1 _ XN) xi2)) b))
    (@vscale _ XN (@nmul _ XN s xi2) c)) p).
  { unfold p, sampled, bary.
    replace (1 - sqrt y * (1 - x2) - sqrt y * x2) with (1 - sqrt y) by ring.
    apply visR_add; [apply visR_add|]; (apply visR_scale; [|assumption]).
    - apply isR_sub; [reflexivity|exact Hs].
    - apply isR_mul; [exact Hs|]. apply isR_sub; [reflexivity|exact H2].
    - apply isR_mul; assumption. }
  set (lp := @vadd _ XN (@vadd _ XN _ _) _) in *.
  assert (Hdir : visR (@vsub _ XN lp x) (rv_sub p X)) by (apply visR_sub; assumption).
  pose proof (isR_norm big tiny eps _ _ Hdir) as Hdist.
  set (dir := @vsub _ XN lp x) in *. set (q := rv_sub p X) in *.
  assert (Hlim : isR (@ndiv _ XN (@nofZ _ XN 1) (@nofZ _ XN 1000000)) (1 / 1000000)) by (apply isR_div; [reflexivity|reflexivity|lra]).
  change (@nltb _ XN) with xltb. rewrite (isR_ltb _ _ _ _ Hlim Hdist).
  exists i, f, id.
  destruct (Rltb (1 / 1000000) (rv_norm q)) eqn:Ed.
  - apply Rltb_spec in Ed. eexists. split; [exact El|]. split; [reflexivity|]. split; [apply Hb|]. split; [apply Hb|].
    intros Hcr. unfold sample_says. fold A B C y p q. split; [cbn [ls_dist]; exact Hdist|]. split; [intros; lra|]. intros _. cbn [ls_dir ls_pdf ls_rad].
    assert (Hw : visR (@normalize _ XN dir) (unit_of q)) by (apply visR_normalize; [exact Hdir|lra]).
    assert (Hc : visR (@cross _ XN (@vsub _ XN b a) (@vsub _ XN c a)) (tri_cross A B C)).
    { apply visR_cross; apply visR_sub; assumption. }
    assert (Hcn : rv_norm (tri_cross A B C) <> 0) by (intros F; apply Hcr, rv_norm_zero, F).
    assert (Hcp : 0 < rv_norm (tri_cross A B C)) by (pose proof (rv_norm_nonneg (tri_cross A B C)); lra).
    pose proof (visR_normalize big tiny eps _ _ Hc Hcn) as Hnrm. fold (unit_of (tri_cross A B C)) in Hnrm.
    pose proof (visR_opp _ _ Hw) as Hmw.
    pose proof (isR_dot big tiny eps _ _ _ _ Hmw Hnrm) as Hdot.
    assert (Hcos : isR (@smax _ XN (@dot _ XN (vmap xopp (@normalize _ XN dir)) (@normalize _ XN (@cross _ XN (@vsub _ XN b a) (@vsub _ XN c a)))) (@n0 _ XN))
      (cos_at_light A B C (unit_of q))).
    { unfold cos_at_light. replace (- rv_dot (unit_of q) (unit_of (tri_cross A B C))) with (rv_dot (rv_scale (-1) (unit_of q)) (unit_of (tri_cross A B C)))
        by (unfold rv_dot, rv_scale; cbn; ring).
      apply isR_smax; [exact Hdot|reflexivity]. }
    change (@nopp _ XN) with xopp.
    set (cs := @smax _ XN _ _) in *. set (cr := cos_at_light A B C (unit_of q)) in *.
    assert (Hcr0 : 0 <= cr) by (unfold cr, cos_at_light; apply Rmax_r).
    split; [exact Hw|]. split; [|].
    + eexists. split; [reflexivity|]. destruct Mm as (_ & M2 & _). apply visR_scaler; assumption.
    + pose proof (isR_norm big tiny eps _ _ Hc) as Hnc.
      assert (Hpdf : isR (@nmul _ XN (@nmul _ XN (@ndiv _ XN (@n1 _ XN) (@nofZ _ XN (Z.of_nat n)))
          (@ndiv _ XN (@n1 _ XN) (@ndiv _ XN (@norm _ XN (@cross _ XN (@vsub _ XN b a) (@vsub _ XN c a))) (@n2 _ XN))))
          (@nmul _ XN (@norm _ XN dir) (@norm _ XN dir)))
        (1 / INR n * (1 / tri_area A B C) * (rv_norm q * rv_norm q))).
      { unfold tri_area. apply isR_mul; [apply isR_mul|apply isR_mul; exact Hdist].
        - apply isR_div; [reflexivity|rewrite <- En; reflexivity|lra].
        - apply isR_div; [reflexivity|apply isR_div; [exact Hnc|reflexivity|lra]|lra]. }
      unfold pdf_a_to_w. change (@nabs _ XN) with xabs. change (@ndiv _ XN) with xdiv at 1.
      assert (Har : 0 < tri_area A B C) by (unfold tri_area; lra).
      split.
      * intros Hc0. replace (rv_norm q * rv_norm q / (INR n * tri_area A B C * cr))
          with (1 / INR n * (1 / tri_area A B C) * (rv_norm q * rv_norm q) / Rabs cr).
        -- apply isR_div; [exact Hpdf|apply isR_abs, Hcos|rewrite Rabs_right; lra].
        -- rewrite Rabs_right by lra. field. lra.
      * intros Hc0. pose proof (isR_abs _ _ Hcos) as Ha0. rewrite Hc0, Rabs_R0 in Ha0.
        assert (Exa : xabs cs = Xf false 0).
        { rewrite Hc0 in Hcos. apply isR_ex in Hcos as (sg & ->). cbn. rewrite Rabs_R0. reflexivity. }
        rewrite Exa, (xdiv_zero _ _ _ Hpdf); [reflexivity|].
        assert (0 < 1 / INR n) by (apply Rdiv_lt_0_compat; lra).
        assert (0 < 1 / tri_area A B C) by (apply Rdiv_lt_0_compat; lra).
        assert (0 < rv_norm q) by lra. apply Rmult_lt_0_compat; apply Rmult_lt_0_compat; assumption.
  - apply Rltb_false in Ed. eexists. split; [exact El|]. split; [reflexivity|]. split; [apply Hb|]. split; [apply Hb|].
    intros _. unfold sample_says. fold A B C y p q. split; [exact Hdist|]. split; [intros _; split; [reflexivity|split; [reflexivity|exact Hdir]]|intros; lra].
Qed.

(** With no lights the first element of an empty list is read. *)
Lemma sample_empty floor_u vertices faces materials x xi1 xi2 x1 :
  floors floor_u -> isR xi1 x1 -> @sample_direct _ XN floor_u [] vertices faces materials x xi1 xi2 = UB UBprim.
Proof.
  intros Hfl H1. unfold sample_direct. cbn [length Z.of_nat].
  assert (Hm : isR (@nmul _ XN xi1 (@nofZ _ XN 0)) (x1 * 0)) by (apply isR_mul; [exact H1|reflexivity]).
  rewrite (Hfl _ _ Hm) by lra. cbn [bind].
  assert (E : Int_part (x1 * 0) = 0%Z) by (apply int_part_bounds; cbn; lra). rewrite E. reflexivity.
Qed.
End S.
