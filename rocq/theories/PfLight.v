(** Area lights. *)

From Coq Require Import Reals ZArith List Bool Arith Lra Lia Psatz Sorting.Sorted.
From Verif Require Import Num NumR NumX Vec Trimesh PathTracer SpecReal SpecTri SpecOptics SpecLight PfX PfOptics.
Import ListNotations.
Local Open Scope R_scope.

Section Any.
Context {T : Type} {N : num T}.

Lemma emits_iff m : @is_emissive T N m = true <-> emits m.
Proof. unfold is_emissive, emits. rewrite !orb_true_iff. tauto. Qed.

Lemma atZ_ok {A} w (l : list A) i a : atZ w l i = Ok a <-> (0 <= i < Z.of_nat (length l))%Z /\ nth_error l (Z.to_nat i) = Some a.
Proof.
  unfold atZ, at_. destruct ((0 <=? i) && (i <? Z.of_nat (length l)))%Z eqn:E.
  - apply andb_true_iff in E as [E1 E2]. apply Z.leb_le in E1. apply Z.ltb_lt in E2.
    destruct (nth_error l (Z.to_nat i)); split; try discriminate.
    + intros H; injection H as ->; auto.
    + intros [_ H]; congruence.
    + intros [_ H]; congruence.
  - split; [discriminate|]. intros [[H1 H2] _]. apply andb_false_iff in E as [E|E].
    + apply Z.leb_gt in E; lia.
    + apply Z.ltb_ge in E; lia.
Qed.

Lemma at_some {A} w (l : list A) i a : at_ w l i = Ok a <-> nth_error l i = Some a.
Proof. unfold at_. destruct (nth_error l i); split; congruence. Qed.

Lemma emissive_ok ids mats n : forall face l, @emissive_faces T N ids mats face n = Ok l ->
  StronglySorted lt (map fst l) /\ (forall x, In x l -> (face <= fst x)%nat) /\
  forall f id, In (f, id) l <->
    (face <= f < face + n)%nat /\ exists m, has_material ids mats f id m /\ emits m.
Proof.
  induction n as [|n IH]; intros face l E; cbn [emissive_faces] in E.
  - injection E as <-. split; [constructor|]. split; [intros x []|]. intros f id. split; [intros []|].
    intros [H _]. lia.
  - destruct (at_ UBprim ids face) as [mtl| |] eqn:E1; [|discriminate|discriminate]. cbn [bind] in E.
    destruct (atZ UBprim mats mtl) as [m| |] eqn:E2; [|discriminate|discriminate]. cbn [bind] in E.
    destruct (emissive_faces ids mats (S face) n) as [rest| |] eqn:E3; [|discriminate|discriminate]. cbn [bind] in E.
    injection E as <-. apply at_some in E1. apply atZ_ok in E2 as [E2 E2'].
    destruct (IH _ _ E3) as (S1 & S2 & S3).
    assert (Hm : has_material ids mats face mtl m) by (split; auto).
    destruct (is_emissive m) eqn:Em.
    + split; [|split].
      * cbn [map]. constructor; [exact S1|]. apply Forall_forall. intros g Hg. apply in_map_iff in Hg as (x & <- & Hx).
        cbn [fst]. pose proof (S2 x Hx). lia.
      * intros x [<-|Hx]; [cbn; lia|]. pose proof (S2 x Hx). lia.
      * intros f id. cbn [In]. rewrite S3. split.
        -- intros [H|[H1 H2]]; [injection H as <- <-; split; [lia|]; exists m; split; [exact Hm|apply emits_iff, Em]|].
           split; [lia|exact H2].
        -- intros [H1 (m' & H2 & H3)]. destruct (Nat.eq_dec f face) as [->|Hn]; [|right; split; [lia|exists m'; auto]].
           left. destruct H2 as [H2 _]. destruct Hm as [Hm _]. congruence.
    + split; [exact S1|]. split; [intros x Hx; pose proof (S2 x Hx); lia|].
      intros f id. rewrite S3. split; [intros [H1 H2]; split; [lia|exact H2]|].
      intros [H1 (m' & H2 & H3)]. split; [|exists m'; auto].
      destruct (Nat.eq_dec f face) as [->|Hn]; [|lia]. exfalso.
      destruct H2 as (A1 & A2 & A3). destruct Hm as (B1 & B2 & B3). rewrite A1 in B1. injection B1 as ->.
      rewrite A3 in B3. injection B3 as ->. apply emits_iff in H3. congruence.
Qed.

Lemma emissive_defined ids mats n : forall face,
  (exists l, @emissive_faces T N ids mats face n = Ok l) <->
  (forall f, (face <= f < face + n)%nat -> exists id m, has_material ids mats f id m).
Proof.
  induction n as [|n IH]; intros face; cbn [emissive_faces].
  - split; [intros _ f H; lia|eauto].
  - split.
    + intros (l & E) f Hf.
      destruct (at_ UBprim ids face) as [mtl| |] eqn:E1; [|discriminate|discriminate]. cbn [bind] in E.
      destruct (atZ UBprim mats mtl) as [m| |] eqn:E2; [|discriminate|discriminate]. cbn [bind] in E.
      destruct (emissive_faces ids mats (S face) n) as [rest| |] eqn:E3; [|discriminate|discriminate].
      destruct (Nat.eq_dec f face) as [->|Hn].
      * apply at_some in E1. apply atZ_ok in E2 as [E2 E2']. exists mtl, m. split; auto.
      * apply (proj1 (IH (S face))); [eauto|lia].
    + intros H. destruct (H face) as (id & m & A1 & A2 & A3); [lia|].
      rewrite (proj2 (at_some _ _ _ _) A1). cbn [bind].
      rewrite (proj2 (atZ_ok _ _ _ _) (conj A2 A3)). cbn [bind].
      destruct (proj2 (IH (S face))) as (l & ->); [intros f Hf; apply H; lia|]. cbn [bind]. eauto.
Qed.

(** C64, the list of lights. *)
Lemma make_light_ok faces ids mats l : @make_light T N faces ids mats = Ok l ->
  lists_lights (length faces) ids mats l.
Proof.
  intros E. destruct (emissive_ok _ _ _ _ _ E) as (S1 & _ & S3). split; [exact S1|].
  intros f id. rewrite S3. split; intros [H1 H2]; split; auto; lia.
Qed.
Lemma make_light_defined faces ids mats :
  (exists l, @make_light T N faces ids mats = Ok l) <->
  (forall f, (f < length faces)%nat -> exists id m, has_material ids mats f id m).
Proof.
  unfold make_light. rewrite emissive_defined. split; intros H f Hf; apply H; lia.
Qed.
End Any.

(** The sampled points. *)
Lemma sampled_on A B C x1 x2 : 0 <= x1 <= 1 -> 0 <= x2 <= 1 -> on_tri A B C (sampled A B C x1 x2).
Proof.
  intros H1 H2. pose proof (sqrt_pos x1) as Hs.
  assert (Hs1 : sqrt x1 <= 1) by (rewrite <- sqrt_1; apply sqrt_le_1_alt; lra).
  exists (sqrt x1 * (1 - x2)), (sqrt x1 * x2).
  split; [apply Rmult_le_pos; lra|]. split; [apply Rmult_le_pos; lra|]. split; [|reflexivity].
  replace (sqrt x1 * (1 - x2) + sqrt x1 * x2) with (sqrt x1) by ring. exact Hs1.
Qed.

Lemma sampled_all A B C p : on_tri A B C p -> exists x1 x2, 0 <= x1 <= 1 /\ 0 <= x2 <= 1 /\ p = sampled A B C x1 x2.
Proof.
  intros (u & v & Hu & Hv & Huv & ->).
  destruct (Req_EM_T (u + v) 0) as [E|E].
  - assert (u = 0) by lra. assert (v = 0) by lra. subst. exists 0, 0. split; [lra|]. split; [lra|].
    unfold sampled. rewrite sqrt_0. f_equal; ring.
  - exists ((u + v) * (u + v)), (v / (u + v)).
    assert (Hp : 0 < u + v) by lra.
    split; [split; nra|]. split.
    + split; [apply Rmult_le_pos; [exact Hv|left; apply Rinv_0_lt_compat, Hp]|].
      apply Rmult_le_reg_r with (u + v); [exact Hp|]. unfold Rdiv. rewrite Rmult_assoc, Rinv_l by lra. lra.
    + unfold sampled. rewrite sqrt_square by lra. f_equal; field; lra.
Qed.

(** Barycentric coordinates are unique. *)
Lemma bary_inj A B C u v u' v' : tri_cross A B C <> rv_zero -> bary A B C u v = bary A B C u' v' -> u = u' /\ v = v'.
Proof.
  intros Hd E. destruct A as [a1 a2 a3], B as [b1 b2 b3], C as [c1 c2 c3].
  unfold bary, rv_add, rv_scale in E. cbn [vx vy vz] in E. injection E as E1 E2 E3.
  assert (F1 : (u - u') * (b1 - a1) + (v - v') * (c1 - a1) = 0) by lra.
  assert (F2 : (u - u') * (b2 - a2) + (v - v') * (c2 - a2) = 0) by lra.
  assert (F3 : (u - u') * (b3 - a3) + (v - v') * (c3 - a3) = 0) by lra.
  set (p := u - u') in *. set (q := v - v') in *.
  assert (Hpq : p = 0 /\ q = 0).
  { destruct (Req_EM_T p 0) as [Hp|Hp]; [destruct (Req_EM_T q 0) as [Hq|Hq]; [auto|]|]; exfalso; apply Hd.
    - rewrite Hp in F1, F2, F3.
      assert (c1 - a1 = 0) by (apply Rmult_eq_reg_l with q; lra).
      assert (c2 - a2 = 0) by (apply Rmult_eq_reg_l with q; lra).
      assert (c3 - a3 = 0) by (apply Rmult_eq_reg_l with q; lra).
      unfold tri_cross, rv_cross, rv_sub, rv_zero; cbn [vx vy vz]. rewrite H, H0, H1. apply vec_eq; cbn; ring.
    - assert (G : forall y1 y2 x1 x2, p * x1 + q * y1 = 0 -> p * x2 + q * y2 = 0 -> x1 * y2 - x2 * y1 = 0).
      { intros y1 y2 x1 x2 K1 K2. apply Rmult_eq_reg_l with p; [|exact Hp].
        replace (p * (x1 * y2 - x2 * y1)) with ((p * x1 + q * y1) * y2 - (p * x2 + q * y2) * y1) by ring. rewrite K1, K2. ring. }
      unfold tri_cross, rv_cross, rv_sub, rv_zero; cbn [vx vy vz]. apply vec_eq; cbn [vx vy vz].
      + apply G; assumption.
      + apply G; assumption.
      + apply G; assumption. }
  unfold p, q in Hpq. lra.
Qed.

(** C64: the samples that fall into the triangle cut off at [a] along the sides through
    [A] and at [b] of the angle there are those with [xi1 <= a^2] and [xi2 <= b]; its
    area is [a^2 b] of the whole. *)
Lemma sampled_even A B C a b x1 x2 : tri_cross A B C <> rv_zero -> 0 < a <= 1 -> 0 < b <= 1 -> 0 < x1 <= 1 -> 0 <= x2 <= 1 ->
  let D := cut_b A (cut_b B C b) a in
  (on_tri A (cut_b A B a) D (sampled A B C x1 x2) <-> x1 <= a * a /\ x2 <= b) /\
  tri_area A (cut_b A B a) D = a * a * b * tri_area A B C.
Proof.
  intros Hd Ha Hb H1 H2 D.
  assert (Hs : 0 < sqrt x1) by (apply sqrt_lt_R0; lra).
  assert (Ess : sqrt x1 * sqrt x1 = x1) by (apply sqrt_sqrt; lra).
  assert (Ebar : forall u v, bary A (cut_b A B a) D u v = bary A B C (a * (u + v * (1 - b))) (a * v * b)).
  { intros u v. unfold bary, D, cut_b. apply vec_eq; cbn; ring. }
  split; [split|].
  - intros (u & v & Hu & Hv & Huv & E). rewrite Ebar in E.
    destruct (bary_inj _ _ _ _ _ _ _ Hd E) as [E1 E2].
    assert (E3 : sqrt x1 = a * (u + v)) by (replace (sqrt x1) with (sqrt x1 * (1 - x2) + sqrt x1 * x2) by ring; rewrite E1, E2; ring).
    split.
    + rewrite <- Ess, E3. assert (0 <= u + v) by lra. assert (a * (u + v) <= a) by nra. nra.
    + assert (E4 : sqrt x1 * x2 <= sqrt x1 * b); [|nra].
      rewrite E2, E3. assert (0 <= a * b) by nra. nra.
  - intros [K1 K2].
    assert (Hsa : sqrt x1 <= a). { rewrite <- (sqrt_square a) by lra. apply sqrt_le_1_alt, K1. }
    exists (sqrt x1 * (1 - x2 / b) / a), (sqrt x1 * (x2 / b) / a).
    assert (Hxb : 0 <= x2 / b <= 1).
    { split; [apply Rmult_le_pos; [lra|left; apply Rinv_0_lt_compat; lra]|].
      apply Rmult_le_reg_r with b; [lra|]. unfold Rdiv. rewrite Rmult_assoc, Rinv_l by lra. lra. }
    assert (Hia : 0 < / a) by (apply Rinv_0_lt_compat; lra).
    split; [apply Rmult_le_pos; [apply Rmult_le_pos; lra|lra]|].
    split; [apply Rmult_le_pos; [apply Rmult_le_pos; lra|lra]|]. split.
    + replace (sqrt x1 * (1 - x2 / b) / a + sqrt x1 * (x2 / b) / a) with (sqrt x1 / a) by (field; lra).
      apply Rmult_le_reg_r with a; [lra|]. unfold Rdiv. rewrite Rmult_assoc, Rinv_l by lra. lra.
    + rewrite Ebar. unfold sampled. f_equal; field; lra.
  - unfold tri_area.
    replace (tri_cross A (cut_b A B a) D) with (rv_scale (a * a * b) (tri_cross A B C)).
    + rewrite rv_norm_scale, Rabs_right by nra. field.
    + unfold tri_cross, rv_cross, rv_sub, D, cut_b. apply vec_eq; cbn; ring.
Qed.
