(** The node test does not skip boxes that the ray meets (ideal arithmetic). *)

From Coq Require Import Reals ZArith List Bool Lra Lia.
From Verif Require Import Num NumR NumX Vec Ray Bvh Traverse SpecReal PfX.
Import ListNotations.
Local Open Scope R_scope.

Lemma Rdiv_pos_neg a b : 0 < a -> b < 0 -> a / b < 0.
Proof. intros Ha Hb. pose proof (Rinv_lt_0_compat b Hb). unfold Rdiv. nra. Qed.
Lemma Rmult_le_compat_neg_r k a b : k <= 0 -> a <= b -> b * k <= a * k.
Proof. intros. nra. Qed.

Section Slab.
Variables big tiny eps : R.
Hypothesis Heps : 0 <= eps.
Notation XN := (Xnum big tiny eps).

Definition below_t (x : xr) (t : R) : Prop := xltb (Fin t) x = false.
Definition above_t (x : xr) (t : R) : Prop := xltb x (Fin t) = false.

Lemma below_isR x a t : isR x a -> a <= t -> below_t x t.
Proof. intros H Ha. unfold below_t. rewrite (isR_ltb _ _ _ _ (isR_fin t) H). apply Rltb_false, Ha. Qed.
Lemma above_isR x a t : isR x a -> t <= a -> above_t x t.
Proof. intros H Ha. unfold above_t. rewrite (isR_ltb _ _ _ _ H (isR_fin t)). apply Rltb_false, Ha. Qed.

Lemma axis_ok mn mx o d m M O D s tmin tmax tmin' tmax' :
  isR mn m -> isR mx M -> isR o O -> isR d D -> no_neg_zero d ->
  0 <= s -> m <= O + s * D <= M ->
  below_t tmin s -> above_t tmax s ->
  @slab_axis _ XN mn mx o (xdiv (Fin 1) d) (xltb d (Fin 0)) tmin tmax = (tmin', tmax') ->
  below_t tmin' s /\ above_t tmax' s /\
  ((D = 0 -> m <> O /\ M <> O) -> tmin' <> Xnan /\ tmax' <> Xnan).
Proof.
  intros Hmn Hmx Ho Hd Hz Hs Hb Hlo Hhi. unfold slab_axis.
  pose (l1 := @nadd _ XN (@n1 _ XN) (@nmul _ XN (@n4 _ XN) (@neps _ XN))).
  pose (lo := xmul (xsub (if xltb d (Fin 0) then mx else mn) o) (xdiv (Fin 1) d)).
  pose (hi := xmul (xmul (xsub (if xltb d (Fin 0) then mn else mx) o) (xdiv (Fin 1) d)) l1).
  intros E. assert (E1 : @smax _ XN lo tmin = tmin') by (injection E; auto).
  assert (E2 : @smin _ XN hi tmax = tmax') by (injection E; auto). clear E. subst tmin' tmax'.
  assert (Hl1 : isR l1 (1 + 4 * eps)) by reflexivity.
  assert (Hlo' : below_t lo s /\ ((D = 0 -> m <> O) -> lo <> Xnan) /\
                 above_t hi s /\ ((D = 0 -> M <> O) -> hi <> Xnan)).
  { unfold lo, hi. rewrite (isR_ltb _ _ _ _ Hd (isR_fin 0)). clear lo hi.
    destruct (Req_EM_T D 0) as [HD|HD].
    - (* parallel to the slab *)
      assert (E : xdiv (Fin 1) d = Xinf false).
      { destruct (isR_ex _ _ Hd) as (sg & ->). pose proof (Hz sg) as Hsg. subst D. rewrite (Hsg eq_refl). cbn.
        destruct (Req_EM_T 0 0); [|lra]. destruct (Req_EM_T 1 0); [lra|].
        destruct (Rlt_dec 1 0); [lra|]. destruct (Rlt_dec 0 1); [|lra]. destruct (Rlt_dec 0 0); [lra|]. reflexivity. }
      subst D. unfold Rltb. destruct (Rlt_dec 0 0); [lra|]. rewrite E.
      assert (H1 : isR (xsub mn o) (m - O)) by (apply isR_sub; assumption).
      assert (H2 : isR (xsub mx o) (M - O)) by (apply isR_sub; assumption).
      destruct (isR_ex _ _ H1) as (s1 & ->), (isR_ex _ _ H2) as (s2 & ->).
      destruct (isR_ex _ _ Hl1) as (s3 & ->). cbn.
      destruct (Req_EM_T (m - O) 0), (Req_EM_T (M - O) 0); cbn;
        repeat match goal with |- context [Rlt_dec ?a ?b] => destruct (Rlt_dec a b); try lra end; cbn;
        repeat match goal with |- context [Req_EM_T ?a ?b] => destruct (Req_EM_T a b); try lra end; cbn;
        unfold below_t, above_t; cbn; repeat split; auto; try discriminate; intros H; try (exfalso; lra);
        try (specialize (H eq_refl)); lra.
    - assert (Hinv : isR (xdiv (Fin 1) d) (1 / D)) by (apply isR_div; [reflexivity|exact Hd|exact HD]).
      assert (Hgen : forall p q P Q, isR p P -> isR q Q -> (P - O) * (1 / D) <= s -> s <= (Q - O) * (1 / D) ->
        let lo := xmul (xsub p o) (xdiv (Fin 1) d) in
        let hi := xmul (xmul (xsub q o) (xdiv (Fin 1) d)) l1 in
        below_t lo s /\ ((D = 0 -> m <> O) -> lo <> Xnan) /\ above_t hi s /\ ((D = 0 -> M <> O) -> hi <> Xnan)).
      { intros p q Pp Q Hp Hq B1 B2 lo0 hi0.
        assert (L : isR lo0 ((Pp - O) * (1 / D))) by (apply isR_mul; [apply isR_sub; assumption|exact Hinv]).
        assert (Hh : isR hi0 ((Q - O) * (1 / D) * (1 + 4 * eps)))
          by (apply isR_mul; [apply isR_mul; [apply isR_sub; assumption|exact Hinv]|exact Hl1]).
        split; [eapply below_isR; [exact L|exact B1]|].
        split; [intros _ En; rewrite En in L; exact L|].
        split; [eapply above_isR; [exact Hh|nra]|intros _ En; rewrite En in Hh; exact Hh]. }
      assert (Hk : 1 / D * D = 1) by (field; exact HD).
      unfold Rltb. destruct (Rlt_dec D 0) as [Hn|Hn].
      + assert (Hk0 : 1 / D < 0) by (apply Rdiv_pos_neg; lra).
        apply (Hgen mx mn M m Hmx Hmn).
        * replace s with (s * D * (1 / D)) by (rewrite Rmult_assoc, (Rmult_comm D), Hk; ring).
          apply Rmult_le_compat_neg_r; lra.
        * replace s with (s * D * (1 / D)) by (rewrite Rmult_assoc, (Rmult_comm D), Hk; ring).
          apply Rmult_le_compat_neg_r; lra.
      + assert (Hk0 : 0 < 1 / D) by (apply Rdiv_lt_0_compat; lra).
        apply (Hgen mn mx m M Hmn Hmx).
        * replace s with (s * D * (1 / D)) by (rewrite Rmult_assoc, (Rmult_comm D), Hk; ring).
          apply Rmult_le_compat_r; lra.
        * replace s with (s * D * (1 / D)) by (rewrite Rmult_assoc, (Rmult_comm D), Hk; ring).
          apply Rmult_le_compat_r; lra. }
  destruct Hlo' as (A & B & C & E'). clearbody lo hi.
  split; [unfold smax; cbn; destruct (xltb lo tmin); assumption|].
  split; [unfold smin; cbn; destruct (xltb tmax hi); assumption|].
  intros Hne. split.
  - unfold smax; cbn. destruct (xltb lo tmin) eqn:El.
    + intros ->. destruct lo; discriminate.
    + apply B. intros HD. apply Hne, HD.
  - unfold smin; cbn. destruct (xltb tmax hi) eqn:El.
    + intros ->. destruct hi; discriminate.
    + apply E'. intros HD. apply Hne, HD.
Qed.

Lemma node_test {P} (nd : node xr P) o d tmin tmax hd any m M O D s :
  visR (nd_min nd) m -> visR (nd_max nd) M -> visR o O -> visR d D ->
  no_neg_zero (vx d) -> no_neg_zero (vy d) -> no_neg_zero (vz d) ->
  0 <= s -> in_box m M (at_t O D s) ->
  (vz D = 0 -> vz m <> vz O /\ vz M <> vz O) ->
  below_t tmin s -> above_t hd s ->
  @intersect_node _ XN _ tmin hd nd (@make_ray _ XN o d tmin tmax any) = true.
Proof.
  intros (m1 & m2 & m3) (M1 & M2 & M3) (o1 & o2 & o3) (d1 & d2 & d3) z1 z2 z3 Hs (b1 & b2 & b3) Hz Hlo Hhi.
  unfold intersect_node, make_ray. cbn [origin direction_inv direction_sign vmap vx vy vz].
  change (@ndiv xr XN (@n1 xr XN)) with (xdiv (Fin 1)).
  change (fun c : xr => @nltb xr XN c (@n0 xr XN)) with (fun c => xltb c (Fin 0)). cbv beta.
  change (@nltb xr XN) with xltb. change (@n0 xr XN) with (Fin 0).
  destruct (slab_axis (vx (nd_min nd)) _ _ _ _ _ _) as [ta tb] eqn:E1.
  destruct (axis_ok _ _ _ _ _ _ _ _ s _ _ _ _ m1 M1 o1 d1 z1 Hs b1 Hlo Hhi E1) as (A1 & B1 & _).
  destruct (slab_axis (vy (nd_min nd)) _ _ _ _ _ _) as [tc td] eqn:E2.
  destruct (axis_ok _ _ _ _ _ _ _ _ s _ _ _ _ m2 M2 o2 d2 z2 Hs b2 A1 B1 E2) as (A2 & B2 & _).
  destruct (slab_axis (vz (nd_min nd)) _ _ _ _ _ _) as [te tf] eqn:E3.
  destruct (axis_ok _ _ _ _ _ _ _ _ s _ _ _ _ m3 M3 o3 d3 z3 Hs b3 A2 B2 E3) as (A3 & B3 & N3).
  destruct (N3 Hz) as [Na Nb]. cbn. unfold below_t, above_t in A3, B3.
  destruct te as [|[]|sa a], tf as [|[]|sb b]; cbn in *; try congruence; auto.
  apply Rltb_false in A3. apply Rltb_false in B3. apply Rleb_spec. lra.
Qed.
End Slab.
