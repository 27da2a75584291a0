(** The node test at a distance along the unit direction; safe traversal. *)

From Coq Require Import Reals ZArith List Bool Arith Lra Lia.
From Verif Require Import Num NumR NumX Vec Ray Bvh Traverse SpecBvh SpecTrav SpecReal.
From Verif Require Import PfTrav2 PfX PfSlab.
Local Open Scope R_scope.

Lemma node_test_unit (P : Type) big tiny eps (nd : node xr P) o d tmin tmax hd any m M O D lo t :
  0 <= eps -> visR (nd_min nd) m -> visR (nd_max nd) M ->
  admissible o d tmin O D lo ->
  (vz D = 0 -> vz m <> vz O /\ vz M <> vz O) ->
  lo <= t -> xltb hd (Fin t) = false ->
  in_box m M (at_t O (unit_of D) t) ->
  @intersect_node _ (Xnum big tiny eps) _ tmin hd nd (@make_ray _ (Xnum big tiny eps) o d tmin tmax any) = true.
Proof.
  intros Heps Hm HM Had Hz Hlo Hhd Hbox. pose proof (ad_m _ _ _ _ _ _ Had) as Hl0.
  assert (Hpos : 0 < rv_norm D) by (destruct (ad_len _ _ _ _ _ _ Had) as [H|[H _]]; lra).
  assert (Hs : lo <= t / rv_norm D <= t).
  { destruct (ad_len _ _ _ _ _ _ Had) as [H|[H H']].
    - rewrite H. unfold Rdiv. rewrite Rinv_1. lra.
    - split; [rewrite H'; apply Rmult_le_pos; [lra|left; apply Rinv_0_lt_compat, Hpos]|].
      apply Rmult_le_reg_r with (rv_norm D); [exact Hpos|]. unfold Rdiv.
      rewrite Rmult_assoc, Rinv_l by lra. nra. }
  apply (node_test big tiny eps Heps) with (m := m) (M := M) (O := O) (D := D) (s := t / rv_norm D); auto.
  - apply (ad_o _ _ _ _ _ _ Had).
  - apply (ad_d _ _ _ _ _ _ Had).
  - apply (ad_zx _ _ _ _ _ _ Had).
  - apply (ad_zy _ _ _ _ _ _ Had).
  - apply (ad_zz _ _ _ _ _ _ Had).
  - lra.
  - replace (at_t O D (t / rv_norm D)) with (at_t O (unit_of D) t); [exact Hbox|].
    apply vec_eq; cbn; field; lra.
  - eapply below_isR; [apply (ad_min _ _ _ _ _ _ Had)|apply Hs].
  - unfold above_t. destruct hd as [|[]|s a]; cbn in *; auto.
    apply Rltb_false in Hhd. apply Rltb_false. lra.
Qed.

Lemma safe_either (T P I : Type) (N : num T) part (c : coll T P) opt nodes st (isx : isector T P I) r rh :
  partition_ok part -> build part nil c opt = Ok (nodes, st) ->
  (shallow opt (c_size c) \/ forall k d, node_depth nodes k d -> d <= 26)%nat ->
  finished isx rh (traverse isx nodes r rh).
Proof.
  intros Hp Hb [H|H]; apply (built_safe part Hp c opt nodes st Hb).
  - apply (shallow_depth part Hp c opt nodes st Hb H).
  - exact H.
Qed.
