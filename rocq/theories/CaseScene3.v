(** A scene whose ray meets two cylinders, one behind the other. *)

From Coq Require Import Reals ZArith List Bool Arith Lra Lia.
From Verif Require Import Num NumR NumX Vec Ray Bvh Traverse Sphere Plane Trimesh Cylinder Scene.
From Verif Require Import SpecBvh SpecReal SpecNearest SpecSphere SpecPlane SpecTri SpecCyl SpecScene.
From Verif Require Import PfBuild PfPart PfX PfTrav2 PfPlane PfSphere2 PfCyl PfCyl2 PfCyl3 PfCyl4 PfCyl6 PfScene PfScene2 PfScene3 PfScene4 PfScene5.
From Verif Require Import CaseNode CaseSphere CasePlane CaseCyl CaseCyl2 CaseScene.
Import ListNotations.
Local Open Scope R_scope.

Definition row_C : list (vec R) := [V 10 0 0; V 20 0 0].
Definition row_c (i : nat) : vec R := nth i row_C rv_zero.
Definition tube_row : call xr :=
  AddCylinders (map vfin row_C) (repeat (Fin 1) 2) (repeat (Fin 1) 2) (repeat (Fin 2) 2) (repeat (mfin ident) 2).
Definition row_scene : list (call xr) := [tube_row; Commit].
Definition row_replies : list (reply xr) := [Id (Some 0%nat); Done].

Lemma row_data i : (i < 2)%nat -> vn (map vfin row_C) i = row_c i /\ xn (repeat (Fin 1) 2) i = 1 /\ xn (repeat (Fin 2) 2) i = 2 /\
  mn (repeat (mfin ident) 2) i = ident.
Proof.
  intros Hi. split; [apply (mixed_vn row_C i Hi)|].
  do 2 (destruct i as [|i]; [split; [reflexivity|split; [reflexivity|]]; unfold mn; cbn; unfold mval, vmap, vval; reflexivity|]). lia.
Qed.
Lemma row_at S i t : world S (row_c i) ident (at_t (V 0 0 0) (V 1 0 0) t) <-> S (rv_sub (V t 0 0) (row_c i)).
Proof.
  assert (HL : forall C p, to_local C ident p = rv_sub p C).
  { intros [cx cy cz] [x y z]. apply vec_eq; rvs; ring. }
  rewrite (world_local _ _ _ _ ident_orthogonal), HL.
  replace (at_t (V 0 0 0) (V 1 0 0) t) with (V t 0 0) by (apply vec_eq; rvs; ring). reflexivity.
Qed.
Lemma row_meets i t : (i < 2)%nat -> world (on_surface 1 1 2) (row_c i) ident (at_t (V 0 0 0) (V 1 0 0) t) ->
  9 <= t <= 21.
Proof.
  intros Hi H. apply row_at in H.
  do 2 (destruct i as [|i]; [unfold row_c, row_C in H; cbn [nth] in H; cyls; rewrite Rminus_0_r, Rabs_R0 in H;
    destruct H as [[H _]|[[_ H]|[_ H]]]; try lra; split; nra|]). lia.
Qed.

Lemma row_seen c : In c row_scene -> is_query c = false /\
  (adds c <> None -> call_seen 1000 0 (V 0 0 0) (V 1 0 0) 0 (Fin 1000) c /\ call_lengths c).
Proof.
  unfold row_scene. intros [<-|[<-|[]]]; (split; [reflexivity|]); intros Ha; [|destruct Ha; reflexivity].
  split; [|cbn; lia]. unfold tube_row. cbn [call_seen]. unfold cylinders_plain. cbv zeta.
  split; [split; [|split; [|split; [|split; [|split; [|split; [reflexivity|]]]]]]|].
  - intros c Hc. apply in_map_iff in Hc as (v & <- & _). apply vfin_finite.
  - intros x Hx. apply repeat_spec in Hx. subst. eexists _, _; reflexivity.
  - intros x Hx. apply repeat_spec in Hx. subst. eexists _, _; reflexivity.
  - intros x Hx. apply repeat_spec in Hx. subst. eexists _, _; reflexivity.
  - intros x Hx. apply repeat_spec in Hx. subst. repeat split; eexists _, _; reflexivity.
  - intros i Hi. change (i < 2)%nat in Hi. destruct (row_data i Hi) as (-> & -> & -> & ->).
    destruct ident_extent as (X & Y & Z).
    assert (Hb : in_bounds 1000 (cyl_lower (row_c i) 1 1 2 ident) /\ in_bounds 1000 (cyl_upper (row_c i) 1 1 2 ident)).
    { unfold cyl_lower, cyl_upper, in_bounds. cbn [vx vy vz]. rewrite X, Y, Z. do 2 (destruct i as [|i]; [cbn; lra|]). lia. }
    split; [|split; [apply Hb|split; [apply Hb|split; [|]]]].
    + split; [lra|]. split; [lra|]. split; [lra|]. split; [exact ident_orthogonal|]. repeat split; unfold axis_row, ident; cbn [vx vy vz]; auto.
    + intros _. unfold cyl_lower, cyl_upper. cbn [vz]. rewrite Z. do 2 (destruct i as [|i]; [cbn; split; lra|]). lia.
    + intros H. assert (H0 : world (on_surface 1 1 2) (row_c i) ident (at_t (V 0 0 0) (V 1 0 0) 0)).
      { replace (at_t (V 0 0 0) (V 1 0 0) 0) with (V 0 0 0) by (apply vec_eq; rvs; ring). exact H. }
      apply row_meets in H0; [lra|exact Hi].
  - intros i t Hi. change (i < 2)%nat in Hi. destruct (row_data i Hi) as (-> & -> & -> & ->).
    rewrite unit_x by lra. intros _ [[_ Hm] _]. apply row_meets in Hm; [|exact Hi]. apply Rltb_spec. lra.
Qed.

Lemma row_runs : exists s, @run _ (Xnum 1000 0 0) libstdcxx_partition (new_scene five_opt) row_scene = Ok (s, row_replies).
Proof.
  destruct (history_defined 1000 0 0 (Rle_refl 0) libstdcxx_partition libstdcxx_partition_ok (V 0 0 0) (V 1 0 0) 0 five_opt row_scene)
    as (s & l & E).
  - split; cbn; lia.
  - intros c Hc. destruct (row_seen c Hc) as [H1 H2]. split; [exact H1|]. intros Ha. destruct (H2 Ha) as [H3 H4].
    split; [eapply seen_plain, H3|exact H4].
  - unfold row_scene. intros opt [H|[H|[]]]; discriminate.
  - exists s. rewrite E. do 2 f_equal. unfold row_scene, tube_row in E. cbn [run step] in E.
    unfold add_cylinders at 1 in E. cbn [new_scene sc_mesh sc_committed sc_count sc_spheres sc_planes sc_cylinders sc_options] in E.
    apply bind_ok in E as ([? ?] & E1 & E). apply bind_ok in E1 as ([? ?] & E1 & E1'). injection E1' as <- <-.
    apply bind_ok in E1 as (cys & _ & E1). injection E1 as <- <-.
    apply bind_ok in E as ([? ?] & E & E2). injection E2 as <- <-.
    apply bind_ok in E as ([? ?] & E1 & E). apply bind_ok in E1 as (? & _ & E1'). injection E1' as <- <-.
    injection E as <- <-. reflexivity.
Qed.

(** The query finds one of the two. *)
Lemma row_query any : exists s rh t,
  @run _ (Xnum 1000 0 0) libstdcxx_partition (new_scene five_opt) row_scene = Ok (s, row_replies) /\
  @intersect1 _ (Xnum 1000 0 0) s
    (@make_ray _ (Xnum 1000 0 0) (vfin (V 0 0 0)) (vfin (V 1 0 0)) (Fin 0) (Fin 1000) any)
    (@new_rayhit _ (Xnum 1000 0 0)) = Ok (true, rh) /\
  h_geom rh = Some 0%nat /\ isR (h_distance rh) t /\ 9 <= t <= 21.
Proof.
  destruct row_runs as (s & Hrun).
  destruct (scene_hit 1000 0 0 (Rle_refl 0) (Rle_refl 0) libstdcxx_partition libstdcxx_partition_ok _ _ _ (Fin 1000) any _ _ 0 five_admissible
    five_opt row_scene s row_replies Hrun) with (rh := @new_rayhit _ (Xnum 1000 0 0)) as (b & rh & E & Hb1 & Hb2).
  - right; left; reflexivity.
  - intros opt g c [->|Ho] _; [left; cbn; lia|]. revert Ho. unfold row_scene. intros [H|[H|[]]]; discriminate.
  - intros g c (j & Hj & Hr). apply row_seen; [eapply nth_error_In, Hj|].
    destruct j as [|[|j]]; cbn in Hj, Hr; [injection Hj as <-; discriminate|discriminate|destruct j; discriminate].
  - intros t Ht. exact Ht.
  - rewrite unit_x in Hb1, Hb2 by lra.
    assert (P9 : exists c, geometry_of row_scene row_replies 0 c /\ call_cross (V 0 0 0) (V 1 0 0) 0 (Fin 1000) c 0 9).
    { exists tube_row. split; [exists 0%nat; split; reflexivity|]. cbn [call_cross tube_row].
      destruct (row_data 0 ltac:(lia)) as (-> & -> & -> & ->). split; [cbn; lia|]. split; [|apply Rltb_spec; lra].
      split; [|split].
      - intros H. assert (H0 : world (beside_cap 1 1 2) (row_c 0) ident (at_t (V 0 0 0) (V 1 0 0) 0)).
        { replace (at_t (V 0 0 0) (V 1 0 0) 0) with (V 0 0 0) by (apply vec_eq; rvs; ring). exact H. }
        apply row_at in H0. revert H0. unfold row_c, row_C; cbn [nth]; cyls; rewrite Rminus_0_r, Rabs_R0; intros ?; lra.
      - split; [lra|]. apply row_at. left. unfold row_c, row_C. cbn [nth]. cyls. rewrite Rminus_0_r, Rabs_R0. lra.
      - intros (q & Hq & _ & Ht).
        assert (Eq : q = rv_sub (V 9 0 0) (row_c 0)) by (apply (row_at (fun x => q = x)); exists q; auto).
        rewrite Eq in Ht. unfold row_c, row_C in Ht. cbn [nth] in Ht. rvs. lra. }
    destruct b; [|exfalso; destruct (Hb1 eq_refl) as [_ Hn]; exact (Hn _ _ _ P9)].
    destruct (Hb2 eq_refl) as (g & i & t & (c & Gc & Hc) & Eg & Ep & Ed & _).
    exists s, rh, t. split; [exact Hrun|]. split; [exact E|].
    destruct Gc as (j & Hj & Hr). destruct j as [|[|j]]; cbn in Hj, Hr; [|discriminate|destruct j; discriminate].
    injection Hj as <-. injection Hr as <-. split; [exact Eg|]. split; [exact Ed|].
    cbn [call_hit tube_row] in Hc. destruct Hc as (Hi & [_ [[_ Hm] _]] & _). change (i < 2)%nat in Hi.
    destruct (row_data i Hi) as (E1 & E2 & E3 & E4). rewrite E1, E2, E3, E4 in Hm. eapply row_meets; eassumption.
Qed.
