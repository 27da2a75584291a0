(** Scenes with cylinders. *)

From Coq Require Import Reals ZArith List Bool Arith Lra Lia Floats.SpecFloat.
From Verif Require Import Num NumR NumX NumF Vec Ray Bvh Traverse Sphere Plane Trimesh Cylinder Scene.
From Verif Require Import SpecBvh SpecReal SpecNearest SpecSphere SpecPlane SpecTri SpecCyl SpecScene SpecCombine.
From Verif Require Import PfBuild PfPart PfX PfTrav2 PfPlane PfSphere2 PfCyl PfCyl2 PfCyl3 PfCyl4 PfCyl6 PfScene PfScene2 PfScene3 PfScene4 PfScene5.
From Verif Require Import CaseNode CaseSphere CasePlane CaseCyl CaseCyl2 CaseScene.
Import ListNotations.
Local Open Scope R_scope.

(** A sphere behind two cylinders, of which the ray meets one. *)
Definition far_ball : call xr := AddSpheres [vfin (V 20 0 0)] [Fin 1].
Definition tube_pair : call xr :=
  AddCylinders (map vfin pair_C) (repeat (Fin 1) 2) (repeat (Fin 1) 2) (repeat (Fin 2) 2) (repeat (mfin ident) 2).
Definition tubes_mixed : list (call xr) := [far_ball; tube_pair; Commit].
Definition tubes_replies : list (reply xr) := [Id (Some 0%nat); Id (Some 1%nat); Done].

Lemma pair_data i : (i < 2)%nat -> vn (map vfin pair_C) i = pair_c i /\ xn (repeat (Fin 1) 2) i = 1 /\ xn (repeat (Fin 2) 2) i = 2 /\
  mn (repeat (mfin ident) 2) i = ident.
Proof.
  intros Hi. split; [apply (mixed_vn pair_C i Hi)|].
  do 2 (destruct i as [|i]; [split; [reflexivity|split; [reflexivity|]]; unfold mn; cbn; unfold mval, vmap, vval; reflexivity|]). lia.
Qed.
Lemma pair_at S i t : world S (pair_c i) ident (at_t (V 0 0 0) (V 1 0 0) t) <-> S (rv_sub (V t 0 0) (pair_c i)).
Proof.
  assert (HL : forall C p, to_local C ident p = rv_sub p C).
  { intros [cx cy cz] [x y z]. apply vec_eq; rvs; ring. }
  rewrite (world_local _ _ _ _ ident_orthogonal), HL.
  replace (at_t (V 0 0 0) (V 1 0 0) t) with (V t 0 0) by (apply vec_eq; rvs; ring). reflexivity.
Qed.
Lemma pair_first t : ~ world (on_surface 1 1 2) (pair_c 0) ident (at_t (V 0 0 0) (V 1 0 0) t).
Proof.
  intros H. apply pair_at in H. unfold pair_c, pair_C in H. cbn [nth] in H. cyls.
  destruct H as [[H _]|[[_ H]|[_ H]]]; try lra. pose proof (Rle_0_sqr ((t - 10) / 1)). unfold Rsqr in *. lra.
Qed.

Lemma tubes_fine c : In c tubes_mixed -> is_query c = false /\
  (adds c <> None -> call_fine 1000 0 (V 0 0 0) (V 1 0 0) 0 c /\ call_lengths c).
Proof.
  unfold tubes_mixed. intros [<-|[<-|[<-|[]]]]; (split; [reflexivity|]); intros Ha; [| |destruct Ha; reflexivity].
  - split; [|cbn; lia]. cbn [call_fine far_ball call_ok]. split; [|split].
    + intros c [<-|[]]. apply vfin_finite.
    + intros x [<-|[]]. eexists _, _; reflexivity.
    + intros i Hi. cbn in Hi. destruct i as [|i]; [|lia]. cbn; unfold in_bounds; cbn; repeat split; intros; lra.
  - split; [|cbn; lia]. unfold tube_pair. cbn [call_fine]. unfold cylinders_ok, cylinders_plain. cbv zeta. split; [split; [|split; [|split; [|split; [|split; [|split; [reflexivity|]]]]]]|].
    + intros c Hc. apply in_map_iff in Hc as (v & <- & _). apply vfin_finite.
    + intros x Hx. apply repeat_spec in Hx. subst. eexists _, _; reflexivity.
    + intros x Hx. apply repeat_spec in Hx. subst. eexists _, _; reflexivity.
    + intros x Hx. apply repeat_spec in Hx. subst. eexists _, _; reflexivity.
    + intros x Hx. apply repeat_spec in Hx. subst. repeat split; eexists _, _; reflexivity.
    + intros i Hi. change (i < 2)%nat in Hi. destruct (pair_data i Hi) as (-> & -> & -> & ->).
      destruct ident_extent as (X & Y & Z). destruct pair_made as (_ & _ & _ & _ & Hb).
      split; [|split; [apply (Hb i Hi)|split; [apply (Hb i Hi)|split; [|]]]].
      * split; [lra|]. split; [lra|]. split; [lra|]. split; [exact ident_orthogonal|]. repeat split; unfold axis_row, ident; cbn [vx vy vz]; auto.
      * intros _. unfold cyl_lower, cyl_upper. cbn [vz]. rewrite Z. do 2 (destruct i as [|i]; [cbn; split; lra|]). lia.
      * intros H. assert (H0 : world (on_surface 1 1 2) (pair_c i) ident (at_t (V 0 0 0) (V 1 0 0) 0)).
        { replace (at_t (V 0 0 0) (V 1 0 0) 0) with (V 0 0 0) by (apply vec_eq; rvs; ring). exact H. }
        apply pair_at in H0. clear H. revert H0.
        do 2 (destruct i as [|i]; [unfold pair_c, pair_C; cbn [nth]; cyls; rewrite Rminus_0_r, Rabs_R0; intros ?; lra|]). lia.
    + intros i j t u Hi Hj. change (i < 2)%nat in Hi. change (j < 2)%nat in Hj.
      destruct (pair_data i Hi) as (-> & -> & -> & ->), (pair_data j Hj) as (-> & -> & -> & ->).
      rewrite unit_x by lra. intros _ _ [_ Hmi] [_ Hmj].
      destruct i as [|[|i]]; [destruct (pair_first _ Hmi)| |lia]. destruct j as [|[|j]]; [destruct (pair_first _ Hmj)|reflexivity|lia].
Qed.

Lemma tubes_runs : exists s, @run _ (Xnum 1000 0 0) libstdcxx_partition (new_scene five_opt) tubes_mixed = Ok (s, tubes_replies).
Proof.
  destruct (history_defined 1000 0 0 (Rle_refl 0) libstdcxx_partition libstdcxx_partition_ok (V 0 0 0) (V 1 0 0) 0 five_opt tubes_mixed)
    as (s & l & E).
  - split; cbn; lia.
  - intros c Hc. destruct (tubes_fine c Hc) as [H1 H2]. split; [exact H1|]. intros Ha. destruct (H2 Ha) as [H3 H4].
    split; [apply fine_plain, H3|exact H4].
  - unfold tubes_mixed. intros opt [H|[H|[H|[]]]]; discriminate.
  - exists s. rewrite E. do 2 f_equal. unfold tubes_mixed, far_ball, tube_pair in E. cbn [run step] in E.
    unfold add_spheres at 1 in E. cbn [new_scene sc_mesh sc_committed sc_count sc_spheres sc_planes sc_cylinders sc_options] in E.
    apply bind_ok in E as ([? ?] & E1 & E). apply bind_ok in E1 as ([? ?] & E1 & E1'). injection E1' as <- <-.
    apply bind_ok in E1 as (ms & _ & E1). injection E1 as <- <-.
    apply bind_ok in E as ([? ?] & E & E3). injection E3 as <- <-.
    unfold add_cylinders at 1 in E. cbn [sc_mesh sc_committed sc_count sc_spheres sc_planes sc_cylinders sc_options] in E.
    apply bind_ok in E as ([? ?] & E1 & E). apply bind_ok in E1 as ([? ?] & E1 & E1'). injection E1' as <- <-.
    apply bind_ok in E1 as (cys & _ & E1). injection E1 as <- <-.
    apply bind_ok in E as ([? ?] & E & E2). injection E2 as <- <-.
    apply bind_ok in E as ([? ?] & E1 & E). apply bind_ok in E1 as (? & _ & E1'). injection E1' as <- <-.
    injection E as <- <-. reflexivity.
Qed.
Lemma tubes_geometry g c : geometry_of tubes_mixed tubes_replies g c -> (g = 0%nat /\ c = far_ball) \/ (g = 1%nat /\ c = tube_pair).
Proof.
  intros (j & H1 & H2). unfold tubes_mixed, tubes_replies in *.
  destruct j as [|[|[|j]]]; cbn in H1, H2; try discriminate; [| |destruct j; discriminate];
    injection H1 as <-; injection H2 as <-; auto.
Qed.

(** The second cylinder, of geometry 1, is nearest. *)
Lemma tubes_query : exists s rh,
  @run _ (Xnum 1000 0 0) libstdcxx_partition (new_scene five_opt) tubes_mixed = Ok (s, tubes_replies) /\
  @intersect1 _ (Xnum 1000 0 0) s
    (@make_ray _ (Xnum 1000 0 0) (vfin (V 0 0 0)) (vfin (V 1 0 0)) (Fin 0) (Fin 1000) false)
    (@new_rayhit _ (Xnum 1000 0 0)) = Ok (true, rh) /\
  h_geom rh = Some 1%nat /\ h_prim rh = Some 1%nat /\ isR (h_distance rh) 9.
Proof.
  destruct tubes_runs as (s & Hrun).
  destruct (scene_query 1000 0 0 (Rle_refl 0) (Rle_refl 0) libstdcxx_partition libstdcxx_partition_ok _ _ _ (Fin 1000) false _ _ 0 five_admissible
    five_opt tubes_mixed s tubes_replies Hrun) with (rh := @new_rayhit _ (Xnum 1000 0 0)) as (b & rh & E & Hb1 & Hb2).
  - right; right; left; reflexivity.
  - intros opt g c [->|Ho] _; [left; cbn; lia|]. revert Ho. unfold tubes_mixed. intros [H|[H|[H|[]]]]; discriminate.
  - intros g c (j & Hj & Hr). apply tubes_fine; [eapply nth_error_In, Hj|].
    destruct (tubes_geometry g c) as [[_ ->]|[_ ->]]; [exists j; auto|discriminate..].
  - intros t Ht. exact Ht.
  - rewrite unit_x in Hb1, Hb2 by lra.
    assert (M9 : meets (pair_c 1) 1 1 2 ident (V 0 0 0) (V 1 0 0) 9).
    { split; [lra|]. apply pair_at. left. unfold pair_c, pair_C. cbn [nth]. cyls. rewrite Rminus_0_r, Rabs_R0. lra. }
    assert (P9 : exists c, geometry_of tubes_mixed tubes_replies 1 c /\ call_cross (V 0 0 0) (V 1 0 0) 0 (Fin 1000) c 1 9).
    { exists tube_pair. split; [exists 1%nat; split; reflexivity|]. cbn [call_cross tube_pair].
      destruct (pair_data 1 ltac:(lia)) as (-> & -> & -> & ->). split; [cbn; lia|]. split; [|apply Rltb_spec; lra].
      split.
      { intros H. assert (H0 : world (beside_cap 1 1 2) (pair_c 1) ident (at_t (V 0 0 0) (V 1 0 0) 0)).
        { replace (at_t (V 0 0 0) (V 1 0 0) 0) with (V 0 0 0) by (apply vec_eq; rvs; ring). exact H. }
        apply pair_at in H0. revert H0. unfold pair_c, pair_C; cbn [nth]; cyls; rewrite Rminus_0_r, Rabs_R0; intros ?; lra. }
      split; [exact M9|]. intros (q & Hq & _ & Ht).
      assert (Eq : q = rv_sub (V 9 0 0) (pair_c 1)) by (apply (pair_at (fun x => q = x)); exists q; auto).
      rewrite Eq in Ht. unfold pair_c, pair_C in Ht. cbn [nth] in Ht. rvs. lra. }
    destruct b; [|exfalso; destruct (Hb1 eq_refl) as [_ Hn]; exact (Hn _ _ _ P9)].
    destruct (Hb2 eq_refl) as (g & i & t & (c & Gc & Hc) & Eg & Ep & Ed & _ & Hmin).
    specialize (Hmin eq_refl _ _ _ P9). exists s, rh. split; [exact Hrun|]. split; [exact E|].
    destruct (tubes_geometry g c Gc) as [[-> ->]|[-> ->]].
    + exfalso. cbn [call_hit far_ball] in Hc. destruct Hc as (Hi & (Ho & Ht) & _). cbn in Hi. destruct i as [|i]; [|lia].
      unfold on_sphere, at_t, rv_dot, rv_sub, rv_add, rv_scale in Ho. cbn in Ho. nra.
    + cbn [call_hit tube_pair] in Hc. destruct Hc as (Hi & Hm & _). change (i < 2)%nat in Hi.
      destruct (pair_data i Hi) as (E1 & E2 & E3 & E4). rewrite E1, E2, E3, E4 in Hm.
      destruct Hm as [_ [[Ht Hmi] Hfirst]]. destruct i as [|[|i]]; [destruct (pair_first _ Hmi)| |lia].
      assert (Et : t = 9).
      { destruct (Rle_lt_or_eq_dec _ _ Hmin) as [H|H]; [|exact H]. exfalso. apply pair_at in Hmi. unfold pair_c, pair_C in Hmi. cbn [nth] in Hmi. cyls.
        destruct Hmi as [[H' _]|[[_ H']|[_ H']]]; try lra. nra. }
      subst t. auto.
Qed.

(** ** Doubles: cylinders around (x, 0, 0) for the given [x]. *)
Definition tubes (xs : list Z) : call spec_float :=
  AddCylinders (map (fun x => V (f64 x 0) (f64 0 0) (f64 0 0)) xs) (map (fun _ => f64 1 0) xs)
    (map (fun _ => f64 1 0) xs) (map (fun _ => f64 2 0) xs) (map (fun _ => id64) xs).
Definition tubes_answer (xs : list Z) : res (list (reply spec_float)) :=
  mapr snd (@run _ F64 libstdcxx_partition (new_scene default_options)
    [tubes xs; Commit; Query (ray64 (f64 0 0) (f64 100 0)) (@new_rayhit _ F64)]).
Definition tube_hit (d : spec_float) (i g : nat) : rayhit spec_float :=
  RayHit (V (f64 (-1) 0) (f64 0 0) (f64 0 0)) (f64 0 0, f64 0 0) d (Some i) (Some g).
(** The cylinder around 10 is hit at 9; with another one behind it, that one is reported. *)
Lemma tubes_refute : exists xs ys i j t u,
  incl xs ys /\ @nltb _ F64 t u = true /\
  tubes_answer xs = Ok [Id (Some 0%nat); Done; Answer true (tube_hit t i 0%nat)] /\
  tubes_answer ys = Ok [Id (Some 0%nat); Done; Answer true (tube_hit u j 0%nat)].
Proof.
  exists [10%Z], [10%Z; 20%Z], 0%nat, 1%nat, (f64 9 0), (f64 19 0).
  split; [intros x [<-|[]]; left; reflexivity|]. repeat split; vm_compute; reflexivity.
Qed.

(** A sphere between two cylinders: the sphere's own answer is 14, the cylinders' own answer is 19. *)
Definition between : list (call spec_float) := [tubes [10%Z; 20%Z]; AddSpheres [V (f64 15 0) (f64 0 0) (f64 0 0)] [f64 1 0]; Commit].
Lemma between_query :
  mapr snd (@run _ F64 libstdcxx_partition (new_scene default_options)
    (between ++ [Query (ray64 (f64 0 0) (f64 100 0)) (@new_rayhit _ F64)])) =
  Ok [Id (Some 0%nat); Id (Some 1%nat); Done; Answer true (tube_hit (f64 14 0) 0 1)].
Proof. vm_compute. reflexivity. Qed.
