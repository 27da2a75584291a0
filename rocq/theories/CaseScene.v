(** Scenes: concrete histories. *)

From Coq Require Import Reals ZArith List Bool Arith Lra Lia Floats.SpecFloat.
From Verif Require Import Num NumR NumX NumF Vec Ray Bvh Traverse Sphere Plane Trimesh Cylinder Scene.
From Verif Require Import SpecBvh SpecReal SpecNearest SpecSphere SpecPlane SpecTri SpecScene.
From Verif Require Import PfBuild PfPart PfX PfTrav2 PfPlane PfSphere2 PfTri PfTri2 PfTri3 PfScene PfScene2 PfScene3 PfScene4 PfScene5.
From Verif Require Import CaseNode CaseSphere CasePlane CaseTri.
Import ListNotations.
Local Open Scope R_scope.

(** A mesh, spheres, a second mesh (refused) and planes, committed. *)
Definition mixed : list (call xr) :=
  [AddMesh quad_vertices quad_faces; AddSpheres (map vfin five_C) (repeat (Fin 1) 5);
   AddMesh quad_vertices quad_faces;
   AddPlanes (map vfin three_C) (repeat (Fin 2) 3) (repeat (Fin 2) 3) (repeat (mfin turn) 3); Commit].
Definition mixed_replies : list (reply xr) := [Id (Some 0%nat); Id (Some 1%nat); Id None; Id (Some 2%nat); Done].

Lemma vfin_finite v : vfinite (vfin v).
Proof. repeat split; eexists _, _; reflexivity. Qed.
Lemma vval_vfin v : vval (vfin v) = v.
Proof. destruct v; reflexivity. Qed.

Lemma mixed_vn l i : (i < length l)%nat -> vn (map vfin l) i = nth i l rv_zero.
Proof. intros Hi. unfold vn. rewrite (map_nth vfin), vval_vfin. reflexivity. Qed.

Lemma quad_vn j : vn quad_vertices j = quad_p j.
Proof. unfold vn, quad_vertices, quad_p. rewrite (map_nth vfin), vval_vfin. reflexivity. Qed.

Lemma mixed_ok c : In c mixed -> is_query c = false /\
  (adds c <> None -> call_ok 1000 0 (V 0 0 0) (V 1 0 0) c /\ call_lengths c).
Proof.
  assert (HM : call_ok 1000 0 (V 0 0 0) (V 1 0 0) (AddMesh quad_vertices quad_faces)).
  { cbn [call_ok]. split.
    - destruct quad_are as [A B]. split; [|exact B]. intros j Hj. destruct (A j Hj) as (x & Ex & Vx). exists x. rewrite quad_vn. auto.
    - intros i Hi. unfold fa, fb, fc. rewrite !quad_vn. destruct (quad_bounds i Hi) as [B1 B2].
      split; [exact B1|]. split; [exact B2|]. intros Hz. exact (quad_z Hz i Hi). }
  unfold mixed. intros [<-|[<-|[<-|[<-|[<-|[]]]]]]; (split; [reflexivity|]); intros Ha; [| | | |destruct Ha; reflexivity].
  - split; [exact HM|exact I].
  - split; [|cbn; lia]. cbn [call_ok]. split; [|split].
    + intros c Hc. apply in_map_iff in Hc as (v & <- & _). apply vfin_finite.
    + intros x Hx. apply repeat_spec in Hx. subst. eexists _, _; reflexivity.
    + intros i Hi. cbn in Hi. do 5 (destruct i as [|i]; [cbn; unfold in_bounds; cbn; repeat split; intros; lra|]). lia.
  - split; [exact HM|exact I].
  - split; [|cbn; lia]. cbn [call_ok]. split; [|split; [|split; [|split]]].
    + intros c Hc. apply in_map_iff in Hc as (v & <- & _). apply vfin_finite.
    + intros x Hx. apply repeat_spec in Hx. subst. eexists _, _; reflexivity.
    + intros x Hx. apply repeat_spec in Hx. subst. eexists _, _; reflexivity.
    + intros x Hx. apply repeat_spec in Hx. subst. repeat split; eexists _, _; reflexivity.
    + destruct turn_extent as (X & Y & Z). intros i Hi.
      assert (E : xn (repeat (Fin 2) 3) i = 2 /\ mn (repeat (mfin turn) 3) i = turn).
      { cbn in Hi. do 3 (destruct i as [|i]; [split; reflexivity|]). lia. }
      destruct E as [-> ->]. rewrite mixed_vn by (rewrite map_length in Hi; exact Hi).
      split; [lra|]. split; [lra|]. split; [exact turn_orthogonal|]. cbv zeta.
      unfold in_bounds, plane_lower, plane_upper. cbn [vx vy vz]. rewrite X, Y, Z. cbn in Hi.
      do 3 (destruct i as [|i]; [cbn; repeat split; intros; lra|]). lia.
Qed.

Lemma mixed_runs : exists s, @run _ (Xnum 1000 0 0) libstdcxx_partition (new_scene five_opt) mixed = Ok (s, mixed_replies).
Proof.
  destruct (history_defined 1000 0 0 (Rle_refl 0) libstdcxx_partition libstdcxx_partition_ok (V 0 0 0) (V 1 0 0) 0 five_opt mixed)
    as (s & l & E).
  - split; cbn; lia.
  - intros c Hc. destruct (mixed_ok c Hc) as [H1 H2]. split; [exact H1|]. intros Ha. destruct (H2 Ha) as [H3 H4].
    split; [apply ok_plain, H3|exact H4].
  - unfold mixed. intros opt [H|[H|[H|[H|[H|[]]]]]]; discriminate.
  - exists s. rewrite E. do 2 f_equal. unfold mixed in E. cbn [run step] in E.
    unfold add_mesh at 1 in E. cbn [new_scene sc_mesh sc_committed sc_count sc_spheres sc_planes sc_cylinders sc_options] in E.
    apply bind_ok in E as ([? ?] & E1 & E). apply bind_ok in E1 as ([? ?] & E1 & E1'). injection E1' as <- <-.
    apply bind_ok in E1 as (ms & _ & E1). injection E1 as <- <-.
    unfold add_spheres at 1 in E. cbn [new_scene sc_mesh sc_committed sc_count sc_spheres sc_planes sc_cylinders sc_options] in E.
    apply bind_ok in E as ([? ?] & E & E2). injection E2 as <- <-. f_equal.
    apply bind_ok in E as ([? ?] & E1 & E). apply bind_ok in E1 as ([? ?] & E1 & E1'). injection E1' as <- <-.
    apply bind_ok in E1 as (sps & _ & E1). injection E1 as <- <-.
    apply bind_ok in E as ([? ?] & E & E3). injection E3 as <- <-. f_equal.
    unfold add_mesh at 1 in E. cbn [bind sc_mesh sc_committed sc_count sc_spheres sc_planes sc_cylinders sc_options] in E.
    apply bind_ok in E as ([? ?] & E & E2). injection E2 as <- <-. f_equal.
    unfold add_planes at 1 in E. cbn [sc_mesh sc_committed sc_count sc_spheres sc_planes sc_cylinders sc_options] in E.
    apply bind_ok in E as ([? ?] & E1 & E). apply bind_ok in E1 as ([? ?] & E1 & E1'). injection E1' as <- <-.
    apply bind_ok in E1 as (pls & _ & E1). injection E1 as <- <-.
    apply bind_ok in E as ([? ?] & E & E2). injection E2 as <- <-. f_equal.
    apply bind_ok in E as ([? ?] & E1 & E). apply bind_ok in E1 as (? & _ & E1'). injection E1' as <- <-.
    injection E as <- <-. reflexivity.
Qed.

Lemma mixed_geometry g c : geometry_of mixed mixed_replies g c ->
  (g = 0%nat /\ c = AddMesh quad_vertices quad_faces) \/
  (g = 1%nat /\ c = AddSpheres (map vfin five_C) (repeat (Fin 1) 5)) \/
  (g = 2%nat /\ c = AddPlanes (map vfin three_C) (repeat (Fin 2) 3) (repeat (Fin 2) 3) (repeat (mfin turn) 3)).
Proof.
  intros (j & H1 & H2). unfold mixed, mixed_replies in *.
  destruct j as [|[|[|[|[|j]]]]]; cbn in H1, H2; try discriminate; [| | |destruct j; discriminate];
    injection H1 as <-; injection H2 as <-; auto.
Qed.

(** Sphere 1, of geometry 1, is nearest. *)
Lemma mixed_query : exists s rh,
  @run _ (Xnum 1000 0 0) libstdcxx_partition (new_scene five_opt) mixed = Ok (s, mixed_replies) /\
  @intersect1 _ (Xnum 1000 0 0) s
    (@make_ray _ (Xnum 1000 0 0) (vfin (V 0 0 0)) (vfin (V 1 0 0)) (Fin 0) (Fin 1000) false)
    (@new_rayhit _ (Xnum 1000 0 0)) = Ok (true, rh) /\
  h_geom rh = Some 1%nat /\ h_prim rh = Some 1%nat /\ isR (h_distance rh) 9 /\ visR (h_normal rh) (V (-1) 0 0).
Proof.
  destruct mixed_runs as (s & Hrun).
  pose proof (scene_exact 1000 0 libstdcxx_partition _ _ _ (Fin 1000) false _ _ 0 five_opt mixed s mixed_replies (@new_rayhit _ (Xnum 1000 0 0))
    (Rle_refl 0) libstdcxx_partition_ok five_admissible Hrun) as Q.
  destruct Q as (b & rh & E & Hb1 & _ & Hb2).
  - right; right; right; right; left; reflexivity.
  - intros opt g c [->|Ho] _; [left; cbn; lia|]. revert Ho. unfold mixed. intros [H|[H|[H|[H|[H|[]]]]]]; discriminate.
  - intros g c (j & Hj & Hr). apply mixed_ok; [eapply nth_error_In, Hj|].
    destruct (mixed_geometry g c) as [[_ ->]|[[_ ->]|[_ ->]]]; [exists j; auto|discriminate..].
  - intros t Ht. exact Ht.
  - rewrite unit_x in Hb1, Hb2 by lra.
    assert (H1 : call_cross (V 0 0 0) (V 1 0 0) 0 (Fin 1000) (AddSpheres (map vfin five_C) (repeat (Fin 1) 5)) 1 9).
    { cbn [call_cross call_hit]. split; [cbn; lia|]. split; [split; [|lra]|apply Rltb_spec; lra].
      unfold on_sphere, at_t, rv_dot, rv_sub, rv_add, rv_scale; cbn. lra. }
    assert (G1 : geometry_of mixed mixed_replies 1 (AddSpheres (map vfin five_C) (repeat (Fin 1) 5))) by (exists 1%nat; split; reflexivity).
    assert (b = true) by (apply Hb1; eauto 6). subst b.
    destruct (Hb2 eq_refl) as (g & c & i & t & Gc & Hc & Eg & Ep & Ed & Hab & Hmin).
    specialize (Hmin eq_refl _ _ 1%nat 9 G1 H1).
    destruct (mixed_geometry g c Gc) as [[-> ->]|[[-> ->]|[-> ->]]].
    + exfalso. cbn [call_cross] in Hc. destruct Hc as (Hi & (_ & (u & v & U1 & U2 & U3 & Ho) & Ht) & _).
      rewrite quad_on in Ho. unfold fa, fb, fc in Ho. rewrite !quad_vn in Ho.
      destruct i as [|[|[|i]]]; [..|cbn in Hi; lia]; unfold bary in Ho; quads; clear -Ho U1 U2 U3 Hmin;
        injection Ho as X Y Z; rvs; lra.
    + cbn [call_cross call_hit] in Hc. destruct Hc as (Hi & (Ho & Ht) & _).
      unfold on_sphere, at_t, rv_dot, rv_sub, rv_add, rv_scale in Ho.
      assert (Hit : i = 1%nat /\ t = 9).
      { destruct i as [|[|[|[|[|i]]]]]; [..|cbn in Hi; lia]; cbn in Ho; [exfalso; nra| |exfalso; nra..].
        split; [reflexivity|]. assert (Hf : (t - 9) * (t - 11) = 0) by lra.
        apply Rmult_integral in Hf as [Hf|Hf]; lra. }
      destruct Hit as [-> ->]. exists s, rh.
      split; [exact Hrun|]. split; [exact E|]. split; [exact Eg|]. split; [exact Ep|]. split; [exact Ed|].
      cbn [call_about] in Hab. unfold sphere_about in Hab. assert (Hne : xn (repeat (Fin 1) 5) 1 <> 0) by (cbn; lra). specialize (Hab Hne).
      match type of Hab with visR _ ?v => replace (V (-1) 0 0) with v; [exact Hab|] end.
      cbn. rewrite Rabs_R1. apply vec_eq; cbn; field.
    + exfalso. cbn [call_cross call_hit] in Hc. destruct Hc as (Hi & (_ & Ho & Ht) & _).
      assert (EE : xn (repeat (Fin 2) 3) i = 2 /\ mn (repeat (mfin turn) 3) i = turn).
      { cbn in Hi. do 3 (destruct i as [|i]; [split; reflexivity|]). lia. }
      destruct EE as [E1 E2]. rewrite E1, E2, mixed_vn in Ho by (rewrite map_length in Hi; exact Hi).
      apply on_patch_local in Ho as (L1 & L2 & L3); [|apply turn_orthogonal].
      cbn in Hi. destruct i as [|[|[|i]]]; [..|lia]; unfold three_C in *; cbn [nth] in *; clear -L1 L2 L3 Hmin; rvs; lra.
Qed.

(** ** Doubles *)
Notation z0 := (f64 0 0).
Notation one := (f64 1 0).
Definition ball : call spec_float := AddSpheres [V (f64 10 0) z0 z0] [one].
Definition ball_ray : ray spec_float := @make_ray _ F64 (V z0 z0 z0) (V one z0 z0) z0 (@nmaxv _ F64) false.
Definition used : rayhit spec_float := RayHit (V z0 z0 z0) (z0, z0) one (Some 7%nat) (Some 7%nat).

Definition show (x : res (scene spec_float * list (reply spec_float))) : res (list (reply spec_float)) := mapr snd x.

(** The same query with a fresh record, a used one, and a fresh one after another commit. *)
Definition ball_history : list (call spec_float) :=
  [ball; ball; Commit; ball; Query ball_ray (@new_rayhit _ F64); Query ball_ray used; SetOptions (Options 4 3 8); Commit;
   Query ball_ray (@new_rayhit _ F64)].
Definition ball_hit : rayhit spec_float := RayHit (V (f64 (-1) 0) z0 z0) (z0, z0) (f64 9 0) (Some 0%nat) (Some 0%nat).
Lemma ball_replies :
  mapr snd (@run _ F64 libstdcxx_partition (new_scene (Options 1 26 64)) ball_history) =
  Ok [Id (Some 0%nat); Id None; Done; Id None; Answer true ball_hit; Answer false used; Done; Done; Answer true ball_hit].
Proof. vm_compute. reflexivity. Qed.

Lemma used_refutes : exists part opt cs s l r rh rh', partition_ok part /\
  @run _ F64 part (new_scene opt) cs = Ok (s, l) /\ In Commit cs /\
  ~ same_reply (@intersect1 _ F64 s r rh) (@intersect1 _ F64 s r rh').
Proof.
  assert (H : exists s l, @run _ F64 libstdcxx_partition (new_scene (Options 1 26 64)) [ball; Commit] = Ok (s, l) /\
    (exists a, @intersect1 _ F64 s ball_ray (@new_rayhit _ F64) = Ok (true, a)) /\
    @intersect1 _ F64 s ball_ray used = Ok (false, used)).
  { destruct (@run _ F64 libstdcxx_partition (new_scene (Options 1 26 64)) [ball; Commit]) as [[s l]| |] eqn:E;
      vm_compute in E; [|discriminate..].
    exists s, l. split; [reflexivity|]. injection E as <- <-. split; [eexists|]; vm_compute; reflexivity. }
  destruct H as (s & l & E & (a & E1) & E2).
  exists libstdcxx_partition, (Options 1 26 64), [ball; Commit], s, l, ball_ray, (@new_rayhit _ F64), used.
  split; [exact libstdcxx_partition_ok|]. split; [exact E|]. split; [right; left; reflexivity|].
  rewrite E1, E2. cbn. tauto.
Qed.

(** Before the commit. *)
Lemma early_query : exists s l, @run _ F64 libstdcxx_partition (new_scene (Options 1 26 64)) [ball] = Ok (s, l) /\
  @intersect1 _ F64 s ball_ray (@new_rayhit _ F64) = UB UBnode.
Proof.
  destruct (@run _ F64 libstdcxx_partition (new_scene (Options 1 26 64)) [ball]) as [[s l]| |] eqn:E;
    vm_compute in E; [|discriminate..].
  exists s, l. split; [reflexivity|]. injection E as <- <-. vm_compute. reflexivity.
Qed.
