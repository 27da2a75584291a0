(** The picture of scene_primitives. *)

From Coq Require Import Reals ZArith List Bool Lia Lra Psatz Floats.SpecFloat.
From Flocq Require Import Core IEEE754.BinarySingleNaN.
From Verif Require Import Num NumR NumX NumF Vec Ray Bvh Traverse Sphere Cylinder Scene PathTracer Image Camera ScenePic.
From Verif Require Import SpecBvh SpecReal SpecSphere SpecPlane SpecCyl SpecImage SpecScene SpecPic.
From Verif Require Import PfBuild PfX PfPart PfTrav2 PfPlane PfCyl3 PfCamera PfScene PfScene4 PfScene5 PfPic.
Import ListNotations.
Local Open Scope R_scope.

(** ** Where a line enters a solid *)
Lemma enter (f : R -> R) u : continuity f -> 0 < u -> 0 < f 0 -> f u < 0 -> exists t, 0 < t < u /\ f t = 0.
Proof.
  intros Hc Hu H0 H1. destruct (IVT_cor f 0 u Hc) as (t & Ht & E); [lra|nra|].
  exists t. split; [|exact E]. split; (apply Rnot_le_lt; intros Hn).
  - replace t with 0 in E by lra. lra.
  - replace t with u in E by lra. lra.
Qed.
Lemma quad_cont a b c : continuity (fun t => a * t * t + b * t + c).
Proof. reg. Qed.
Lemma max_zero x y : (x + y + Rabs (x - y)) / 2 = 0 -> (x = 0 /\ y <= 0) \/ (y = 0 /\ x <= 0).
Proof. unfold Rabs. destruct (Rcase_abs (x - y)); lra. Qed.
Lemma max_cont f g : continuity f -> continuity g -> continuity (fun t => (f t + g t + Rabs (f t - g t)) / 2).
Proof.
  intros Hf Hg. assert (continuity (fun t => Rabs (f t - g t))).
  { apply (continuity_comp (fun t => f t - g t) Rabs); [|exact Rcontinuity_abs]. apply continuity_minus; assumption. }
  unfold Rdiv. apply (continuity_mult (fun t => f t + g t + Rabs (f t - g t)) (fun _ => / 2)).
  - apply (continuity_plus (fun t => f t + g t)); [apply continuity_plus; assumption|assumption].
  - apply continuity_const. intros ? ?. reflexivity.
Qed.

Definition quarter : mat R := V (V 0 0 1) (V 0 1 0) (V (-1) 0 0).
Lemma quarter_orthogonal : orthogonal quarter.
Proof. intros v. split; apply vec_eq; unfold rv_mul, rv_trans, quarter, rv_dot; cbn [vx vy vz]; ring. Qed.
Lemma quarter_local C p : to_local C quarter p = V (vz C - vz p) (vy p - vy C) (vx p - vx C).
Proof. apply vec_eq; unfold to_local, rv_mul, rv_trans, rv_sub, quarter, rv_dot; cbn [vx vy vz]; ring. Qed.
Lemma quarter_world S C p : world S C quarter p <-> S (V (vz C - vz p) (vy p - vy C) (vx p - vx C)).
Proof. rewrite (world_local _ _ _ _ quarter_orthogonal), quarter_local. reflexivity. Qed.

Lemma ellipse_round r q : 0 < r -> ellipse r r q * (r * r) = vx q * vx q + vy q * vy q.
Proof. intros Hr. unfold ellipse. field. lra. Qed.
Lemma abs_max a : Rabs a = Rmax a (- a).
Proof. unfold Rmax, Rabs. destruct (Rcase_abs a), (Rle_dec a (- a)); lra. Qed.

(** A tube around a line parallel to the x axis, as the code's cylinder. *)
Section Tube.
Variables (x y r h : R).
Hypothesis Hr : 0 < r.
Hypothesis Hh : 0 < h.
Notation C := (V x y 0).
Notation T := (tube (x - h / 2) (x + h / 2) y r).
Lemma tube_surface p : world (on_surface r r h) C quarter p -> closed T p.
Proof.
  intros H. apply quarter_world in H. set (q := V _ _ _) in H. pose proof (ellipse_round r q Hr) as E.
  assert (Hq : ellipse r r q <= 1 /\ - (h / 2) <= vz q <= h / 2).
  { destruct H as [[H1 H2]|[[H1 H2]|[H1 H2]]]; [|split; lra..].
    split; [lra|]. unfold Rabs in H2. destruct (Rcase_abs (vz q)); lra. }
  clear H. destruct Hq as [H1 H2]. cbn [closed tube]. subst q. cbn [vx vy vz] in *. split; [lra|].
  assert (0 < r * r) by nra. nra.
Qed.
(** From outside, a ray that runs into the inside pierces the surface before. *)
Lemma tube_pierced O U u : ~ closed T O -> 0 < u -> inner T (at_t O U u) ->
  exists t, 0 < t < u /\ pierces C r r h quarter O U t.
Proof.
  intros HO Hu Hin.
  pose (f := fun t => (vy (at_t O U t) - y) * (vy (at_t O U t) - y) + vz (at_t O U t) * vz (at_t O U t) - r * r).
  pose (g := fun t => Rabs (vx (at_t O U t) - x) - h / 2).
  assert (Hlin : forall (a b : R), continuity (fun t => a + t * b)) by (intros; reg).
  assert (Hf : continuity f).
  { unfold f. destruct O as [ox oy oz], U as [ux uy uz]. unfold at_t, rv_add, rv_scale. cbn [vx vy vz]. reg. }
  assert (Hg : continuity g).
  { unfold g. destruct O as [ox oy oz], U as [ux uy uz]. unfold at_t, rv_add, rv_scale. cbn [vx vy vz].
    apply (continuity_minus (fun t => Rabs (ox + t * ux - x)) (fun _ => h / 2)).
    - apply (continuity_comp (fun t => ox + t * ux - x) Rabs); [reg|exact Rcontinuity_abs].
    - apply continuity_const. intros ? ?. reflexivity. }
  assert (E0 : at_t O U 0 = O) by (apply vec_eq; unfold at_t, rv_add, rv_scale; cbn [vx vy vz]; ring).
  cbn [inner tube] in Hin. destruct Hin as [Hx Hyz].
  destruct (enter (fun t => (f t + g t + Rabs (f t - g t)) / 2) u (max_cont f g Hf Hg) Hu) as (t & Ht & Ez).
  { apply Rnot_le_lt. intros Hn. apply HO. cbn [closed tube]. unfold f, g in Hn. rewrite E0 in Hn.
    set (A := _ - r * r) in Hn. set (B := Rabs (vx O - x) - h / 2) in Hn.
    assert (A <= 0 /\ B <= 0) as [HA HB] by (unfold Rabs in Hn; destruct (Rcase_abs (A - B)); lra).
    subst A B. split; [|lra]. unfold Rabs in HB. destruct (Rcase_abs (vx O - x)); lra. }
  { unfold f, g. set (A := _ - r * r). set (B := Rabs _ - h / 2).
    assert (A < 0) by (subst A; lra).
    assert (B < 0) by (subst B; unfold Rabs; destruct (Rcase_abs _); lra).
    unfold Rabs; destruct (Rcase_abs (A - B)); lra. }
  exists t. split; [exact Ht|]. apply max_zero in Ez. unfold f, g in Ez.
  set (P := at_t O U t) in *.
  assert (Hrr : 0 < r * r) by nra.
  pose (q := V (0 - vz P) (vy P - y) (vx P - x)).
  assert (E : ellipse r r q * (r * r) = (0 - vz P) * (0 - vz P) + (vy P - y) * (vy P - y)) by exact (ellipse_round r q Hr).
  split; [split; [lra|]|].
  - apply quarter_world. cbn [vx vy vz]. fold P q.
    destruct Ez as [[E1 E2]|[E1 E2]].
    + left. split; [apply (Rmult_eq_reg_r (r * r)); [lra|apply Rgt_not_eq; lra]|]. unfold q. cbn [vz]. lra.
    + assert (ellipse r r q <= 1) by nra.
      right. unfold Rabs in E1. destruct (Rcase_abs (vx P - x)); [right|left]; (split; [assumption|unfold q; cbn [vz]; lra]).
  - intros (q' & Hq' & [Hs _] & Hd). fold P in Hq'.
    assert (Eq : q' = q). { unfold placed in Hq'. apply (f_equal (to_local C quarter)) in Hq'.
      rewrite (to_local_of C quarter q' quarter_orthogonal), quarter_local in Hq'. cbn [vx vy vz] in Hq'. symmetry. exact Hq'. }
    subst q'. unfold q in Hd. rewrite Hs in E.
    assert (Hd' : vz U * vz P + vy U * (vy P - y) = 0).
    { unfold rv_dot, rv_mul, quarter, rv_dot in Hd. cbn [vx vy vz] in Hd. 
      match type of Hd with ?e = 0 => replace (vz U * vz P + vy U * (vy P - y)) with (r * r * e) by (field; lra) end.
      rewrite Hd. ring. }
    (* tangent there, so no point of the line is inside *)
    assert (Eu : vy (at_t O U u) - y = (vy P - y) + (u - t) * vy U) by (unfold P, at_t, rv_add, rv_scale; cbn [vx vy vz]; ring).
    assert (Ev : vz (at_t O U u) = vz P + (u - t) * vz U) by (unfold P, at_t, rv_add, rv_scale; cbn [vx vy vz]; ring).
    rewrite Eu, Ev in Hyz. set (d := u - t) in *. clearbody d P q. clear - Hyz Hd' E.
    assert (0 <= d * d * (vy U * vy U + vz U * vz U)) by (apply Rmult_le_pos; [nra|nra]).
    assert (d * (vz U * vz P + vy U * (vy P - y)) = 0) by (rewrite Hd'; ring). nra.
Qed.
End Tube.

Section Ball.
Variables (x y r : R).
Notation C := (V x y 0).
Notation B := (ball x y r).
Lemma ball_surface p : on_sphere C r p -> closed B p.
Proof. unfold on_sphere, rv_dot, rv_sub. cbn [closed ball vx vy vz]. intros H. nra. Qed.
Lemma ball_pierced O U u : ~ closed B O -> 0 < u -> inner B (at_t O U u) ->
  exists t, 0 < t < u /\ on_sphere C r (at_t O U t).
Proof.
  intros HO Hu Hin.
  assert (E0 : at_t O U 0 = O) by (apply vec_eq; unfold at_t, rv_add, rv_scale; cbn [vx vy vz]; ring).
  pose (f := fun t => rv_dot (rv_sub (at_t O U t) C) (rv_sub (at_t O U t) C) - r * r).
  assert (Hf : continuity f).
  { unfold f. destruct O as [ox oy oz], U as [ux uy uz]. unfold rv_dot, rv_sub, at_t, rv_add, rv_scale. cbn [vx vy vz]. reg. }
  destruct (enter f u Hf Hu) as (t & Ht & E).
  - apply Rnot_le_lt. intros Hn. apply HO. unfold f in Hn. rewrite E0 in Hn. unfold rv_dot, rv_sub in Hn. cbn [closed ball vx vy vz] in *. nra.
  - unfold f, rv_dot, rv_sub. cbn [inner ball vx vy vz] in *. nra.
  - exists t. split; [exact Ht|]. unfold on_sphere. unfold f in E. lra.
Qed.
End Ball.

(** ** The scene of the example *)
Lemma isR_xval x r : isR x r -> xval x = r.
Proof. intros H. destruct (isR_ex _ _ H) as [s ->]. reflexivity. Qed.
Lemma isR_finite x r : isR x r -> finite x.
Proof. intros H. destruct (isR_ex _ _ H) as [s ->]. exists s, r. reflexivity. Qed.
Lemma tube1_is : tube1 = tube (-3 - 1 / 2) (-3 + 1 / 2) 3 1.
Proof. unfold tube1. f_equal; lra. Qed.

Section Example.
Variables (big tiny eps : R).
Notation XN := (Xnum big tiny eps).
Hypothesis Hbig : 100 <= big.
Hypothesis Heps : 0 <= eps.
Hypothesis Htiny : 0 <= tiny.
Variable part : (nat -> bool) -> list nat -> list nat * list nat.
Hypothesis Hpart : partition_ok part.

Definition ex_tubes : call xr :=
  AddCylinders (@ex_cyl_centers _ XN) (@ex_semi_axes _ XN) (@ex_semi_axes _ XN) (@ex_heights _ XN) (@ex_rotations _ XN).
Definition ex_balls : call xr := AddSpheres (@ex_sph_centers _ XN) (@ex_radii _ XN).
Definition ex_calls : list (call xr) := [ex_tubes; ex_balls; Commit].
Definition ex_replies : list (reply xr) := [Id (Some 0%nat); Id (Some 1%nat); Done].

Lemma half_isR : isR (@nhalf _ XN) (1 / 2).
Proof. apply isR_div; [reflexivity|reflexivity|lra]. Qed.
Lemma half3_isR : isR (@ndiv _ XN (@nofZ _ XN 3) (@nofZ _ XN 2)) (3 / 2).
Proof. apply isR_div; [reflexivity|reflexivity|lra]. Qed.
Definition tube_x (i : nat) : R := match i with 0 => -3 | _ => 1 end.
Definition tube_y (i : nat) : R := match i with 0 => 3 | _ => 4 end.
Definition tube_r (i : nat) : R := match i with 0 => 1 | _ => 1 / 2 end.
Definition tube_h (i : nat) : R := match i with 0 => 1 | _ => 2 end.
Definition ball_x (i : nat) : R := match i with 0 => 1 | _ => -2 end.
Definition ball_y (i : nat) : R := match i with 0 => 1 | _ => 10 end.
Definition ball_r (i : nat) : R := match i with 0 => 1 / 2 | _ => 3 / 2 end.
Lemma tube_data i : (i < 2)%nat -> vn (@ex_cyl_centers _ XN) i = V (tube_x i) (tube_y i) 0 /\
  xn (@ex_semi_axes _ XN) i = tube_r i /\ xn (@ex_heights _ XN) i = tube_h i /\ mn (@ex_rotations _ XN) i = quarter.
Proof.
  intros Hi. destruct i as [|[|i]]; [| |lia]; (split; [reflexivity|split; [|split; reflexivity]]).
  - reflexivity.
  - apply isR_xval, half_isR.
Qed.
Lemma ball_data i : (i < 2)%nat -> vn (@ex_sph_centers _ XN) i = V (ball_x i) (ball_y i) 0 /\ xn (@ex_radii _ XN) i = ball_r i.
Proof.
  intros Hi. destruct i as [|[|i]]; [| |lia]; (split; [reflexivity|]).
  - apply isR_xval, half_isR.
  - apply isR_xval, half3_isR.
Qed.
Lemma tube_extent a h : 0 < a -> 0 < h ->
  tip_extent a a h (vx quarter) = h / 2 /\ tip_extent a a h (vy quarter) = a /\ tip_extent a a h (vz quarter) = a.
Proof.
  intros Ha Hh. unfold tip_extent, quarter. cbn [vx vy vz].
  rewrite !Rmult_0_l, !Rmult_1_l, Rabs_R0.
  assert (E : Rabs (-1 * a) = a) by (rewrite Rabs_mult, (Rabs_left (-1)), (Rabs_right a) by lra; ring).
  rewrite E, (Rabs_right (h / 2)), (Rabs_right a) by lra.
  unfold Rmax; repeat destruct (Rle_dec _ _); lra.
Qed.
Lemma unseen : ~ seen_from (V (tube_x 1) (tube_y 1) 0) (tube_r 1) (tube_r 1) (tube_h 1) quarter eye.
Proof.
  intros H. apply H. apply quarter_world. unfold eye, beside_cap, ellipse, tube_x, tube_y, tube_r, tube_h. cbn [vx vy vz].
  split; [|lra]. rewrite Rabs_left by lra. lra.
Qed.
Lemma seen : seen_from (V (tube_x 0) (tube_y 0) 0) (tube_r 0) (tube_r 0) (tube_h 0) quarter eye.
Proof.
  intros H. apply quarter_world in H. unfold eye, beside_cap, ellipse, tube_x, tube_y, tube_r, tube_h in H. cbn [vx vy vz] in H.
  destruct H as [H _]. rewrite Rabs_right in H by lra. lra.
Qed.

Lemma ex_fine D c : vz D = -1 -> In c ex_calls -> is_query c = false /\
  (adds c <> None -> call_fine big tiny eye D 0 c /\ call_lengths c).
Proof.
  intros HD. unfold ex_calls. intros [<-|[<-|[<-|[]]]]; (split; [reflexivity|]); intros Ha; [| |destruct Ha; reflexivity].
  - split; [|cbn; lia]. unfold ex_tubes. cbn [call_fine]. unfold cylinders_ok, cylinders_plain. cbv zeta.
    split; [split; [|split; [|split; [|split; [|split; [|split; [reflexivity|]]]]]]|].
    + intros c [<-|[<-|[]]]; repeat split; eexists _, _; reflexivity.
    + intros c [<-|[<-|[]]]; [eexists _, _; reflexivity|]. apply (isR_finite _ _ half_isR).
    + intros c [<-|[<-|[]]]; [eexists _, _; reflexivity|]. apply (isR_finite _ _ half_isR).
    + intros c [<-|[<-|[]]]; eexists _, _; reflexivity.
    + intros c [<-|[<-|[]]]; repeat split; eexists _, _; reflexivity.
    + intros i Hi. change (i < 2)%nat in Hi. destruct (tube_data i Hi) as (-> & -> & -> & ->).
      assert (Hr : 0 < tube_r i) by (destruct i; cbn; lra). assert (Hh : 0 < tube_h i) by (destruct i; cbn; lra).
      destruct (tube_extent _ _ Hr Hh) as (X & Y & Z). unfold cyl_lower, cyl_upper. cbn [vx vy vz]. rewrite X, Y, Z.
      split; [|split; [|split; [|split]]].
      * split; [exact Hr|]. split; [exact Hr|]. split; [exact Hh|]. split; [exact quarter_orthogonal|].
        repeat split; unfold axis_row, quarter; cbn [vx vy vz]; auto.
      * destruct i as [|[|i]]; [| |lia]; unfold in_bounds; cbn; repeat split; lra.
      * destruct i as [|[|i]]; [| |lia]; unfold in_bounds; cbn; repeat split; lra.
      * rewrite HD. lra.
      * intros H. apply (tube_surface _ _ _ _ Hr Hh) in H. unfold eye in H. cbn [closed tube vx vy vz] in H.
        destruct i as [|[|i]]; [| |lia]; cbn in H; lra.
    + intros i j t u Hi Hj. change (i < 2)%nat in Hi. change (j < 2)%nat in Hj.
      destruct (tube_data i Hi) as (-> & -> & -> & ->), (tube_data j Hj) as (-> & -> & -> & ->).
      intros Si Sj _ _. destruct i as [|[|i]]; [| |lia]; [|destruct (unseen Si)]. destruct j as [|[|j]]; [reflexivity|destruct (unseen Sj)|lia].
  - split; [|cbn; lia]. unfold ex_balls. cbn [call_fine call_ok]. split; [|split].
    + intros c [<-|[<-|[]]]; repeat split; eexists _, _; reflexivity.
    + intros c [<-|[<-|[]]]; [apply (isR_finite _ _ half_isR)|apply (isR_finite _ _ half3_isR)].
    + intros i Hi. change (i < 2)%nat in Hi. destruct (ball_data i Hi) as (-> & ->). cbv zeta. rewrite HD.
      split; [destruct i; cbn; lra|]. unfold in_bounds, lower, upper. split; [|split; [|lra]].
      * destruct i as [|[|i]]; [| |lia]; cbn; repeat split; lra.
      * destruct i as [|[|i]]; [| |lia]; cbn; repeat split; lra.
Qed.

Lemma ex_runs : exists s, @run _ XN part (new_scene default_options) ex_calls = Ok (s, ex_replies) /\ @primitives_scene _ XN part = Ok s.
Proof.
  destruct (history_defined big tiny eps Htiny part Hpart eye (V 0 0 (-1)) 0 default_options ex_calls)
    as (s & l & E).
  - split; cbn; lia.
  - intros c Hc. destruct (ex_fine (V 0 0 (-1)) c eq_refl Hc) as [H1 H2]. split; [exact H1|]. intros Ha. destruct (H2 Ha) as [H3 H4].
    split; [apply fine_plain, H3|exact H4].
  - unfold ex_calls. intros opt [H|[H|[H|[]]]]; discriminate.
  - exists s. unfold primitives_scene. rewrite E. unfold ex_calls, ex_tubes, ex_balls in E. cbn [run step] in E.
    apply bind_ok in E as ([s1 a1] & E1 & E). apply bind_ok in E1 as ([s1' i1] & E1 & E1'). injection E1' as -> <-.
    rewrite E1. cbn [bind].
    unfold add_cylinders at 1 in E1. cbn [new_scene sc_mesh sc_committed sc_count sc_spheres sc_planes sc_cylinders sc_options] in E1.
    apply bind_ok in E1 as (cys & _ & E1). injection E1 as <- <-.
    apply bind_ok in E as ([s3 l3] & E & E3). injection E3 as -> <-.
    apply bind_ok in E as ([s2 a2] & E1 & E). apply bind_ok in E1 as ([s2' i2] & E1 & E1'). injection E1' as -> <-.
    rewrite E1. cbn [bind].
    unfold add_spheres at 1 in E1. cbn [sc_mesh sc_committed sc_count sc_spheres sc_planes sc_cylinders sc_options] in E1.
    apply bind_ok in E1 as (sps & _ & E1). injection E1 as <- <-.
    apply bind_ok in E as ([s4 l4] & E & E2). injection E2 as -> <-.
    apply bind_ok in E as ([s5 l5] & E1 & E). apply bind_ok in E1 as (s6 & E1 & E1'). injection E1' as -> <-.
    injection E as -> <-. rewrite E1. auto.
Qed.
Lemma ex_geometry g c : geometry_of ex_calls ex_replies g c -> (g = 0%nat /\ c = ex_tubes) \/ (g = 1%nat /\ c = ex_balls).
Proof.
  intros (j & H1 & H2). unfold ex_calls, ex_replies in *.
  destruct j as [|[|[|j]]]; cbn in H1, H2; try discriminate; [| |destruct j; discriminate];
    injection H1 as <-; injection H2 as <-; auto.
Qed.

(** Everything in the scene is within 100 of the eye. *)
Definition ex_things : list (solid * vec Z) := [(tube1, red); (ball1, red); (ball2, green)].
Lemma sq0 a : 0 <= a * a.
Proof. nra. Qed.
Lemma within a b : 0 < b -> a * a < b * b -> - b < a < b.
Proof. intros Hb H. split; nra. Qed.
Lemma near_eye s k U u : In (s, k) ex_things -> rv_norm U = 1 -> inner s (at_t eye U u) -> u < 100.
Proof.
  intros Hs HU Hin. apply Rnot_le_lt. intros Hu.
  assert (HU1 : vx U * vx U + vy U * vy U + vz U * vz U = 1).
  { unfold rv_norm in HU. apply (f_equal (fun x => x * x)) in HU. rewrite sqrt_sqrt in HU; [unfold rv_dot in HU; lra|].
    unfold rv_dot. nra. }
  assert (Hd : u * u = (vx (at_t eye U u) - 0) * (vx (at_t eye U u) - 0) + (vy (at_t eye U u) - 5) * (vy (at_t eye U u) - 5) +
    (vz (at_t eye U u) - 20) * (vz (at_t eye U u) - 20)).
  { unfold at_t, eye, rv_add, rv_scale. cbn [vx vy vz]. 
    transitivity (u * u * (vx U * vx U + vy U * vy U + vz U * vz U)); [rewrite HU1|]; ring. }
  set (p := at_t eye U u) in *. clearbody p.
  assert (-4 < vx p < 4 /\ -2 < vy p < 12 /\ -2 < vz p < 2).
  { destruct Hs as [H|[H|[H|[]]]]; injection H as <- <-; cbn [inner tube1 tube ball1 ball2 ball] in Hin.
    - destruct Hin as [H1 H2]. split; [lra|].
      pose proof (sq0 (vz p)). pose proof (sq0 (vy p - 3)).
      pose proof (within (vy p - 3) 1 ltac:(lra) ltac:(lra)). pose proof (within (vz p) 1 ltac:(lra) ltac:(lra)). lra.
    - pose proof (sq0 (vx p - 1)). pose proof (sq0 (vz p)). pose proof (sq0 (vy p - 1)).
      pose proof (within (vx p - 1) 1 ltac:(lra) ltac:(lra)). pose proof (within (vy p - 1) 1 ltac:(lra) ltac:(lra)).
      pose proof (within (vz p) 1 ltac:(lra) ltac:(lra)). lra.
    - pose proof (sq0 (vx p - -2)). pose proof (sq0 (vz p)). pose proof (sq0 (vy p - 10)).
      pose proof (within (vx p - -2) (3/2) ltac:(lra) ltac:(lra)). pose proof (within (vy p - 10) (3/2) ltac:(lra) ltac:(lra)).
      pose proof (within (vz p) (3/2) ltac:(lra) ltac:(lra)). lra. }
  assert (u * u < 1000) by nra. nra.
Qed.
Lemma ex_outside s k : In (s, k) ex_things -> ~ closed s eye.
Proof.
  intros [H|[H|[H|[]]]]; injection H as <- <-; unfold tube1, ball1, ball2, eye; cbn [closed tube ball vx vy vz]; lra.
Qed.
Lemma ex_crossed s k U u : In (s, k) ex_things -> rv_norm U = 1 -> 0 < u -> inner s (at_t eye U u) ->
  exists g c j t, geometry_of ex_calls ex_replies g c /\ call_cross eye U 0 (Fin big) c j t /\ t < u.
Proof.
  intros Hs HU Hu Hin. pose proof (near_eye s k U u Hs HU Hin) as Hb. pose proof (ex_outside s k Hs) as Ho.
  assert (L : forall t, 0 < t < u -> xltb (Fin t) (Fin big) = true).
  { intros t Ht. apply Rltb_spec. lra. }
  destruct Hs as [H|[H|[H|[]]]]; injection H as <- <-.
  - rewrite tube1_is in Hin, Ho. destruct (tube_pierced (-3) 3 1 1 ltac:(lra) eye U u Ho Hu Hin) as (t & Ht & Hp).
    exists 0%nat, ex_tubes, 0%nat, t. split; [exists 0%nat; split; reflexivity|]. split; [|lra].
    unfold ex_tubes. cbn [call_cross]. destruct (tube_data 0 ltac:(lia)) as (-> & -> & -> & ->).
    split; [cbn; lia|]. split; [|apply L; lra]. split; [exact seen|exact Hp].
  - destruct (ball_pierced 1 1 (1 / 2) eye U u Ho Hu Hin) as (t & Ht & Hp).
    exists 1%nat, ex_balls, 0%nat, t. split; [exists 1%nat; split; reflexivity|]. split; [|lra].
    unfold ex_balls. cbn [call_cross call_hit]. destruct (ball_data 0 ltac:(lia)) as (-> & ->).
    split; [cbn; lia|]. split; [|apply L; lra]. split; [exact Hp|lra].
  - destruct (ball_pierced (-2) 10 (3 / 2) eye U u Ho Hu Hin) as (t & Ht & Hp).
    exists 1%nat, ex_balls, 1%nat, t. split; [exists 1%nat; split; reflexivity|]. split; [|lra].
    unfold ex_balls. cbn [call_cross call_hit]. destruct (ball_data 1 ltac:(lia)) as (-> & ->).
    split; [cbn; lia|]. split; [|apply L; lra]. split; [exact Hp|lra].
Qed.
Lemma ex_shows tol U c : rv_norm U = 1 -> scene_shows tol ex_calls ex_replies eye U (Fin big) c -> solids_show ex_things eye U c.
Proof.
  intros HU [[-> Hn]|(g & k & i & t & Hg & Hh & Hmin & Hc)].
  - left. split; [reflexivity|]. intros s k t Hs Ht Hin.
    destruct (ex_crossed s k U t Hs HU Ht Hin) as (g & c & j & u & Hg & Hx & _). exact (Hn g c j u Hg Hx).
  - right. assert (Hfirst : forall s' k u, In (s', k) ex_things -> 0 < u < t -> ~ inner s' (at_t eye U u)).
    { intros s' k' u Hs Hu Hin. destruct (ex_crossed s' k' U u Hs HU ltac:(lra) Hin) as (g' & c' & j & v & Hg' & Hx & Hv).
      specialize (Hmin g' c' j v Hg' Hx). lra. }
    destruct (ex_geometry g k Hg) as [[-> ->]|[-> ->]]; unfold ex_tubes, ex_balls in Hh; cbn [call_hit] in Hh.
    + destruct Hh as (Hi & (Hs & [[Ht Hm] _]) & _). change (i < 2)%nat in Hi.
      destruct (tube_data i Hi) as (E1 & E2 & E3 & E4). rewrite E1, E2, E3, E4 in Hs, Hm.
      destruct i as [|[|i]]; [| |lia]; [|destruct (unseen Hs)]. destruct Hc as [[_ ->]|[H _]]; [|destruct H; reflexivity].
      exists tube1, t. split; [left; reflexivity|]. split; [exact Ht|]. split; [|exact Hfirst].
      rewrite tube1_is. exact (tube_surface (-3) 3 1 1 ltac:(lra) ltac:(lra) _ Hm).
    + destruct Hh as (Hi & (Hs & Ht) & _). change (i < 2)%nat in Hi.
      destruct (ball_data i Hi) as (E1 & E2). rewrite E1, E2 in Hs.
      destruct i as [|[|i]]; [| |lia]; (destruct Hc as [[Hi0 ->]|[Hi0 ->]]; try discriminate; try (destruct Hi0; reflexivity)).
      * exists ball1, t. split; [right; left; reflexivity|]. split; [exact Ht|]. split; [|exact Hfirst]. exact (ball_surface _ _ _ _ Hs).
      * exists ball2, t. split; [right; right; left; reflexivity|]. split; [exact Ht|]. split; [|exact Hfirst]. exact (ball_surface _ _ _ _ Hs).
Qed.

Lemma primitives_picture width height ps : (0 < width)%Z -> (0 < height)%Z -> (3 * width * height < 4294967296)%Z -> covers width height ps ->
  exists bytes c, @primitives_main _ XN part width height ps = Ok bytes /\ picture width height bytes c /\
    forall x r, (0 <= x < width)%Z -> (0 <= r < height)%Z ->
      solids_show ex_things eye (unit_of (line_of_sight width height x (height - 1 - r))) (c x r).
Proof.
  intros Hw Hh Hs Hc. destruct ex_runs as (s & Hrun & Hsc).
  destruct (scene_picture big tiny eps Heps Htiny part Hpart default_options ex_calls s ex_replies Hrun) with (width := width) (height := height) (ps := ps)
    as (img & bytes & c & E1 & E2 & P & Hp); try assumption.
  - right; right; left; reflexivity.
  - intros opt g k [->|Ho] Hg; [right; cbn; destruct (ex_geometry g k Hg) as [[_ ->]|[_ ->]]; cbn; lia|].
    unfold ex_calls in Ho. destruct Ho as [H|[H|[H|[]]]]; discriminate.
  - intros x y g k _ _ Hg. apply ex_fine.
    + reflexivity.
    + destruct Hg as (j & Hj & _). eapply nth_error_In, Hj.
    + destruct (ex_geometry g k Hg) as [[_ ->]|[_ ->]]; discriminate.
  - exists bytes, c. split; [|split; [exact P|]].
    + unfold primitives_main. rewrite Hsc. cbn [bind]. rewrite E1. cbn [bind]. exact E2.
    + intros x r Hx Hr. apply (ex_shows (4 * eps)); [|apply Hp; assumption].
      apply unit_norm. intros H. apply (f_equal vz) in H. cbn [line_of_sight rv_zero vz] in H. lra.
Qed.
End Example.

(** ** The second cylinder *)
(** The example's scene in binary64, and the pixel whose line of sight goes through the center
    of the second cylinder. *)
Lemma unseen_pixel : exists s, @primitives_scene _ F64 libstdcxx_partition = Ok s /\
  @scene_pixel _ F64 s 1080 720 594 324 = Ok None.
Proof.
  destruct (@primitives_scene _ F64 libstdcxx_partition) as [s| |] eqn:E; [|vm_compute in E; discriminate E..].
  exists s. split; [reflexivity|].
  assert (H : (do s <- @primitives_scene _ F64 libstdcxx_partition; @scene_pixel _ F64 s 1080 720 594 324) = Ok None) by (vm_compute; reflexivity).
  rewrite E in H. exact H.
Qed.
Definition all_things : list (solid * vec Z) := [(tube1, red); (tube2, green); (ball1, red); (ball2, green)].
Lemma center_sight : at_t eye (unit_of (line_of_sight 1080 720 594 324)) (20 * rv_norm (line_of_sight 1080 720 594 324)) = V 1 4 0.
Proof.
  assert (0 < rv_norm (line_of_sight 1080 720 594 324)).
  { unfold rv_norm. apply sqrt_lt_R0. unfold line_of_sight, rv_dot. cbn [vx vy vz]. nra. }
  rewrite PfCyl3.at_unit by lra. apply vec_eq; unfold at_t, rv_add, rv_scale, eye, line_of_sight; cbn [vx vy vz]; field.
Qed.
Lemma not_all : ~ solids_show all_things eye (unit_of (line_of_sight 1080 720 594 324)) black.
Proof.
  intros [[_ H]|(s & t & H & _)].
  - apply (H tube2 green (20 * rv_norm (line_of_sight 1080 720 594 324))).
    + right; left; reflexivity.
    + apply Rmult_lt_0_compat; [lra|]. unfold rv_norm. apply sqrt_lt_R0. unfold line_of_sight, rv_dot. cbn [vx vy vz]. nra.
    + rewrite center_sight. unfold tube2. cbn [inner tube vx vy vz]. lra.
  - destruct H as [H|[H|[H|[H|[]]]]]; discriminate H.
Qed.
Lemma primitives_refute : exists s width height x y c,
  @primitives_scene _ F64 libstdcxx_partition = Ok s /\ (0 <= x < width)%Z /\ (0 <= y < height)%Z /\
  @scene_pixel _ F64 s width height x y = Ok c /\
  ~ solids_show all_things eye (unit_of (line_of_sight width height x y)) (bytes_of 24 128 (or_black (@nofZ _ F32 0) c)).
Proof.
  destruct unseen_pixel as (s & E & Ep). exists s, 1080%Z, 720%Z, 594%Z, 324%Z, None. split; [exact E|]. split; [lia|]. split; [lia|]. split; [exact Ep|].
  rewrite (proj1 colours). exact not_all.
Qed.
