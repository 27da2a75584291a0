(** The path tracer's functions: concrete cases. *)

From Coq Require Import Reals ZArith List Bool Arith Lra Lia Psatz Floats.SpecFloat.
From Verif Require Import Num NumR NumX NumF Vec Datatypes Ray Bvh Traverse Trimesh PathTracer SpecBvh SpecReal SpecNearest SpecTri.
From Verif Require Import SpecOptics SpecLight SpecScatter SpecShadow SpecPath.
From Verif Require Import PfPart PfX PfBuild PfTrav2 PfTri2 PfTri3 PfOptics PfScatter PfLight PfLight2 PfShadow PfSound PfPath CaseNode CaseSphere CasePlane CaseTri.
Import ListNotations.
Local Open Scope R_scope.

(** A unit normal that points downwards, and one more. *)
Definition down : vec R := V (2 / 3) (1 / 3) (- (2 / 3)).
Lemma down_unit : rv_dot down down = 1.
Proof. unfold down, rv_dot. cbn. lra. Qed.
Lemma down_frame : exists B1 B2, visR (fst (@revised_onb _ (Xnum 1000 0 0) (vfin down))) B1 /\
  visR (snd (@revised_onb _ (Xnum 1000 0 0) (vfin down))) B2 /\ frame B1 B2 down.
Proof. apply onb_ok; [apply visR_fin|apply down_unit]. Qed.

Definition xcos (x : xr) : xr := match x with Xf _ a => Fin (cos a) | _ => Xnan end.
Definition xsin (x : xr) : xr := match x with Xf _ a => Fin (sin a) | _ => Xnan end.
Lemma xcos_ok : computes xcos cos.
Proof. intros x a H. apply isR_ex in H as (s & ->). reflexivity. Qed.
Lemma xsin_ok : computes xsin sin.
Proof. intros x a H. apply isR_ex in H as (s & ->). reflexivity. Qed.
Lemma half_random : random_number 2147483646 1073741823.
Proof. split; lia. Qed.
Lemma quarter_random : random_number 2147483644 536870911.
Proof. split; lia. Qed.

Lemma down_bounce : exists W, visR (@direction_cos_theta _ (Xnum 1000 0 0) xcos xsin (Fin PI) 4 3 1 (vfin down)) W /\
  rv_dot W W = 1 /\ rv_dot W down = 1 / 2.
Proof.
  destruct (cos_theta_ok 1000 0 0 xcos xsin (Fin PI) PI 4 3 1 (vfin down) down xcos_ok xsin_ok) as (W & B1 & B2 & H1 & _ & _ & _ & H2 & _ & _ & H3).
  - reflexivity.
  - split; lia.
  - split; lia.
  - apply visR_fin.
  - apply down_unit.
  - exists W. split; [exact H1|]. split; [exact H2|]. rewrite H3. unfold unit_share.
    replace (1 - 3 / 4) with ((1 / 2) * (1 / 2)) by lra. apply sqrt_square. lra.
Qed.

(** Light arriving on a mirror, and on glass. *)
Definition slanted : vec R := V (3 / 5) 0 (- (4 / 5)).
Lemma slanted_mirror : visR (@reflect _ (Xnum 1000 0 0) (vfin slanted) (vfin (V 0 0 1))) (V (3 / 5) 0 (4 / 5)).
Proof.
  destruct (reflect_ok 1000 0 0 (vfin slanted) (vfin (V 0 0 1)) slanted (V 0 0 1)) as (W & H & H1 & H2 & _);
    [apply visR_fin|apply visR_fin|unfold rv_dot; cbn; lra|].
  replace (V (3 / 5) 0 (4 / 5)) with W; [exact H|].
  pose proof (f_equal vx H1) as X. pose proof (f_equal vy H1) as Y. pose proof (f_equal vz H2) as Z.
  unfold across, along, rv_sub, rv_scale, rv_dot, slanted in X, Y, Z. cbn [vx vy vz] in X, Y, Z.
  destruct W as [a b c]. cbn [vx vy vz] in *. f_equal; lra.
Qed.
Lemma slanted_glass : exists W, visR (@refract _ (Xnum 1000 0 0) (vfin slanted) (vfin (V 0 0 1)) (Fin (4 / 3))) W /\
  rv_dot W W = 1 /\ vx W = 4 / 5 /\ vz W = - (3 / 5).
Proof.
  destruct (refract_ok 1000 0 0 (vfin slanted) (vfin (V 0 0 1)) (Fin (4 / 3)) slanted (V 0 0 1) (4 / 3)) as [_ H];
    [apply visR_fin|apply visR_fin|reflexivity|unfold rv_dot, slanted; cbn; lra|unfold rv_dot; cbn; lra|].
  assert (Ek : 1 - 4 / 3 * (4 / 3) * (1 - rv_dot (V 0 0 1) slanted * rv_dot (V 0 0 1) slanted) = 3 / 5 * (3 / 5)).
  { unfold rv_dot, slanted. cbn. lra. }
  rewrite Ek in H. destruct H as (W & H1 & H2 & H3 & H4); [lra|]. exists W. split; [exact H1|]. split; [exact H2|].
  rewrite sqrt_square in H4 by lra. unfold rv_dot in H4. cbn [vx vy vz] in H4.
  apply (f_equal vx) in H3. unfold across, along, rv_sub, rv_scale, rv_dot, slanted in H3. cbn [vx vy vz] in H3. split; lra.
Qed.
(** Too flat: nothing gets through. *)
Lemma slanted_total : visR (@refract _ (Xnum 1000 0 0) (vfin slanted) (vfin (V 0 0 1)) (Fin 2)) rv_zero.
Proof.
  destruct (refract_ok 1000 0 0 (vfin slanted) (vfin (V 0 0 1)) (Fin 2) slanted (V 0 0 1) 2) as [H _];
    [apply visR_fin|apply visR_fin|reflexivity|unfold rv_dot, slanted; cbn; lra|unfold rv_dot; cbn; lra|].
  apply H. unfold rv_dot, slanted. cbn. lra.
Qed.

(** A material with some of everything. *)
Definition mixed_surface (dissolve : R) : surface :=
  Surface (V (1 / 2) (1 / 2) (1 / 2)) (V 0 0 0) (V 1 1 1) (V 1 1 1) (3 / 2) dissolve.
Definition mixed_material (dissolve : R) : material xr :=
  Material (vfin (V (1 / 2) (1 / 2) (1 / 2))) (vfin (V 0 0 0)) (vfin (V 1 1 1)) (vfin (V 1 1 1)) (Fin (3 / 2)) (Fin dissolve).
Lemma mixed_is d : material_is (mixed_material d) (mixed_surface d).
Proof. repeat split. Qed.
Lemma mixed_physical d : 0 <= d <= 1 -> physical (mixed_surface d).
Proof. intros H. unfold physical, vnonneg, mixed_surface. cbn. lra. Qed.
(** With dissolve 1/2 and reflectance 1/4 the shares are 4/13, 3/13, 6/13 and 0. *)
Lemma mixed_shares : share (mixed_surface (1 / 2)) (1 / 4) Glossy = 4 / 13 /\
  share (mixed_surface (1 / 2)) (1 / 4) Diffuse = 3 / 13 /\ share (mixed_surface (1 / 2)) (1 / 4) Refract = 6 / 13 /\
  share (mixed_surface (1 / 2)) (1 / 4) Emit = 0.
Proof. unfold share, likely_sum, likely, mean, mixed_surface. cbn. repeat split; field. Qed.
Lemma mixed_choice : @choose_event _ (Xnum 1000 0 0) (@rho _ (Xnum 1000 0 0) (mixed_material (1 / 2)) (Fin (1 / 4))) (Fin (1 / 2)) = Diffuse.
Proof.
  destruct (choice_ok 1000 0 0 (mixed_material (1 / 2)) (mixed_surface (1 / 2)) (Fin (1 / 4)) (1 / 4) (Fin (1 / 2)) (1 / 2)) as (_ & H & _);
    [apply mixed_is|apply mixed_physical; lra|reflexivity|lra|reflexivity|lra|].
  destruct mixed_shares as (S1 & S2 & S3 & S4).
  apply H; [|lra|discriminate|]; [unfold likely_sum, likely, mean, mixed_surface; cbn; lra|].
  cbn [from]. rewrite S1, S2. lra.
Qed.

(** An opaque material is refracted through. *)
Lemma opaque_refracts : exists m s x f rnd r, material_is m s /\ physical s /\ sf_dissolve s = 1 /\
  isR x f /\ 0 <= f <= 1 /\ isR rnd r /\ 0 <= r < 1 /\
  @choose_event _ (Xnum 1000 0 0) (@rho _ (Xnum 1000 0 0) m x) rnd = Refract.
Proof.
  exists (mixed_material 1), (mixed_surface 1), (Fin (1 / 4)), (1 / 4), (Fin (1 / 2)), (1 / 2).
  split; [apply mixed_is|]. split; [apply mixed_physical; lra|]. split; [reflexivity|]. split; [reflexivity|]. split; [lra|].
  split; [reflexivity|]. split; [lra|].
  destruct (choice_ok 1000 0 0 (mixed_material 1) (mixed_surface 1) (Fin (1 / 4)) (1 / 4) (Fin (1 / 2)) (1 / 2)) as (_ & H & _);
    [apply mixed_is|apply mixed_physical; lra|reflexivity|lra|reflexivity|lra|].
  apply H; [|lra|discriminate|].
  - unfold likely_sum, likely, mean, mixed_surface; cbn; lra.
  - cbn [from]. unfold share, likely_sum, likely, mean, mixed_surface. cbn. split.
    + apply Rmult_le_reg_r with (IZR 16 / 16); [lra|]. field_simplify. lra.
    + apply Rmult_lt_reg_r with (IZR 16 / 16); [lra|]. field_simplify. lra.
Qed.

(** A ray that arrives from outside, against the normal, at glass of index 3/2. *)
Lemma ratio_reversed : exists h d Nn U ior n, visR h Nn /\ visR d U /\ rv_dot Nn Nn = 1 /\ rv_dot U U = 1 /\ isR ior n /\ 1 < n /\
  rv_dot U Nn < 0 /\
  ~ isR (@index_ratio _ (Xnum 1000 0 0) ior (@inside _ (Xnum 1000 0 0) d (fst (@shading_normals _ (Xnum 1000 0 0) h d)))) (/ n).
Proof.
  exists (vfin (V 0 0 1)), (vfin slanted), (V 0 0 1), slanted, (Fin (3 / 2)), (3 / 2).
  split; [apply visR_fin|]. split; [apply visR_fin|]. split; [unfold rv_dot; cbn; lra|].
  split; [unfold rv_dot, slanted; cbn; lra|]. split; [reflexivity|]. split; [lra|]. split; [unfold rv_dot, slanted; cbn; lra|].
  destruct (ratio_ok 1000 0 0 (vfin (V 0 0 1)) (vfin slanted) (V 0 0 1) slanted (Fin (3 / 2)) (3 / 2)) as [H _];
    [apply visR_fin|apply visR_fin|reflexivity|lra|].
  destruct H as [_ H]; [unfold rv_dot, slanted; cbn; lra|]. intros F. pose proof (isR_inj _ _ _ H F). lra.
Qed.

(** Face 0 of [quad_faces] gives off light. *)
Definition lamp_ids : list Z := [1; 0; 0]%Z.
Definition lamp_surface : surface := Surface (V 0 0 0) (V 5 5 4) (V 0 0 0) (V 0 0 0) 1 0.
Definition lamp_material : material xr :=
  Material (vfin (V 0 0 0)) (vfin (V 5 5 4)) (vfin (V 0 0 0)) (vfin (V 0 0 0)) (Fin 1) (Fin 0).
Definition lamp_materials : list (material xr) := [mixed_material 0; lamp_material].
Definition lamp_sf (j : nat) : surface := match j with O => mixed_surface 0 | _ => lamp_surface end.
Lemma lamp_are : materials_are lamp_materials lamp_sf.
Proof. intros j Hj. cbn in Hj. destruct j as [|[|j]]; [..|lia]; eexists; (split; [reflexivity|repeat split]). Qed.

Lemma lamp_light : @make_light _ (Xnum 1000 0 0) quad_faces lamp_ids lamp_materials = Ok [(0%nat, 1%Z)].
Proof.
  assert (E0 : @is_emissive _ (Xnum 1000 0 0) (mixed_material 0) = false).
  { unfold is_emissive. cbn. unfold Rltb. repeat destruct (Rlt_dec _ _); try lra; reflexivity. }
  assert (E1 : @is_emissive _ (Xnum 1000 0 0) lamp_material = true).
  { unfold is_emissive. cbn. unfold Rltb. repeat destruct (Rlt_dec _ _); try lra; reflexivity. }
  unfold make_light. cbn [length quad_faces emissive_faces lamp_ids at_ nth_error bind].
  change (atZ UBprim lamp_materials 1) with (Ok lamp_material). change (atZ UBprim lamp_materials 0) with (Ok (mixed_material 0)).
  cbn [bind]. rewrite E0, E1. reflexivity.
Qed.

Definition xfloor (x : xr) : option Z :=
  match x with
  | Xf _ a => if Rle_dec 0 a then if Rlt_dec a 4294967296 then Some (Int_part a) else None else None
  | _ => None
  end.
Lemma xfloor_ok : floors xfloor.
Proof.
  intros x a H Ha. apply isR_ex in H as (s & ->). cbn. destruct (Rle_dec 0 a); [|lra]. destruct (Rlt_dec a 4294967296); [reflexivity|lra].
Qed.

(** Seen from 3 behind the point (20, 1/4, 0) the numbers 1/4 and 1/2 belong to. *)
Lemma lamp_sampled : exists l,
  @sample_direct _ (Xnum 1000 0 0) xfloor [(0%nat, 1%Z)] quad_vertices quad_faces lamp_materials
    (vfin (V 23 (1 / 4) 0)) (Fin (1 / 4)) (Fin (1 / 2)) = Ok l /\
  isR (ls_dist l) 3 /\ visR (ls_dir l) (V (-1) 0 0) /\ isR (ls_pdf l) (9 / 8) /\
  exists rad, ls_rad l = Some rad /\ visR rad (V 5 5 4).
Proof.
  destruct (sample_ok 1000 0 0 xfloor [(0%nat, 1%Z)] quad_vertices quad_faces quad_p lamp_materials lamp_sf
    (vfin (V 23 (1 / 4) 0)) (V 23 (1 / 4) 0) (Fin (1 / 4)) (Fin (1 / 2)) (1 / 4) (1 / 2)) as (i & f & id & l & H1 & H2 & H3 & _ & H4);
    try (first [apply xfloor_ok | apply quad_are | apply lamp_are | apply visR_fin | reflexivity | lra | cbn; lia]).
  { intros f id [E|[]]. injection E as <- <-. cbn. lia. }
  destruct i as [|[|i]]; [|discriminate|discriminate]. injection H1 as <- <-.
  cbn [length INR] in *. exists l. split; [exact H2|].
  assert (Hs : sampled (fa quad_faces quad_p 0) (fb quad_faces quad_p 0) (fc quad_faces quad_p 0) (1 / 4 * 1 - 0) (1 / 2) = V 20 (1 / 4) 0).
  { unfold sampled. replace (1 / 4 * 1 - 0) with (1 / 2 * (1 / 2)) by lra. rewrite sqrt_square by lra.
    quads. unfold bary. apply vec_eq; rvs; lra. }
  rewrite Hs in H4.
  assert (Hc : tri_cross (fa quad_faces quad_p 0) (fb quad_faces quad_p 0) (fc quad_faces quad_p 0) = V 16 0 0).
  { quads. unfold tri_cross, rv_cross. apply vec_eq; rvs; lra. }
  destruct H4 as (A1 & _ & A2).
  { rewrite Hc. intros F. injection F as F. lra. }
  assert (Hq : rv_sub (V 20 (1 / 4) 0) (V 23 (1 / 4) 0) = rv_scale (-1) (V 3 0 0)) by (apply vec_eq; rvs; lra).
  assert (Hn3 : rv_norm (rv_scale (-1) (V 3 0 0)) = 3).
  { unfold rv_norm, rv_dot, rv_scale. cbn. match goal with |- sqrt ?x = _ => replace x with (3 * 3) by ring end. apply sqrt_square. lra. }
  rewrite Hq, Hn3 in *. destruct A2 as (B1 & B2 & B3 & _); [lra|].
  assert (Hu : unit_of (rv_scale (-1) (V 3 0 0)) = V (-1) 0 0).
  { unfold unit_of. rewrite Hn3. unfold rv_scale. cbn. f_equal; lra. }
  assert (Hcos : cos_at_light (fa quad_faces quad_p 0) (fb quad_faces quad_p 0) (fc quad_faces quad_p 0) (V (-1) 0 0) = 1).
  { unfold cos_at_light. rewrite Hc, unit_x by lra. unfold rv_dot. cbn. rewrite Rmax_left; lra. }
  rewrite Hu, Hcos in *. split; [exact A1|]. split; [exact B1|]. split.
  - assert (Ha : tri_area (fa quad_faces quad_p 0) (fb quad_faces quad_p 0) (fc quad_faces quad_p 0) = 8).
    { unfold tri_area. rewrite Hc, norm_x by lra. lra. }
    rewrite Ha in B3. replace (9 / 8) with (3 * 3 / (1 * 8 * 1)) by lra. apply B3. lra.
  - destruct B2 as (rad & R1 & R2). exists rad. split; [exact R1|].
    replace (V 5 5 4) with (rv_scale 1 (sf_emission (lamp_sf (Z.to_nat 1)))); [exact R2|]. change (sf_emission (lamp_sf (Z.to_nat 1))) with (V 5 5 4). apply vec_eq; rvs; lra.
Qed.

(** No lights: undefined. *)
Lemma dark_undefined : exists floor_u vertices faces materials x xi1 xi2, floors floor_u /\
  @make_light _ (Xnum 1000 0 0) faces [0; 0; 0]%Z materials = Ok [] /\
  @sample_direct _ (Xnum 1000 0 0) floor_u [] vertices faces materials x xi1 xi2 = UB UBprim.
Proof.
  exists xfloor, quad_vertices, quad_faces, [mixed_material 0], (vfin (V 0 0 0)), (Fin (1 / 2)), (Fin (1 / 2)).
  split; [apply xfloor_ok|]. split.
  - assert (E0 : @is_emissive _ (Xnum 1000 0 0) (mixed_material 0) = false).
    { unfold is_emissive. cbn. unfold Rltb. repeat destruct (Rlt_dec _ _); try lra; reflexivity. }
    unfold make_light. cbn [length quad_faces emissive_faces at_ nth_error bind].
    change (atZ UBprim [mixed_material 0] 0) with (Ok (mixed_material 0)). cbn [bind]. rewrite E0. reflexivity.
  - eapply sample_empty; [apply xfloor_ok|reflexivity].
Qed.

(** A segment through the quadrilateral. *)
Lemma quad_blocked : exists ms nodes st,
  @make_mesh _ (Xnum 1000 0 0) quad_vertices quad_faces = Ok ms /\
  @build _ (Xnum 1000 0 0) _ libstdcxx_partition [] (@mesh_coll _ (Xnum 1000 0 0) ms) five_opt = Ok (nodes, st) /\
  @check_for_occluder _ (Xnum 1000 0 0) (vfin (V (19 / 2) 0 0)) (vfin (V (21 / 2) 0 0)) ms nodes = Ok true /\
  @check_for_occluder _ (Xnum 1000 0 0) (vfin (V (25 / 2) 0 0)) (vfin (V (27 / 2) 0 0)) ms nodes = Ok false.
Proof.
  destruct (make_mesh_ok 1000 0 0 quad_vertices quad_p (proj1 quad_are) quad_faces (proj2 quad_are)) as (ms & Em).
  destruct (mesh_build_ok 1000 0 0 quad_vertices quad_faces quad_p ms libstdcxx_partition five_opt quad_are Em
    quad_bounds libstdcxx_partition_ok) as (nodes & st & Eb); [cbn; lia|cbn; lia|].
  assert (Hdep := @opt_depth _ _ (Xnum 1000 0 0) _ libstdcxx_partition_ok _ _ _ _ Eb (le_n 26)).
  exists ms, nodes, st. split; [exact Em|]. split; [exact Eb|].
  assert (Hs : forall a, rv_sub (V (a + 1) 0 0) (V a 0 0) = V 1 0 0) by (intros; apply vec_eq; rvs; lra).
  assert (Hz : forall a, no_neg_zeros (vfin (V a 0 0))).
  { intros a. repeat split; intros s E; cbn in E; injection E; auto. }
  assert (Hg : forall a, 0 <= a -> exists b, @check_for_occluder _ (Xnum 1000 0 0) (vfin (V a 0 0)) (vfin (V (a + 1) 0 0)) ms nodes = Ok b /\
    (b = true <-> exists i, crosses_segment quad_faces quad_p (V a 0 0) (V (a + 1) 0 0) (1 / 100000) (1 - 1 / 100000) i)).
  { intros a Ha. apply (shadow_unit 1000 0 quad_vertices quad_faces quad_p ms libstdcxx_partition five_opt nodes st); auto.
    - apply quad_are.
    - exact quad_bounds.
    - apply libstdcxx_partition_ok.
    - apply visR_fin.
    - apply visR_fin.
    - rewrite Hs. apply norm_x. lra.
    - intros _ i Hi. apply (quad_z eq_refl i Hi). }
  split.
  - destruct (Hg (19 / 2)) as (b & E & H); [lra|]. replace (19 / 2 + 1) with (21 / 2) in * by lra. rewrite E. f_equal. apply H.
    exists 2%nat, (1 / 2). split; [cbn; lia|]. split; [lra|].
    assert (Hs' : rv_sub (V (21 / 2) 0 0) (V (19 / 2) 0 0) = V 1 0 0) by (apply vec_eq; rvs; lra). rewrite Hs', unit_x by lra.
    split.
    + unfold tri_det, tri_cross, rv_cross. quads. rvs. lra.
    + exists (1 / 4), (1 / 12). split; [lra|]. split; [lra|]. split; [lra|]. unfold bary. quads. apply vec_eq; rvs; lra.
  - destruct (Hg (25 / 2)) as (b & E & H); [lra|]. replace (25 / 2 + 1) with (27 / 2) in * by lra. rewrite E. f_equal.
    destruct b; [|reflexivity]. exfalso. destruct H as [H _]. destruct (H eq_refl) as (i & t & Hi & Ht & _ & (u & v & U1 & U2 & U3 & Ho)).
    assert (Hs' : rv_sub (V (27 / 2) 0 0) (V (25 / 2) 0 0) = V 1 0 0) by (apply vec_eq; rvs; lra). rewrite Hs', unit_x in Ho by lra.
    apply (f_equal vx) in Ho. destruct i as [|[|[|i]]]; [..|cbn in Hi; lia]; unfold bary in Ho; quads; rvs; lra.
Qed.

(** Binary64: a face between two points is seen from one of them only. *)
Definition near_vertices : list (vec spec_float) :=
  [V (f64 (-1) 0) (f64 (-1) 0) (f64 3 (-3)); V (f64 1 0) (f64 (-1) 0) (f64 3 (-3)); V (f64 0 0) (f64 1 0) (f64 3 (-3))].
Definition near_from : vec spec_float := V (f64 0 0) (f64 0 0) (f64 0 0).
Definition near_to : vec spec_float := V (f64 0 0) (f64 0 0) (f64 1 (-1)).
Definition near_answers : option (bool * bool) :=
  match @make_mesh _ F64 near_vertices [V 0 1 2]%nat with
  | Ok m => match @build _ F64 _ libstdcxx_partition [] (@mesh_coll _ F64 m) default_options with
            | Ok (nodes, _) =>
                match @check_for_occluder _ F64 near_from near_to m nodes, @check_for_occluder _ F64 near_to near_from m nodes with
                | Ok a, Ok b => Some (a, b)
                | _, _ => None
                end
            | _ => None
            end
  | _ => None
  end.
Lemma near_one_sided : near_answers = Some (false, true).
Proof. vm_compute. reflexivity. Qed.
Lemma near_refutes : exists vertices m nodes st p q,
  @make_mesh _ F64 vertices [V 0 1 2]%nat = Ok m /\
  @build _ F64 _ libstdcxx_partition [] (@mesh_coll _ F64 m) default_options = Ok (nodes, st) /\
  @check_for_occluder _ F64 p q m nodes = Ok false /\ @check_for_occluder _ F64 q p m nodes = Ok true.
Proof.
  pose proof near_one_sided as H. unfold near_answers in H. exists near_vertices.
  destruct (make_mesh _ _) as [m| |]; [|discriminate..]. exists m.
  destruct (build _ _ _ _) as [[nodes st]| |]; [|discriminate..]. exists nodes, st, near_from, near_to.
  destruct (check_for_occluder near_from near_to m nodes); [|discriminate..].
  destruct (check_for_occluder near_to near_from m nodes); [|discriminate..]. injection H as -> ->. auto.
Qed.

(** The path loop on the quadrilateral and the lamp, for all random numbers. *)
Lemma quad_normals : normals_defined (4 * 0) quad_faces quad_p.
Proof.
  intros i U q u v Hi Hd (_ & N1 & N2 & N3).
  assert (Ha : 0 < Rabs (tri_det (fa quad_faces quad_p i) (fb quad_faces quad_p i) (fc quad_faces quad_p i) U)) by (apply Rabs_pos_lt, Hd).
  set (a := Rabs _) in *. clearbody a.
  assert (Hp : forall x, - (4 * 0) <= a * x -> 0 <= x).
  { intros x Hx. apply Rmult_le_reg_l with a; [exact Ha|]. lra. }
  apply Hp in N1, N2, N3.
  destruct (flat_mixed quad_p quad_faces (V 1 0 0) i u v quad_normal) as [F1 F2]; auto; try lra.
  apply norm_x. lra.
Qed.
Lemma lamp_valid : materials_valid quad_faces lamp_ids lamp_materials lamp_sf.
Proof.
  split; [apply lamp_are|]. split.
  - intros j Hj. cbn in Hj. destruct j as [|[|j]]; [apply mixed_physical; lra| |lia].
    unfold physical, vnonneg, lamp_sf, lamp_surface. cbn. lra.
  - intros f Hf. cbn in Hf. destruct f as [|[|[|f]]]; [..|lia].
    + exists 1%Z, lamp_material. split; [reflexivity|]. split; [cbn; lia|reflexivity].
    + exists 0%Z, (mixed_material 0). split; [reflexivity|]. split; [cbn; lia|reflexivity].
    + exists 0%Z, (mixed_material 0). split; [reflexivity|]. split; [cbn; lia|reflexivity].
Qed.
Lemma quad_pixel : exists ms nodes st,
  @make_mesh _ (Xnum 1000 0 0) quad_vertices quad_faces = Ok ms /\
  @build _ (Xnum 1000 0 0) _ libstdcxx_partition [] (@mesh_coll _ (Xnum 1000 0 0) ms) five_opt = Ok (nodes, st) /\
  forall ks rnd, (forall i, random_number 32767 (fst (ks i)) /\ random_number 32767 (snd (ks i))) ->
    (forall s i k, random_number 32767 (rnd s i k)) ->
    exists c, @pixel _ (Xnum 1000 0 0) xcos xsin (Fin PI) xfloor 32767 ms nodes lamp_ids lamp_materials [(0%nat, 1%Z)] 512 512 7 9 ks rnd = Ok c /\
      colour c.
Proof.
  destruct (make_mesh_ok 1000 0 0 quad_vertices quad_p (proj1 quad_are) quad_faces (proj2 quad_are)) as (ms & Em).
  destruct (mesh_build_ok 1000 0 0 quad_vertices quad_faces quad_p ms libstdcxx_partition five_opt quad_are Em
    quad_bounds libstdcxx_partition_ok) as (nodes & st & Eb); [cbn; lia|cbn; lia|].
  assert (Hdep := @opt_depth _ _ (Xnum 1000 0 0) _ libstdcxx_partition_ok _ _ _ _ Eb (le_n 26)).
  exists ms, nodes, st. split; [exact Em|]. split; [exact Eb|]. intros ks rnd Hks Hr.
  apply (pixel_sound 1000 0 0 quad_vertices quad_faces quad_p ms quad_are Em libstdcxx_partition libstdcxx_partition_ok
    five_opt nodes st Eb Hdep quad_proper quad_normals lamp_ids lamp_materials lamp_sf [(0%nat, 1%Z)] lamp_valid lamp_light) with (p := PI);
    auto using xcos_ok, xsin_ok, xfloor_ok, PI_RGT_0; try reflexivity; try lia; try discriminate.
  exact PI_RGT_0.
Qed.

(** Binary64, one bounce: the lamp is seen with its full colour; on a face used twice,
    with both orientations, there is no normal, and the colour is not a number. *)
Definition lamp64 : list (material spec_float) :=
  [Material (vconst (f64 0 0)) (V (f64 5 0) (f64 5 0) (f64 4 0)) (vconst (f64 0 0)) (vconst (f64 0 0)) (f64 1 0) (f64 0 0)].
Definition one_bounce (faces : list (vec nat)) : option (vec spec_float) :=
  match @make_mesh _ F64 near_vertices faces with
  | Ok m => match @build _ F64 _ libstdcxx_partition [] (@mesh_coll _ F64 m) default_options with
            | Ok (nodes, _) =>
                match @bounce _ F64 (fun x => x) (fun x => x) (f64 3 0) (fun _ => None) 32767 m nodes [0; 0]%Z lamp64 [(0%nat, 0%Z)] 0
                        (fun _ => 1%Z) (Path near_to (V (f64 0 0) (f64 0 0) (f64 (-1) 0)) (vconst (f64 0 0)) (vconst (f64 1 0)) true) with
                | Ok (_, q) => Some (pa_color q)
                | _ => None
                end
            | _ => None
            end
  | _ => None
  end.
Lemma lamp_seen : one_bounce [V 0 1 2]%nat = Some (V (f64 5 0) (f64 5 0) (f64 4 0)).
Proof. vm_compute. reflexivity. Qed.
Lemma lamp_twice : one_bounce [V 0 1 2; V 0 2 1]%nat = Some (V S754_nan S754_nan S754_nan).
Proof. vm_compute. reflexivity. Qed.
Lemma twice_refutes : exists vertices faces m nodes st ids materials lights rnd q go q',
  @make_mesh _ F64 vertices faces = Ok m /\
  @build _ F64 _ libstdcxx_partition [] (@mesh_coll _ F64 m) default_options = Ok (nodes, st) /\
  pa_color q = vconst (f64 0 0) /\ (forall k, random_number 32767 (rnd k)) /\
  @bounce _ F64 (fun x => x) (fun x => x) (f64 3 0) (fun _ => None) 32767 m nodes ids materials lights 0 rnd q = Ok (go, q') /\
  pa_color q' = vconst S754_nan.
Proof.
  pose proof lamp_twice as H. unfold one_bounce in H. exists near_vertices, [V 0 1 2; V 0 2 1]%nat.
  destruct (make_mesh _ _) as [m| |]; [|discriminate..]. exists m.
  destruct (build _ _ _ _) as [[nodes st]| |]; [|discriminate..]. exists nodes, st, [0; 0]%Z, lamp64, [(0%nat, 0%Z)], (fun _ => 1%Z).
  exists (Path near_to (V (f64 0 0) (f64 0 0) (f64 (-1) 0)) (vconst (f64 0 0)) (vconst (f64 1 0)) true).
  destruct (bounce _ _ _ _ _ _ _ _ _ _ _ _ _) as [[go q]| |] eqn:Eb; [|discriminate..]. exists go, q.
  injection H as H. repeat split; auto; lia.
Qed.
