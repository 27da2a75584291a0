(** Triangles and meshes: concrete cases. *)

From Coq Require Import Reals ZArith List Bool Arith Lra Lia Floats.SpecFloat.
From Verif Require Import Num NumR NumX NumF Vec Ray Bvh Traverse Trimesh SpecBvh SpecReal SpecNearest SpecTri.
From Verif Require Import PfPart PfX PfTrav2 PfPlane PfSphere2 PfTri PfTri2 PfTri3 CaseNode CaseSphere CasePlane.
Import ListNotations.
Local Open Scope R_scope.

(** A quadrilateral at x = 10 of two faces, and a face behind it. *)
Definition quad_P : list (vec R) :=
  [V 10 (-1) (-1); V 10 3 (-1); V 10 3 2; V 10 (-1) 2; V 20 (-1) (-1); V 20 3 (-1); V 20 0 3].
Definition quad_p (i : nat) : vec R := nth i quad_P rv_zero.
Definition quad_vertices : list (vec xr) := map vfin quad_P.
Definition quad_faces : list (vec nat) := [V 4 5 6; V 0 1 2; V 0 2 3]%nat.

Lemma quad_are : mesh_are quad_vertices quad_faces quad_p.
Proof.
  split.
  - intros j Hj. cbn in Hj. do 7 (destruct j as [|j]; [eexists; split; [reflexivity|]; repeat split|]). lia.
  - cbn. intros f [<-|[<-|[<-|[]]]]; cbn; lia.
Qed.

Ltac quads := unfold fa, fb, fc, face, quad_faces, quad_p, quad_P in *; cbn [nth vx vy vz] in *.


Lemma quad_normal : forall f, In f quad_faces -> face_normal quad_p f = V 1 0 0.
Proof.
  unfold quad_faces, face_normal. intros f [<-|[<-|[<-|[]]]]; quads; unfold tri_cross, rv_cross, rv_sub; cbn [vx vy vz].
  - replace (V _ _ _) with (V 16 0 0) by (apply vec_eq; cbn [vx vy vz]; ring). apply unit_x. lra.
  - replace (V _ _ _) with (V 12 0 0) by (apply vec_eq; cbn [vx vy vz]; ring). apply unit_x. lra.
  - replace (V _ _ _) with (V 12 0 0) by (apply vec_eq; cbn [vx vy vz]; ring). apply unit_x. lra.
Qed.
Lemma quad_proper : proper quad_p quad_faces.
Proof.
  unfold quad_faces. intros f [<-|[<-|[<-|[]]]] H; quads; apply (f_equal vx) in H;
    unfold tri_cross, rv_cross, rv_sub, rv_zero in H; cbn [vx vy vz] in H; lra.
Qed.

Lemma quad_bounds : forall i, (i < length quad_faces)%nat ->
  in_bounds 1000 (tri_lower (fa quad_faces quad_p i) (fb quad_faces quad_p i) (fc quad_faces quad_p i)) /\
  in_bounds 1000 (tri_upper (fa quad_faces quad_p i) (fb quad_faces quad_p i) (fc quad_faces quad_p i)).
Proof.
  intros i Hi. cbn in Hi. unfold in_bounds, tri_lower, tri_upper. 
  do 3 (destruct i as [|i]; [quads; unfold Rmin, Rmax; repeat destruct (Rle_dec _ _); lra|]). lia.
Qed.
Lemma quad_z : vz (V 1 0 0) = 0 -> forall i, (i < length quad_faces)%nat ->
  vz (V 0 0 0) <> vz (tri_lower (fa quad_faces quad_p i) (fb quad_faces quad_p i) (fc quad_faces quad_p i)) /\
  vz (V 0 0 0) <> vz (tri_upper (fa quad_faces quad_p i) (fb quad_faces quad_p i) (fc quad_faces quad_p i)).
Proof.
  intros _ i Hi. cbn in Hi. unfold tri_lower, tri_upper.
  do 3 (destruct i as [|i]; [quads; unfold Rmin, Rmax; repeat destruct (Rle_dec _ _); lra|]). lia.
Qed.

(** Face 2 is crossed at distance 10. *)
Lemma quad_on t : at_t (V 0 0 0) (V 1 0 0) t = V t 0 0.
Proof. apply vec_eq; rvs; ring. Qed.
Lemma quad_crossed : mesh_cross quad_faces quad_p (V 0 0 0) (V 1 0 0) 0 (Fin 1000) 2 10.
Proof.
  split; [cbn; lia|]. split; [|apply Rltb_spec; lra]. split; [|split; [|lra]].
  - unfold tri_det, tri_cross, rv_cross. quads. rvs. lra.
  - exists (1 / 4), (1 / 12). split; [lra|]. split; [lra|]. split; [lra|]. rewrite quad_on.
    unfold bary. quads. apply vec_eq; rvs; lra.
Qed.

Lemma quad_query : exists ms nodes st rh,
  @make_mesh _ (Xnum 1000 0 0) quad_vertices quad_faces = Ok ms /\
  @build _ (Xnum 1000 0 0) _ libstdcxx_partition [] (@mesh_coll _ (Xnum 1000 0 0) ms) five_opt = Ok (nodes, st) /\
  @traverse _ (Xnum 1000 0 0) _ _ (@tri_isector _ (Xnum 1000 0 0) ms) nodes
    (@make_ray _ (Xnum 1000 0 0) (vfin (V 0 0 0)) (vfin (V 1 0 0)) (Fin 0) (Fin 1000) false)
    (@new_rayhit _ (Xnum 1000 0 0)) = Ok (true, rh) /\
  h_prim rh = Some 2%nat /\ isR (h_distance rh) 10 /\ visR (h_normal rh) (V 1 0 0).
Proof.
  destruct (make_mesh_ok 1000 0 0 quad_vertices quad_p (proj1 quad_are) quad_faces (proj2 quad_are)) as (ms & Em).
  destruct (mesh_build_ok 1000 0 0 quad_vertices quad_faces quad_p ms libstdcxx_partition five_opt quad_are Em
    quad_bounds libstdcxx_partition_ok) as (nodes & st & Eb); [cbn; lia|cbn; lia|].
  assert (Hdep := @opt_depth _ _ (Xnum 1000 0 0) _ libstdcxx_partition_ok _ _ _ _ Eb (le_n 26)).
  pose proof (mesh_exact_query 1000 0 quad_vertices quad_faces quad_p ms libstdcxx_partition five_opt nodes st _ _ _
    (Fin 1000) false _ _ 0 (@new_rayhit _ (Xnum 1000 0 0)) quad_are Em quad_bounds libstdcxx_partition_ok Eb Hdep
    five_admissible quad_z) as (b & rh & E & Hb1 & _ & Hb2).
  rewrite unit_x in Hb1, Hb2 by lra.
  assert (b = true) by (apply Hb1; eauto using quad_crossed). subst b.
  destruct (Hb2 eq_refl) as (i & t & (Hi & (_ & (u & v & U1 & U2 & U3 & Ho) & Ht) & _) & Ep & Ed & _ & Hab & Hmin).
  specialize (Hmin eq_refl 2%nat 10 quad_crossed). rewrite quad_on in Ho.
  assert (Hit : i = 2%nat /\ t = 10 /\ u = 1 / 4 /\ v = 1 / 12).
  { destruct i as [|[|[|i]]]; [..|cbn in Hi; lia]; unfold bary in Ho; quads; clear -Ho U1 U2 U3 Hmin;
      injection Ho as X Y Z; rvs.
    - exfalso. lra.
    - exfalso. lra.
    - split; [reflexivity|]. lra. }
  destruct Hit as (-> & -> & -> & ->). exists ms, nodes, st, rh.
  split; [exact Em|]. split; [exact Eb|]. split; [exact E|]. split; [exact Ep|]. split; [exact Ed|].
  destruct Hab as (u' & v' & _ & _ & N3 & N4). rewrite quad_on in N3.
  assert (Huv : u' = 1 / 4 /\ v' = 1 / 12).
  { unfold bary in N3. quads. clear -N3. injection N3 as X Y Z. rvs. lra. }
  destruct Huv as [-> ->].
  destruct (flat_mixed quad_p quad_faces (V 1 0 0) 2 (1 / 4) (1 / 12) quad_normal) as [F1 F2]; try lra.
  { apply norm_x. lra. }
  { cbn. lia. }
  rewrite <- F2. apply N4; [apply quad_proper|exact F1].
Qed.

(** A direction of length 4 and minimal distance 1: from distance 4 on nothing is missed. *)
Lemma quad_long : wide (vfin (V 0 0 0)) (vfin (V 4 0 0)) (Fin 1) (V 0 0 0) (V 4 0 0) 1.
Proof.
  constructor; try (apply visR_fin); try reflexivity; try lra; try (intros z E; cbn in E; injection E; auto).
  rewrite norm_x by lra. lra.
Qed.
Lemma quad_query_long : exists ms nodes st rh,
  @make_mesh _ (Xnum 1000 0 0) quad_vertices quad_faces = Ok ms /\
  @build _ (Xnum 1000 0 0) _ libstdcxx_partition [] (@mesh_coll _ (Xnum 1000 0 0) ms) five_opt = Ok (nodes, st) /\
  @traverse _ (Xnum 1000 0 0) _ _ (@tri_isector _ (Xnum 1000 0 0) ms) nodes
    (@make_ray _ (Xnum 1000 0 0) (vfin (V 0 0 0)) (vfin (V 4 0 0)) (Fin 1) (Fin 1000) false)
    (@new_rayhit _ (Xnum 1000 0 0)) = Ok (true, rh).
Proof.
  destruct (make_mesh_ok 1000 0 0 quad_vertices quad_p (proj1 quad_are) quad_faces (proj2 quad_are)) as (ms & Em).
  destruct (mesh_build_ok 1000 0 0 quad_vertices quad_faces quad_p ms libstdcxx_partition five_opt quad_are Em
    quad_bounds libstdcxx_partition_ok) as (nodes & st & Eb); [cbn; lia|cbn; lia|].
  assert (Hdep := @opt_depth _ _ (Xnum 1000 0 0) _ libstdcxx_partition_ok _ _ _ _ Eb (le_n 26)).
  pose proof (fun _ : vz (V 4 0 0) = 0 => quad_z eq_refl) as Hz.
  pose proof (mesh_query_wide 1000 0 0 (Rle_refl 0) quad_vertices quad_faces quad_p ms quad_are Em quad_bounds
    libstdcxx_partition libstdcxx_partition_ok five_opt nodes st Eb Hdep _ _ _
    (Fin 1000) false _ _ 1 quad_long Hz (@new_rayhit _ (Xnum 1000 0 0))) as (b & rh & E & Hb & _).
  rewrite unit_x, norm_x in Hb by lra. destruct b; [eauto 8|]. destruct (Hb eq_refl) as [_ F]. exfalso.
  apply (F 2%nat 10). destruct quad_crossed as (C1 & (C2 & C3 & C4) & C5).
  split; [exact C1|]. split; [|exact C5]. split; [exact C2|]. split; [exact C3|]. lra.
Qed.

(** An edge of face 2 is hit: the closed triangle. *)
Definition edge_isect : tri_isect xr := TriIsect (Fin 0) (Fin 0, Fin 0) (Xinf false) None.
Lemma edge_hit big tiny eps : 0 <= eps -> exists i',
  @tri_intersect _ (Xnum big tiny eps) edge_isect
    (@make_triangle _ (Xnum big tiny eps) (vfin (V 10 0 0)) (vfin (V 10 3 0)) (vfin (V 10 0 3)) 5)
    (@make_ray _ (Xnum big tiny eps) (vfin (V 0 1 2)) (vfin (V 1 0 0)) (Fin 0) (Xinf false) false) = (true, i') /\
  isR (ti_hd i') 10.
Proof.
  intros He. destruct (unit_visR big tiny eps (vfin (V 0 1 2)) (vfin (V 1 0 0)) (Fin 0) (Xinf false) false
    (V 0 1 2) (V 1 0 0) 0) as [HU _].
  { destruct five_admissible. split; auto. apply visR_fin. }
  rewrite unit_x in HU by lra.
  apply (tri_complete big tiny eps edge_isect _ _ _ 5 _ (V 0 1 2) (V 1 0 0) 0 (V 10 0 0) (V 10 3 0) (V 10 0 3) 10);
    try apply visR_fin; try apply isR_fin; auto; try lra.
  - unfold tri_det, tri_cross, rv_cross. rvs. lra.
  - exists (1 / 3), (2 / 3). split; [lra|]. split; [lra|]. split; [lra|]. unfold bary. apply vec_eq; rvs; lra.
Qed.

(** Binary64: a triangle with edges of 2^-27 is hit by a ray passing twice an edge away
    from it, if some other box lets the ray through to its leaf. *)
Definition tol_vertices : list (vec spec_float) :=
  [V (f64 10 0) (f64 0 0) (f64 0 0); V (f64 10 0) (f64 1 (-27)) (f64 0 0); V (f64 10 0) (f64 0 0) (f64 1 (-27));
   V (f64 10 0) (f64 (-5) 0) (f64 (-5) 0); V (f64 10 0) (f64 (-5) 0) (f64 (-4) 0); V (f64 10 0) (f64 (-4) 0) (f64 (-5) 0)].
Definition tol_faces : list (vec nat) := [V 0 1 2; V 3 4 5]%nat.
Definition tol_ray : ray spec_float :=
  @make_ray _ F64 (V (f64 0 0) (f64 (-1) (-26)) (f64 1 (-28))) (V (f64 1 0) (f64 0 0) (f64 0 0)) (f64 0 0) (f64 100 0) false.
Definition tol_query (leaf : nat) : option (bool * spec_float) :=
  match @make_mesh _ F64 tol_vertices tol_faces with
  | Ok m => match @build _ F64 _ libstdcxx_partition [] (@mesh_coll _ F64 m) (Options leaf 26 64) with
            | Ok (nodes, _) =>
                match @traverse _ F64 _ _ (@tri_isector _ F64 m) nodes tol_ray (@new_rayhit _ F64) with
                | Ok (b, rh) => Some (b, h_distance rh)
                | _ => None
                end
            | _ => None
            end
  | _ => None
  end.
Lemma tol_split : tol_query 1 = Some (false, @nmaxv _ F64).
Proof. vm_compute. reflexivity. Qed.
Lemma tol_leaf : tol_query 4 = Some (true, f64 10 0).
Proof. vm_compute. reflexivity. Qed.

Lemma tol_refutes : exists m nodes1 nodes2 st1 st2 rh1 rh2,
  @make_mesh _ F64 tol_vertices tol_faces = Ok m /\
  @build _ F64 _ libstdcxx_partition [] (@mesh_coll _ F64 m) (Options 1 26 64) = Ok (nodes1, st1) /\
  @build _ F64 _ libstdcxx_partition [] (@mesh_coll _ F64 m) (Options 4 26 64) = Ok (nodes2, st2) /\
  @traverse _ F64 _ _ (@tri_isector _ F64 m) nodes1 tol_ray (@new_rayhit _ F64) = Ok (false, rh1) /\
  @traverse _ F64 _ _ (@tri_isector _ F64 m) nodes2 tol_ray (@new_rayhit _ F64) = Ok (true, rh2) /\
  h_distance rh2 = f64 10 0.
Proof.
  pose proof tol_split as H1. pose proof tol_leaf as H2. unfold tol_query in H1, H2.
  destruct (@make_mesh _ F64 tol_vertices tol_faces) as [m| |]; [|discriminate..].
  destruct (@build _ F64 _ libstdcxx_partition [] (@mesh_coll _ F64 m) (Options 1 26 64)) as [[nodes1 st1]| |] eqn:B1; [|discriminate..].
  destruct (@build _ F64 _ libstdcxx_partition [] (@mesh_coll _ F64 m) (Options 4 26 64)) as [[nodes2 st2]| |] eqn:B2; [|discriminate..].
  destruct (@traverse _ F64 _ _ (@tri_isector _ F64 m) nodes1 _ _) as [[b1 rh1]| |] eqn:E1; [|discriminate..].
  destruct (@traverse _ F64 _ _ (@tri_isector _ F64 m) nodes2 _ _) as [[b2 rh2]| |] eqn:E2; [|discriminate..].
  injection H1 as -> _. injection H2 as -> Hd. exists m, nodes1, nodes2, st1, st2, rh1, rh2. auto 7.
Qed.
