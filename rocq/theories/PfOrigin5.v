(** The sphere mesh of the benchmarks: statements. *)

From Coq Require Import ZArith Reals List Bool Lia Lra Psatz Floats.SpecFloat.
From Verif Require Import Num NumF NumX Vec Ray Bvh Traverse Trimesh OriginSphere.
From Verif Require Import SpecReal SpecBvh SpecNearest SpecTri SpecOrigin PfPart PfX PfTrav2 PfTri3 PfTriF4 PfOrigin PfOrigin2 PfOrigin4.
Import ListNotations.
Local Open Scope R_scope.

Lemma sphere_defined {T} {N : num T} (t : T) n :
  ((n <= 13)%nat -> exists m, origin_sphere t n = Ok m) /\ ((13 < n)%nat -> origin_sphere t n = UB UBconv).
Proof. split; [intros H; destruct (sphere_drawn t n H) as (m & E & _); eauto|apply sphere_ub]. Qed.

Lemma sphere_ready big tiny eps t tau n m : isR t tau -> 1 < tau -> @origin_sphere _ (Xnum big tiny eps) t n = Ok m ->
  exists P, mesh_are (om_vertices m) (om_triangles m) P.
Proof. intros Ht H1 Hm. exact (sphere_are big tiny eps t tau n m Ht H1 Hm). Qed.
Lemma sphere_shape big tiny eps t tau n m P : isR t tau -> 1 < tau -> @origin_sphere _ (Xnum big tiny eps) t n = Ok m ->
  mesh_are (om_vertices m) (om_triangles m) P ->
  let A := fa (om_triangles m) P in let B := fb (om_triangles m) P in let C := fc (om_triangles m) P in
  (forall j, (j < length (om_vertices m))%nat -> rv_norm (P j) = 1) /\
  (forall i, (i < length (om_triangles m))%nat ->
     0 < rv_dot (A i) (tri_cross (A i) (B i) (C i)) /\
     dist2 (A i) (B i) < 6 / (2 + 4 ^ n) /\ dist2 (B i) (C i) < 6 / (2 + 4 ^ n) /\ dist2 (C i) (A i) < 6 / (2 + 4 ^ n) /\
     forall p, on_tri (A i) (B i) (C i) p -> sqrt (4 ^ n / (2 + 4 ^ n)) <= rv_norm p <= 1).
Proof.
  intros Ht H1 Hm HP A B C. split.
  - intros j Hj. unfold rv_norm. rewrite (sphere_unit big tiny eps t tau n m Ht H1 Hm P HP j Hj). apply sqrt_1.
  - intros i Hi. split; [apply (sphere_outward big tiny eps t tau n m Ht H1 Hm P HP i Hi)|].
    destruct (sphere_edges big tiny eps t tau n m Ht H1 Hm P HP i Hi) as (X & Y & Z). repeat split; try assumption.
    + apply sqrt_le_1_alt, (sphere_surface big tiny eps t tau n m Ht H1 Hm P HP i p Hi H).
    + rewrite <- sqrt_1. apply sqrt_le_1_alt, (sphere_surface big tiny eps t tau n m Ht H1 Hm P HP i p Hi H).
Qed.
Lemma sphere_round big tiny eps t tau n m P : isR t tau -> 1 < tau -> @origin_sphere _ (Xnum big tiny eps) t n = Ok m ->
  mesh_are (om_vertices m) (om_triangles m) P ->
  let A := fa (om_triangles m) P in let B := fb (om_triangles m) P in let C := fc (om_triangles m) P in
  (forall p, exists i, (i < length (om_triangles m))%nat /\ in_cone (A i) (B i) (C i) p) /\
  (forall i j p, (i < length (om_triangles m))%nat -> (j < length (om_triangles m))%nat ->
     within_cone (A i) (B i) (C i) p -> within_cone (A j) (B j) (C j) p -> i = j).
Proof.
  intros Ht H1 Hm HP A B C. split.
  - apply (sphere_cover big tiny eps t tau n m Ht H1 Hm P HP).
  - intros i j p Hi Hj. apply (sphere_once big tiny eps t tau n m Ht H1 Hm P HP i j p Hi Hj).
Qed.

Lemma le_sqrt a b : 0 <= a -> 0 < b -> a <= b * b -> sqrt a <= b.
Proof. intros H0 Hb H. rewrite <- (sqrt_square b) by lra. apply sqrt_le_1_alt, H. Qed.

Lemma center_answer big tiny t tau n m P : 1 <= big -> isR t tau -> 1 < tau -> @origin_sphere _ (Xnum big tiny 0) t n = Ok m ->
  mesh_are (om_vertices m) (om_triangles m) P ->
  forall part opt, partition_ok part -> (1 <= bin_size opt)%nat -> (3 * Z.of_nat (bin_size opt) < 4294967296)%Z -> shallow opt (20 * 4 ^ n) ->
  exists ms nodes st, @make_mesh _ (Xnum big tiny 0) (om_vertices m) (om_triangles m) = Ok ms /\
    @build _ (Xnum big tiny 0) _ part [] (@mesh_coll _ (Xnum big tiny 0) ms) opt = Ok (nodes, st) /\
  forall o d tmin tmax any D m0 rh, admissible o d tmin rv_zero D m0 -> vz D <> 0 -> m0 * m0 <= 4 ^ n / (2 + 4 ^ n) -> xltb (Fin 1) tmax = true ->
  exists rh' i s, @traverse _ (Xnum big tiny 0) _ _ (@tri_isector _ (Xnum big tiny 0) ms) nodes
      (@make_ray _ (Xnum big tiny 0) o d tmin tmax any) rh = Ok (true, rh') /\
    h_prim rh' = Some i /\ (i < length (om_triangles m))%nat /\
    in_cone (fa (om_triangles m) P i) (fb (om_triangles m) P i) (fc (om_triangles m) P i) D /\
    isR (h_distance rh') s /\ sqrt (4 ^ n / (2 + 4 ^ n)) <= s <= 1.
Proof.
  intros Hbig Ht H1 Hm HP part opt Hp B1 B2 Hs.
  destruct (@make_mesh_any _ (Xnum big tiny 0) (om_vertices m) (om_triangles m) (proj2 HP)) as (ms & Ems).
  destruct (mesh_build_ok big tiny 0 (om_vertices m) (om_triangles m) P ms part opt HP Ems
    (sphere_bounds big tiny 0 t tau n m Ht H1 Hm P HP Hbig) Hp B1 B2) as (nodes & st & Eb).
  exists ms, nodes, st. split; [exact Ems|]. split; [exact Eb|]. intros o d tmin tmax any D m0 rh Ha Hz Hm0 Hx.
  assert (Hd : forall k d, node_depth nodes k d -> (d <= 26)%nat).
  { apply (shallow_depth part Hp _ opt nodes st Eb). rewrite (PfTri3.mesh_size big tiny 0 _ _ P ms HP Ems).
    destruct (sphere_counts t n m Hm) as (-> & _). exact Hs. }
  destruct (sphere_query big tiny t tau n m Hbig Ht H1 Hm P HP opt part ms nodes st Hp Ems Eb Hd o d tmin tmax any D m0 rh Ha Hz Hm0 Hx)
    as (rh' & i & s & E & Hi & Hl & Hc & Hr & H0 & L1 & L2).
  exists rh', i, s. split; [exact E|]. split; [exact Hi|]. split; [exact Hl|]. split; [exact Hc|]. split; [exact Hr|]. split.
  - apply le_sqrt; [|exact H0|exact L1]. pose proof (pow4 n). apply Rlt_le, Rdiv_lt_0_compat; lra.
  - nra.
Qed.
