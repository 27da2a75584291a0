(** Concrete spheres around the origin. *)

From Coq Require Import Reals ZArith List Bool Arith Lra Lia Floats.SpecFloat.
From Flocq Require Import Core IEEE754.BinarySingleNaN.
From Verif Require Import Num NumR NumX NumF Vec Datatypes Ray Bvh Traverse Trimesh OriginSphere.
From Verif Require Import SpecBvh SpecReal SpecIEEE SpecTri SpecTriF SpecOrigin.
From Verif Require Import PfPart PfX PfOrigin PfOrigin4 PfOrigin5 PfIEEE CaseIEEE CaseTriF.
Import ListNotations.
Local Open Scope R_scope.

Lemma some_sphere : exists m, @origin_sphere _ F32 golden_float 1 = Ok m /\
  length (om_vertices m) = 72%nat /\ length (om_triangles m) = 80%nat /\ indexed m /\ closed m.
Proof.
  destruct (proj1 (@sphere_defined _ F32 golden_float 1) ltac:(lia)) as (m & E). exists m. split; [exact E|].
  destruct (@sphere_counts _ F32 golden_float 1 m E) as (L & L' & I). cbn in L, L'.
  split; [lia|split; [lia|split; [exact I|exact (sphere_closed_F 24 128 golden_float 1 m E)]]].
Qed.
(** The function's own hypotheses: a number beyond 13 meets the other side. *)
Lemma no_sphere : @origin_sphere _ F32 golden_float 14 = UB UBconv.
Proof. exact (@sphere_ub _ F32 golden_float 14 ltac:(lia)). Qed.

Lemma some_real_sphere : exists m P, @origin_sphere _ (Xnum 1000 0 0) (Fin 2) 2 = Ok m /\ mesh_are (om_vertices m) (om_triangles m) P /\
  length (om_triangles m) = 320%nat.
Proof.
  destruct (proj1 (@sphere_defined _ (Xnum 1000 0 0) (Fin 2) 2) ltac:(lia)) as (m & E).
  destruct (sphere_ready 1000 0 0 (Fin 2) 2 2 m eq_refl ltac:(lra) E) as (P & HP).
  exists m, P. split; [exact E|]. split; [exact HP|]. exact (proj1 (@sphere_counts _ (Xnum 1000 0 0) (Fin 2) 2 m E)).
Qed.

Definition low_opt : options := Options 4 26 64.
Lemma look_out : exists m P ms nodes st rh i s, @origin_sphere _ (Xnum 1000 0 0) (Fin 2) 2 = Ok m /\ mesh_are (om_vertices m) (om_triangles m) P /\
  @make_mesh _ (Xnum 1000 0 0) (om_vertices m) (om_triangles m) = Ok ms /\
  @build _ (Xnum 1000 0 0) _ libstdcxx_partition [] (@mesh_coll _ (Xnum 1000 0 0) ms) low_opt = Ok (nodes, st) /\
  @traverse _ (Xnum 1000 0 0) _ _ (@tri_isector _ (Xnum 1000 0 0) ms) nodes
    (@make_ray _ (Xnum 1000 0 0) (V (Fin 0) (Fin 0) (Fin 0)) (V (Fin 1) (Fin 2) (Fin 2)) (Fin 0) (Fin 1000) false) (@new_rayhit _ (Xnum 1000 0 0)) = Ok (true, rh) /\
  h_prim rh = Some i /\ in_cone (fa (om_triangles m) P i) (fb (om_triangles m) P i) (fc (om_triangles m) P i) (V 1 2 2) /\
  isR (h_distance rh) s /\ sqrt (16 / 18) <= s <= 1.
Proof.
  destruct some_real_sphere as (m & P & E & HP & _).
  destruct (center_answer 1000 0 (Fin 2) 2 2 m P ltac:(lra) eq_refl ltac:(lra) E HP libstdcxx_partition low_opt libstdcxx_partition_ok
    ltac:(cbn; lia) ltac:(reflexivity) ltac:(left; cbn; lia)) as (ms & nodes & st & Em & Eb & H).
  destruct (H (V (Fin 0) (Fin 0) (Fin 0)) (V (Fin 1) (Fin 2) (Fin 2)) (Fin 0) (Fin 1000) false (V 1 2 2) 0 (@new_rayhit _ (Xnum 1000 0 0)))
    as (rh & i & s & Et & Ei & _ & Ec & Es & Hs).
  - assert (Q : rv_norm (V 1 2 2) = 3).
    { unfold rv_norm, rv_dot. cbn. replace (1 * 1 + 2 * 2 + 2 * 2) with (3 * 3) by ring. apply sqrt_square. lra. }
    constructor; [repeat split|repeat split|intros s Hs; injection Hs; intros; subst; lra..|reflexivity|lra|right; lra].
  - cbn. lra.
  - cbn. lra.
  - apply Rltb_spec. lra.
  - exists m, P, ms, nodes, st, rh, i, s.
    replace (4 ^ 2 / (2 + 4 ^ 2)) with (16 / 18) in Hs by lra. auto 10.
Qed.

(** A ray from the center to a vertex of the sphere that misses it. *)
Definition misses (n : nat) (opt : options) : bool :=
  match @origin_sphere _ F32 golden_float n with
  | Ok m =>
    match @make_mesh _ F32 (om_vertices m) (om_triangles m) with
    | Ok ms =>
      match @build _ F32 _ libstdcxx_partition [] (@mesh_coll _ F32 ms) opt with
      | Ok (nodes, _) =>
        existsb (fun dir =>
          match @traverse _ F32 _ _ (@tri_isector _ F32 ms) nodes
            (@make_ray _ F32 (vconst (@n0 _ F32)) dir (@n0 _ F32) (@nmaxv _ F32) false) (@new_rayhit _ F32) with
          | Ok (false, _) => true | _ => false end) (om_vertices m)
      | _ => false
      end
    | _ => false
    end
  | _ => false
  end.
Lemma misses_means n opt : misses n opt = true -> exists m ms nodes st dir rh,
  @origin_sphere _ F32 golden_float n = Ok m /\ @make_mesh _ F32 (om_vertices m) (om_triangles m) = Ok ms /\
  @build _ F32 _ libstdcxx_partition [] (@mesh_coll _ F32 ms) opt = Ok (nodes, st) /\ In dir (om_vertices m) /\
  @traverse _ F32 _ _ (@tri_isector _ F32 ms) nodes
    (@make_ray _ F32 (vconst (@n0 _ F32)) dir (@n0 _ F32) (@nmaxv _ F32) false) (@new_rayhit _ F32) = Ok (false, rh).
Proof.
  unfold misses. destruct (@origin_sphere _ F32 golden_float n) as [m| |]; [|discriminate..].
  destruct (@make_mesh _ F32 (om_vertices m) (om_triangles m)) as [ms| |] eqn:Em; [|discriminate..].
  destruct (@build _ F32 _ libstdcxx_partition [] (@mesh_coll _ F32 ms) opt) as [[nodes st]| |] eqn:Eb; [|discriminate..].
  intros H. apply existsb_exists in H. destruct H as (dir & Hi & Hd). exists m, ms, nodes, st, dir.
  destruct (@traverse _ F32 _ _ (@tri_isector _ F32 ms) nodes
    (@make_ray _ F32 (vconst (@n0 _ F32)) dir (@n0 _ F32) (@nmaxv _ F32) false) (@new_rayhit _ F32)) as [[[|] rh]| |] eqn:Et; try discriminate.
  exists rh. auto 10.
Qed.
Lemma sphere_missed : exists m ms nodes st dir rh,
  @origin_sphere _ F32 golden_float 1 = Ok m /\ @make_mesh _ F32 (om_vertices m) (om_triangles m) = Ok ms /\
  @build _ F32 _ libstdcxx_partition [] (@mesh_coll _ F32 ms) default_options = Ok (nodes, st) /\ In dir (om_vertices m) /\
  @traverse _ F32 _ _ (@tri_isector _ F32 ms) nodes
    (@make_ray _ F32 (vconst (@n0 _ F32)) dir (@n0 _ F32) (@nmaxv _ F32) false) (@new_rayhit _ F32) = Ok (false, rh).
Proof. apply misses_means. vm_compute. reflexivity. Qed.

Lemma golden_is32 : golden_float = S754_finite false 13573053 (-23). Proof. vm_compute. reflexivity. Qed.
Lemma golden_is64 : golden_double = S754_finite false 7286977342734336 (-52). Proof. vm_compute. reflexivity. Qed.
Lemma golden_near : exists tau, isF 24 128 golden_float tau /\ isF 53 1024 golden_double tau /\ 1.6 <= tau <= 1.65.
Proof.
  exists (13573053 / 8388608). rewrite golden_is32, golden_is64. split; [|split; [|lra]].
  - split; [reflexivity|split; [reflexivity|]]. cbn -[Rmult IZR]. unfold F2R. cbn -[Rmult IZR]. lra.
  - split; [reflexivity|split; [reflexivity|]]. cbn -[Rmult IZR]. unfold F2R. cbn -[Rmult IZR]. lra.
Qed.
