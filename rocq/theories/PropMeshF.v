(** Meshes in IEEE arithmetic ([Fnum prec emax]; binary32 is [Fnum 24 128], binary64 is
    [Fnum 53 1024]): from the vertices to the answer. *)

From Coq Require Import Reals ZArith List Bool Arith Floats.SpecFloat.
From Flocq Require Import Core IEEE754.BinarySingleNaN.
From Verif Require Import Num NumR NumF Vec Datatypes Ray Bvh Traverse Trimesh.
From Verif Require Import SpecBvh SpecReal SpecIEEE SpecTri SpecTriF.
From Verif Require Import PfMeshF CaseIEEE CaseChain CaseTriF CaseMeshF.
Import ListNotations.
Local Open Scope R_scope.

(** C85: the center of a face is its centroid up to four units of roundoff. *)
Theorem C85_center : forall prec emax, Prec_gt_0 prec -> Prec_lt_emax prec emax -> usual_format prec emax ->
  forall M, scale_ok prec emax M -> forall a b c A B C,
  visF prec emax a A -> visF prec emax b B -> visF prec emax c C -> coords M A -> coords M B -> coords M C ->
  exists m, visF prec emax (@tri_center _ (Fnum prec emax) a b c) m /\ coords (4 * ulpf prec * M) (rv_sub m (centroid A B C)).
Proof. exact center_ready. Qed.
Print Assumptions C85_center.
(** It may lie outside the face's box: here all three corners have the same height. *)
Example C85_center_case :
  visF 53 1024 (p64 0 0 9007199254740990) (pR 0 0 9007199254740990) /\ visF 53 1024 (p64 1 0 9007199254740990) (pR 1 0 9007199254740990) /\
  visF 53 1024 (p64 0 1 9007199254740990) (pR 0 1 9007199254740990) /\
  exists m, visF 53 1024 (@tri_center _ F64 (p64 0 0 9007199254740990) (p64 1 0 9007199254740990) (p64 0 1 9007199254740990)) m /\
    vz m = 9007199254740989.
Proof. exact center_off. Qed.

(** C85: the mesh and its hierarchy can be built if extents of boxes are zero or large enough for
    that not to matter. *)
Theorem C85_built : forall prec emax, Prec_gt_0 prec -> Prec_lt_emax prec emax -> usual_format prec emax ->
  forall M, scale_ok prec emax M -> forall vertices faces P, mesh_areF prec emax M vertices faces P ->
  forall opt, (1 <= bin_size opt)%nat -> (3 * Z.of_nat (bin_size opt) < 4294967296)%Z ->
  extents_wide (bin_extent prec M (bin_size opt)) faces P ->
  forall part, partition_ok part ->
  exists ms, @make_mesh _ (Fnum prec emax) vertices faces = Ok ms /\
    forall nodes, exists nodes' st, @build _ (Fnum prec emax) _ part nodes (@mesh_coll _ (Fnum prec emax) ms) opt = Ok (nodes', st).
Proof. exact mesh_built_ready. Qed.
Print Assumptions C85_built.

(** C85: that is so for vertices on a grid that is not too fine. *)
Theorem C85_grid : forall g (T : Type) (vertices : list (vec T)) faces P w, w <= g -> 0 < g ->
  (forall f, In f faces -> (vx f < length vertices /\ vy f < length vertices /\ vz f < length vertices)%nat) ->
  on_grid g (length vertices) P -> extents_wide w faces P.
Proof. exact @grid_wide. Qed.
Print Assumptions C85_grid.
Example C85_grid_case : on_grid 1 (length two_vertices) two_points /\ bin_extent 53 4 64 <= 1.
Proof. exact two_grid. Qed.

(** C85: from the vertices to the answer, under the hypotheses of C84 on the ray. *)
Theorem C85_answer : forall prec emax, Prec_gt_0 prec -> Prec_lt_emax prec emax ->
  forall M vertices faces P o d tmin tmax O D lo,
  mesh_ray prec emax M vertices faces P o d tmin tmax O D lo ->
  forall opt, (1 <= bin_size opt)%nat -> (3 * Z.of_nat (bin_size opt) < 4294967296)%Z -> shallow opt (length faces) ->
  extents_wide (bin_extent prec M (bin_size opt)) faces P ->
  forall part, partition_ok part ->
  exists ms nodes st, @make_mesh _ (Fnum prec emax) vertices faces = Ok ms /\
    @build _ (Fnum prec emax) _ part [] (@mesh_coll _ (Fnum prec emax) ms) opt = Ok (nodes, st) /\
  forall any rh,
  (@traverse _ (Fnum prec emax) _ _ (@tri_isector _ (Fnum prec emax) ms) nodes
     (@make_ray _ (Fnum prec emax) o d tmin tmax any) rh = Ok (false, rh) /\
   forall i s, (i < length faces)%nat -> ~ surely_hit prec M faces P O (unit_of D) (lo_unit lo D) i s) \/
  (exists rh' k t u v,
     @traverse _ (Fnum prec emax) _ _ (@tri_isector _ (Fnum prec emax) ms) nodes
       (@make_ray _ (Fnum prec emax) o d tmin tmax any) rh = Ok (true, rh') /\
     (k < length faces)%nat /\ h_prim rh' = Some k /\
     isF prec emax (h_distance rh') t /\ isF prec emax (fst (h_uv rh')) u /\ isF prec emax (snd (h_uv rh')) v /\
     nearly_hit prec M faces P O (unit_of D) lo k t u v /\
     (any = false -> forall i s, (i < length faces)%nat ->
        surely_hit prec M faces P O (unit_of D) (lo_unit lo D) i s ->
        not_behind prec M faces P O (unit_of D) i s (length faces) t)).
Proof. exact mesh_answer. Qed.
Print Assumptions C85_answer.
Example C85_case : usual_format 53 1024 /\ scale_ok 53 1024 4 /\ mesh_areF 53 1024 4 two_vertices two_faces two_points /\
  extents_wide (bin_extent 53 4 (bin_size pair_opt)) two_faces two_points /\ shallow pair_opt (length two_faces).
Proof. exact two_ready. Qed.

(** C85: for smaller extents it fails: a mesh of five faces whose vertices are at the heights
    9007199254740990 and 9007199254740991, in binary64 with the default options.  A center lies below all
    vertices, and its bin number, converted to unsigned, is negative. *)
Theorem C85_thin_refuted : exists M vertices faces P ms,
  scale_ok 53 1024 M /\ mesh_areF 53 1024 M vertices faces P /\ extents_wide (ulpf 53 * M) faces P /\
  @make_mesh _ F64 vertices faces = Ok ms /\
  @build _ F64 _ libstdcxx_partition [] (@mesh_coll _ F64 ms) default_options = UB UBconv.
Proof. exact thin_refuted. Qed.
Print Assumptions C85_thin_refuted.
