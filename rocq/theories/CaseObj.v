(** Concrete OBJ files. *)

From Coq Require Import Reals ZArith Strings.String List Bool Lia Lra.
From Verif Require Import Num NumR NumX Vec Datatypes PathTracer TinyObj SpecReal SpecObj SpecObjMesh PfObj PfObj3 PfObj4 PfObj5 PfObjMesh.
Import ListNotations.
Local Open Scope string_scope.
Local Open Scope list_scope.
Local Open Scope Z_scope.

Section Any.
Context {T : Type} {N : num T}.

(** Two materials, the second one a light; a line before the first name does not count. *)
Definition two_mtl (n : string) : option (list (mcmd T)) :=
  if String.eqb n "two.mtl" then
    Some [MIor (nofZ 9); MNew "white"; MDiffuse (vconst (nofZ 1)); MTr (nofZ 1); MNew "lamp"; MEmission (vconst (nofZ 3)); MOther]
  else None.

Definition pt (x y z : Z) : cmd T := OVertex (nofZ x) (nofZ y) (nofZ z).
Definition tx (x y : Z) : cmd T := OTexcoord (nofZ x) (nofZ y).
(** A textured square, and in a new group a triangle, counted from the end, that shares
    one edge with it and glows. *)
Definition square_file : list (cmd T) :=
  [OMtlLib "two.mtl"; pt 0 0 0; pt 1 0 0; pt 1 1 0; pt 0 1 0; tx 0 0; tx 1 0; tx 1 1; tx 0 1; OIgnored;
   OUseMtl "white"; OFace [Corner 1 (Some 1) None; Corner 2 (Some 2) None; Corner 3 (Some 3) None; Corner 4 (Some 4) None];
   OGroup; OUseMtl "lamp"; pt 0 0 5; OFace [Corner (-1) None None; Corner (-2) None None; Corner (-5) None None]].

Lemma square_ok : well_formed two_mtl 0 0 0 square_file /\ uniform_shapes None square_file /\ small_file two_mtl square_file.
Proof.
  split; [|split].
  - cbn [well_formed square_file pt tx]. split.
    { eexists. split; [reflexivity|]. cbn. intros k [<-|[<-|[]]]; discriminate. }
    split; [cbn; lia|]. split.
    { intros c Hc. cbn [In] in Hc. repeat destruct Hc as [<-|Hc]; try destruct Hc; unfold corner_ok, refers, entry; cbn;
        (split; [lia|split; intros j Hj; try discriminate Hj; injection Hj as <-; cbn; lia]). }
    split; [cbn; lia|]. split; [|exact I].
    intros c Hc. cbn [In] in Hc. repeat destruct Hc as [<-|Hc]; try destruct Hc; unfold corner_ok, refers, entry; cbn;
      (split; [lia|split; intros j Hj; discriminate Hj]).
  - cbn [uniform_shapes square_file pt tx]. exists true. split.
    { intros c Hc. cbn [In] in Hc. repeat destruct Hc as [<-|Hc]; try destruct Hc; cbn; split; congruence. }
    split; [now left|]. exists false. split.
    { intros c Hc. cbn [In] in Hc. repeat destruct Hc as [<-|Hc]; try destruct Hc; cbn; split; congruence. }
    split; [now left|exact I].
  - vm_compute. repeat split; discriminate.
Qed.

Lemma square_triangles : file_triangles two_mtl square_file =
  [((0, Some 0), (1, Some 1), (2, Some 2), Some 0); ((0, Some 0), (2, Some 2), (3, Some 3), Some 0);
   ((4, None), (3, None), (0, None), Some 1)].
Proof. intros. vm_compute. reflexivity. Qed.
Lemma square_materials : file_materials two_mtl square_file =
  [Material (vconst (nofZ 1)) (vconst (nofZ 0)) (vconst (nofZ 0)) (vconst (nofZ 0)) (nofZ 1) (nsub (nofZ 1) (nofZ 1));
   Material (vconst (nofZ 0)) (vconst (nofZ 3)) (vconst (nofZ 0)) (vconst (nofZ 0)) (nofZ 1) (nofZ 1)].
Proof. intros. vm_compute. reflexivity. Qed.

(** A polygon of one corner. *)
Lemma one_corner : exists cs, vertices_of cs <> [] /\ uniform_shapes None cs /\
  (forall f c, In (OFace f) cs -> In c f -> corner_ok 1 0 0 c) /\
  forall mtl_file scale, load_mesh (T := T) mtl_file scale cs = UB UBprim.
Proof.
  exists [pt 0 0 0; OFace [Corner 1 None None]]. split; [discriminate|]. split.
  - exists false. split; [|split; [now left|exact I]]. intros c [<-|[]]. cbn. split; congruence.
  - split; [|intros mtl_file scale; vm_compute; reflexivity]. intros f c [H|[H|[]]]; [discriminate H|]. injection H as <-. intros [<-|[]].
    unfold corner_ok, refers, entry. cbn. split; [lia|]. split; discriminate.
Qed.
(** Only one corner has texture coordinates. *)
Lemma mixed_corners : exists cs, (forall mtl_file, well_formed mtl_file 0 0 0 cs /\ small_file mtl_file cs) /\
  (forall mtl_file scale, load_mesh (T := T) mtl_file scale cs = UB UBprim) /\
  forall mtl_file, exists vs fs, load_plain mtl_file cs = Ok (Some (vs, fs)).
Proof.
  exists [pt 0 0 0; pt 1 0 0; pt 0 1 0; tx 0 0; OFace [Corner 1 (Some 1) None; Corner 2 None None; Corner 3 None None]].
  split; [|split].
  2:{ intros mtl_file scale. vm_compute. reflexivity. }
  2:{ intros mtl_file. match goal with |- context [load_plain _ ?cs] =>
        let r := eval vm_compute in (load_plain (T := T) (fun _ => None) cs) in
        match r with Ok (Some (?m, ?mats)) => exists m, mats end end. vm_compute. reflexivity. }
  intros mtl_file. split.
  - cbn [well_formed pt tx]. split; [cbn; lia|]. split; [|exact I].
    intros c Hc. cbn [In] in Hc. repeat destruct Hc as [<-|Hc]; try destruct Hc; unfold corner_ok, refers, entry; cbn;
      (split; [lia|split; intros j Hj; try discriminate Hj; injection Hj as <-; cbn; lia]).
  - vm_compute. repeat split; discriminate.
Qed.
(** No material is named: the number stored is no index, and building the list of lights
    reads outside the materials. *)
Lemma no_material : exists cs m mats, (forall mtl_file, well_formed mtl_file 0 0 0 cs /\ small_file mtl_file cs) /\ uniform_shapes None cs /\
  (forall mtl_file, load_mesh (T := T) mtl_file (nofZ 1) cs = Ok (Some (m, mats))) /\
  om_materials m = [4294967295] /\ make_light (map face_nat (om_faces m)) (om_materials m) mats = UB UBprim.
Proof.
  exists [pt 0 0 0; pt 1 0 0; pt 0 1 0; OFace [Corner 1 None None; Corner 2 None None; Corner 3 None None]].
  match goal with |- context [load_mesh _ _ ?cs] =>
    let r := eval vm_compute in (load_mesh (T := T) (fun _ => None) (nofZ 1) cs) in
    match r with Ok (Some (?m, ?mats)) => exists m, mats end end.
  split; [|split; [|split; [intros mtl_file; vm_compute; reflexivity|split; vm_compute; reflexivity]]].
  - intros mtl_file. split.
    + cbn [well_formed pt tx]. split; [cbn; lia|]. split; [|exact I].
      intros c Hc. cbn [In] in Hc. repeat destruct Hc as [<-|Hc]; try destruct Hc; unfold corner_ok, refers, entry; cbn;
        (split; [lia|split; intros j Hj; discriminate Hj]).
    + vm_compute. repeat split; discriminate.
  - exists false. split; [|split; [now left|exact I]].
    intros c Hc. cbn [In] in Hc. repeat destruct Hc as [<-|Hc]; try destruct Hc; cbn; split; congruence.
Qed.
(** Two shapes, only the second of which is textured: fewer coordinate triples than
    faces. *)
Lemma missing_uvs : exists cs m mats, (forall mtl_file, well_formed mtl_file 0 0 0 cs /\ small_file mtl_file cs) /\ uniform_shapes None cs /\
  (forall mtl_file, load_mesh (T := T) mtl_file (nofZ 1) cs = Ok (Some (m, mats))) /\
  length (om_faces m) = 2%nat /\ length (om_uvs m) = 1%nat.
Proof.
  exists [pt 0 0 0; pt 1 0 0; pt 0 1 0; tx 0 0; OFace [Corner 1 None None; Corner 2 None None; Corner 3 None None]; OGroup;
          OFace [Corner 1 (Some 1) None; Corner 2 (Some 1) None; Corner 3 (Some 1) None]].
  match goal with |- context [load_mesh _ _ ?cs] =>
    let r := eval vm_compute in (load_mesh (T := T) (fun _ => None) (nofZ 1) cs) in
    match r with Ok (Some (?m, ?mats)) => exists m, mats end end.
  split; [|split; [|split; [intros mtl_file; vm_compute; reflexivity|split; vm_compute; reflexivity]]].
  - intros mtl_file. split.
    + cbn [well_formed pt tx]. split; [cbn; lia|]. split; [|split; [cbn; lia|split; [|exact I]]];
      (intros c Hc; cbn [In] in Hc; repeat destruct Hc as [<-|Hc]; try destruct Hc; unfold corner_ok, refers, entry; cbn;
        (split; [lia|split; intros j Hj; try discriminate Hj; injection Hj as <-; cbn; lia])).
    + vm_compute. repeat split; discriminate.
  - exists false. split; [|split; [now left|]].
    { intros c Hc. cbn [In] in Hc. repeat destruct Hc as [<-|Hc]; try destruct Hc; cbn; split; congruence. }
    exists true. split; [|split; [now left|exact I]].
    intros c Hc. cbn [In] in Hc. repeat destruct Hc as [<-|Hc]; try destruct Hc; cbn; split; congruence.
Qed.
(** A repeated name keeps the first material. *)
Lemma repeated_name : exists mtl cs m, well_formed mtl 0 0 0 cs /\
  load_mesh (T := T) mtl (nofZ 1) cs = Ok (Some (m, [material_of [MIor (nofZ 2)]; material_of [MIor (nofZ 3)]])) /\ om_materials m = [0].
Proof.
  exists (fun _ => Some [MNew "a"; MIor (nofZ 2); MNew "a"; MIor (nofZ 3)]),
    [OMtlLib "x"; OUseMtl "a"; pt 0 0 0; pt 1 0 0; pt 0 1 0; OFace [Corner 1 None None; Corner 2 None None; Corner 3 None None]].
  match goal with |- context [load_mesh ?f _ ?cs] =>
    let r := eval vm_compute in (load_mesh (T := T) f (nofZ 1) cs) in
    match r with Ok (Some (?m, ?mats)) => exists m end end.
  split; [|split; vm_compute; reflexivity].
  cbn [well_formed pt tx]. split.
  { eexists. split; [reflexivity|]. cbn. intros k [<-|[<-|[]]]; discriminate. }
  split; [cbn; lia|]. split; [|exact I].
  intros c Hc. cbn [In] in Hc. repeat destruct Hc as [<-|Hc]; try destruct Hc; unfold corner_ok, refers, entry; cbn;
        (split; [lia|split; intros j Hj; discriminate Hj]).
Qed.
End Any.

(** The file over the reals, and a ray that crosses its first triangle. *)
Definition square_points (j : Z) : vec R :=
  match j with 0 => V 0 0 0 | 1 => V 1 0 0 | 2 => V 1 1 0 | 3 => V 0 1 0 | _ => V 0 0 5 end%R.
Lemma norm_z a : (0 <= a)%R -> SpecReal.rv_norm (V 0 0 a)%R = a.
Proof.
  intros H. unfold SpecReal.rv_norm, SpecReal.rv_dot. cbn [vx vy vz].
  replace (0 * 0 + 0 * 0 + a * a)%R with (a * a)%R by ring. now apply sqrt_square.
Qed.
Lemma square_case : forall tiny eps : R,
  well_formed (T := xr) no_mtl 0 0 0 (@square_file _ (Xnum 10 tiny eps)) /\ small_file no_mtl (@square_file _ (Xnum 10 tiny eps)) /\
  points (fun p => p) (vertices_of (@square_file _ (Xnum 10 tiny eps))) square_points /\
  (forall j, (j < length (vertices_of (@square_file _ (Xnum 10 tiny eps))))%nat -> in_bounds 10 (square_points (Z.of_nat j))) /\
  wide (V (Fin (/ 2)) (Fin (/ 4)) (Fin (- (1)))) (V (Fin 0) (Fin 0) (Fin 4)) (Fin 0) (V (/ 2) (/ 4) (- (1)))%R (V 0 0 4)%R 0 /\
  obj_cross (file_triangles no_mtl (@square_file _ (Xnum 10 tiny eps))) square_points (V (/ 2) (/ 4) (- (1)))%R (SpecReal.unit_of (V 0 0 4))%R 0 (Fin 100) 0 1.
Proof.
  intros tiny eps. split; [|split; [|split; [|split; [|split]]]].
  - cbn [well_formed square_file pt tx]. split.
    { eexists. split; [reflexivity|]. intros k []. }
    split; [cbn; lia|]. split.
    { intros c Hc. cbn [In] in Hc. repeat destruct Hc as [<-|Hc]; try destruct Hc; unfold corner_ok, refers, entry; cbn;
        (split; [lia|split; intros j Hj; try discriminate Hj; injection Hj as <-; cbn; lia]). }
    split; [cbn; lia|]. split; [|exact I].
    intros c Hc. cbn [In] in Hc. repeat destruct Hc as [<-|Hc]; try destruct Hc; unfold corner_ok, refers, entry; cbn;
      (split; [lia|split; intros j Hj; discriminate Hj]).
  - vm_compute. repeat split; discriminate.
  - intros j p E. do 5 (destruct j as [|j]; [injection E as <-; unfold visR, isR; cbn; repeat split; lra|]). destruct j; discriminate E.
  - intros j Hj. cbn in Hj. do 5 (destruct j as [|j]; [unfold in_bounds; cbn; lra|]). lia.
  - constructor; try (repeat split; fail); try reflexivity; try lra; try (intros z E; cbn in E; injection E; auto).
    rewrite norm_z by lra. lra.
  - assert (E4 : SpecReal.unit_of (V 0 0 4)%R = (V 0 0 1)%R).
    { unfold SpecReal.unit_of. rewrite norm_z by lra. unfold SpecReal.rv_scale. cbn [vx vy vz]. f_equal; lra. }
    rewrite E4. exists 0, 1, 2, (Some 0), (Some 1), (Some 2), None. split; [reflexivity|].
    cbn [square_points]. split; [|split; [|split; [lra|]]].
    + unfold SpecTri.tri_det, SpecTri.tri_cross, rv_dot, rv_cross, rv_sub. cbn. lra.
    + exists (/ 4)%R, (/ 4)%R. split; [lra|]. split; [lra|]. split; [lra|].
      unfold at_t, SpecTri.bary, rv_add, rv_scale. cbn. f_equal; lra.
    + change (Rltb 1 100 = true). unfold Rltb. destruct (Rlt_dec 1 100) as [_|n]; [reflexivity|exfalso; apply n; lra]. 
Qed.
Lemma square_uvs : forall (T : Type) (N : num T),
  somes (map uv_of (file_triangles two_mtl square_file)) = [(0, 1, 2); (0, 2, 3)].
Proof. intros. vm_compute. reflexivity. Qed.
