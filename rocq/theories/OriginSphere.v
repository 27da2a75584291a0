(** The sphere mesh of the benchmarks: benchmarks/benchmark_helper/OriginMesh.h and OriginSphere.h.

    Indices are natural numbers: with up to 13 subdivisions they fit into uint32_t.  Memory is
    unlimited, and reserving has no effect beyond the conversion of its argument. *)

From Coq Require Import ZArith List Bool Floats.SpecFloat.
From Verif Require Import Num NumF Vec.
Import ListNotations.

Record omesh (T : Type) := OMesh { om_vertices : list (vec T); om_triangles : list (vec nat) }.
Arguments OMesh {T}.
Arguments om_vertices {T}.
Arguments om_triangles {T}.

Section Model.
Context {T : Type} {N : num T}.
Local Open Scope num_scope.

(** initialize_icosahedron, OriginSphere.h:11-53.  [t] is (1.0f + std::sqrt(5.0f)) / 2.0f, a float
    whatever [T] is, converted to [T]. *)
Definition icosahedron (t : T) : omesh T := {|
  om_vertices := map normalize
    [V (- n1) t n0; V n1 t n0; V (- n1) (- t) n0; V n1 (- t) n0;
     V n0 (- n1) t; V n0 n1 t; V n0 (- n1) (- t); V n0 n1 (- t);
     V t n0 (- n1); V t n0 n1; V (- t) n0 (- n1); V (- t) n0 n1];
  om_triangles :=
    [V 0 11 5; V 0 5 1; V 0 1 7; V 0 7 10; V 0 10 11; V 1 5 9; V 5 11 4; V 11 10 2; V 10 7 6; V 7 1 8;
     V 3 9 4; V 3 4 2; V 3 2 6; V 3 6 8; V 3 8 9; V 4 9 5; V 2 4 11; V 6 2 10; V 8 6 7; V 9 8 1]%nat |}.

(** subdivide_edge, OriginSphere.h:55-64: the new vertex. *)
Definition midpoint (v0 v1 : vec T) : vec T := normalize (vscaler (vadd v0 v1) nhalf).

(** One round of the loop of subdivide_mesh, OriginSphere.h:70-87. *)
Definition subdivide_face (vs : list (vec T)) (out : omesh T) (f : vec nat) : res (omesh T) :=
  do v0 <- at_ UBprim vs (vx f);
  do v1 <- at_ UBprim vs (vy f);
  do v2 <- at_ UBprim vs (vz f);
  let f3 := length (om_vertices out) in
  let vs3 := om_vertices out ++ [midpoint v0 v1] in
  let f4 := length vs3 in
  let vs4 := vs3 ++ [midpoint v1 v2] in
  let f5 := length vs4 in
  let vs5 := vs4 ++ [midpoint v2 v0] in
  Ok (OMesh vs5 (om_triangles out ++ [V (vx f) f3 f5; V f3 (vy f) f4; V f4 (vz f) f5; V f3 f4 f5])).
Fixpoint subdivide_faces (vs : list (vec T)) (out : omesh T) (fs : list (vec nat)) : res (omesh T) :=
  match fs with
  | [] => Ok out
  | f :: fs => do out <- subdivide_face vs out f; subdivide_faces vs out fs
  end.
(** subdivide_mesh, OriginSphere.h:66-88. *)
Definition subdivide_mesh (m : omesh T) : res (omesh T) :=
  subdivide_faces (om_vertices m) (OMesh (om_vertices m) []) (om_triangles m).

(** meshes[k + 1].reserve(20 * std::pow(4, resolution) - 8, ...), OriginSphere.h:113: the double is
    exact, and converted to uint32_t. *)
Definition reserve (resolution : nat) : res unit :=
  if (20 * 4 ^ Z.of_nat resolution - 8 <? 4294967296)%Z then Ok tt else UB UBconv.
Fixpoint subdivisions (resolution k : nat) (m : omesh T) : res (omesh T) :=
  match k with
  | O => Ok m
  | S k => do _ <- reserve resolution; do m <- subdivide_mesh m; subdivisions resolution k m
  end.
(** The constructor, OriginSphere.h:98-119: the last mesh. *)
Definition origin_sphere (t : T) (resolution : nat) : res (omesh T) :=
  subdivisions resolution resolution (icosahedron t).
End Model.

(** [t] for float and for double, OriginSphere.h:13: computed in float, and converted exactly. *)
Definition golden_float : spec_float :=
  @ndiv _ F32 (@nadd _ F32 (@n1 _ F32) (@nsqrt _ F32 (@nofZ _ F32 5))) (@n2 _ F32).
Definition to_double (x : spec_float) : spec_float :=
  match x with
  | S754_finite s m e => binary_normalize 53 1024 (if s then Zneg m else Zpos m) e s
  | _ => x
  end.
Definition golden_double : spec_float := to_double golden_float.
