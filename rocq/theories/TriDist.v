(** blazert/primitives/trimesh_distance.h. *)

From Coq Require Import ZArith List Bool.
From Verif Require Import Num Vec.

Section Model.
Context {T : Type} {N : num T}.
Local Open Scope num_scope.

(** trimesh_distance.h:36-41. *)
Definition r0 (s t det : T) : T * T :=
  let inv_det := n1 / det in (s * inv_det, t * inv_det).

(** trimesh_distance.h:43-57. *)
Definition r1 (a b c d e : T) : T * T :=
  let numer := c + e - b - d in
  let s := if numer <=? n0 then n0
           else let denom := a - n2 * b + c in
                if denom <=? numer then n1 else numer / denom in
  (s, n1 - s).

(** trimesh_distance.h:59-83. *)
Definition r2 (a b c d e : T) : T * T :=
  let tmp0 := b + d in
  let tmp1 := c + e in
  if tmp0 <? tmp1 then
    let numer := tmp1 - tmp0 in
    let denom := a - n2 * b + c in
    let s := if denom <=? numer then n1 else numer / denom in
    (s, n1 - s)
  else (n0, if tmp1 <=? n0 then n1 else if n0 <=? e then n0 else - e / c).

(** trimesh_distance.h:85-99. *)
Definition r3 (c e : T) : T * T :=
  (n0, if n0 <=? e then n0 else if c <=? - e then n1 else - e / c).

(** trimesh_distance.h:101-122. *)
Definition r4 (a c d e : T) : T * T :=
  if d <? n0 then (if a <=? - d then n1 else - d / a, n0)
  else (n0, if n0 <=? e then n0 else if c <=? - e then n1 else - e / c).

(** trimesh_distance.h:124-138. *)
Definition r5 (a d : T) : T * T :=
  (if n0 <=? d then n0 else if a <=? - d then n1 else - d / a, n0).

(** trimesh_distance.h:140-164. *)
Definition r6 (a b c d e : T) : T * T :=
  let tmp0 := b + e in
  let tmp1 := a + d in
  if tmp0 <? tmp1 then
    let numer := tmp1 - tmp0 in
    let denom := a - n2 * b + c in
    let t := if denom <=? numer then n1 else numer / denom in
    (n1 - t, t)
  else (if tmp1 <=? n0 then n1 else if n0 <=? d then n0 else - d / a, n0).

(** trimesh_distance.h:194-214: the region decision. *)
Definition region (a b c d e : T) : T * T :=
  let det := a * c - b * b in
  let s := b * e - c * d in
  let t := b * d - a * e in
  if s + t <=? det then
    if s <? n0 then (if t <? n0 then r4 a c d e else r3 c e)
    else if t <? n0 then r5 a d
    else r0 s t det
  else
    if s <? n0 then r2 a b c d e
    else if t <? n0 then r6 a b c d e
    else r1 a b c d e.

(** trimesh_distance.h:176-217 closest_point_on_triangle. *)
Definition closest_point_on_triangle (v0 v1 v2 p : vec T) : vec T :=
  let E0 := vsub v1 v0 in
  let E1 := vsub v2 v0 in
  let D := vsub v0 p in
  let (s, t) := region (dot E0 E0) (dot E0 E1) (dot E1 E1) (dot E0 D) (dot E1 D) in
  vadd (vadd v0 (vscale s E0)) (vscale t E1).
End Model.
