(** blazert/primitives/plane.h. *)

From Coq Require Import ZArith List Bool Arith.
From Verif Require Import Num Vec Ray Bvh Traverse.
Import ListNotations.

(** Plane, plane.h:19-39. *)
Record plane (T : Type) := Plane {
  pl_center : vec T; pl_dx : T; pl_dy : T; pl_rot : mat T; pl_id : nat }.
Arguments Plane {T}.
Arguments pl_center {T} p.
Arguments pl_dx {T} p.
Arguments pl_dy {T} p.
Arguments pl_rot {T} p.
Arguments pl_id {T} p.

(** PlaneCollection, plane.h:71-99; contents of the caller's vectors. *)
Record planes (T : Type) := Planes {
  ps_centers : list (vec T); ps_dxs : list T; ps_dys : list T; ps_rots : list (mat T);
  ps_box : list (vec T * vec T) }.
Arguments Planes {T}.
Arguments ps_centers {T} p.
Arguments ps_dxs {T} p.
Arguments ps_dys {T} p.
Arguments ps_rots {T} p.
Arguments ps_box {T} p.

(** PlaneIntersector, plane.h:52-69. *)
Record plane_isect (T : Type) := PlaneIsect {
  pi_normal : vec T; pi_org : vec T; pi_dir : vec T; pi_min : T; pi_uv : T * T; pi_hd : T;
  pi_prim : option nat }.
Arguments PlaneIsect {T}.
Arguments pi_normal {T} p.
Arguments pi_org {T} p.
Arguments pi_dir {T} p.
Arguments pi_min {T} p.
Arguments pi_uv {T} p.
Arguments pi_hd {T} p.
Arguments pi_prim {T} p.

Section Model.
Context {T : Type} {N : num T}.
Local Open Scope num_scope.

(** plane.h:113-150 pre_compute_bounding_box; thickness = numeric_limits::min(). *)
Definition plane_box (center : vec T) (dx dy : T) (rot : mat T) : vec T * vec T :=
  let g v := vadd center (mulmv rot v) in
  let a1 := g (V (- dx / n2) (- dy / n2) n0) in
  let a2 := g (V (dx / n2) (- dy / n2) n0) in
  let a3 := g (V (- dx / n2) (dy / n2) n0) in
  let a4 := g (V (dx / n2) (dy / n2) n0) in
  let c1 := g (V n0 n0 (- ntiny)) in
  let c2 := g (V n0 n0 ntiny) in
  let least f := smin_list (f a1) [f a2; f a3; f a4; f c1; f c2] in
  let most f := smax_list (f a1) [f a2; f a3; f a4; f c1; f c2] in
  (V (least vx) (least vy) (least vz), V (most vx) (most vy) (most vz)).

(** plane.h:89-99 constructor. *)
Definition make_planes (centers : list (vec T)) (dxs dys : list T) (rots : list (mat T))
    : res (planes T) :=
  do box <- mapM (fun i => do c <- at_ UBprim centers i; do dx <- at_ UBprim dxs i;
                           do dy <- at_ UBprim dys i; do m <- at_ UBprim rots i;
                           Ok (plane_box c dx dy m)) (seq 0 (length centers));
  Ok (Planes centers dxs dys rots box).

(** plane.h:43-50 primitive_from_collection. *)
Definition plane_prim (p : planes T) (i : nat) : res (plane T) :=
  do c <- at_ UBprim (ps_centers p) i;
  do dx <- at_ UBprim (ps_dxs p) i;
  do dy <- at_ UBprim (ps_dys p) i;
  do m <- at_ UBprim (ps_rots p) i;
  Ok (Plane c dx dy m i).

(** plane.h:101-110. *)
Definition plane_coll (p : planes T) : coll T (plane T) := {|
  c_size := length (ps_centers p);
  c_box := at_ UBprim (ps_box p);
  c_center := at_ UBprim (ps_centers p);
  c_prim := plane_prim p |}.

(** plane.h:165-173 prepare_traversal; [normal] keeps its initial value (zero
    here). *)
Definition plane_prepare (r : ray T) : plane_isect T :=
  PlaneIsect (vconst n0) (origin r) (direction r) (min_hit_distance r) (n0, n0)
             (max_hit_distance r) None.

(** plane.h:180-270 intersect_primitive: the nine-way case distinction, in order. *)
Definition plane_intersect (i : plane_isect T) (p : plane T) (_ : ray T) : bool * plane_isect T :=
  let rot := pl_rot p in
  let inv := trans rot in
  let org := mulmv inv (vsub (pi_org i) (pl_center p)) in
  let dir := mulmv inv (pi_dir i) in
  let t1 := - vz org / vz dir in
  let ic := vadd org (vscale t1 dir) in
  let tnear := pi_min i in
  let tfar := pi_hd i in
  let x_min := - pl_dx p / n2 in
  let x_max := pl_dx p / n2 in
  let y_min := - pl_dy p / n2 in
  let y_max := pl_dy p / n2 in
  let inr := (tnear <? t1) && (t1 <? tfar) in
  let xgt := x_min <? vx ic in
  let xlt := vx ic <? x_max in
  let ygt := y_min <? vy ic in
  let ylt := vy ic <? y_max in
  let xe0 := vx ic =? x_min in
  let xe1 := vx ic =? x_max in
  let ye0 := vy ic =? y_min in
  let ye1 := vy ic =? y_max in
  let s := vz org / nabs (vz org) in
  let done n := (true, PlaneIsect n (pi_org i) (pi_dir i) (pi_min i) (pi_uv i)
                                  (norm (vscale t1 dir)) (Some (pl_id p))) in
  if inr && xgt && xlt && ygt && ylt then
    done (vscale s (mulmv rot (V n0 n0 n1)))
  else if inr && xe0 && xlt && ygt && ylt then done (mulmv rot (V (- n1) n0 s))
  else if inr && xgt && xe1 && ygt && ylt then done (mulmv rot (V n1 n0 s))
  else if inr && xgt && xlt && ye0 && ylt then done (mulmv rot (V n0 (- n1) s))
  else if inr && xgt && xlt && ygt && ye1 then done (mulmv rot (V n0 n1 s))
  else if inr && xe0 && xlt && ye0 && ylt then done (mulmv rot (V (- n1) (- n1) s))
  else if inr && xe0 && xlt && ygt && ye1 then done (mulmv rot (V (- n1) n1 s))
  else if inr && xgt && xe1 && ye0 && ylt then done (mulmv rot (V n1 (- n1) s))
  else if inr && xgt && xe1 && ygt && ye1 then done (mulmv rot (V n1 n1 s))
  else (false, i).

(** plane.h:153-159 post_traversal. *)
Definition plane_post (i : plane_isect T) (rh : rayhit T) : res (rayhit T) :=
  Ok (RayHit (normalize (pi_normal i)) (pi_uv i) (pi_hd i) (pi_prim i) (h_geom rh)).

Definition plane_isector : isector T (plane T) (plane_isect T) := {|
  is_prepare := plane_prepare;
  is_hd := pi_hd;
  is_prim := plane_intersect;
  is_post := plane_post |}.

(** plane.h:272-284 distance_to_surface. *)
Definition plane_distance (p : plane T) (point : vec T) : T :=
  let lp := mulmv (trans (pl_rot p)) (vsub point (pl_center p)) in
  let dx := pl_dx p / n2 in
  let dy := pl_dy p / n2 in
  let cx := vx (pl_center p) in
  let cy := vy (pl_center p) in
  if ((cx - dx) <=? vx lp) && (vx lp <=? (cx + dx)) && ((cy - dy) <=? vy lp)
     && (vy lp <=? (cy + dy))
  then nabs (vz lp) else nmaxv.
End Model.
