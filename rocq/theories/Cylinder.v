(** blazert/primitives/cylinder.h: collection, box and ray intersection. *)

From Coq Require Import ZArith List Bool Arith.
From Verif Require Import Num Vec Ray Bvh Traverse.
Import ListNotations.

(** Cylinder, cylinder.h:19-40. *)
Record cylinder (T : Type) := Cylinder {
  cy_center : vec T; cy_a : T; cy_b : T; cy_h : T; cy_rot : mat T; cy_id : nat }.
Arguments Cylinder {T}.
Arguments cy_center {T} c.
Arguments cy_a {T} c.
Arguments cy_b {T} c.
Arguments cy_h {T} c.
Arguments cy_rot {T} c.
Arguments cy_id {T} c.

(** CylinderCollection, cylinder.h:74-101; contents of the caller's vectors. *)
Record cylinders (T : Type) := Cylinders {
  cs_centers : list (vec T); cs_as : list T; cs_bs : list T; cs_hs : list T;
  cs_rots : list (mat T); cs_box : list (vec T * vec T) }.
Arguments Cylinders {T}.
Arguments cs_centers {T} c.
Arguments cs_as {T} c.
Arguments cs_bs {T} c.
Arguments cs_hs {T} c.
Arguments cs_rots {T} c.
Arguments cs_box {T} c.

(** CylinderIntersector, cylinder.h:55-72. *)
Record cyl_isect (T : Type) := CylIsect {
  ci_normal : vec T; ci_org : vec T; ci_dir : vec T; ci_min : T; ci_uv : T * T; ci_hd : T;
  ci_prim : option nat }.
Arguments CylIsect {T}.
Arguments ci_normal {T} c.
Arguments ci_org {T} c.
Arguments ci_dir {T} c.
Arguments ci_min {T} c.
Arguments ci_uv {T} c.
Arguments ci_hd {T} c.
Arguments ci_prim {T} c.

Section Model.
Context {T : Type} {N : num T}.
Local Open Scope num_scope.

(** cylinder.h:115-147 pre_compute_bounding_box. *)
Definition cylinder_box (center : vec T) (a b height : T) (rot : mat T) : vec T * vec T :=
  let a1_tmp := V a n0 n0 in
  let b1_tmp := V n0 b n0 in
  let h1_tmp := V n0 n0 (height / n2) in
  let a1 := vadd center (mulmv rot a1_tmp) in
  let b1 := vadd center (mulmv rot b1_tmp) in
  let h1 := vadd center (mulmv rot h1_tmp) in
  let a2 := vsub center (mulmv rot a1_tmp) in
  let b2 := vsub center (mulmv rot b1_tmp) in
  let h2 := vsub center (mulmv rot h1_tmp) in
  let least f := smin_list (f a1) [f b1; f a2; f b2; f h1; f h2] in
  let most f := smax_list (f a1) [f b1; f a2; f b2; f h1; f h2] in
  (V (least vx) (least vy) (least vz), V (most vx) (most vy) (most vz)).

(** cylinder.h:91-101 constructor. *)
Definition make_cylinders (centers : list (vec T)) (sa sb hs : list T) (rots : list (mat T))
    : res (cylinders T) :=
  do box <- mapM (fun i => do c <- at_ UBprim centers i; do a <- at_ UBprim sa i;
                           do b <- at_ UBprim sb i; do h <- at_ UBprim hs i;
                           do m <- at_ UBprim rots i;
                           Ok (cylinder_box c a b h m)) (seq 0 (length centers));
  Ok (Cylinders centers sa sb hs rots box).

(** cylinder.h:44-53 primitive_from_collection. *)
Definition cylinder_prim (p : cylinders T) (i : nat) : res (cylinder T) :=
  do c <- at_ UBprim (cs_centers p) i;
  do a <- at_ UBprim (cs_as p) i;
  do b <- at_ UBprim (cs_bs p) i;
  do h <- at_ UBprim (cs_hs p) i;
  do m <- at_ UBprim (cs_rots p) i;
  Ok (Cylinder c a b h m i).

(** cylinder.h:103-112. *)
Definition cylinder_coll (p : cylinders T) : coll T (cylinder T) := {|
  c_size := length (cs_centers p);
  c_box := at_ UBprim (cs_box p);
  c_center := at_ UBprim (cs_centers p);
  c_prim := cylinder_prim p |}.

(** cylinder.h:166-174 prepare_traversal. *)
Definition cylinder_prepare (r : ray T) : cyl_isect T :=
  CylIsect (vconst n0) (origin r) (direction r) (min_hit_distance r) (n0, n0)
           (max_hit_distance r) None.

(** The quadratic that the code sets up in the same way in each area
    (cylinder.h:246-257, 300-311, 336-346, 377-388, 440-450). *)
Definition cyl_C (a b x0 y0 j k : T) : T :=
  a * a * k * k + b * b * j * j - j * j * y0 * y0 + n2 * j * k * x0 * y0 - k * k * x0 * x0.
Definition cyl_t0 (a b x0 y0 j k : T) : T :=
  n1 / (a * a * k * k + b * b * j * j)
  * (- (a * a * k * y0 + b * b * j * x0) + a * b * nsqrt (cyl_C a b x0 y0 j k)).
Definition cyl_t1 (a b x0 y0 j k : T) : T :=
  (- n1) / (a * a * k * k + b * b * j * j)
  * (a * a * k * y0 + b * b * j * x0 + a * b * nsqrt (cyl_C a b x0 y0 j k)).

(** Outcome of the local computation: normal (before normalisation) and the
    parameter t whose |t * dir| is the reported distance. *)
Definition cyl_rot_normal (rot : mat T) (n : vec T) : vec T := vdivs (mulmv rot n) (norm n).
Definition cyl_side_normal (a b : T) (p : vec T) : vec T :=
  V (n2 * vx p / (a * a)) (n2 * vy p / (b * b)) n0.

(** Lateral hit seen from outside (cylinder.h:246-277, 300-330, 336-365). *)
Definition cyl_outside (a b h : T) (rot : mat T) (org dir : vec T) : option (vec T * T) :=
  let x0 := vx org in let y0 := vy org in
  let j := vx dir in let k := vy dir in
  if cyl_C a b x0 y0 j k <? n0 then None
  else
    let t0 := cyl_t0 a b x0 y0 j k in
    let t1 := cyl_t1 a b x0 y0 j k in
    let i0 := vadd org (vscaler dir t0) in
    let i1 := vadd org (vscaler dir t1) in
    if (n0 <? t1) && (t1 <? t0) && (vz i1 <=? h / n2) && (- h / n2 <=? vz i1) then
      Some (cyl_rot_normal rot (cyl_side_normal a b i1), t1)
    else if (n0 <? t0) && (t0 <? t1) && (vz i0 <=? h / n2) && (- h / n2 <=? vz i0) then
      Some (cyl_rot_normal rot (cyl_side_normal a b i0), t0)
    else None.

(** Area 1 (cylinder.h:228-279, [zc] = h/2, cap normal +1) and area 2
    (cylinder.h:281-332, [zc] = -h/2, cap normal -1). *)
Definition cyl_beyond (a b h zc nz : T) (rot : mat T) (org dir : vec T) : option (vec T * T) :=
  if vz dir =? n0 then None
  else
    let t0 := (zc - vz org) / vz dir in
    if t0 <? n0 then None
    else
      let ic := vadd org (vscale t0 dir) in
      if b * b * vx ic * vx ic + a * a * vy ic * vy ic <=? a * a * b * b then
        Some (cyl_rot_normal rot (V n0 n0 nz), t0)
      else cyl_outside a b h rot org dir.

(** The caps seen from inside (cylinder.h:415-435 and 470-490). *)
Definition cyl_caps (h : T) (rot : mat T) (org dir : vec T) : option (vec T * T) :=
  let l := vz dir in
  if l <? n0 then
    Some (cyl_rot_normal rot (V n0 n0 (- n1)), (- h / n2 - vz org) / l)
  else if n0 <? l then
    Some (cyl_rot_normal rot (V n0 n0 n1), (h / n2 - vz org) / l)
  else None.

(** The lateral surface seen from inside (cylinder.h:377-405 with [rotated] =
    true, 440-467 with [rotated] = false: there the second normal is stored in
    local coordinates and unnormalised).  [None]: C < 0; [Some None]: fall
    through. *)
Definition cyl_inside (a b h : T) (rot : mat T) (rotated : bool) (org dir : vec T)
    : option (option (vec T * T)) :=
  let x0 := vx org in let y0 := vy org in
  let j := vx dir in let k := vy dir in
  if cyl_C a b x0 y0 j k <? n0 then None
  else
    let t0 := cyl_t0 a b x0 y0 j k in
    let t1 := cyl_t1 a b x0 y0 j k in
    let i0 := vadd org (vscaler dir t0) in
    let i1 := vadd org (vscaler dir t1) in
    if (n0 <? t1) && (vz i1 <=? h / n2) && (- h / n2 <=? vz i1) then
      Some (Some (cyl_rot_normal rot (cyl_side_normal a b i1), t1))
    else if (n0 <? t0) && (vz i0 <=? h / n2) && (- h / n2 <=? vz i0) then
      Some (Some (if rotated then cyl_rot_normal rot (cyl_side_normal a b i0)
                  else cyl_side_normal a b i0, t0))
    else Some None.

(** Area 4 (cylinder.h:368-492). *)
Definition cyl_area4 (a b h : T) (rot : mat T) (org dir : vec T) : option (vec T * T) :=
  let x0 := vx org in let y0 := vy org in let z0 := vz org in
  let j := vx dir in let k := vy dir in let l := vz dir in
  if l =? n0 then
    if (z0 =? - h / n2) || (z0 =? h / n2) then None
    else match cyl_inside a b h rot true org dir with
         | None => None
         | Some r => r
         end
  else if (j =? n0) && (k =? n0) then
    if b * b * x0 * x0 + a * a * y0 * y0 =? a * a * b * b then None
    else cyl_caps h rot org dir
  else match cyl_inside a b h rot false org dir with
       | None => None
       | Some (Some r) => Some r
       | Some None => cyl_caps h rot org dir
       end.

(** The area decision (cylinder.h:212-492).  Areas 1-3 return or fall through to
    the area 4 test, which fails for them, except that area 3's own exit by
    C < 0 also means no hit. *)
Definition cyl_local (a b h : T) (rot : mat T) (org dir : vec T) : option (vec T * T) :=
  let x0 := vx org in let y0 := vy org in let z0 := vz org in
  let in4 := (- h / n2 <=? z0) && (z0 <=? h / n2)
             && (x0 * x0 * b * b + y0 * y0 * a * a <=? a * a * b * b) in
  let last := if in4 then cyl_area4 a b h rot org dir else None in
  let orelse (x y : option (vec T * T)) := match x with Some r => Some r | None => y end in
  if h / n2 <? z0 then orelse (cyl_beyond a b h (h / n2) n1 rot org dir) last
  else if z0 <? - h / n2 then orelse (cyl_beyond a b h (- h / n2) (- n1) rot org dir) last
  else if (- h / n2 <? z0) && (z0 <? h / n2)
          && (a * a * b * b <? x0 * x0 * b * b + y0 * y0 * a * a)
  then orelse (cyl_outside a b h rot org dir) last
  else last.

(** cylinder.h:181-495 intersect_primitive. *)
Definition cylinder_intersect (i : cyl_isect T) (c : cylinder T) (_ : ray T)
    : bool * cyl_isect T :=
  let inv := trans (cy_rot c) in
  let org := mulmv inv (vsub (ci_org i) (cy_center c)) in
  let dir := mulmv inv (ci_dir i) in
  match cyl_local (cy_a c) (cy_b c) (cy_h c) (cy_rot c) org dir with
  | None => (false, i)
  | Some (n, t) =>
      (true, CylIsect n (ci_org i) (ci_dir i) (ci_min i) (ci_uv i) (norm (vscale t dir))
                      (Some (cy_id c)))
  end.

(** cylinder.h:154-160 post_traversal. *)
Definition cylinder_post (i : cyl_isect T) (rh : rayhit T) : res (rayhit T) :=
  Ok (RayHit (normalize (ci_normal i)) (ci_uv i) (ci_hd i) (ci_prim i) (h_geom rh)).

Definition cylinder_isector : isector T (cylinder T) (cyl_isect T) := {|
  is_prepare := cylinder_prepare;
  is_hd := ci_hd;
  is_prim := cylinder_intersect;
  is_post := cylinder_post |}.
End Model.
