(** blazert/embree/primitives: the callbacks handed to Embree.

    The code fixes T = float; the model keeps T and its operations abstract.  Embree's
    argument block is passed as separate arguments: [prim] is args->primID, [valid]
    args->valid[0] != 0, [inst] args->context->instID[0].  The user pointer is a single
    object, so an index other than 0 is undefined.  The asserts on args->N are left out:
    N = 1. *)

From Coq Require Import ZArith List Bool Arith.
From Verif Require Import Num Vec Sphere Plane Cylinder.
Import ListNotations.

(** RTCRay; the fields time, mask, id, flags are not used by the code. *)
Record rtc_ray (T : Type) := RTCRay { r_org : vec T; r_dir : vec T; r_tnear : T; r_tfar : T }.
Arguments RTCRay {T}.
Arguments r_org {T} r.
Arguments r_dir {T} r.
Arguments r_tnear {T} r.
Arguments r_tfar {T} r.

(** RTCHit; None is RTC_INVALID_GEOMETRY_ID = unsigned(-1). *)
Record rtc_hit (T : Type) := RTCHit {
  e_ng : vec T; e_u : T; e_v : T; e_prim : option nat; e_geom : option nat; e_inst : option nat }.
Arguments RTCHit {T}.
Arguments e_ng {T} r.
Arguments e_u {T} r.
Arguments e_v {T} r.
Arguments e_prim {T} r.
Arguments e_geom {T} r.
Arguments e_inst {T} r.

(** RTCRayHit. *)
Record rtc_rayhit (T : Type) := RTCRayHit { rh_ray : rtc_ray T; rh_hit : rtc_hit T }.
Arguments RTCRayHit {T}.
Arguments rh_ray {T} r.
Arguments rh_hit {T} r.

(** EmbreeSphere, EmbreePlane, EmbreeCylinder: the constructor's data and the id that
    rtcAttachGeometry gave. *)
Record esphere (T : Type) := ESphere { es_center : vec T; es_radius : T; es_geom : option nat }.
Arguments ESphere {T}.
Arguments es_center {T} e.
Arguments es_radius {T} e.
Arguments es_geom {T} e.
Record eplane (T : Type) := EPlane {
  ep_center : vec T; ep_d1 : T; ep_d2 : T; ep_rot : mat T; ep_geom : option nat }.
Arguments EPlane {T}.
Arguments ep_center {T} e.
Arguments ep_d1 {T} e.
Arguments ep_d2 {T} e.
Arguments ep_rot {T} e.
Arguments ep_geom {T} e.
Record ecyl (T : Type) := ECyl {
  ec_center : vec T; ec_a : T; ec_b : T; ec_h : T; ec_rot : mat T; ec_geom : option nat }.
Arguments ECyl {T}.
Arguments ec_center {T} e.
Arguments ec_a {T} e.
Arguments ec_b {T} e.
Arguments ec_h {T} e.
Arguments ec_rot {T} e.
Arguments ec_geom {T} e.

Section Model.
Context {T : Type} {N : num T}.
Local Open Scope num_scope.

(** -std::numeric_limits<float>().infinity(), as a quotient. *)
Definition ninf_neg : T := - (n1 / n0).

(** [static_cast<const E *>(args->geometryUserPtr)[args->primID]]. *)
Definition user {E} (e : E) (prim : nat) : res E := at_ UBprim [e] prim.

(** EmbreeGeometryObject.h:38-49 setRayHit. *)
Definition set_ray_hit (rh : rtc_rayhit T) (ng : vec T) (u v : T) (prim geom inst : option nat) (tfar : T)
    : rtc_rayhit T :=
  RTCRayHit (RTCRay (r_org (rh_ray rh)) (r_dir (rh_ray rh)) (r_tnear (rh_ray rh)) tfar)
            (RTCHit ng u v prim geom inst).

(** [ray->tfar = x]. *)
Definition set_tfar (r : rtc_ray T) (x : T) : rtc_ray T := RTCRay (r_org r) (r_dir r) (r_tnear r) x.

(** ** EmbreeSphere.h *)

(** EmbreeSphere.h:63-74 sphereBoundsFunc. *)
Definition esphere_bounds (e : esphere T) (prim : nat) : res (vec T * vec T) :=
  do s <- user e prim;
  Ok (V (vx (es_center s) - es_radius s) (vy (es_center s) - es_radius s) (vz (es_center s) - es_radius s),
      V (vx (es_center s) + es_radius s) (vy (es_center s) + es_radius s) (vz (es_center s) + es_radius s)).

(** EmbreeSphere.h:83-134 sphereIntersectFunc.  Both tests run; the second one sees the
    tfar that the first may have set. *)
Definition esphere_intersect (e : esphere T) (prim : nat) (valid : bool) (inst : option nat)
    (rh : rtc_rayhit T) : res (rtc_rayhit T) :=
  do s <- user e prim;
  if negb valid then Ok rh
  else
    let org := r_org (rh_ray rh) in
    let dir := r_dir (rh_ray rh) in
    let v := vsub org (es_center s) in
    let A := dot dir dir in
    let B := n2 * dot v dir in
    let C := dot v v - es_radius s * es_radius s in
    let D := B * B - n4 * A * C in
    if D <? n0 then Ok rh
    else
      let Q := nsqrt D in
      let rcpA := n1 / A in
      let t0 := nhalf * rcpA * (- B - Q) in
      let t1 := nhalf * rcpA * (- B + Q) in
      let report t rh :=
        if (r_tnear (rh_ray rh) <? t) && (t <? r_tfar (rh_ray rh)) then
          set_ray_hit rh (normalize (vsub (vadd org (vscale t dir)) (es_center s))) n0 n0
                      (Some prim) (es_geom s) inst (norm (vscale t dir))
        else rh in
      Ok (report t1 (report t0 rh)).

(** EmbreeSphere.h:142-188 sphereOccludedFunc.  The second test compares tnear with t0
    again. *)
Definition esphere_occluded (e : esphere T) (prim : nat) (valid : bool) (r : rtc_ray T) : res (rtc_ray T) :=
  do s <- user e prim;
  if negb valid then Ok r
  else
    let org := r_org r in
    let dir := r_dir r in
    let v := vsub org (es_center s) in
    let A := dot dir dir in
    let B := n2 * dot v dir in
    let C := dot v v - es_radius s * es_radius s in
    let D := B * B - n4 * A * C in
    if D <? n0 then Ok r
    else
      let Q := nsqrt D in
      let rcpA := n1 / A in
      let t0 := nhalf * rcpA * (- B - Q) in
      let t1 := nhalf * rcpA * (- B + Q) in
      let r := if (r_tnear r <? t0) && (t0 <? r_tfar r) then set_tfar r ninf_neg else r in
      Ok (if (r_tnear r <? t0) && (t1 <? r_tfar r) then set_tfar r ninf_neg else r).

(** EmbreeSphere.h:31-34 distance_to_surface. *)
Definition esphere_distance (e : esphere T) (point : vec T) : T :=
  nabs (norm (vsub (es_center e) point) - es_radius e).

(** ** EmbreePlane.h *)

(** EmbreePlane.h:85-119 planeBoundsFunc; thickness is numeric_limits::min() (:31). *)
Definition eplane_bounds (e : eplane T) (prim : nat) : res (vec T * vec T) :=
  do p <- user e prim;
  let g v := vadd (ep_center p) (mulmv (ep_rot p) v) in
  let a1 := g (V (- ep_d1 p / n2) (- ep_d2 p / n2) n0) in
  let a2 := g (V (ep_d1 p / n2) (- ep_d2 p / n2) n0) in
  let a3 := g (V (- ep_d1 p / n2) (ep_d2 p / n2) n0) in
  let a4 := g (V (ep_d1 p / n2) (ep_d2 p / n2) n0) in
  let c1 := g (V n0 n0 (- ntiny)) in
  let c2 := g (V n0 n0 ntiny) in
  let least f := smin_list (f a1) [f a2; f a3; f a4; f c1; f c2] in
  let most f := smax_list (f a1) [f a2; f a3; f a4; f c1; f c2] in
  Ok (V (least vx) (least vy) (least vz), V (most vx) (most vy) (most vz)).

(** EmbreePlane.h:128-212 planeIntersectFunc.  As in the native routine the unqualified
    abs is taken as the floating point one. *)
Definition eplane_intersect (e : eplane T) (prim : nat) (valid : bool) (inst : option nat)
    (rh : rtc_rayhit T) : res (rtc_rayhit T) :=
  do p <- user e prim;
  if negb valid then Ok rh
  else
    let rot := ep_rot p in
    let inv := trans rot in
    let org := mulmv inv (vsub (r_org (rh_ray rh)) (ep_center p)) in
    let dir := mulmv inv (r_dir (rh_ray rh)) in
    let t1 := - vz org / vz dir in
    let ic := vadd org (vscale t1 dir) in
    let tnear := r_tnear (rh_ray rh) in
    let tfar := r_tfar (rh_ray rh) in
    let x_min := - ep_d1 p / n2 in
    let x_max := ep_d1 p / n2 in
    let y_min := - ep_d2 p / n2 in
    let y_max := ep_d2 p / n2 in
    let inr := (tnear <? t1) && (t1 <? tfar) in
    let xgt := x_min <? vx ic in
    let xlt := vx ic <? x_max in
    let ygt := y_min <? vy ic in
    let ylt := vy ic <? y_max in
    let xe0 := vx ic =? x_min in
    let xe1 := vx ic =? x_max in
    let ye0 := vy ic =? y_min in
    let ye1 := vy ic =? y_max in
    let s := vz org / nabs (vz org) in
    let done n := Ok (set_ray_hit rh n n0 n0 (Some prim) (ep_geom p) inst (norm (vscale t1 dir))) in
    let edge v := let n := mulmv rot v in done (vdivs n (norm n)) in
    if inr && xgt && xlt && ygt && ylt then done (vscale s (mulmv rot (V n0 n0 n1)))
    else if inr && xe0 && xlt && ygt && ylt then edge (V (- n1) n0 s)
    else if inr && xgt && xe1 && ygt && ylt then edge (V n1 n0 s)
    else if inr && xgt && xlt && ye0 && ylt then edge (V n0 (- n1) s)
    else if inr && xgt && xlt && ygt && ye1 then edge (V n0 n1 s)
    else if inr && xe0 && xlt && ye0 && ylt then edge (V (- n1) (- n1) s)
    else if inr && xe0 && xlt && ygt && ye1 then edge (V (- n1) n1 s)
    else if inr && xgt && xe1 && ye0 && ylt then edge (V n1 (- n1) s)
    else if inr && xgt && xe1 && ygt && ye1 then edge (V n1 n1 s)
    else Ok rh.

(** EmbreePlane.h:220-264 planeOccludedFunc. *)
Definition eplane_occluded (e : eplane T) (prim : nat) (valid : bool) (r : rtc_ray T) : res (rtc_ray T) :=
  do p <- user e prim;
  if negb valid then Ok r
  else
    let rot := trans (ep_rot p) in
    let org := mulmv rot (vsub (r_org r) (ep_center p)) in
    let dir := mulmv rot (r_dir r) in
    let t1 := - vz org / vz dir in
    let ic := vadd org (vscale t1 dir) in
    let x_min := - ep_d1 p / n2 in
    let x_max := ep_d1 p / n2 in
    let y_min := - ep_d2 p / n2 in
    let y_max := ep_d2 p / n2 in
    if (r_tnear r <? t1) && (t1 <? r_tfar r) && (x_min <=? vx ic) && (vx ic <=? x_max)
       && (y_min <=? vy ic) && (vy ic <=? y_max)
    then Ok (set_tfar r ninf_neg) else Ok r.

(** EmbreePlane.h:38 distance_to_surface. *)
Definition eplane_distance (_ : eplane T) (_ : vec T) : T := n0.

(** ** EmbreeCylinder.h *)

(** EmbreeCylinder.h:56-96 cylinderBoundsFunc. *)
Definition ecyl_bounds (e : ecyl T) (prim : nat) : res (vec T * vec T) :=
  do c <- user e prim;
  let rot := ec_rot c in
  let center := ec_center c in
  let a1_tmp := V (ec_a c) n0 n0 in
  let b1_tmp := V n0 (ec_b c) n0 in
  let h1_tmp := V n0 n0 (ec_h c / n2) in
  let a1 := vadd center (mulmv rot a1_tmp) in
  let b1 := vadd center (mulmv rot b1_tmp) in
  let h1 := vadd center (mulmv rot h1_tmp) in
  let a2 := vsub center (mulmv rot a1_tmp) in
  let b2 := vsub center (mulmv rot b1_tmp) in
  let h2 := vsub center (mulmv rot h1_tmp) in
  let least f := smin_list (f a1) [f b1; f a2; f b2; f h1; f h2] in
  let most f := smax_list (f a1) [f b1; f a2; f b2; f h1; f h2] in
  Ok (V (least vx) (least vy) (least vz), V (most vx) (most vy) (most vz)).

(** cylinderIntersectFunc leaves by [return] from inside an area or falls through to the
    area 4 test.  [Leave] and [Through] carry the record as written so far, as the normal
    and the parameter t of the last setRayHit ([None]: none yet). *)
Inductive flow := Leave (w : option (vec T * T)) | Through (w : option (vec T * T)).

(** The two lateral tests seen from outside: EmbreeCylinder.h:170-195 (area 1), 215-239
    (area 2), 243-266 (area 3).  They differ in the second test: area 3 compares with
    -h/20, and area 2 stores |t1 * dir|.  Both tests run. *)
Definition ecyl_outside (a b h : T) (rot : mat T) (low0 : T) (far : bool) (org dir : vec T) : flow :=
  let x0 := vx org in let y0 := vy org in
  let j := vx dir in let k := vy dir in
  if cyl_C a b x0 y0 j k <? n0 then Leave None
  else
    let t0 := cyl_t0 a b x0 y0 j k in
    let t1 := cyl_t1 a b x0 y0 j k in
    let i0 := vadd org (vscaler dir t0) in
    let i1 := vadd org (vscaler dir t1) in
    let w1 := if (n0 <? t1) && (t1 <? t0) && (vz i1 <=? h / n2) && (- h / n2 <=? vz i1)
              then Some (cyl_rot_normal rot (cyl_side_normal a b i1), t1) else None in
    Through (if (n0 <? t0) && (t0 <? t1) && (vz i0 <=? h / n2) && (low0 <=? vz i0)
             then Some (cyl_rot_normal rot (cyl_side_normal a b i0), if far then t1 else t0) else w1).

(** Area 1: EmbreeCylinder.h:153-196; area 2: :197-240. *)
Definition ecyl_beyond (a b h zc nz : T) (rot : mat T) (far : bool) (org dir : vec T) : flow :=
  if vz dir =? n0 then Leave None
  else
    let t0 := (zc - vz org) / vz dir in
    if t0 <? n0 then Leave None
    else
      let ic := vadd org (vscale t0 dir) in
      if b * b * vx ic * vx ic + a * a * vy ic * vy ic <=? a * a * b * b then
        Through (Some (cyl_rot_normal rot (V n0 n0 nz), t0))
      else ecyl_outside a b h rot (- h / n2) far org dir.

(** The caps seen from inside: EmbreeCylinder.h:310-327 and 360-377.  Both tests run. *)
Definition ecyl_caps (h : T) (rot : mat T) (org dir : vec T) (w : option (vec T * T)) : option (vec T * T) :=
  let l := vz dir in
  let w := if l <? n0 then Some (cyl_rot_normal rot (V n0 n0 (- n1)), (- h / n2 - vz org) / l) else w in
  if n0 <? l then Some (cyl_rot_normal rot (V n0 n0 n1), (h / n2 - vz org) / l) else w.

(** Area 4: EmbreeCylinder.h:268-379. *)
Definition ecyl_area4 (a b h : T) (rot : mat T) (org dir : vec T) (w : option (vec T * T)) : option (vec T * T) :=
  let x0 := vx org in let y0 := vy org in let z0 := vz org in
  let j := vx dir in let k := vy dir in let l := vz dir in
  let t0 := cyl_t0 a b x0 y0 j k in
  let t1 := cyl_t1 a b x0 y0 j k in
  let i0 := vadd org (vscaler dir t0) in
  let i1 := vadd org (vscaler dir t1) in
  let c1 := (n0 <? t1) && (vz i1 <=? h / n2) && (- h / n2 <=? vz i1) in
  let c0 := (n0 <? t0) && (vz i0 <=? h / n2) && (- h / n2 <=? vz i0) in
  let hit i t := Some (cyl_rot_normal rot (cyl_side_normal a b i), t) in
  if l =? n0 then
    if (z0 =? - h / n2) || (z0 =? h / n2) then w
    else if cyl_C a b x0 y0 j k <? n0 then w
    else
      let w := if c1 then hit i1 t1 else w in
      if c0 then hit i0 t0 else w
  else if (j =? n0) && (k =? n0) then
    if b * b * x0 * x0 + a * a * y0 * y0 =? a * a * b * b then w
    else ecyl_caps h rot org dir w
  else
    if cyl_C a b x0 y0 j k <? n0 then w
    else if c1 then hit i1 t1
    else if c0 then hit i0 t0
    else ecyl_caps h rot org dir w.

(** EmbreeCylinder.h:153-379: the areas. *)
Definition ecyl_local (a b h : T) (rot : mat T) (org dir : vec T) : option (vec T * T) :=
  let x0 := vx org in let y0 := vy org in let z0 := vz org in
  let f :=
    if h / n2 <? z0 then ecyl_beyond a b h (h / n2) n1 rot false org dir
    else if z0 <? - h / n2 then ecyl_beyond a b h (- h / n2) (- n1) rot true org dir
    else if (- h / n2 <? z0) && (z0 <? h / n2) && (a * a * b * b <? x0 * x0 * b * b + y0 * y0 * a * a)
    then ecyl_outside a b h rot (- h / nofZ 20) false org dir
    else Through None in
  match f with
  | Leave w => w
  | Through w =>
      if (- h / n2 <=? z0) && (z0 <=? h / n2) && (x0 * x0 * b * b + y0 * y0 * a * a <=? a * a * b * b)
      then ecyl_area4 a b h rot org dir w else w
  end.

(** EmbreeCylinder.h:98-380 cylinderIntersectFunc.  tnear and tfar are not read. *)
Definition ecyl_intersect (e : ecyl T) (prim : nat) (valid : bool) (inst : option nat)
    (rh : rtc_rayhit T) : res (rtc_rayhit T) :=
  do c <- user e prim;
  if negb valid then Ok rh
  else
    let inv := trans (ec_rot c) in
    let org := mulmv inv (vsub (r_org (rh_ray rh)) (ec_center c)) in
    let dir := mulmv inv (r_dir (rh_ray rh)) in
    match ecyl_local (ec_a c) (ec_b c) (ec_h c) (ec_rot c) org dir with
    | None => Ok rh
    | Some (n, t) => Ok (set_ray_hit rh n n0 n0 (Some prim) (ec_geom c) inst (norm (vscale t dir)))
    end.

(** EmbreeCylinder.h:434-470 and 471-507: areas 1 and 2 of cylinderOccludedFunc.  The
    bool pair: tfar has been set, and the function returned. *)
Definition ecyl_occ_beyond (a b h zc : T) (org dir : vec T) : bool * bool :=
  let x0 := vx org in let y0 := vy org in
  let j := vx dir in let k := vy dir in
  if vz dir =? n0 then (false, true)
  else
    let t0 := (zc - vz org) / vz dir in
    if t0 <? n0 then (false, true)
    else
      let ic := vadd org (vscale t0 dir) in
      if b * b * vx ic * vx ic + a * a * vy ic * vy ic <=? a * a * b * b then (true, true)
      else if cyl_C a b x0 y0 j k <? n0 then (false, true)
      else
        let t0 := cyl_t0 a b x0 y0 j k in
        let t1 := cyl_t1 a b x0 y0 j k in
        let i0 := vadd org (vscaler dir t0) in
        let i1 := vadd org (vscaler dir t1) in
        if (n0 <? t1) && (t1 <? t0) && (vz i1 <=? h / n2) && (- h / n2 <=? vz i1) then (true, true)
        else if (n0 <? t0) && (t0 <? t1) && (vz i0 <=? h / n2) && (- h / n2 <=? vz i0) then (true, true)
        else (false, false).

(** EmbreeCylinder.h:434-547: is tfar set to -infinity? *)
Definition ecyl_occ_local (a b h : T) (org dir : vec T) : bool :=
  let x0 := vx org in let y0 := vy org in let z0 := vz org in
  let j := vx dir in let k := vy dir in let l := vz dir in
  let t0 := cyl_t0 a b x0 y0 j k in
  let t1 := cyl_t1 a b x0 y0 j k in
  let '(set, gone) :=
    if h / n2 <? z0 then ecyl_occ_beyond a b h (h / n2) org dir
    else if z0 <? - h / n2 then ecyl_occ_beyond a b h (- h / n2) org dir
    else if (- h / n2 <? z0) && (z0 <? h / n2) && (a * a * b * b <? x0 * x0 * b * b + y0 * y0 * a * a) then
      if cyl_C a b x0 y0 j k <? n0 then (false, true)
      else if (t0 <? n0) && (t1 <? n0) then (false, true)
      else (true, false)
    else (false, false) in
  if gone then set
  else if (- h / n2 <=? z0) && (z0 <=? h / n2) && (x0 * x0 * b * b + y0 * y0 * a * a <=? a * a * b * b) then
    if ((z0 =? - h / n2) && (l <? n0)) || ((z0 =? h / n2) && (n0 <? l)) then set
    else if cyl_C a b x0 y0 j k <? n0 then set
    else if (t0 <=? n0) && (t1 <=? n0) then set
    else true
  else set.

(** EmbreeCylinder.h:382-549 cylinderOccludedFunc. *)
Definition ecyl_occluded (e : ecyl T) (prim : nat) (valid : bool) (r : rtc_ray T) : res (rtc_ray T) :=
  do c <- user e prim;
  if negb valid then Ok r
  else
    let inv := trans (ec_rot c) in
    let org := mulmv inv (vsub (r_org r) (ec_center c)) in
    let dir := mulmv inv (r_dir r) in
    if ecyl_occ_local (ec_a c) (ec_b c) (ec_h c) org dir then Ok (set_tfar r ninf_neg) else Ok r.
End Model.
