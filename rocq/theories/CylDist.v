(** blazert/primitives/cylinder.h:497-759: distance_to_surface for cylinders. *)

From Coq Require Import ZArith List Bool Arith.
From Verif Require Import Num Vec Cylinder.
Import ListNotations.

(** cylinder.h:514-515. *)
Inductive halfspace := UPPER | LOWER.
Inductive argument := ARG_X | ARG_Y.

Section Model.
Context {T : Type} {N : num T}.
Local Open Scope num_scope.

(** Constants the code writes as decimal literals: 1e-4 (float) or 1e-7 (double)
    at cylinder.h:591-598, and 0.95 at line 620.  [iszero] is blaze::isZero on a
    scalar (line 707), exact or relaxed depending on the Blaze configuration. *)
Variable newton_eps : T.
Variable percentage : T.
Variable iszero : T -> bool.

(** cylinder.h:507-512. *)
Definition ellipse_equation (a b x y : T) : T := x * x / (a * a) + y * y / (b * b) - n1.

(** The square root at the head of each case. *)
Definition dsqrt (a val : T) : T :=
  if a * a <? val * val then nsqrt (val * val - a * a) else nsqrt (a * a - val * val).

Definition nm2 : T := nofZ (-2).

(** cylinder.h:517-544. *)
Definition distance_derivative (hs : halfspace) (arg : argument) (a b xq yq val : T) : T :=
  match hs, arg with
  | UPPER, ARG_X => let s := dsqrt a val in
      nm2 * (xq - val) - n2 * b * val * (b / a * s - yq) / (a * s)
  | LOWER, ARG_X => let s := dsqrt a val in
      nm2 * (xq - val) - n2 * b * val * (b / a * s + yq) / (a * s)
  | UPPER, ARG_Y => let s := dsqrt b val in
      nm2 * (yq - val) - n2 * a * val * (a / b * s + xq) / (b * s)
  | LOWER, ARG_Y => let s := dsqrt b val in
      nm2 * (yq - val) - n2 * a * val * (a / b * s - xq) / (b * s)
  end.

(** cylinder.h:548-583. *)
Definition single_newton_iteration (hs : halfspace) (arg : argument) (a b xq yq val : T) : T :=
  match hs, arg with
  | UPPER, ARG_X => let s := dsqrt a val in
      ((a * a * a * xq - a * val * val * xq) * s + b * val * val * val * yq)
      / ((a * a * a - a * b * b - a * val * val + b * b * val * val / a) * s + a * a * b * yq)
  | LOWER, ARG_X => let s := dsqrt a val in
      ((- a * a * a * xq + a * val * val * xq) * s + b * val * val * val * yq)
      / ((- a * a * a + a * b * b + a * val * val - b * b * val * val / a) * s + a * a * b * yq)
  | UPPER, ARG_Y => let s := dsqrt b val in
      ((b * b * b * yq - b * val * val * yq) * s + a * val * val * val * xq)
      / ((b * b * b - b * a * a - b * val * val + a * a * val * val / b) * s + b * b * a * xq)
  | LOWER, ARG_Y => let s := dsqrt b val in
      ((- b * b * b * yq + b * val * val * yq) * s + a * val * val * val * xq)
      / ((- b * b * b + b * a * a + b * val * val - a * a * val * val / b) * s + b * b * a * xq)
  end.

(** cylinder.h:586-607: at most 100 iterations ([cnt] counts in T, exactly). *)
Fixpoint newton_loop (fuel : nat) (hs : halfspace) (arg : argument) (a b xq yq val0 : T) : T :=
  match fuel with
  | O => val0
  | S f =>
      if newton_eps <=? nabs (distance_derivative hs arg a b xq yq val0) then
        let val := single_newton_iteration hs arg a b xq yq val0 in
        let val := if nabs val =? a then val + neps else val in
        newton_loop f hs arg a b xq yq val
      else val0
  end.
Definition newton_iteration := newton_loop 100.

(** cylinder.h:615-664; only the distance is used by the caller. *)
Definition find_minimum_distance_to_ellipse (a b xq yq : T) : T :=
  let ba := b / a in
  let mba := - b / a in
  let guess c s := if n0 <? c then percentage * s else - percentage * s in
  if ((n0 <=? xq) && (ba * xq <=? yq)) || ((xq <=? n0) && (mba * xq <=? yq)) then
    let x_min := newton_iteration UPPER ARG_X a b xq yq (guess xq a) in
    let y_min := b / a * nsqrt (a * a - x_min * x_min) in
    nsqrt ((xq - x_min) * (xq - x_min) + (yq - y_min) * (yq - y_min))
  else if ((n0 <=? xq) && (yq <=? mba * xq)) || ((xq <=? n0) && (yq <=? ba * xq)) then
    let x_min := newton_iteration LOWER ARG_X a b xq yq (guess xq a) in
    let y_min := - b / a * nsqrt (a * a - x_min * x_min) in
    nsqrt ((xq - x_min) * (xq - x_min) + (yq - y_min) * (yq - y_min))
  else if (n0 <=? xq) && (yq <=? ba * xq) && (mba * xq <=? yq) then
    let y_min := newton_iteration UPPER ARG_Y a b xq yq (guess yq b) in
    let x_min := a / b * nsqrt (b * b - y_min * y_min) in
    nsqrt ((yq - y_min) * (yq - y_min) + (xq - x_min) * (xq - x_min))
  else
    let y_min := newton_iteration LOWER ARG_Y a b xq yq (guess yq b) in
    let x_min := - a / b * nsqrt (b * b - y_min * y_min) in
    nsqrt ((yq - y_min) * (yq - y_min) + (xq - x_min) * (xq - x_min)).

(** cylinder.h:677-759 distance_to_surface. *)
Definition cylinder_distance (c : cylinder T) (point : vec T) : T :=
  let lp := mulmv (trans (cy_rot c)) (vsub point (cy_center c)) in
  let h := cy_h c in
  let dist_top := nabs (vz lp - h / n2) in
  let dist_bottom := nabs (vz lp + h / n2) in
  let xq := vx lp in let yq := vy lp in let zq := vz lp in
  let a := cy_a c in let b := cy_b c in
  if iszero xq && iszero yq then
    if (h / n2 <? zq) || (zq <? - h / n2) then smin_list dist_top [dist_bottom]
    else smin_list a [b; dist_top; dist_bottom]
  else
    let ellipse := ellipse_equation a b xq yq in
    if nabs ellipse <? neps then
      if (h / n2 <? zq) || (zq <? - h / n2) then smin dist_top dist_bottom else n0
    else if ellipse <? n0 then
      if h / n2 <=? zq then dist_top
      else if zq <=? - h / n2 then dist_bottom
      else smin_list (find_minimum_distance_to_ellipse a b xq yq) [dist_bottom; dist_top]
    else if n0 <? ellipse then
      if (zq <? h / n2) && (- h / n2 <? zq) then find_minimum_distance_to_ellipse a b xq yq
      else
        let ds := find_minimum_distance_to_ellipse a b xq yq in
        let dist1 := nsqrt (ds * ds + dist_top * dist_top) in
        let dist2 := nsqrt (ds * ds + dist_bottom * dist_bottom) in
        smin_list dist1 [dist2]
    else - n1.
End Model.
