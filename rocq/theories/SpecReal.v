(** Real-number vocabulary of the geometric statements. *)

From Coq Require Import Reals ZArith List Bool.
From Verif Require Import Num NumX Vec.
Local Open Scope R_scope.

(** [x] is the finite number [r]. *)
Definition isR (x : xr) (r : R) : Prop := match x with Xf _ a => a = r | _ => False end.
(** Componentwise. *)
Definition visR (v : vec xr) (w : vec R) : Prop :=
  isR (vx v) (vx w) /\ isR (vy v) (vy w) /\ isR (vz v) (vz w).
Definition misR (m : mat xr) (w : mat R) : Prop :=
  visR (vx m) (vx w) /\ visR (vy m) (vy w) /\ visR (vz m) (vz w).

(** Vectors over the reals. *)
Definition rv_add (u v : vec R) : vec R := V (vx u + vx v) (vy u + vy v) (vz u + vz v).
Definition rv_sub (u v : vec R) : vec R := V (vx u - vx v) (vy u - vy v) (vz u - vz v).
Definition rv_scale (s : R) (v : vec R) : vec R := V (s * vx v) (s * vy v) (s * vz v).
Definition rv_dot (u v : vec R) : R := vx u * vx v + vy u * vy v + vz u * vz v.
Definition rv_cross (u v : vec R) : vec R :=
  V (vy u * vz v - vz u * vy v) (vz u * vx v - vx u * vz v) (vx u * vy v - vy u * vx v).
Definition rv_norm (v : vec R) : R := sqrt (rv_dot v v).
Definition rv_mul (m : mat R) (v : vec R) : vec R :=
  V (rv_dot (vx m) v) (rv_dot (vy m) v) (rv_dot (vz m) v).
Definition rv_trans (m : mat R) : mat R :=
  V (V (vx (vx m)) (vx (vy m)) (vx (vz m)))
    (V (vy (vx m)) (vy (vy m)) (vy (vz m)))
    (V (vz (vx m)) (vz (vy m)) (vz (vz m))).
Definition rv_zero : vec R := V 0 0 0.

(** The point at parameter [t] of the line through [o] with direction [d]. *)
Definition at_t (o d : vec R) (t : R) : vec R := rv_add o (rv_scale t d).

(** The point [p] lies in the box. *)
Definition in_box (m M p : vec R) : Prop :=
  vx m <= vx p <= vx M /\ vy m <= vy p <= vy M /\ vz m <= vz p <= vz M.

(** Every real vector is a vector of scalars. *)
Definition vfin (v : vec R) : vec xr := vmap Fin v.
Definition mfin (m : mat R) : mat xr := vmap vfin m.

(** A direction component that is not a negative zero. *)
Definition no_neg_zero (x : xr) : Prop := forall s, x = Xf s 0 -> s = false.

(** Rays for which the node test is reliable: finite origin and direction, no
    negative zero among the direction's components, a finite nonnegative
    min_hit_distance, and a direction of length 1 (or of length at least 1 if
    min_hit_distance is 0). *)
Record admissible (o d : vec xr) (tmin : xr) (O D : vec R) (m : R) : Prop := {
  ad_o : visR o O;
  ad_d : visR d D;
  ad_zx : no_neg_zero (vx d);
  ad_zy : no_neg_zero (vy d);
  ad_zz : no_neg_zero (vz d);
  ad_min : isR tmin m;
  ad_m : 0 <= m;
  ad_len : rv_norm D = 1 \/ (1 <= rv_norm D /\ m = 0) }.

(** As above with any direction of length at least 1. *)
Record wide (o d : vec xr) (tmin : xr) (O D : vec R) (m : R) : Prop := {
  wd_o : visR o O;
  wd_d : visR d D;
  wd_zx : no_neg_zero (vx d);
  wd_zy : no_neg_zero (vy d);
  wd_zz : no_neg_zero (vz d);
  wd_min : isR tmin m;
  wd_m : 0 <= m;
  wd_len : 1 <= rv_norm D }.

(** The direction of unit length along [D]. *)
Definition unit_of (D : vec R) : vec R := rv_scale (/ rv_norm D) D.

(** All coordinates lie between the lowest and largest scalar. *)
Definition in_bounds (big : R) (v : vec R) : Prop :=
  - big <= vx v <= big /\ - big <= vy v <= big /\ - big <= vz v <= big.
