(** Plane patches over the reals. *)

From Coq Require Import Reals List.
From Verif Require Import NumX Vec Ray Plane SpecReal.
Local Open Scope R_scope.

(** [Rm] is orthogonal: its transpose is its inverse. *)
Definition orthogonal (Rm : mat R) : Prop :=
  forall v, rv_mul (rv_trans Rm) (rv_mul Rm v) = v /\ rv_mul Rm (rv_mul (rv_trans Rm) v) = v.

(** The patch: the [dx] by [dy] rectangle in the xy-plane around 0, moved by [Rm]
    and then to [C]. *)
Definition on_patch (C : vec R) (dx dy : R) (Rm : mat R) (p : vec R) : Prop :=
  exists x y, Rabs x <= dx / 2 /\ Rabs y <= dy / 2 /\ p = rv_add C (rv_mul Rm (V x y 0)).
(** Its interior. *)
Definition in_patch (C : vec R) (dx dy : R) (Rm : mat R) (p : vec R) : Prop :=
  exists x y, Rabs x < dx / 2 /\ Rabs y < dy / 2 /\ p = rv_add C (rv_mul Rm (V x y 0)).

(** The patch's normal. *)
Definition normal_of (Rm : mat R) : vec R := rv_mul Rm (V 0 0 1).

(** [n] points to the side of the patch on which [O] lies. *)
Definition faces (C : vec R) (Rm : mat R) (O n : vec R) : Prop :=
  0 < rv_dot n (normal_of Rm) * rv_dot (rv_sub O C) (normal_of Rm).

(** The collection's data are the finite numbers [C i], [dx i], [dy i], [Rm i]. *)
Definition planes_are (s : planes xr) (C : nat -> vec R) (dx dy : nat -> R) (Rm : nat -> mat R) : Prop :=
  forall i, (i < length (ps_centers s))%nat ->
    (exists c, nth_error (ps_centers s) i = Some c /\ visR c (C i)) /\
    (exists x, nth_error (ps_dxs s) i = Some x /\ isR x (dx i)) /\
    (exists x, nth_error (ps_dys s) i = Some x /\ isR x (dy i)) /\
    (exists r, nth_error (ps_rots s) i = Some r /\ misR r (Rm i)).

(** Patch [i] is crossed transversally at distance [t]. *)
Definition plane_hit (s : planes xr) C dx dy Rm (O U : vec R) (m : R) (tmax : xr) (i : nat) (t : R) : Prop :=
  (i < length (ps_centers s))%nat /\
  (rv_dot U (normal_of (Rm i)) <> 0 /\ on_patch (C i) (dx i) (dy i) (Rm i) (at_t O U t) /\ m < t) /\
  xltb (Fin t) tmax = true.

(** The record's normal: of unit length, on the side of the origin, and inside the
    patch one of the two normals. *)
Definition plane_about C dx dy Rm (O U : vec R) (i : nat) (t : R) (rh : rayhit xr) : Prop :=
  exists n, visR (h_normal rh) n /\ rv_norm n = 1 /\ faces (C i) (Rm i) O n /\
    (in_patch (C i) (dx i) (dy i) (Rm i) (at_t O U t) ->
     n = normal_of (Rm i) \/ n = rv_scale (-1) (normal_of (Rm i))).

(** Half the width of a patch's box along one axis: that of the rectangle, or of the
    thickness [tiny] if larger. *)
Definition extent (dx dy tiny : R) (row : vec R) : R :=
  Rmax (Rabs (vx row) * (dx / 2) + Rabs (vy row) * (dy / 2)) (Rabs (vz row) * tiny).
(** The corners of a patch's box. *)
Definition plane_lower (C : vec R) (dx dy : R) (Rm : mat R) (tiny : R) : vec R :=
  V (vx C - extent dx dy tiny (vx Rm)) (vy C - extent dx dy tiny (vy Rm)) (vz C - extent dx dy tiny (vz Rm)).
Definition plane_upper (C : vec R) (dx dy : R) (Rm : mat R) (tiny : R) : vec R :=
  V (vx C + extent dx dy tiny (vx Rm)) (vy C + extent dx dy tiny (vy Rm)) (vz C + extent dx dy tiny (vz Rm)).

(** [p]'s foot point on the patch's plane. *)
Definition foot (C : vec R) (Rm : mat R) (p : vec R) : vec R :=
  rv_sub p (rv_scale (rv_dot (rv_sub p C) (normal_of Rm)) (normal_of Rm)).
