(** Vocabulary for the shadow test of examples/path_tracer/main.cc. *)

From Coq Require Import Reals List Bool.
From Verif Require Import Num NumX Vec SpecReal SpecTri.
Local Open Scope R_scope.

(** The segment from [p] to [q] crosses face [i] at a distance in [lo, hi) from [p]. *)
Definition crosses_segment (faces : list (vec nat)) P (p q : vec R) (lo hi : R) (i : nat) : Prop :=
  let U := unit_of (rv_sub q p) in
  exists t, (i < length faces)%nat /\ lo <= t < hi /\
    tri_det (fa faces P i) (fb faces P i) (fc faces P i) U <> 0 /\
    on_tri (fa faces P i) (fb faces P i) (fc faces P i) (at_t p U t).

(** As above with the tolerance of the triangle test. *)
Definition nears_segment (tol : R) (faces : list (vec nat)) P (p q : vec R) (lo hi : R) (i : nat) : Prop :=
  let U := unit_of (rv_sub q p) in
  exists t u v, (i < length faces)%nat /\ lo <= t < hi /\
    tri_det (fa faces P i) (fb faces P i) (fc faces P i) U <> 0 /\
    near_tri tol (fa faces P i) (fb faces P i) (fc faces P i) U (at_t p U t) u v.

(** The boxes of all faces lie within the scalar type's range. *)
Definition faces_bounded (big : R) (faces : list (vec nat)) P : Prop :=
  forall i, (i < length faces)%nat ->
    in_bounds big (tri_lower (fa faces P i) (fb faces P i) (fc faces P i)) /\
    in_bounds big (tri_upper (fa faces P i) (fb faces P i) (fc faces P i)).

(** No face's box has [z] as its least or largest z coordinate. *)
Definition off_face_planes (z : R) (faces : list (vec nat)) P : Prop :=
  forall i, (i < length faces)%nat ->
    z <> vz (tri_lower (fa faces P i) (fb faces P i) (fc faces P i)) /\
    z <> vz (tri_upper (fa faces P i) (fb faces P i) (fc faces P i)).

Definition no_neg_zeros (v : vec xr) : Prop := no_neg_zero (vx v) /\ no_neg_zero (vy v) /\ no_neg_zero (vz v).
