(** Finite IEEE numbers and their values. *)

From Coq Require Import Reals ZArith Bool Floats.SpecFloat.
From Flocq Require Import Core IEEE754.BinarySingleNaN.
From Verif Require Import Num NumF Vec Bvh SpecReal.
Local Open Scope R_scope.

Section F.
Variables prec emax : Z.

(** [x] is a number of the format, finite, with the value [a]. *)
Definition isF (x : spec_float) (a : R) : Prop :=
  valid_binary prec emax x = true /\ is_finite_SF x = true /\ SF2R radix2 x = a.
Definition visF (v : vec spec_float) (a : vec R) : Prop :=
  isF (vx v) (vx a) /\ isF (vy v) (vy a) /\ isF (vz v) (vz a).

(** The value rounded to nearest, ties to even; the unit roundoff; the smallest normal
    number; the first power of two that is too large. *)
Definition rnd (a : R) : R := round radix2 (SpecFloat.fexp prec emax) ZnearestE a.
Definition ulpf : R := bpow radix2 (- prec).
Definition least : R := bpow radix2 (3 - emax - 1).
Definition top : R := bpow radix2 emax.
End F.

(** Inputs for which nothing in the node test overflows or underflows on one axis: box
    bounds [mn], [mx], origin [o], direction [d].  A zero component must be a positive
    zero. *)
Definition tame_axis (emax : Z) (mn mx o d : R) (fd : spec_float) : Prop :=
  Rabs (mn - o) <= top emax / 2 /\ Rabs (mx - o) <= top emax / 2 /\
  (d = 0 -> fd = S754_zero false) /\ (d <> 0 -> least emax <= Rabs d <= / least emax).
Definition tame (emax : Z) (mn mx o d : vec R) (fd : vec spec_float) : Prop :=
  tame_axis emax (vx mn) (vx mx) (vx o) (vx d) (vx fd) /\
  tame_axis emax (vy mn) (vy mx) (vy o) (vy d) (vy fd) /\
  tame_axis emax (vz mn) (vz mx) (vz o) (vz d) (vz fd).
(** A distance that is zero or well within the normal range. *)
Definition tame_distance (emax : Z) (t : R) : Prop := t = 0 \/ 2 * least emax <= t <= top emax / 4.
(** [x] is at least [a], possibly infinite. *)
Definition at_least (prec emax : Z) (x : spec_float) (a : R) : Prop :=
  x = S754_infinity false \/ exists b, isF prec emax x b /\ a <= b.

(** Boxes whose bounds are finite numbers of the format. *)
Definition boxes_areF (prec emax : Z) {P : Type} (c : coll spec_float P) (bmin bmax : nat -> vec R) : Prop :=
  forall i, (i < c_size c)%nat ->
    exists b, c_box c i = Ok b /\ visF prec emax (fst b) (bmin i) /\ visF prec emax (snd b) (bmax i).
(** Coordinates away from the overflow threshold. *)
Definition moderate (emax : Z) (v : vec R) : Prop :=
  Rabs (vx v) <= top emax / 8 /\ Rabs (vy v) <= top emax / 8 /\ Rabs (vz v) <= top emax / 8.
Definition moderate_boxes (emax : Z) (n : nat) (bmin bmax : nat -> vec R) : Prop :=
  forall i, (i < n)%nat -> moderate emax (bmin i) /\ moderate emax (bmax i).
(** Extents (from the lower bound of any box to the upper bound of any other) are zero or at
    least the smallest normal number. *)
Definition spread (emax : Z) (a b : R) : Prop := b - a = 0 \/ least emax <= Rabs (b - a).
Definition spread_boxes (emax : Z) (n : nat) (bmin bmax : nat -> vec R) : Prop :=
  forall i j, (i < n)%nat -> (j < n)%nat ->
    spread emax (vx (bmin i)) (vx (bmax j)) /\ spread emax (vy (bmin i)) (vy (bmax j)) /\
    spread emax (vz (bmin i)) (vz (bmax j)).

(** A ray with finite origin and direction, none of whose direction components underflows or
    is a negative zero. *)
Record tame_ray (prec emax : Z) (o d : vec spec_float) (tmin : spec_float) (O D : vec R) (lo : R) : Prop := {
  tr_o : visF prec emax o O;
  tr_d : visF prec emax d D;
  tr_lo : isF prec emax tmin lo;
  tr_mod : moderate emax O;
  tr_x : (vx D = 0 -> vx d = S754_zero false) /\ (vx D <> 0 -> least emax <= Rabs (vx D) <= / least emax);
  tr_y : (vy D = 0 -> vy d = S754_zero false) /\ (vy D <> 0 -> least emax <= Rabs (vy D) <= / least emax);
  tr_z : (vz D = 0 -> vz d = S754_zero false) /\ (vz D <> 0 -> least emax <= Rabs (vz D) <= / least emax) }.
(** The exact ray meets the box at parameter [t] in the interval, and the interval's end leaves
    a margin of four units of roundoff. *)
Definition meets_at (prec emax : Z) (m M O D : vec R) (lo : R) (tmax : spec_float) (t : R) : Prop :=
  lo <= t /\ tame_distance emax t /\ in_box m M (at_t O D t) /\ at_least prec emax tmax (t * (1 + 4 * ulpf prec)).
