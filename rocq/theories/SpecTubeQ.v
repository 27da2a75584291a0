(** Queries on cylinders in IEEE arithmetic. *)

From Coq Require Import Reals ZArith List Floats.SpecFloat.
From Flocq Require Import Core IEEE754.BinarySingleNaN.
From Verif Require Import Num NumF Vec Bvh Cylinder SpecReal SpecIEEE SpecTriF SpecSphF SpecPlane SpecPlaneF SpecTubeF SpecCyl.
Local Open Scope R_scope.

(** The box that the code computes for a cylinder. *)
Definition tube_box_of (prec emax : Z) (centers : list (vec spec_float)) (sa sb hs : list spec_float) (rots : list (mat spec_float)) (i : nat)
    : vec spec_float * vec spec_float :=
  let z := S754_zero false in
  @cylinder_box _ (Fnum prec emax) (nth i centers (V z z z)) (nth i sa z) (nth i sb z) (nth i hs z) (nth i rots (V (V z z z) (V z z z) (V z z z))).

(** [X] lies inside the box around the six tips of the axes, by [e]. *)
Definition in_tips (e : R) (C : vec R) (a b h : R) (Q : mat R) (X : vec R) : Prop :=
  Rabs (vx X - vx C) + e <= tip_extent a b (2 * h) (vx Q) /\ Rabs (vy X - vy C) + e <= tip_extent a b (2 * h) (vy Q) /\
  Rabs (vz X - vz C) + e <= tip_extent a b (2 * h) (vz Q).

(** Cylinders and a ray of moderate size; half the height of the [i]th is [h i]; the origin is outside of
    each or inside of it, with a margin. *)
Record tubes_ray (prec emax : Z) (M r v : R) (centers : list (vec spec_float)) (sa sb hs : list spec_float) (rots : list (mat spec_float))
    (C : nat -> vec R) (a b h : nat -> R) (Q : nat -> mat R) (B : nat -> vec R)
    (o d : vec spec_float) (tmin tmax : spec_float) (O D : vec R) (lo : R) : Prop := {
  ts_format : usual_format prec emax;
  ts_scale : scale_ok prec emax M;
  ts_tubes : forall i, (i < length centers)%nat -> exists c fa fb fh m,
    nth_error centers i = Some c /\ nth_error sa i = Some fa /\ nth_error sb i = Some fb /\ nth_error hs i = Some fh /\ nth_error rots i = Some m /\
    tube_ray prec emax M r v o (@normalize _ (Fnum prec emax) d) c fa fb fh m O (unit_of D) (C i) (a i) (b i) (h i) (Q i) (B i) /\ coords M (C i);
  ts_place : forall i, (i < length centers)%nat ->
    outside (tube_err prec M r) (cap_err prec M) (a i) (b i) (h i) (local (C i) (Q i) O) \/
    deep_in (tube_err prec M r) (cap_err prec M) (a i) (b i) (h i) (local (C i) (Q i) O);
  ts_ray : tame_ray prec emax o d tmin O D lo;
  ts_norm : 1 - 4 * ulpf prec <= rv_norm D <= / ulpf prec;
  ts_lo : 0 <= lo;
  ts_far : at_least prec emax tmax (4 * M) }.

(** A level ray does not run in the plane of a box's upper or lower side. *)
Definition off_sides (prec emax : Z) (centers : list (vec spec_float)) (sa sb hs : list spec_float) (rots : list (mat spec_float)) (O D : vec R) : Prop :=
  vz D = 0 -> forall i, (i < length centers)%nat ->
    vz O <> vz (box_low (tube_box_of prec emax centers sa sb hs rots i)) /\ vz O <> vz (box_high (tube_box_of prec emax centers sa sb hs rots i)).

(** At parameter [t], after [lo], the ray is deep in the cylinder, which it either started in or entered away
    from its rims; and the point lies in the code's box, which is so for all of them if the matrix
    maps axes to axes. *)
Definition plain_view (prec : Z) (M r a b h : R) (C : vec R) (Q : mat R) (O U : vec R) (lo t : R) : Prop :=
  let e := tube_err prec M r in let ez := cap_err prec M in let X := at_t O U in
  lo <= t /\ (t = 0 \/ ulpf prec <= t) /\ deep_in e ez a b h (local C Q (X t)) /\
  (axis_aligned Q \/ in_tips (32 * ulpf prec * M) C a b h Q (X t)) /\
  (deep_in e ez a b h (local C Q O) \/
   (clear_outside e ez a b h (local C Q O) /\ forall s, 0 <= s <= t -> ~ near_rim e ez a b h (local C Q (X s)))).

(** What a query reports: the ray meets the cylinder's surface at [x], and before not at all, up to the errors. *)
Definition first_meeting (prec : Z) (M r a b h : R) (C : vec R) (Q : mat R) (O U : vec R) (x : R) : Prop :=
  let e := tube_err prec M r in let ez := cap_err prec M in let X t := local C Q (at_t O U t) in
  0 <= x <= 3 * M /\ on_tube e ez a b h (X x) /\
  (outside e ez a b h (local C Q O) -> forall t, 0 <= t <= x -> ~ deep_in e ez a b h (X t)) /\
  (deep_in e ez a b h (local C Q O) -> forall t, 0 <= t <= x -> in_tube e ez a b h (X t)).
