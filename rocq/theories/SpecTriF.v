(** Triangles in IEEE arithmetic: on which side of its edges a ray passes, with a margin. *)

From Coq Require Import Reals ZArith List Floats.SpecFloat.
From Verif Require Import Num Vec SpecReal SpecIEEE SpecTri.
Local Open Scope R_scope.

(** binary32, binary64 and larger formats. *)
Definition usual_format (prec emax : Z) : Prop := (20 <= prec /\ 3 * prec <= emax)%Z.
(** Coordinates of vertices and origins up to [M]; far from overflow. *)
Definition scale_ok (prec emax : Z) (M : R) : Prop := 1 <= M /\ 256 * M ^ 3 <= top emax /\ M <= ulpf prec * top emax.
Definition coords (M : R) (v : vec R) : Prop := Rabs (vx v) <= M /\ Rabs (vy v) <= M /\ Rabs (vz v) <= M.

(** A ray's direction is [U] up to five units of roundoff per component. *)
Definition near_dir (prec emax : Z) (d : vec spec_float) (U : vec R) : Prop :=
  coords 1 U /\ exists D, visF prec emax d D /\ coords (5 * ulpf prec) (rv_sub D U).

(** Positive, zero or negative as the ray from [O] along [D] passes the line through [X] and
    [Y] on one side, meets it, or passes on the other. *)
Definition side (O D X Y : vec R) : R := rv_dot D (rv_cross (rv_sub X O) (rv_sub Y O)).
(** The ray's line passes all three edges on the same side [s] (1 or -1), with margin [m]:
    with margin zero it meets the triangle. *)
Definition passes (s m : R) (O D A B C : vec R) : Prop :=
  (s = 1 \/ s = -1) /\ m <= s * side O D A B /\ m <= s * side O D B C /\ m <= s * side O D C A.
(** The height of [X] over the plane of the triangle, times twice its area. *)
Definition plane (A B C X : vec R) : R := rv_dot (tri_cross A B C) (rv_sub X A).
(** The ray's speed towards the plane, in the same measure. *)
Definition speed (D A B C : vec R) : R := rv_dot (tri_cross A B C) D.
(** [t], [u] and [v] are the distance and the weights of the hit, up to the error terms. *)
Definition hit_near (prec : Z) (M : R) (O D A B C : vec R) (t u v : R) : Prop :=
  Rabs (plane A B C (at_t O D t)) <= 512 * ulpf prec * M ^ 2 * (M + Rabs t) /\
  Rabs (u * speed D A B C - side O D C A) <= 384 * ulpf prec * M ^ 2 * (1 + Rabs u) /\
  Rabs (v * speed D A B C - side O D A B) <= 384 * ulpf prec * M ^ 2 * (1 + Rabs v).

(** The vertices of a mesh are the points [P j], with coordinates up to [M], and its faces use
    existing ones. *)
Definition mesh_areF (prec emax : Z) (M : R) (vertices : list (vec spec_float)) (faces : list (vec nat)) (P : nat -> vec R) : Prop :=
  (forall j, (j < length vertices)%nat -> exists x, nth_error vertices j = Some x /\ visF prec emax x (P j) /\ coords M (P j)) /\
  (forall f, In f faces -> (vx f < length vertices /\ vy f < length vertices /\ vz f < length vertices)%nat).
(** Face [i] is surely hit after [lo], on side [s]: the ray passes its edges with a margin, and its
    plane comes after [lo] with a margin. *)
Definition surely_hit (prec : Z) (M : R) (faces : list (vec nat)) (P : nat -> vec R) (O D : vec R) (lo : R) (i : nat) (s : R) : Prop :=
  passes s (967 * ulpf prec * M ^ 2) O D (fa faces P i) (fb faces P i) (fc faces P i) /\
  s * plane (fa faces P i) (fb faces P i) (fc faces P i) (at_t O D lo) <= - (400 * ulpf prec * M ^ 2 * (M + lo)).
(** Face [i] is hit after [lo], up to the error terms, and the answer's distance and weights
    are [t], [u] and [v]. *)
Definition nearly_hit (prec : Z) (M : R) (faces : list (vec nat)) (P : nat -> vec R) (O D : vec R) (lo : R) (i : nat) (t u v : R) : Prop :=
  (exists s, passes s (- (980 * ulpf prec * M ^ 2)) O D (fa faces P i) (fb faces P i) (fc faces P i) /\
     s * plane (fa faces P i) (fb faces P i) (fc faces P i) (at_t O D lo) <= 400 * ulpf prec * M ^ 2 * (M + lo)) /\
  hit_near prec M O D (fa faces P i) (fb faces P i) (fc faces P i) t u v.
(** No face that the ray's line meets (up to the error terms) is seen almost edge-on. *)
Definition none_edge_on (prec : Z) (M : R) (faces : list (vec nat)) (P : nat -> vec R) (O D : vec R) : Prop :=
  forall i s, (i < length faces)%nat ->
    passes s (- (980 * ulpf prec * M ^ 2)) O D (fa faces P i) (fb faces P i) (fc faces P i) ->
    1000 * ulpf prec * M ^ 2 <= Rabs (speed D (fa faces P i) (fb faces P i) (fc faces P i)).
(** Up to [n] roundings of the distance [t], and up to the error term, the plane of face [i] does
    not come before [t]. *)
Definition not_behind (prec : Z) (M : R) (faces : list (vec nat)) (P : nat -> vec R) (O D : vec R) (i : nat) (s : R) (n : nat) (t : R) : Prop :=
  exists y, t <= y * (1 + 4 * ulpf prec) ^ n /\
    s * plane (fa faces P i) (fb faces P i) (fc faces P i) (at_t O D y) <= 512 * ulpf prec * M ^ 2 * (M + y).

(** A mesh and a ray of moderate size: [O], [D] and [lo] are the ray's numbers, [M] bounds all
    coordinates, and the interval has room for everything on the way. *)
Record mesh_ray (prec emax : Z) (M : R) (vertices : list (vec spec_float)) (faces : list (vec nat)) (P : nat -> vec R)
    (o d : vec spec_float) (tmin tmax : spec_float) (O D : vec R) (lo : R) : Prop := {
  mr_format : usual_format prec emax;
  mr_scale : scale_ok prec emax M;
  mr_mesh : mesh_areF prec emax M vertices faces P;
  mr_ray : tame_ray prec emax o d tmin O D lo;
  mr_origin : coords M O;
  mr_norm : 1 - 4 * ulpf prec <= rv_norm D <= / ulpf prec;
  mr_lo : 0 <= lo;
  mr_far : at_least prec emax tmax (M / ulpf prec);
  mr_flat : vz D = 0 -> forall i, (i < length faces)%nat ->
    vz O <> vz (tri_lower (fa faces P i) (fb faces P i) (fc faces P i)) /\
    vz O <> vz (tri_upper (fa faces P i) (fb faces P i) (fc faces P i));
  mr_edge : none_edge_on prec M faces P O (unit_of D) }.
(** The parameter from which faces count as surely hit. *)
Definition lo_unit (lo : R) (D : vec R) : R := lo * Rmax 1 (rv_norm D).

(** Extents of boxes around faces (from the lower bound of any face to the upper bound of any
    other) are zero or at least [w]. *)
Definition wide (w a b : R) : Prop := b - a = 0 \/ w <= Rabs (b - a).
Definition extents_wide (w : R) (faces : list (vec nat)) (P : nat -> vec R) : Prop :=
  forall i j, (i < length faces)%nat -> (j < length faces)%nat ->
    let l := tri_lower (fa faces P i) (fb faces P i) (fc faces P i) in
    let m := tri_upper (fa faces P j) (fb faces P j) (fc faces P j) in
    wide w (vx l) (vx m) /\ wide w (vy l) (vy m) /\ wide w (vz l) (vz m).
(** The extent that a rounded center cannot leave by half a bin. *)
Definition bin_extent (prec : Z) (M : R) (bins : nat) : R := 256 * INR bins * ulpf prec * M.
Definition centroid (A B C : vec R) : vec R := rv_scale (/ 3) (rv_add (rv_add A B) C).
(** The first [n] points have coordinates that are multiples of [g]. *)
Definition on_grid (g : R) (n : nat) (P : nat -> vec R) : Prop :=
  forall j, (j < n)%nat -> exists x y z : Z, P j = V (g * IZR x) (g * IZR y) (g * IZR z).
