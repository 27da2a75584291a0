(** Cylinders in IEEE arithmetic: the elliptic tube around the z axis and its two caps, with a margin. *)

From Coq Require Import Reals ZArith List Floats.SpecFloat.
From Verif Require Import Num NumF Vec SpecReal SpecIEEE SpecTriF SpecSphF SpecPlane SpecPlaneF.
Local Open Scope R_scope.

(** 1 on the tube with semi-axes [a] and [b], less inside. *)
Definition radial (a b : R) (X : vec R) : R := (vx X / a) * (vx X / a) + (vy X / b) * (vy X / b).
(** The solid between heights [-h] and [h], enlarged by [e] (radially) and [ez] (in height); its interior,
    shrunk by the same amounts; its surface, thickened by them. *)
Definition in_tube (e ez a b h : R) (X : vec R) : Prop := radial a b X <= 1 + e /\ Rabs (vz X) <= h + ez.
Definition deep_in (e ez a b h : R) (X : vec R) : Prop := radial a b X < 1 - e /\ Rabs (vz X) < h - ez.
Definition on_tube (e ez a b h : R) (X : vec R) : Prop :=
  in_tube e ez a b h X /\ (1 - e <= radial a b X \/ h - ez <= Rabs (vz X)).
(** Outside by the margins; and not level with a cap. *)
Definition outside (e ez a b h : R) (X : vec R) : Prop := h + ez < Rabs (vz X) \/ 1 + e < radial a b X.
Definition clear_outside (e ez a b h : R) (X : vec R) : Prop := h + ez < Rabs (vz X) \/ (Rabs (vz X) < h - ez /\ 1 + e < radial a b X).
(** Near one of the two circles where the tube meets a cap. *)
Definition near_rim (e ez a b h : R) (X : vec R) : Prop := Rabs (radial a b X - 1) <= e /\ Rabs (Rabs (vz X) - h) <= ez.

(** A cylinder and a ray of moderate size: distances, semi-axes and half the height up to [M]; semi-axes and
    half the height at least [r]; [v] is so small that its fourth power is still a normal number, and the
    ray's direction in the cylinder's coordinates is not almost, yet not exactly, along or across the axis. *)
Record tube_ray (prec emax : Z) (M r v : R) (o d c : vec spec_float) (fa fb fh : spec_float) (m : mat spec_float)
    (O U C : vec R) (a b h : R) (Q : mat R) (B : vec R) : Prop := {
  tu_format : usual_format prec emax;
  tu_scale : scale_ok prec emax M;
  tu_org : visF prec emax o O;
  tu_dir : unit_near prec emax d U;
  tu_center : visF prec emax c C;
  tu_a : isF prec emax fa a; tu_b : isF prec emax fb b; tu_h : isF prec emax fh (2 * h);
  tu_rot : rot_near prec emax m Q;
  tu_near : rv_norm (rv_sub O C) <= M;
  tu_sizes : r <= a <= M /\ r <= b <= M /\ r <= h <= M;
  tu_large : 8192 * ulpf prec * (M * M) <= r * r;
  tu_v : 0 < v <= 1 /\ v <= r /\ least emax <= v ^ 4;
  tu_top : 2048 * (M * M / r) ^ 4 <= top emax;
  tu_local : visF prec emax (@mulmv _ (Fnum prec emax) (trans m) d) B;
  tu_across : (vx B = 0 /\ vy B = 0) \/ v * (M / r) <= Rabs (vx B) \/ v * (M / r) <= Rabs (vy B);
  tu_along : vz B = 0 \/ v <= Rabs (vz B) }.
(** The error terms: relative to the tube's section, and in height. *)
Definition tube_err (prec : Z) (M r : R) : R := 2048 * ulpf prec * (M / r * (M / r)).
Definition cap_err (prec : Z) (M : R) : R := 256 * ulpf prec * M.
