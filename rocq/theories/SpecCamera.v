(** Cameras. *)

From Coq Require Import Reals ZArith.
From Verif Require Import NumX Vec SpecReal.
Local Open Scope R_scope.

(** [d] points along [D], [r] to the right and [a] upwards, when [Up] is up. *)
Record looking (D Up d r a : vec R) : Prop := {
  lk_along : d = unit_of D;
  lk_d : rv_norm d = 1;
  lk_r : rv_norm r = 1;
  lk_a : rv_norm a = 1;
  lk_dr : rv_dot d r = 0;
  lk_da : rv_dot d a = 0;
  lk_ra : rv_dot r a = 0;
  lk_level : rv_dot r Up = 0;
  lk_up : 0 < rv_dot a Up;
  lk_hand : rv_cross d a = r }.

(** The line of sight [U] passes through the centre of pixel (i, j), counted from the lower
    left corner, of a screen at distance 1 that is [2 w] wide and made of
    [width] times [height] squares. *)
Definition through_pixel (d r a : vec R) (w : R) (width height i j : Z) (U : vec R) : Prop :=
  0 < rv_dot U d /\
  rv_dot U r = rv_dot U d * (2 * w / IZR width * (IZR i + / 2 - IZR width / 2)) /\
  rv_dot U a = rv_dot U d * (2 * w / IZR width * (IZR j + / 2 - IZR height / 2)).
