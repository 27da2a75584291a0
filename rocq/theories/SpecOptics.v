(** Vocabulary for the optics of examples/path_tracer/main.cc. *)

From Coq Require Import Reals ZArith List Bool.
From Verif Require Import Num NumX Vec PathTracer SpecReal.
Local Open Scope R_scope.

(** [b1], [b2], [n] is a right-handed orthonormal frame. *)
Definition frame (b1 b2 n : vec R) : Prop :=
  rv_dot b1 b1 = 1 /\ rv_dot b2 b2 = 1 /\ rv_dot n n = 1 /\
  rv_dot b1 b2 = 0 /\ rv_dot b1 n = 0 /\ rv_dot b2 n = 0 /\ rv_cross b1 b2 = n.

(** The part of [v] along the unit vector [n], and the part across. *)
Definition along (n v : vec R) : vec R := rv_scale (rv_dot v n) n.
Definition across (n v : vec R) : vec R := rv_sub v (along n v).

(** A scalar function that is exact on finite numbers. *)
Definition computes (f : xr -> xr) (g : R -> R) : Prop := forall x a, isR x a -> isR (f x) (g a).

(** The same for two numbers. *)
Definition takes (f : xr -> xr -> xr) (g : R -> R -> R) : Prop := forall x y a b, isR x a -> isR y b -> isR (f x y) (g a b).

(** The share [k / rand_max] of a random number. *)
Definition unit_share (rand_max k : Z) : R := IZR k / IZR rand_max.
Definition random_number (rand_max k : Z) : Prop := (0 < rand_max)%Z /\ (0 <= k <= rand_max)%Z.

(** A material over the reals. *)
Record surface := Surface {
  sf_diffuse : vec R; sf_emission : vec R; sf_specular : vec R; sf_transmittance : vec R;
  sf_ior : R; sf_dissolve : R }.
Definition material_is (m : material xr) (s : surface) : Prop :=
  visR (mt_diffuse m) (sf_diffuse s) /\ visR (mt_emission m) (sf_emission s) /\
  visR (mt_specular m) (sf_specular s) /\ visR (mt_transmittance m) (sf_transmittance s) /\
  isR (mt_ior m) (sf_ior s) /\ isR (mt_dissolve m) (sf_dissolve s).
Definition vnonneg (v : vec R) : Prop := 0 <= vx v /\ 0 <= vy v /\ 0 <= vz v.
Definition physical (s : surface) : Prop :=
  vnonneg (sf_diffuse s) /\ vnonneg (sf_emission s) /\ vnonneg (sf_specular s) /\
  vnonneg (sf_transmittance s) /\ 0 < sf_ior s /\ 0 <= sf_dissolve s <= 1.

Definition mean (v : vec R) : R := (vx v + vy v + vz v) / 3.

(** How likely each interaction is before normalisation, with reflectance [f]. *)
Definition likely (s : surface) (f : R) (e : event) : R :=
  match e with
  | Glossy => mean (sf_specular s) * f
  | Diffuse => mean (sf_diffuse s) * (1 - f) * (1 - sf_dissolve s)
  | Refract => mean (sf_transmittance s) * (1 - f) * sf_dissolve s
  | Emit => mean (sf_emission s)
  | Stop => 0
  end.
Definition likely_sum (s : surface) (f : R) : R :=
  likely s f Glossy + likely s f Diffuse + likely s f Refract + likely s f Emit.
(** The interval of random numbers that belongs to each interaction. *)
Definition share (s : surface) (f : R) (e : event) : R := likely s f e / likely_sum s f.
Definition from (s : surface) (f : R) (e : event) : R :=
  match e with
  | Glossy => 0
  | Diffuse => share s f Glossy
  | Refract => share s f Glossy + share s f Diffuse
  | Emit => share s f Glossy + share s f Diffuse + share s f Refract
  | Stop => 0
  end.

(** Schlick's reflectance for the refraction index ratio [eta] and the cosine [c]. *)
Definition schlick0 (eta : R) : R := Rsqr ((eta - / eta) / (eta + / eta)).
Definition schlick (eta c : R) : R := schlick0 eta + (1 - schlick0 eta) * (1 - c) ^ 5.
