(** Vocabulary for the path tracer as a whole. *)

From Coq Require Import Reals ZArith List Floats.SpecFloat.
From Flocq Require Import Core IEEE754.BinarySingleNaN.
From Verif Require Import Num NumX Vec PathTracer SpecReal SpecOptics SpecObj.
Local Open Scope R_scope.

Definition surface_of (m : material R) : surface :=
  Surface (mt_diffuse m) (mt_emission m) (mt_specular m) (mt_transmittance m) (mt_ior m) (mt_dissolve m).
(** Colours that are not negative, a positive refractive index and a share for the opacity. *)
Definition physical_materials (l : list (material R)) : Prop := Forall (fun m => physical (surface_of m)) l.
(** Some triangle of the file has a material that gives off light. *)
Definition lit (tris : list tri) (materials : list (material R)) : Prop :=
  exists t z m, In (t, Some z) tris /\ nth_error materials (Z.to_nat z) = Some m /\
    (0 < vx (mt_emission m) \/ 0 < vy (mt_emission m) \/ 0 < vz (mt_emission m)).
(** The conversion to float gives numbers of that format. *)
Definition gives_floats (to_f32 : xr -> spec_float) : Prop := forall x, valid_binary 24 128 (to_f32 x) = true.
