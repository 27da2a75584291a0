(** What agreement of the callbacks means. *)

From Coq Require Import Reals.
From Verif Require Import Num NumX Vec Embree SpecReal SpecPlane SpecCyl.

(** The occlusion callback on the ray of [rh] marks it (tfar = -infinity) exactly if the
    intersection callback finds a hit (the geometry id gets set). *)
Definition same_verdict {T} {N : num T} (rh : rtc_rayhit T) (g : nat)
    (occ : res (rtc_ray T)) (int : res (rtc_rayhit T)) : Prop :=
  r_tfar (rh_ray rh) <> ninf_neg -> e_geom (rh_hit rh) = None ->
  exists r' rh', occ = Ok r' /\ int = Ok rh' /\
    (r_tfar r' = ninf_neg <-> e_geom (rh_hit rh') = Some g).

(** Comparison operators as in every arithmetic with a partial order: <= is < or ==,
    equal numbers compare alike, and a < b excludes b <= a. *)
Record comparisons {T} {N : num T} : Prop := {
  cmp_le : forall a b, nleb a b = (nltb a b || neqb a b)%bool;
  cmp_sym : forall a b, neqb a b = neqb b a;
  cmp_eq_l : forall x a b, neqb x a = true -> nltb x b = nltb a b;
  cmp_eq_r : forall x a b, neqb x a = true -> nltb b x = nltb b a;
  cmp_asym : forall a b, nltb a b = true -> nleb b a = false }.
Arguments comparisons {T} N.

(** Two cylinder results with the same distance, the second normal perhaps left in the
    cylinder's own coordinates. *)
Definition same_hit {T} (turn : vec T -> vec T) (e n : option (vec T * T)) : Prop :=
  match e, n with
  | None, None => True
  | Some (u, s), Some (v, t) => s = t /\ (u = v \/ u = turn v)
  | _, _ => False
  end.

Local Open Scope R_scope.
(** Local points above the top or below the bottom of the cylinder; points between the
    planes of the caps but outside the solid. *)
Definition past_caps (h : R) (q : vec R) : Prop := h / 2 < Rabs (vz q).
Definition beside (a b h : R) (q : vec R) : Prop := Rabs (vz q) < h / 2 /\ 1 < ellipse a b q.
(** The ray is not parallel to the axis, and wherever it meets the infinite cylinder
    around the axis it meets the finite one, without touching it only. *)
Definition clear_view (a b h : R) (C : vec R) (Rm : mat R) (O U : vec R) : Prop :=
  (forall c, U <> rv_scale c (normal_of Rm)) /\
  forall t, 0 < t -> world (fun q => ellipse a b q = 1) C Rm (at_t O U t) ->
    world (on_side a b h) C Rm (at_t O U t) /\ ~ touches a b h C Rm U (at_t O U t).
