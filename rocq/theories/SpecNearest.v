(** What traversal needs of a primitive kind, and what it then delivers. *)

From Coq Require Import Reals ZArith List Bool Arith.
From Verif Require Import Num NumX Vec Ray Bvh Traverse SpecBvh SpecReal.
Import ListNotations.
Local Open Scope R_scope.

(** The boxes of a collection's primitives are real boxes. *)
Definition boxes_are {P : Type} (c : coll xr P) (bmin bmax : nat -> vec R) : Prop :=
  forall i, (i < c_size c)%nat ->
    exists b, c_box c i = Ok b /\ visR (fst b) (bmin i) /\ visR (snd b) (bmax i).

Section Spec.
Context {P I : Type}.

(** [best p] is the distance at which ray [r], tested against [p] alone, hits [p]
    (None: not at all).  The routine reports a hit exactly if that distance is less
    than the best so far, and stores it; [won p i] describes what else it stores.
    Otherwise it changes nothing. *)
Record contract (isx : isector xr P I) (r : ray xr) (good : P -> Prop) (best : P -> option R)
    (inv : I -> Prop) (won : P -> I -> Prop) : Prop := {
  ct_start : inv (is_prepare isx r);
  ct_max : is_hd isx (is_prepare isx r) = max_hit_distance r;
  ct_step : forall i p, good p -> inv i ->
    match best p with
    | Some t =>
        if xltb (Fin t) (is_hd isx i)
        then exists i', is_prim isx i p r = (true, i') /\ inv i' /\ isR (is_hd isx i') t /\ won p i'
        else is_prim isx i p r = (false, i)
    | None => is_prim isx i p r = (false, i)
    end }.

(** [res] is the answer over the primitives [ps] to a ray with interval end [hi]:
    a miss if none of them is hit below [hi], else one with a hit below [hi], the
    nearest unless [anyhit].  [sure p] marks the primitives whose hits must not be
    missed. *)
Definition answers (isx : isector xr P I) (best : P -> option R) (won : P -> I -> Prop)
    (sure : P -> Prop) (ps : list P) (hi : xr) (anyhit : bool) (rh : rayhit xr)
    (res : res (bool * rayhit xr)) : Prop :=
  (res = Ok (false, rh) /\
   forall q u, In q ps -> sure q -> best q = Some u -> xltb (Fin u) hi = false) \/
  (exists p t i, In p ps /\ best p = Some t /\ xltb (Fin t) hi = true /\
     won p i /\ isR (is_hd isx i) t /\
     res = (do rh' <- is_post isx i rh; Ok (true, rh')) /\
     (anyhit = false -> forall q u, In q ps -> sure q -> best q = Some u -> t <= u)).
End Spec.

(** The answer of a query in terms of geometry alone.  [hit i t]: primitive [i] is
    hit at distance [t] within the ray's interval.  [about i t rh]: what the record
    says beyond distance and id. *)
Definition hit_answer (hit : nat -> R -> Prop) (about : nat -> R -> rayhit xr -> Prop)
    (anyhit : bool) (rh : rayhit xr) (res : res (bool * rayhit xr)) : Prop :=
  exists b rh', res = Ok (b, rh') /\
    (b = true <-> exists i t, hit i t) /\
    (b = false -> rh' = rh) /\
    (b = true -> exists i t, hit i t /\ h_prim rh' = Some i /\ isR (h_distance rh') t /\
       h_geom rh' = h_geom rh /\ about i t rh' /\
       (anyhit = false -> forall j u, hit j u -> t <= u)).

(** Two queries agree: same answer, and the same distance on a hit. *)
Definition same_answer (r1 r2 : res (bool * rayhit xr)) : Prop :=
  exists b rh1 rh2, r1 = Ok (b, rh1) /\ r2 = Ok (b, rh2) /\
    (b = true -> exists t, isR (h_distance rh1) t /\ isR (h_distance rh2) t).

(** As [hit_answer] for a routine with a tolerance: a reported hit is a [hit], and no
    [firm] hit is missed or overtaken. *)
Definition loose_answer (firm hit : nat -> R -> Prop) (about : nat -> R -> rayhit xr -> Prop)
    (anyhit : bool) (rh : rayhit xr) (res : res (bool * rayhit xr)) : Prop :=
  exists b rh', res = Ok (b, rh') /\
    (b = false -> rh' = rh /\ forall j u, ~ firm j u) /\
    (b = true -> exists i t, hit i t /\ h_prim rh' = Some i /\ isR (h_distance rh') t /\
       h_geom rh' = h_geom rh /\ about i t rh' /\
       (anyhit = false -> forall j u, firm j u -> t <= u)).
