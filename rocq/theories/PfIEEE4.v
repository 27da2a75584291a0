(** Queries on built trees in IEEE arithmetic. *)

From Coq Require Import Reals ZArith List Bool Arith Lra Lia Floats.SpecFloat.
From Flocq Require Import Core IEEE754.BinarySingleNaN.
From Verif Require Import Num NumR NumF Vec Datatypes Ray Bvh Traverse SpecBvh SpecReal SpecIEEE SpecAny.
From Verif Require Import PfAny PfIEEE PfIEEE2 PfIEEE3.
Import ListNotations.
Local Open Scope R_scope.

Section F.
Variables prec emax : Z.
Context {Hprec : Prec_gt_0 prec} {Hmax : Prec_lt_emax prec emax}.
Hypothesis Hp6 : (6 <= prec)%Z.
Notation FN := (Fnum prec emax).
Context {P I : Type}.
Variable c : coll spec_float P.
Variables bmin bmax : nat -> vec R.
Hypothesis Hbox : boxes_areF prec emax c bmin bmax.
Hypothesis Hmod : moderate_boxes emax (c_size c) bmin bmax.
Variables (o d : vec spec_float) (tmin tmax : spec_float) (any : bool) (O D : vec R) (lo : R).
Hypothesis Htame : tame_ray prec emax o d tmin O D lo.
Hypothesis Hz : vz D = 0 -> forall i, (i < c_size c)%nat -> vz O <> vz (bmin i) /\ vz O <> vz (bmax i).

Definition pierced (q : P) : Prop :=
  exists i t, (i < c_size c)%nat /\ c_prim c i = Ok q /\ meets_at prec emax (bmin i) (bmax i) O D lo tmax t.

Lemma group_passes_hd hd ids mn mx i t : (forall j, In j ids -> (j < c_size c)%nat) ->
  @compute_bounding_box _ FN _ c ids = Ok (mn, mx) -> In i ids ->
  meets_at prec emax (bmin i) (bmax i) O D lo hd t ->
  forall nd : node spec_float P, nd_min nd = mn -> nd_max nd = mx ->
  @intersect_node _ FN _ tmin hd nd (@make_ray _ FN o d tmin tmax any) = true.
Proof.
  intros Hlt Hb Hi (M1 & M2 & M3 & M4) nd <- <-.
  destruct (compute_F prec emax Hp6 c bmin bmax Hbox Hmod ids _ _ i Hlt Hi Hb) as (a & A & Ha & HA & X & Y & Z).
  destruct X as (X & (i1 & I1 & X1) & (j1 & J1 & X2)), Y as (Y & (i2 & I2 & Y1) & (j2 & J2 & Y2)),
    Z as (Z & (i3 & I3 & Z1) & (j3 & J3 & Z2)).
  assert (Hd : forall p q, Rabs p <= top emax / 8 -> Rabs q <= top emax / 8 -> Rabs (p - q) <= top emax / 2).
  { intros p q Hp Hq. pose proof (hi0_big prec emax Hp6). apply Rabs_le_inv in Hp, Hq. apply Rabs_le. lra. }
  destruct (tr_mod _ _ _ _ _ _ _ _ Htame) as (O1 & O2 & O3).
  apply (node_test_ieee prec emax Hp6 P nd o d tmin tmax hd any a A O D lo t); try assumption; try apply Htame.
  - split; [|split]; (split; [|split; [|apply Htame]]); apply Hd; auto.
    + rewrite X1. apply (Hmod _ (Hlt _ I1)).
    + rewrite X2. apply (Hmod _ (Hlt _ J1)).
    + rewrite Y1. apply (Hmod _ (Hlt _ I2)).
    + rewrite Y2. apply (Hmod _ (Hlt _ J2)).
    + rewrite Z1. apply (Hmod _ (Hlt _ I3)).
    + rewrite Z2. apply (Hmod _ (Hlt _ J3)).
  - intros HD. rewrite Z1, Z2. split; apply not_eq_sym; [apply (Hz HD i3 (Hlt _ I3))|apply (Hz HD j3 (Hlt _ J3))].
  - destruct (X i Hi), (Y i Hi), (Z i Hi). destruct M3 as (B1 & B2 & B3). unfold in_box. lra.
Qed.

Lemma group_passes ids mn mx i t : (forall j, In j ids -> (j < c_size c)%nat) ->
  @compute_bounding_box _ FN _ c ids = Ok (mn, mx) -> In i ids ->
  meets_at prec emax (bmin i) (bmax i) O D lo tmax t ->
  forall nd : node spec_float P, nd_min nd = mn -> nd_max nd = mx ->
  @intersect_node _ FN _ tmin tmax nd (@make_ray _ FN o d tmin tmax any) = true.
Proof. exact (group_passes_hd tmax ids mn mx i t). Qed.

Variable part : (nat -> bool) -> list nat -> list nat * list nat.
Hypothesis Hpart : partition_ok part.
Variable opt : options.
Variables (nodes : list (node spec_float P)) (st : stats).
Hypothesis Hbuild : @build _ FN _ part [] c opt = Ok (nodes, st).
Hypothesis Hdepth : forall k d, node_depth nodes k d -> (d <= 26)%nat.
Variable pid : P -> nat.
Hypothesis Hnum : numbered c pid.
Variable isx : isector spec_float P I.
Notation r := (@make_ray _ FN o d tmin tmax any).
Hypothesis Hrej : rejecting isx r.

Lemma query_ieee_numbered rh : @scanned _ _ _ FN isx pierced (stored nodes) r rh (@traverse _ FN _ _ isx nodes r rh).
Proof.
  apply (@built_scanned _ _ _ FN c part Hpart opt nodes st Hbuild Hdepth isx r Hrej pierced).
  intros ids mn mx i q Hlt Hb Hi Ei (j & t & Hj & Ej & Hm) nd E1 E2.
  assert (i = j) by (rewrite <- (Hnum i q Ei); apply (Hnum j q Ej)). subst j.
  apply (group_passes ids mn mx i t Hlt Hb Hi Hm nd E1 E2).
Qed.
End F.
