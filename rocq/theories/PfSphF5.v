(** From centers and radii in IEEE arithmetic to the answer. *)

From Coq Require Import Reals ZArith List Bool Arith Lra Lia Floats.SpecFloat.
From Flocq Require Import Core IEEE754.BinarySingleNaN.
From Verif Require Import Num NumR NumF Vec Datatypes Ray Bvh Traverse Sphere SpecBvh SpecReal SpecIEEE SpecTriF SpecSphF.
From Verif Require Import PfBuild PfBuild2 PfTrav2 PfNumbered PfIEEE PfIEEE2 PfIEEE3 PfTriF PfSphere2 PfSphF3 PfSphF4.
Import ListNotations.
Local Open Scope R_scope.

Lemma make_ok {T} {N : num T} (centers : list (vec T)) (radii : list T) : length radii = length centers ->
  exists ss, make_spheres centers radii = Ok ss.
Proof.
  intros E. unfold make_spheres.
  assert (G : exists box, mapM (fun i => do c <- at_ UBprim centers i; do r <- at_ UBprim radii i; Ok (sphere_box c r)) (seq 0 (length centers)) = Ok box).
  { apply mapM_ok. intros i Hi. apply in_seq in Hi. unfold at_.
    destruct (nth_error centers i) eqn:E1; [|apply nth_error_None in E1; lia].
    destruct (nth_error radii i) eqn:E2; [|apply nth_error_None in E2; lia]. cbn [bind]. eexists. reflexivity. }
  destruct G as (box & ->). cbn [bind]. eexists. reflexivity.
Qed.

Section F.
Variables prec emax : Z.
Context {Hprec : Prec_gt_0 prec} {Hmax : Prec_lt_emax prec emax}.
Notation FN := (Fnum prec emax).
Notation u := (ulpf prec).
Lemma spheres_answer M centers radii C rad o d tmin tmax O D lo : sphere_ray prec emax M centers radii C rad o d tmin tmax O D lo ->
  forall opt, (1 <= bin_size opt)%nat -> (3 * Z.of_nat (bin_size opt) < 4294967296)%Z -> shallow opt (length centers) ->
  spread_boxes emax (length centers) (fun i => rlow prec emax (C i) (rad i)) (fun i => rhigh prec emax (C i) (rad i)) ->
  forall part, partition_ok part ->
  exists ss nodes st, @make_spheres _ FN centers radii = Ok ss /\ @build _ FN _ part [] (@sphere_coll _ ss) opt = Ok (nodes, st) /\
  forall any rh,
  (@traverse _ FN _ _ (@sphere_isector _ FN ss) nodes (@make_ray _ FN o d tmin tmax any) rh = Ok (false, rh) /\
   forall i y0 y, (i < length centers)%nat -> lo_unit lo D <= y0 -> ~ crosses (power_err prec M) (C i) (rad i) O (unit_of D) y0 y) \/
  (exists rh' k x, @traverse _ FN _ _ (@sphere_isector _ FN ss) nodes (@make_ray _ FN o d tmin tmax any) rh = Ok (true, rh') /\
     (k < length centers)%nat /\ h_prim rh' = Some k /\ isF prec emax (h_distance rh') x /\
     lo - 28 * (u * M) <= x /\ Rabs (power (C k) (rad k) (at_t O (unit_of D) x)) <= power_err prec M /\
     (large prec M (rad k) -> normal_near prec emax M (C k) (rad k) (at_t O (unit_of D) x) (h_normal rh')) /\
     (any = false -> forall i y0 y, (i < length centers)%nat -> lo_unit lo D <= y0 ->
        crosses (power_err prec M) (C i) (rad i) O (unit_of D) y0 y ->
        x <= y + 40 * (INR (length centers) + 1) * (u * M))).
Proof.
  intros Hr opt H1 H2 H3 Hsp part Hp. destruct (@make_ok _ FN centers radii (sr_count _ _ _ _ _ _ _ _ _ _ _ _ _ _ Hr)) as (ss & Hm).
  assert (Hm' : @make_spheres _ FN centers radii = Ok ss) by exact Hm.
  pose proof (Ssize prec emax centers radii ss Hm') as Hsize.
  destruct (build_ieee prec emax (p6 prec emax (sr_format _ _ _ _ _ _ _ _ _ _ _ _ _ _ Hr)) _ (@sphere_coll _ ss) (fun i => rlow prec emax (C i) (rad i)) (fun i => rhigh prec emax (C i) (rad i))
    (Sboxes prec emax M centers radii C rad o d tmin tmax O D lo Hr ss Hm') (Smoderate prec emax M centers radii C rad o d tmin tmax O D lo Hr ss Hm')
    ltac:(destruct (sr_format _ _ _ _ _ _ _ _ _ _ _ _ _ _ Hr); lia) opt H1 H2 ltac:(rewrite Hsize; exact Hsp) C) with (part := part) (nodes := @nil (node spec_float (sphere spec_float))) as (nodes & st & Hb).
  - intros i Hi. rewrite Hsize in Hi. destruct (Sdata prec emax M centers radii C rad o d tmin tmax O D lo Hr ss Hm' i Hi)
      as (c & fr & (Hc & _ & Hrad & _) & _ & _ & _ & _ & E). exists c. split; [exact E|]. split; [exact Hc|]. destruct Hc as (C1 & C2 & C3).
    assert (G : forall fx x, isF prec emax fx x -> rnd prec emax (x - rad i) <= x <= rnd prec emax (x + rad i)).
    { intros fx x Hx. pose proof (rd_id prec emax _ _ Hx) as Ex. split; [rewrite <- Ex at 2|rewrite <- Ex at 1]; apply (rd_mono prec emax); lra. }
    unfold in_box, rlow, rhigh. cbn [vx vy vz]. split; [|split]; eapply G; eassumption.
  - exact Hp.
  - intros i Hi. rewrite Hsize in Hi. destruct (Sdata prec emax M centers radii C rad o d tmin tmax O D lo Hr ss Hm' i Hi)
      as (c & fr & _ & _ & _ & E & _). eexists. exact E.
  - exists ss, nodes, st. split; [exact Hm'|]. split; [exact Hb|]. intros any rh.
    apply (sphere_query_F prec emax M centers radii C rad o d tmin tmax any O D lo Hr ss Hm' part Hp opt nodes st Hb).
    apply (shallow_depth part Hp (@sphere_coll _ ss) opt nodes st Hb). rewrite Hsize. exact H3.
Qed.
End F.

Lemma accepted_ready prec emax (Hprec : Prec_gt_0 prec) (Hmax : Prec_lt_emax prec emax) : usual_format prec emax ->
  forall M, scale_ok prec emax M -> forall o d c fr O U C r, visF prec emax o O -> unit_near prec emax d U -> sphere_isF prec emax M O c fr C r ->
  forall st ray id lo st', si_org st = o -> si_dir st = d -> isF prec emax (si_min st) lo -> 0 <= lo ->
  @sphere_intersect _ (Fnum prec emax) st (Sphere c fr id) ray = (true, st') ->
  si_prim st' = Some id /\
  exists t x, isF prec emax (si_hd st') x /\ 0 <= x <= 2.2 * M /\ Rabs (x - t) <= 28 * (ulpf prec * M) /\ lo < t <= 2.1 * M /\
    Rabs (power C r (at_t O U x)) <= power_err prec M /\ (forall h, isF prec emax (si_hd st) h -> t < h).
Proof.
  intros Hf M HM o d c fr O U C r Ho Hd Hs st ray id lo st' E1 E2 Hlo L0 H.
  destruct (sphere_sound prec emax Hf M HM o c d fr O C U r Ho Hd Hs st ray id (conj E1 E2) st' lo Hlo L0 H) as (_ & _ & _ & _ & Q & R). auto.
Qed.
Lemma crossed_ready prec emax (Hprec : Prec_gt_0 prec) (Hmax : Prec_lt_emax prec emax) : usual_format prec emax ->
  forall M, scale_ok prec emax M -> forall o d c fr O U C r, visF prec emax o O -> unit_near prec emax d U -> sphere_isF prec emax M O c fr C r ->
  forall st ray id lo y0 y, si_org st = o -> si_dir st = d -> isF prec emax (si_min st) lo -> 0 <= lo -> lo <= y0 ->
  crosses (power_err prec M) C r O U y0 y -> at_least prec emax (si_hd st) y ->
  exists st' x, @sphere_intersect _ (Fnum prec emax) st (Sphere c fr id) ray = (true, st') /\
    isF prec emax (si_hd st') x /\ x <= y + 28 * (ulpf prec * M).
Proof.
  intros Hf M HM o d c fr O U C r Ho Hd Hs st ray id lo y0 y E1 E2 Hlo L0 Hy Hcr Hh.
  destruct (sphere_crossed prec emax Hf M HM o c d fr O C U r Ho Hd Hs st ray id (conj E1 E2) lo y0 y Hlo L0 Hy Hcr) as (Q1 & Q2).
  specialize (Q1 Hh). destruct (@sphere_intersect _ (Fnum prec emax) st (Sphere c fr id) ray) as [b st'] eqn:E. cbn [fst] in Q1. subst b.
  destruct (Q2 ltac:(destruct Hh as [Hh|(b & Hb & _)]; [left; exact Hh|right; exists b; exact Hb]) st' eq_refl) as (x & X1 & X2). exists st', x. auto.
Qed.
Lemma query_ready prec emax (Hprec : Prec_gt_0 prec) (Hmax : Prec_lt_emax prec emax) M centers radii C r o d tmin tmax O D lo :
  sphere_ray prec emax M centers radii C r o d tmin tmax O D lo ->
  forall ss, @make_spheres _ (Fnum prec emax) centers radii = Ok ss ->
  forall part, partition_ok part -> forall opt nodes st, @build _ (Fnum prec emax) _ part [] (@sphere_coll _ ss) opt = Ok (nodes, st) ->
  (forall k d, node_depth nodes k d -> (d <= 26)%nat) -> forall any rh,
  (@traverse _ (Fnum prec emax) _ _ (@sphere_isector _ (Fnum prec emax) ss) nodes (@make_ray _ (Fnum prec emax) o d tmin tmax any) rh = Ok (false, rh) /\
   forall i y0 y, (i < length centers)%nat -> lo_unit lo D <= y0 -> ~ crosses (power_err prec M) (C i) (r i) O (unit_of D) y0 y) \/
  (exists rh' k x, @traverse _ (Fnum prec emax) _ _ (@sphere_isector _ (Fnum prec emax) ss) nodes (@make_ray _ (Fnum prec emax) o d tmin tmax any) rh = Ok (true, rh') /\
     (k < length centers)%nat /\ h_prim rh' = Some k /\ isF prec emax (h_distance rh') x /\
     lo - 28 * (ulpf prec * M) <= x /\ Rabs (power (C k) (r k) (at_t O (unit_of D) x)) <= power_err prec M /\
     (large prec M (r k) -> normal_near prec emax M (C k) (r k) (at_t O (unit_of D) x) (h_normal rh')) /\
     (any = false -> forall i y0 y, (i < length centers)%nat -> lo_unit lo D <= y0 ->
        crosses (power_err prec M) (C i) (r i) O (unit_of D) y0 y ->
        x <= y + 40 * (INR (length centers) + 1) * (ulpf prec * M))).
Proof.
  intros Hr ss Hm part Hp opt nodes st Hb Hd any rh.
  exact (sphere_query_F prec emax M centers radii C r o d tmin tmax any O D lo Hr ss Hm part Hp opt nodes st Hb Hd rh).
Qed.
