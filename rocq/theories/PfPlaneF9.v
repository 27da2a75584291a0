(** From the patches' numbers in IEEE arithmetic to the answer. *)

From Coq Require Import Reals ZArith List Bool Arith Lra Lia Floats.SpecFloat.
From Flocq Require Import Core IEEE754.BinarySingleNaN.
From Verif Require Import Num NumR NumF Vec Datatypes Ray Bvh Traverse Plane SpecBvh SpecReal SpecIEEE SpecTriF SpecSphF SpecPlane SpecPlaneF.
From Verif Require Import PfBuild PfBuild2 PfTrav2 PfNumbered PfIEEE PfIEEE2 PfIEEE3 PfTriF PfSphere2 PfPlaneF4 PfPlaneF5 PfPlaneF8.
Import ListNotations.
Local Open Scope R_scope.

Lemma make_planes_ok {T} {N : num T} (centers : list (vec T)) (dxs dys : list T) (rots : list (mat T)) :
  (forall i, (i < length centers)%nat -> exists c x y m, nth_error centers i = Some c /\ nth_error dxs i = Some x /\ nth_error dys i = Some y /\ nth_error rots i = Some m) ->
  exists ps, make_planes centers dxs dys rots = Ok ps.
Proof.
  intros E. unfold make_planes.
  match goal with |- exists ps, bind (mapM ?f ?l) _ = _ => assert (G : exists box, mapM f l = Ok box) end.
  { apply mapM_ok. intros i Hi. apply in_seq in Hi. destruct (E i ltac:(lia)) as (c & x & y & m & E1 & E2 & E3 & E4). unfold at_.
    rewrite E1, E2, E3, E4. cbn [bind]. eexists. reflexivity. }
  destruct G as (box & ->). cbn [bind]. eexists. reflexivity.
Qed.

Lemma patch_accepted_ready prec emax (Hprec : Prec_gt_0 prec) (Hmax : Prec_lt_emax prec emax) : usual_format prec emax ->
  forall M, scale_ok prec emax M -> forall o d c fdx fdy m O U C dx dy Q,
  visF prec emax o O -> unit_near prec emax d U -> plane_isF prec emax M O c fdx fdy m C dx dy Q ->
  forall st ray id lo st', pi_org st = o -> pi_dir st = d -> isF prec emax (pi_min st) lo -> 0 <= lo ->
  @plane_intersect _ (Fnum prec emax) st (Plane c fdx fdy m id) ray = (true, st') ->
  pi_prim st' = Some id /\
  exists t x, isF prec emax (pi_hd st') x /\ 0 <= x <= 3.2 * M /\ Rabs (x - t) <= 125 * (ulpf prec * M) /\ lo < t <= 3.1 * M /\
    near_patch (patch_err prec M) C dx dy Q (at_t O U x) /\ (forall h, isF prec emax (pi_hd st) h -> t < h) /\
    patch_normal prec emax M C dx dy Q O (at_t O U x) (@normalize _ (Fnum prec emax) (pi_normal st')).
Proof.
  intros Hf M HM o d c fdx fdy m O U C dx dy Q Ho Hd Hs st ray id lo st' E1 E2 Hlo L0 H.
  destruct (plane_sound prec emax Hf M HM o c d fdx fdy m O C U dx dy Q Ho Hd Hs st ray id (conj E1 E2) st' lo Hlo L0 H) as (_ & _ & _ & G & R). auto.
Qed.
Lemma patch_pierced_ready prec emax (Hprec : Prec_gt_0 prec) (Hmax : Prec_lt_emax prec emax) : usual_format prec emax ->
  forall M, scale_ok prec emax M -> forall o d c fdx fdy m O U C dx dy Q,
  visF prec emax o O -> unit_near prec emax d U -> plane_isF prec emax M O c fdx fdy m C dx dy Q ->
  forall st ray id lo l t, pi_org st = o -> pi_dir st = d -> isF prec emax (pi_min st) lo -> 0 <= lo -> lo <= l ->
  pierces (patch_err prec M) C dx dy Q O U l t -> at_least prec emax (pi_hd st) (t + patch_err prec M / steepness Q U) ->
  exists st' x, @plane_intersect _ (Fnum prec emax) st (Plane c fdx fdy m id) ray = (true, st') /\
    isF prec emax (pi_hd st') x /\ x <= t + patch_err prec M / steepness Q U.
Proof.
  intros Hf M HM o d c fdx fdy m O U C dx dy Q Ho Hd Hs st ray id lo l t E1 E2 Hlo L0 Hl Hp Hh.
  destruct (plane_pierced prec emax Hf M HM o c d fdx fdy m O C U dx dy Q Ho Hd Hs st ray id (conj E1 E2) lo l t Hlo L0 Hl Hp) as (Q1 & Q2).
  specialize (Q1 Hh). destruct (@plane_intersect _ (Fnum prec emax) st (Plane c fdx fdy m id) ray) as [b st'] eqn:E. cbn [fst] in Q1. subst b.
  destruct (Q2 st' eq_refl) as (x & X1 & X2). exists st', x. auto.
Qed.
Lemma patch_query_ready prec emax (Hprec : Prec_gt_0 prec) (Hmax : Prec_lt_emax prec emax) M centers dxs dys rots C dx dy Q o d tmin tmax O D lo :
  patch_ray prec emax M centers dxs dys rots C dx dy Q o d tmin tmax O D lo ->
  forall ps, @make_planes _ (Fnum prec emax) centers dxs dys rots = Ok ps ->
  forall part, partition_ok part -> forall opt nodes st, @build _ (Fnum prec emax) _ part [] (@plane_coll _ ps) opt = Ok (nodes, st) ->
  (forall j d, node_depth nodes j d -> (d <= 26)%nat) -> forall any rh,
  (@traverse _ (Fnum prec emax) _ _ (@plane_isector _ (Fnum prec emax)) nodes (@make_ray _ (Fnum prec emax) o d tmin tmax any) rh = Ok (false, rh) /\
   forall i t, (i < length centers)%nat -> ~ pierces (patch_err prec M) (C i) (dx i) (dy i) (Q i) O (unit_of D) (lo_unit lo D) t) \/
  (exists rh' j x, @traverse _ (Fnum prec emax) _ _ (@plane_isector _ (Fnum prec emax)) nodes (@make_ray _ (Fnum prec emax) o d tmin tmax any) rh = Ok (true, rh') /\
     (j < length centers)%nat /\ h_prim rh' = Some j /\ isF prec emax (h_distance rh') x /\ lo - 125 * (ulpf prec * M) <= x /\
     near_patch (patch_err prec M) (C j) (dx j) (dy j) (Q j) (at_t O (unit_of D) x) /\
     patch_normal prec emax M (C j) (dx j) (dy j) (Q j) O (at_t O (unit_of D) x) (h_normal rh') /\
     (any = false -> forall i t, (i < length centers)%nat -> pierces (patch_err prec M) (C i) (dx i) (dy i) (Q i) O (unit_of D) (lo_unit lo D) t ->
        x <= t + patch_err prec M / steepness (Q i) (unit_of D) + 128 * INR (length centers) * (ulpf prec * M))).
Proof.
  intros Hr ps Hm part Hp opt nodes st Hb Hd any rh.
  exact (patch_query_F prec emax M centers dxs dys rots C dx dy Q o d tmin tmax any O D lo Hr ps Hm part Hp opt nodes st Hb Hd rh).
Qed.
Lemma planes_answer prec emax (Hprec : Prec_gt_0 prec) (Hmax : Prec_lt_emax prec emax) M centers dxs dys rots C dx dy Q o d tmin tmax O D lo :
  patch_ray prec emax M centers dxs dys rots C dx dy Q o d tmin tmax O D lo ->
  forall opt, (1 <= bin_size opt)%nat -> (3 * Z.of_nat (bin_size opt) < 4294967296)%Z -> shallow opt (length centers) ->
  spread_boxes emax (length centers) (fun i => box_low (box_of prec emax centers dxs dys rots i)) (fun i => box_high (box_of prec emax centers dxs dys rots i)) ->
  forall part, partition_ok part ->
  exists ps nodes st, @make_planes _ (Fnum prec emax) centers dxs dys rots = Ok ps /\ @build _ (Fnum prec emax) _ part [] (@plane_coll _ ps) opt = Ok (nodes, st) /\
  forall any rh,
  (@traverse _ (Fnum prec emax) _ _ (@plane_isector _ (Fnum prec emax)) nodes (@make_ray _ (Fnum prec emax) o d tmin tmax any) rh = Ok (false, rh) /\
   forall i t, (i < length centers)%nat -> ~ pierces (patch_err prec M) (C i) (dx i) (dy i) (Q i) O (unit_of D) (lo_unit lo D) t) \/
  (exists rh' j x, @traverse _ (Fnum prec emax) _ _ (@plane_isector _ (Fnum prec emax)) nodes (@make_ray _ (Fnum prec emax) o d tmin tmax any) rh = Ok (true, rh') /\
     (j < length centers)%nat /\ h_prim rh' = Some j /\ isF prec emax (h_distance rh') x /\ lo - 125 * (ulpf prec * M) <= x /\
     near_patch (patch_err prec M) (C j) (dx j) (dy j) (Q j) (at_t O (unit_of D) x) /\
     patch_normal prec emax M (C j) (dx j) (dy j) (Q j) O (at_t O (unit_of D) x) (h_normal rh') /\
     (any = false -> forall i t, (i < length centers)%nat -> pierces (patch_err prec M) (C i) (dx i) (dy i) (Q i) O (unit_of D) (lo_unit lo D) t ->
        x <= t + patch_err prec M / steepness (Q i) (unit_of D) + 128 * INR (length centers) * (ulpf prec * M))).
Proof.
  intros Hr opt H1 H2 H3 Hsp part Hp.
  destruct (@make_planes_ok _ (Fnum prec emax) centers dxs dys rots) as (ps & Hm).
  { intros i Hi. destruct (pr_patches _ _ _ _ _ _ _ _ _ _ _ _ _ _ _ _ _ _ Hr i Hi) as (c & x & y & m & E1 & E2 & E3 & E4 & _). exists c, x, y, m. auto. }
  pose proof (Psize prec emax centers dxs dys rots ps Hm) as Hsize.
  pose proof (Pdata prec emax M centers dxs dys rots C dx dy Q o d tmin tmax O D lo Hr ps Hm) as Data.
  destruct (build_ieee prec emax (p6 prec emax (pr_format _ _ _ _ _ _ _ _ _ _ _ _ _ _ _ _ _ _ Hr)) _ (@plane_coll _ ps)
    (fun i => box_low (box_of prec emax centers dxs dys rots i)) (fun i => box_high (box_of prec emax centers dxs dys rots i))
    (Pboxes prec emax M centers dxs dys rots C dx dy Q o d tmin tmax O D lo Hr ps Hm) (Pmoderate prec emax M centers dxs dys rots C dx dy Q o d tmin tmax O D lo Hr ps Hm)
    ltac:(destruct (pr_format _ _ _ _ _ _ _ _ _ _ _ _ _ _ _ _ _ _ Hr); lia) opt H1 H2 ltac:(rewrite Hsize; exact Hsp) C) with (part := part) (nodes := @nil (node spec_float (Plane.plane spec_float))) as (nodes & st & Hb).
  - intros i Hi. rewrite Hsize in Hi. destruct (Data i Hi) as (c & x & y & m & (Hc & _) & _ & _ & _ & E & _). exists c. split; [exact E|]. split; [exact Hc|].
    destruct (box_facts prec emax M centers dxs dys rots C dx dy Q o d tmin tmax O D lo Hr ps Hm i Hi) as (low & high & _ & _ & -> & -> & _ & _ & Hin & _). exact Hin.
  - exact Hp.
  - intros i Hi. rewrite Hsize in Hi. destruct (Data i Hi) as (c & x & y & m & _ & _ & E & _). eexists. exact E.
  - exists ps, nodes, st. split; [exact Hm|]. split; [exact Hb|]. intros any rh.
    apply (patch_query_F prec emax M centers dxs dys rots C dx dy Q o d tmin tmax any O D lo Hr ps Hm part Hp opt nodes st Hb).
    apply (shallow_depth part Hp (@plane_coll _ ps) opt nodes st Hb). rewrite Hsize. exact H3.
Qed.
