(** From the cylinders' numbers in IEEE arithmetic to the answer. *)

From Coq Require Import Reals ZArith List Bool Arith Lra Lia Floats.SpecFloat.
From Flocq Require Import Core IEEE754.BinarySingleNaN.
From Verif Require Import Num NumR NumF Vec Datatypes Ray Bvh Traverse Cylinder SpecBvh SpecReal SpecIEEE SpecTriF SpecSphF SpecPlane SpecPlaneF SpecTubeF SpecTubeN SpecCyl SpecTubeQ.
From Verif Require Import PfBuild PfBuild2 PfTrav2 PfNumbered PfIEEE PfIEEE2 PfIEEE3 PfTriF PfSphere2 PfTubeQ PfTubeQ2.
Import ListNotations.
Local Open Scope R_scope.

Lemma tube_query_ready prec emax (Hprec : Prec_gt_0 prec) (Hmax : Prec_lt_emax prec emax) M r v centers sa sb hs rots C a b h Q B o d tmin tmax O D lo :
  tubes_ray prec emax M r v centers sa sb hs rots C a b h Q B o d tmin tmax O D lo ->
  forall cs, @make_cylinders _ (Fnum prec emax) centers sa sb hs rots = Ok cs ->
  forall part, partition_ok part -> forall opt nodes st, @build _ (Fnum prec emax) _ part [] (@cylinder_coll _ cs) opt = Ok (nodes, st) ->
  (forall j d, node_depth nodes j d -> (d <= 26)%nat) -> forall any rh,
  (@traverse _ (Fnum prec emax) _ _ (@cylinder_isector _ (Fnum prec emax)) nodes (@make_ray _ (Fnum prec emax) o d tmin tmax any) rh = Ok (false, rh) /\
   (off_sides prec emax centers sa sb hs rots O D -> forall i t, (i < length centers)%nat ->
      ~ plain_view prec M r (a i) (b i) (h i) (C i) (Q i) O (unit_of D) (lo_unit lo D) t)) \/
  (exists rh' j x, @traverse _ (Fnum prec emax) _ _ (@cylinder_isector _ (Fnum prec emax)) nodes (@make_ray _ (Fnum prec emax) o d tmin tmax any) rh = Ok (true, rh') /\
     (j < length centers)%nat /\ h_prim rh' = Some j /\ isF prec emax (h_distance rh') x /\
     first_meeting prec M r (a j) (b j) (h j) (C j) (Q j) O (unit_of D) x /\
     tube_normal prec emax M r (a j) (b j) (h j) (C j) (Q j) (B j) O (unit_of D) x (h_normal rh')).
Proof.
  intros Hr cs Hm part Hp opt nodes st Hb Hd any rh.
  exact (tube_query_F prec emax M r v centers sa sb hs rots C a b h Q B o d tmin tmax any O D lo Hr cs Hm part Hp opt nodes st Hb Hd rh).
Qed.
Lemma tubes_answer prec emax (Hprec : Prec_gt_0 prec) (Hmax : Prec_lt_emax prec emax) M r v centers sa sb hs rots C a b h Q B o d tmin tmax O D lo :
  tubes_ray prec emax M r v centers sa sb hs rots C a b h Q B o d tmin tmax O D lo ->
  forall opt, (1 <= bin_size opt)%nat -> (3 * Z.of_nat (bin_size opt) < 4294967296)%Z -> shallow opt (length centers) ->
  spread_boxes emax (length centers) (fun i => box_low (tube_box_of prec emax centers sa sb hs rots i)) (fun i => box_high (tube_box_of prec emax centers sa sb hs rots i)) ->
  forall part, partition_ok part ->
  exists cs nodes st, @make_cylinders _ (Fnum prec emax) centers sa sb hs rots = Ok cs /\ @build _ (Fnum prec emax) _ part [] (@cylinder_coll _ cs) opt = Ok (nodes, st) /\
  forall any rh,
  (@traverse _ (Fnum prec emax) _ _ (@cylinder_isector _ (Fnum prec emax)) nodes (@make_ray _ (Fnum prec emax) o d tmin tmax any) rh = Ok (false, rh) /\
   (off_sides prec emax centers sa sb hs rots O D -> forall i t, (i < length centers)%nat ->
      ~ plain_view prec M r (a i) (b i) (h i) (C i) (Q i) O (unit_of D) (lo_unit lo D) t)) \/
  (exists rh' j x, @traverse _ (Fnum prec emax) _ _ (@cylinder_isector _ (Fnum prec emax)) nodes (@make_ray _ (Fnum prec emax) o d tmin tmax any) rh = Ok (true, rh') /\
     (j < length centers)%nat /\ h_prim rh' = Some j /\ isF prec emax (h_distance rh') x /\
     first_meeting prec M r (a j) (b j) (h j) (C j) (Q j) O (unit_of D) x /\
     tube_normal prec emax M r (a j) (b j) (h j) (C j) (Q j) (B j) O (unit_of D) x (h_normal rh')).
Proof.
  intros Hr opt H1 H2 H3 Hsp part Hp.
  destruct (@make_cylinders_ok _ (Fnum prec emax) centers sa sb hs rots) as (cs & Hm).
  { intros i Hi. destruct (ts_tubes _ _ _ _ _ _ _ _ _ _ _ _ _ _ _ _ _ _ _ _ _ _ _ Hr i Hi) as (c & x & y & z & m & E1 & E2 & E3 & E4 & E5 & _). exists c, x, y, z, m. auto. }
  pose proof (Tsize prec emax centers sa sb hs rots cs Hm) as Hsize.
  pose proof (Tdata prec emax M r v centers sa sb hs rots C a b h Q B o d tmin tmax O D lo Hr cs Hm) as Data.
  destruct (build_ieee prec emax (p6 prec emax (Tfmt prec emax M r v centers sa sb hs rots C a b h Q B o d tmin tmax O D lo Hr)) _ (@cylinder_coll _ cs)
    (fun i => box_low (tube_box_of prec emax centers sa sb hs rots i)) (fun i => box_high (tube_box_of prec emax centers sa sb hs rots i))
    (Tboxes prec emax M r v centers sa sb hs rots C a b h Q B o d tmin tmax O D lo Hr cs Hm) (Tmoderate prec emax M r v centers sa sb hs rots C a b h Q B o d tmin tmax O D lo Hr cs Hm)
    ltac:(destruct (Tfmt prec emax M r v centers sa sb hs rots C a b h Q B o d tmin tmax O D lo Hr); lia) opt H1 H2 ltac:(rewrite Hsize; exact Hsp) C) with (part := part) (nodes := @nil (node spec_float (cylinder spec_float))) as (nodes & st & Hb).
  - intros i Hi. rewrite Hsize in Hi. destruct (Data i Hi) as (c & x & y & z & m & Ht & _ & _ & _ & E & _). exists c. split; [exact E|]. split; [apply Ht|].
    destruct (tube_box_facts prec emax M r v centers sa sb hs rots C a b h Q B o d tmin tmax O D lo Hr cs Hm i Hi) as (low & high & _ & _ & -> & -> & _ & _ & Hin & _). exact Hin.
  - exact Hp.
  - intros i Hi. rewrite Hsize in Hi. destruct (Data i Hi) as (c & x & y & z & m & _ & _ & E & _). eexists. exact E.
  - exists cs, nodes, st. split; [exact Hm|]. split; [exact Hb|]. intros any rh.
    apply (tube_query_F prec emax M r v centers sa sb hs rots C a b h Q B o d tmin tmax any O D lo Hr cs Hm part Hp opt nodes st Hb).
    apply (shallow_depth part Hp (@cylinder_coll _ cs) opt nodes st Hb). rewrite Hsize. exact H3.
Qed.
