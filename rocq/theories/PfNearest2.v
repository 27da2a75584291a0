(** The nearest-hit theorem for built trees. *)

From Coq Require Import Reals ZArith List Bool Arith Lra Lia Permutation.
From Verif Require Import Num NumR NumX Vec Datatypes Ray Bvh Traverse SpecBvh SpecReal SpecNearest.
From Verif Require Import PfBuild PfTree PfStack PfBuild2 PfTrav PfTrav2 PfX PfSlab PfNearest.
Import ListNotations.
Local Open Scope R_scope.

Section Built.
Variables big tiny eps : R.
Hypothesis Heps : 0 <= eps.
Notation XN := (Xnum big tiny eps).
Context {P I : Type}.
Variable c : coll xr P.

(** Real boxes of the primitives. *)
Variables bmin bmax : nat -> vec R.
Hypothesis Hbox : boxes_are c bmin bmax.
Hypothesis Hbd : forall i, (i < c_size c)%nat -> in_bounds big (bmin i) /\ in_bounds big (bmax i).

Lemma bbox_real : forall ids mn mx a A mn' mx',
  (forall i, In i ids -> (i < c_size c)%nat) ->
  visR mn a -> visR mx A ->
  @bbox_loop _ XN _ c mn mx ids = Ok (mn', mx') ->
  exists a' A', visR mn' a' /\ visR mx' A' /\
    (vx a' <= vx a /\ vy a' <= vy a /\ vz a' <= vz a) /\
    (vx A <= vx A' /\ vy A <= vy A' /\ vz A <= vz A') /\
    (forall i, In i ids -> (vx a' <= vx (bmin i) /\ vy a' <= vy (bmin i) /\ vz a' <= vz (bmin i)) /\
       (vx (bmax i) <= vx A' /\ vy (bmax i) <= vy A' /\ vz (bmax i) <= vz A')) /\
    (vz a' = vz a \/ exists i, In i ids /\ vz a' = vz (bmin i)) /\
    (vz A' = vz A \/ exists i, In i ids /\ vz A' = vz (bmax i)).
Proof.
  induction ids as [|i ids IH]; intros mn mx a A mn' mx' Hlt Hmn Hmx H.
  - injection H as <- <-. exists a, A. split; [exact Hmn|]. split; [exact Hmx|]. split; [lra|]. split; [lra|].
    split; [intros i []|]. auto.
  - cbn [bbox_loop] in H. destruct (Hbox i (Hlt i (or_introl eq_refl))) as ([b1 b2] & Eb & Hb1 & Hb2).
    rewrite Eb in H. cbn [bind fst snd] in *. unfold unity in H.
    set (mn1 := vmap2 smin b1 mn) in H. set (mx1 := vmap2 smax b2 mx) in H.
    assert (H1 : visR mn1 (V (Rmin (vx a) (vx (bmin i))) (Rmin (vy a) (vy (bmin i))) (Rmin (vz a) (vz (bmin i))))).
    { destruct Hmn as (? & ? & ?), Hb1 as (? & ? & ?). repeat split; cbn; apply isR_smin; assumption. }
    assert (H2 : visR mx1 (V (Rmax (vx (bmax i)) (vx A)) (Rmax (vy (bmax i)) (vy A)) (Rmax (vz (bmax i)) (vz A)))).
    { destruct Hmx as (? & ? & ?), Hb2 as (? & ? & ?). repeat split; cbn; apply isR_smax; assumption. }
    destruct (IH _ _ _ _ _ _ (fun j Hj => Hlt j (or_intror Hj)) H1 H2 H) as
      (a' & A' & R1 & R2 & (L1 & L2 & L3) & (U1 & U2 & U3) & Hall & Z1 & Z2). cbn [vx vy vz] in *.
    pose proof (Rmin_l (vx a) (vx (bmin i))). pose proof (Rmin_r (vx a) (vx (bmin i))).
    pose proof (Rmin_l (vy a) (vy (bmin i))). pose proof (Rmin_r (vy a) (vy (bmin i))).
    pose proof (Rmin_l (vz a) (vz (bmin i))). pose proof (Rmin_r (vz a) (vz (bmin i))).
    pose proof (Rmax_r (vx (bmax i)) (vx A)). pose proof (Rmax_l (vx (bmax i)) (vx A)).
    pose proof (Rmax_r (vy (bmax i)) (vy A)). pose proof (Rmax_l (vy (bmax i)) (vy A)).
    pose proof (Rmax_r (vz (bmax i)) (vz A)). pose proof (Rmax_l (vz (bmax i)) (vz A)).
    exists a', A'. split; [exact R1|]. split; [exact R2|]. split; [lra|]. split; [lra|]. split; [|split].
    + intros j [<-|Hj]; [lra|auto].
    + destruct Z1 as [Z1|(j & Hj & Z1)]; [|right; exists j; split; [right; exact Hj|exact Z1]].
      rewrite Z1. unfold Rmin. destruct (Rle_dec _ _); [left; reflexivity|].
      right. exists i. split; [left; reflexivity|reflexivity].
    + destruct Z2 as [Z2|(j & Hj & Z2)]; [|right; exists j; split; [right; exact Hj|exact Z2]].
      rewrite Z2. unfold Rmax. destruct (Rle_dec _ _); [left; reflexivity|].
      right. exists i. split; [left; reflexivity|reflexivity].
Qed.

Lemma compute_real ids mn mx i0 :
  (forall i, In i ids -> (i < c_size c)%nat) -> In i0 ids ->
  @compute_bounding_box _ XN _ c ids = Ok (mn, mx) ->
  exists a A, visR mn a /\ visR mx A /\
    (forall i, In i ids -> (vx a <= vx (bmin i) /\ vy a <= vy (bmin i) /\ vz a <= vz (bmin i)) /\
       (vx (bmax i) <= vx A /\ vy (bmax i) <= vy A /\ vz (bmax i) <= vz A)) /\
    (exists i, In i ids /\ vz a = vz (bmin i)) /\
    (exists i, In i ids /\ vz A = vz (bmax i)).
Proof.
  intros Hlt Hi0 H. unfold compute_bounding_box in H.
  assert (H1 : visR (vconst (@nmaxv _ XN)) (V big big big)) by (apply visR_const; reflexivity).
  assert (H2 : visR (vconst (@nopp _ XN (@nmaxv _ XN))) (V (- big) (- big) (- big))) by (apply visR_const; reflexivity).
  destruct (bbox_real _ _ _ _ _ _ _ Hlt H1 H2 H) as (a & A & R1 & R2 & _ & _ & Hall & Z1 & Z2).
  exists a, A. split; [exact R1|]. split; [exact R2|]. split; [exact Hall|].
  destruct (Hall i0 Hi0) as [(_ & _ & B1) (_ & _ & B2)].
  destruct (Hbd i0 (Hlt i0 Hi0)) as [(_ & _ & C1) (_ & _ & C2)]. cbn [vz] in *.
  split.
  - destruct Z1 as [Z1|Z1]; [|exact Z1]. exists i0. split; [exact Hi0|]. lra.
  - destruct Z2 as [Z2|Z2]; [|exact Z2]. exists i0. split; [exact Hi0|]. lra.
Qed.

Variable part : (nat -> bool) -> list nat -> list nat * list nat.
Hypothesis Hpart : partition_ok part.
Variable opt : options.
Variables (nodes : list (node xr P)) (st : stats).
Hypothesis Hbuild : @build _ XN _ part [] c opt = Ok (nodes, st).
Hypothesis Hdepth : forall k d, node_depth nodes k d -> (d <= 26)%nat.
Variable pid : P -> nat.
Hypothesis Hnum : numbered c pid.

Variables (o d : vec xr) (tmin tmax : xr) (any : bool) (O D : vec R) (m : R).
Hypothesis Had : wide o d tmin O D m.
Notation r := (@make_ray _ XN o d tmin tmax any).
(** A ray parallel to the xy plane does not start in a face plane of a box. *)
Hypothesis Hz : vz D = 0 -> forall i, (i < c_size c)%nat ->
  vz O <> vz (bmin i) /\ vz O <> vz (bmax i).

Variable isx : isector xr P I.
Variables (best : P -> option R) (inv : I -> Prop) (won : P -> I -> Prop).
Hypothesis Hc : contract isx r (fun p => exists i, (i < c_size c)%nat /\ c_prim c i = Ok p) best inv won.

(** The hit lies in the interval and in the primitive's box. *)
Definition boxed (q : P) : Prop := forall u, best q = Some u ->
  m * rv_norm D <= u /\ in_box (bmin (pid q)) (bmax (pid q)) (at_t O (unit_of D) u).

Lemma norm_pos : 0 < rv_norm D.
Proof. pose proof (wd_len _ _ _ _ _ _ Had). lra. Qed.

Lemma at_unit u : at_t O (unit_of D) u = at_t O D (u / rv_norm D).
Proof.
  pose proof norm_pos. apply vec_eq; cbn; field; lra.
Qed.

Lemma built_answers rh :
  answers isx best won boxed (stored nodes) tmax any rh (@traverse _ XN _ _ isx nodes r rh).
Proof.
  destruct (@built_tree _ _ XN part Hpart c opt nodes st Hbuild) as (t & Hw & E & Hax). rewrite E in *.
  rewrite stored_tprims.
  assert (Hin : forall depth ids t', @wf _ _ XN c opt depth ids t' -> forall p, In p (tprims t') ->
    exists i, In i ids /\ c_prim c i = Ok p).
  { intros depth ids t' Hw' p Hp. pose proof (wf_stored _ _ _ _ _ Hw' 0) as Hs. rewrite stored_tprims in Hs.
    destruct (mapM_in_inv _ _ _ _ Hs Hp) as (i & Ei & Hi). exists i. split; [|exact Ei].
    apply (Permutation_in _ (wf_tids _ _ _ _ _ Hw')). exact Hi. }
  refine (tree_answers big tiny eps isx r _ best inv won Hc boxed t rh _ _ Hax _).
  - apply (covers_sub big tiny eps r best boxed t 0). intros dd t' k' Hs q u hd Hq Hsure Eu Hlt.
    destruct (wf_sub _ _ _ _ _ _ _ _ _ Hw Hs) as (ids' & Hw' & Hincl).
    destruct (Hin _ _ _ Hw' q Hq) as (i & Hi & Ei). apply Hnum in Ei. 
    assert (Hids : forall j, In j ids' -> (j < c_size c)%nat).
    { intros j Hj. apply Hincl in Hj. apply in_seq in Hj. lia. }
    pose proof (wf_box _ _ _ _ _ Hw') as Hbb.
    destruct (compute_real ids' _ _ i Hids Hi Hbb) as (a & A & R1 & R2 & Hall & (i1 & Hi1 & Z1) & (i2 & Hi2 & Z2)).
    destruct (Hsure u Eu) as (Hmu & Hib). rewrite Ei in Hib. rewrite at_unit in Hib.
    destruct (Hall i Hi) as [(L1 & L2 & L3) (U1 & U2 & U3)].
    unfold test.
    assert (Emin : nd_min (root_node t' 0) = PfBuild.tmin t') by (destruct t'; reflexivity).
    assert (Emax : nd_max (root_node t' 0) = PfBuild.tmax t') by (destruct t'; reflexivity).
    pose proof (wd_m _ _ _ _ _ _ Had). pose proof norm_pos as Hpos.
    assert (Hsu : m <= u / rv_norm D <= u).
    { pose proof (wd_len _ _ _ _ _ _ Had) as Hl.
      assert (Eu' : u / rv_norm D * rv_norm D = u) by (field; lra).
      set (w := u / rv_norm D) in *. clearbody w. set (N := rv_norm D) in *. clearbody N.
      assert (Hmw : m <= w) by (apply Rmult_le_reg_r with N; lra).
      split; [exact Hmw|]. rewrite <- Eu'. clear - Hl Hmw H. nra. }
    apply (node_test big tiny eps Heps) with (m := a) (M := A) (O := O) (D := D) (s := u / rv_norm D).
    + rewrite Emin. exact R1.
    + rewrite Emax. exact R2.
    + apply Had.
    + apply Had.
    + apply (wd_zx _ _ _ _ _ _ Had).
    + apply (wd_zy _ _ _ _ _ _ Had).
    + apply (wd_zz _ _ _ _ _ _ Had).
    + lra.
    + destruct Hib as (I1 & I2 & I3). unfold in_box. lra.
    + intros HD. split.
      * rewrite Z1. intros Heq. apply (proj1 (Hz HD i1 (Hids _ Hi1))). auto.
      * rewrite Z2. intros Heq. apply (proj2 (Hz HD i2 (Hids _ Hi2))). auto.
    + eapply below_isR; [apply (wd_min _ _ _ _ _ _ Had)|lra].
    + unfold lt_hd in Hlt. unfold above_t. destruct hd as [|[]|s b]; cbn in *; auto; try discriminate.
      apply Rltb_spec in Hlt. apply Rltb_false. lra.
  - intros p Hp. destruct (Hin _ _ _ Hw p Hp) as (i & Hi & Ei). exists i. split; [|exact Ei].
    apply in_seq in Hi. lia.
  - destruct (height_reached t 0) as (t' & k' & Hs). apply (Hdepth k'). apply node_depth_sub. eauto.
Qed.

(** The stored primitives are those of the collection. *)
Lemma stored_iff p : In p (stored nodes) <-> exists i, (i < c_size c)%nat /\ c_prim c i = Ok p.
Proof.
  destruct (@build_stores _ _ XN part Hpart c opt nodes st pid Hnum Hbuild) as [H1 H2].
  split.
  - intros Hp. exists (pid p). split; [|apply H2, Hp].
    assert (Hin : In (pid p) (seq 0 (c_size c))).
    { eapply Permutation_in; [exact H1|]. apply in_map, Hp. }
    apply in_seq in Hin. lia.
  - intros (i & Hi & Ei).
    assert (Hin : In i (map pid (stored nodes))).
    { eapply Permutation_in; [apply Permutation_sym, H1|]. apply in_seq. lia. }
    apply in_map_iff in Hin as (q & Eq & Hq). pose proof (H2 q Hq) as E2. rewrite Eq in E2. congruence.
Qed.
End Built.
