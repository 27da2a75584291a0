(** Embree-backed scenes of one cylinder, with rounding. *)

From Coq Require Import Reals ZArith List Bool Lra Floats.SpecFloat.
From Flocq Require Import Core IEEE754.BinarySingleNaN.
From Verif Require Import Num NumR NumF Vec Ray Bvh Cylinder Scene Embree EmbreeScene SpecReal SpecIEEE SpecTriF SpecSphF SpecPlane SpecPlaneF SpecScene SpecEmbScene SpecEmbF SpecTubeF SpecTubeN.
From Verif Require Import PfECylF PfECylO.
Import ListNotations.

Section Any.
Context {T : Type} {N : num T}.
Variable tri : nat -> list (vec T) -> list (vec nat) -> rtc_rayhit T -> rtc_rayhit T.
Definition only (e : ecyl T) (q : escene T) : Prop := q_geoms q = [GCyl e] /\ q_cyl q = Some 0%nat /\ q_built q = 1%nat.
Lemma run_only part calls opt c cs a sa b sb h hs m ms q l :
  e_run part true tri calls (new_escene opt) [AddCylinders (c :: cs) (a :: sa) (b :: sb) (h :: hs) (m :: ms); Commit] = Ok (q, l) ->
  only (ECyl c a b h m (Some 0%nat)) q.
Proof. cbn. intros H. injection H as <- <-. repeat split. Qed.
Lemma call_only e q rh : only e q -> intersect_call tri q 0 rh = ecyl_intersect e 0 true None rh.
Proof. intros (G & C & B). unfold intersect_call, at_, live. rewrite G, C, B. cbn. reflexivity. Qed.
Lemma ecyl_again c a b h m g rh rh' : ecyl_intersect (ECyl c a b h m g) 0 true None rh = Ok rh' -> ecyl_intersect (ECyl c a b h m g) 0 true None rh' = Ok rh'.
Proof.
  unfold ecyl_intersect, user, at_. cbn [nth_error bind ec_center ec_a ec_b ec_h ec_rot ec_geom negb].
  destruct (ecyl_local a b h m (mulmv (trans m) (vsub (r_org (rh_ray rh)) c)) (mulmv (trans m) (r_dir (rh_ray rh)))) as [[n t]|] eqn:E; intros H; injection H as <-.
  - unfold set_ray_hit. cbn [rh_ray r_org r_dir r_tnear rh_hit]. rewrite E. reflexivity.
  - rewrite E. reflexivity.
Qed.
Lemma calls_only c a b h m g q rh rh' : only (ECyl c a b h m g) q -> ecyl_intersect (ECyl c a b h m g) 0 true None rh = Ok rh' ->
  forall ids, (forall i, In i ids -> i = 0%nat) -> intersect_calls tri q ids rh = Ok (match ids with [] => rh | _ => rh' end).
Proof.
  intros Q. intros H ids I. revert rh H. induction ids as [|i ids IH]; intros rh H; [reflexivity|]. cbn [intersect_calls].
  rewrite (I i (or_introl eq_refl)), (call_only _ _ rh Q), H. cbn [bind].
  rewrite (IH (fun j Hj => I j (or_intror Hj)) rh' (ecyl_again _ _ _ _ _ _ _ _ H)). destruct ids; reflexivity.
Qed.
End Any.

Local Open Scope R_scope.
Section Say.
Variables prec emax : Z.
Context {Hprec : Prec_gt_0 prec} {Hmax : Prec_lt_emax prec emax}.
Notation FN := (Fnum prec emax).
Variables (M rr v : R) (c : vec spec_float) (fa fb fh : spec_float) (m : mat spec_float) (O U C : vec R) (a b h : R) (Q : mat R) (B : vec R) (r : ray spec_float).
Hypothesis Ht : tube_ray prec emax M rr v (origin r) (direction r) c fa fb fh m O U C a b h Q B.
Variables (part : (nat -> bool) -> list nat -> list nat * list nat) (tri : nat -> list (vec spec_float) -> list (vec nat) -> rtc_rayhit spec_float -> rtc_rayhit spec_float)
  (calls : escene spec_float -> ray spec_float -> list nat) (opt : options) (cs : list (vec spec_float)) (sa sb hs : list spec_float) (ms : list (mat spec_float))
  (q : escene spec_float) (l : list (reply spec_float)).
Hypothesis Hrun : @e_run _ FN part true tri calls (@new_escene _ opt) [AddCylinders (c :: cs) (fa :: sa) (fb :: sb) (fh :: hs) (m :: ms); Commit] = Ok (q, l).
Variable ids : list nat.
Hypothesis Hids : forall i, In i ids -> i = 0%nat.
Notation e := (tube_err prec M rr).
Notation ez := (cap_err prec M).
Notation X t := (local C Q (at_t O U t)).
Notation start := (@rtc_start _ FN r).
Notation tube_hit out x := (isF prec emax (h_distance out) x /\ h_prim out = Some 0%nat /\ 0 <= x <= 3 * M /\ on_tube e ez a b h (X x) /\
  (M <= / (4096 * ulpf prec) -> cap_normal prec emax e ez h Q (h_normal out) (X x) \/ side_normal prec emax e a b Q (h_normal out) (X x))).
Lemma scene_from_outside rh : outside e ez a b h (local C Q O) ->
  exists f out, @e_intersect1 _ FN true tri ids q r rh = Ok (f, out) /\
    (f = false -> out = rh) /\ (f = true -> exists x, tube_hit out x /\ forall t, 0 <= t <= x -> ~ deep_in e ez a b h (X t)).
Proof.
  intros Out. destruct (ecyl_from_outside prec emax M rr v c fa fb fh m O U C a b h Q B start Ht 0%nat None Out) as (rh' & E & _ & G).
  unfold e_intersect1. rewrite (calls_only tri _ _ _ _ _ _ _ _ _ (run_only _ _ _ _ _ _ _ _ _ _ _ _ _ _ _ _ Hrun) E ids Hids). cbn [bind].
  assert (Miss : exists f out, @Ok (bool * rayhit spec_float) (false, rh) = Ok (f, out) /\ (f = false -> out = rh) /\
    (f = true -> exists x, tube_hit out x /\ forall t, 0 <= t <= x -> ~ deep_in e ez a b h (X t))) by (exists false, rh; repeat split; discriminate).
  destruct ids as [|i ids']; [exact Miss|]. destruct G as [->|(x & (R1 & R2 & R3) & X1 & X2 & X3 & X4)]; [exact Miss|]. rewrite R2.
  eexists _, _. split; [reflexivity|]. split; [discriminate|]. intros _. exists x. cbn [h_distance h_prim h_normal].
  split; [|exact X4]. split; [exact R3|]. split; [exact R1|]. split; [exact X1|]. split; [exact X2|exact X3].
Qed.
Lemma scene_not_missed rh t' : ids <> [] -> clear_outside e ez a b h (local C Q O) -> 0 <= t' -> deep_in e ez a b h (X t') ->
  (forall t, 0 <= t <= t' -> ~ near_rim e ez a b h (X t)) ->
  exists out x, @e_intersect1 _ FN true tri ids q r rh = Ok (true, out) /\ isF prec emax (h_distance out) x /\ x < t'.
Proof.
  intros Ne Cl T0 Dp Rim. destruct (ecyl_not_missed prec emax M rr v c fa fb fh m O U C a b h Q B start Ht 0%nat None t' Cl T0 Dp Rim) as (rh' & x & E & (R1 & R2 & R3) & Lt).
  unfold e_intersect1. rewrite (calls_only tri _ _ _ _ _ _ _ _ _ (run_only _ _ _ _ _ _ _ _ _ _ _ _ _ _ _ _ Hrun) E ids Hids). cbn [bind].
  destruct ids as [|i ids']; [destruct (Ne eq_refl)|]. rewrite R2. eexists _, x. split; [reflexivity|]. split; [exact R3|exact Lt].
Qed.
Lemma scene_from_inside rh : ids <> [] -> deep_in e ez a b h (local C Q O) ->
  exists out x, @e_intersect1 _ FN true tri ids q r rh = Ok (true, out) /\ tube_hit out x /\ forall t, 0 <= t <= x -> in_tube e ez a b h (X t).
Proof.
  intros Ne Dp. destruct (ecyl_from_inside prec emax M rr v c fa fb fh m O U C a b h Q B start Ht 0%nat None Dp) as (rh' & x & E & _ & (R1 & R2 & R3) & X1 & X2 & X3 & X4).
  unfold e_intersect1. rewrite (calls_only tri _ _ _ _ _ _ _ _ _ (run_only _ _ _ _ _ _ _ _ _ _ _ _ _ _ _ _ Hrun) E ids Hids). cbn [bind].
  destruct ids as [|i ids']; [destruct (Ne eq_refl)|]. rewrite R2. eexists _, x. split; [reflexivity|]. cbn [h_distance h_prim h_normal].
  split; [|exact X4]. split; [exact R3|]. split; [exact R1|]. split; [exact X1|]. split; [exact X2|exact X3].
Qed.
End Say.
