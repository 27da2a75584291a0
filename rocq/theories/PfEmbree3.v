(** The Embree cylinder callbacks. *)

From Coq Require Import Reals ZArith List Bool Lra Lia.
From Verif Require Import Num NumR NumX Vec Ray Cylinder Embree SpecReal SpecCyl SpecEmbree PfX PfPlane PfClosest PfCyl PfCyl2 PfEmbree2.
Import ListNotations.

Section Any.
Context {T : Type} {N : num T}.
Local Open Scope num_scope.

Lemma ecyl_bounds_eq c a b h m g : ecyl_bounds (ECyl c a b h m g) 0 = Ok (cylinder_box c a b h m).
Proof. reflexivity. Qed.

Lemma lt_excl (L : comparisons N) (a b : T) : (a <? b) = true -> (b <? a) = false.
Proof.
  intros H. pose proof (cmp_asym L _ _ H) as E. rewrite (cmp_le L) in E.
  apply orb_false_iff in E. exact (proj1 E).
Qed.

Lemma ecyl_outside_eq a b h rot low far org dir :
  ((cyl_C a b (vx org) (vy org) (vx dir) (vy dir) <? n0) = false ->
   (cyl_t0 a b (vx org) (vy org) (vx dir) (vy dir) <? cyl_t1 a b (vx org) (vy org) (vx dir) (vy dir)) = false) ->
  ecyl_outside a b h rot low far org dir = Leave None /\ cyl_outside a b h rot org dir = None \/
  ecyl_outside a b h rot low far org dir = Through (cyl_outside a b h rot org dir).
Proof.
  intros H. unfold ecyl_outside, cyl_outside.
  destruct (cyl_C _ _ _ _ _ _ <? n0); [left; split; reflexivity|right].
  rewrite (H eq_refl), !andb_false_r. cbn [andb].
  match goal with |- context [if ?b then _ else _] => destruct b end; reflexivity.
Qed.

Lemma ecyl_beyond_eq a b h zc nz rot far org dir :
  ((cyl_C a b (vx org) (vy org) (vx dir) (vy dir) <? n0) = false ->
   (cyl_t0 a b (vx org) (vy org) (vx dir) (vy dir) <? cyl_t1 a b (vx org) (vy org) (vx dir) (vy dir)) = false) ->
  ecyl_beyond a b h zc nz rot far org dir = Leave None /\ cyl_beyond a b h zc nz rot org dir = None \/
  ecyl_beyond a b h zc nz rot far org dir = Through (cyl_beyond a b h zc nz rot org dir).
Proof.
  intros H. unfold ecyl_beyond, cyl_beyond. cbv zeta.
  destruct (vz dir =? n0); [left; split; reflexivity|].
  destruct (_ / _ <? n0); [left; split; reflexivity|].
  destruct (_ <=? _); [right; reflexivity|]. apply ecyl_outside_eq, H.
Qed.

Lemma ecyl_caps_eq (L : comparisons N) h rot org dir : ecyl_caps h rot org dir None = cyl_caps h rot org dir.
Proof.
  unfold ecyl_caps, cyl_caps. cbv zeta. destruct (vz dir <? n0) eqn:E; [|reflexivity].
  rewrite (lt_excl L _ _ E). reflexivity.
Qed.

Lemma same_hit_refl (f : vec T -> vec T) o : same_hit f o o.
Proof. destruct o as [[u t]|]; [split; [reflexivity|left; reflexivity]|exact I]. Qed.

Lemma ecyl_area4_eq (L : comparisons N) a b h rot org dir :
  (n0 <? cyl_t1 a b (vx org) (vy org) (vx dir) (vy dir)) = false ->
  same_hit (cyl_rot_normal rot) (ecyl_area4 a b h rot org dir None) (cyl_area4 a b h rot org dir).
Proof.
  intros H. unfold ecyl_area4, cyl_area4, cyl_inside. cbv zeta. rewrite H. cbn [andb].
  destruct (vz dir =? n0).
  - destruct (_ || _); [exact I|]. destruct (_ <? n0); [exact I|].
    match goal with |- context [if ?b then _ else _] => destruct b end; [|exact I].
    split; [reflexivity|left; reflexivity].
  - destruct (_ && (vy dir =? n0)).
    + destruct (_ =? _); [exact I|]. rewrite (ecyl_caps_eq L). apply same_hit_refl.
    + destruct (_ <? n0); [exact I|].
      match goal with |- context [if ?b then _ else _] => destruct b end.
      * split; [reflexivity|right; reflexivity].
      * rewrite (ecyl_caps_eq L). apply same_hit_refl.
Qed.

Definition inside4 (a b h : T) (org : vec T) : bool :=
  (- h / n2 <=? vz org) && (vz org <=? h / n2)
  && (vx org * vx org * b * b + vy org * vy org * a * a <=? a * a * b * b).

Lemma ecyl_local_eq (L : comparisons N) a b h rot org dir :
  let t0 := cyl_t0 a b (vx org) (vy org) (vx dir) (vy dir) in
  let t1 := cyl_t1 a b (vx org) (vy org) (vx dir) (vy dir) in
  ((cyl_C a b (vx org) (vy org) (vx dir) (vy dir) <? n0) = false -> (t0 <? t1) = false) ->
  (inside4 a b h org = true -> (n0 <? t1) = false) ->
  same_hit (cyl_rot_normal rot) (ecyl_local a b h rot org dir) (cyl_local a b h rot org dir).
Proof.
  intros t0 t1 H01 Hin. unfold ecyl_local, cyl_local. cbv zeta.
  fold (inside4 a b h org).
  assert (Hgo : forall f x, inside4 a b h org = false -> (f = Leave None /\ x = None \/ f = Through x) ->
    same_hit (cyl_rot_normal rot)
      (match f with Leave w => w | Through w => if inside4 a b h org then ecyl_area4 a b h rot org dir w else w end)
      (match x with Some r => Some r
       | None => if inside4 a b h org then cyl_area4 a b h rot org dir else None end)).
  { intros f x E [[-> ->]| ->]; rewrite E; [exact I|]. destruct x; apply same_hit_refl. }
  destruct (h / n2 <? vz org) eqn:E1.
  { apply Hgo; [|apply ecyl_beyond_eq, H01]. unfold inside4. rewrite (cmp_asym L _ _ E1), andb_false_r. reflexivity. }
  destruct (vz org <? - h / n2) eqn:E2.
  { apply Hgo; [|apply ecyl_beyond_eq, H01]. unfold inside4. rewrite (cmp_asym L _ _ E2). reflexivity. }
  match goal with |- context [if ?c then ecyl_outside _ _ _ _ _ _ _ _ else _] => destruct c eqn:E3 end.
  { apply Hgo; [|apply ecyl_outside_eq, H01]. unfold inside4. apply andb_prop in E3 as [_ E3].
    rewrite (cmp_asym L _ _ E3), andb_false_r. reflexivity. }
  destruct (inside4 a b h org) eqn:E4; [|exact I].
  apply ecyl_area4_eq; [exact L|apply Hin; reflexivity].
Qed.

(** Beyond the caps the occlusion callback runs the same tests. *)
Lemma ecyl_occ_beyond_eq a b h zc nz rot far org dir :
  match ecyl_beyond a b h zc nz rot far org dir with
  | Leave w => w = None /\ ecyl_occ_beyond a b h zc org dir = (false, true)
  | Through None => ecyl_occ_beyond a b h zc org dir = (false, false)
  | Through (Some _) => ecyl_occ_beyond a b h zc org dir = (true, true)
  end.
Proof.
  unfold ecyl_beyond, ecyl_occ_beyond, ecyl_outside. cbv zeta.
  destruct (vz dir =? n0); [split; reflexivity|].
  destruct (_ / _ <? n0); [split; reflexivity|].
  match goal with |- context [if ?b then Through _ else _] => destruct b end; [reflexivity|].
  destruct (cyl_C _ _ _ _ _ _ <? n0); [split; reflexivity|].
  match goal with |- context [if ?b then (true, true) else if ?b' then _ else _] => destruct b, b' end; reflexivity.
Qed.

Lemma ecyl_local_beyond (L : comparisons N) a b h rot org dir :
  (h / n2 <? vz org) = true \/ (vz org <? - h / n2) = true ->
  (ecyl_occ_local a b h org dir = true <-> ecyl_local a b h rot org dir <> None).
Proof.
  intros Hz. unfold ecyl_occ_local, ecyl_local. cbv zeta. fold (inside4 a b h org).
  assert (E4 : inside4 a b h org = false).
  { unfold inside4. destruct Hz as [E|E]; rewrite (cmp_asym L _ _ E), ?andb_false_r; reflexivity. }
  rewrite E4.
  assert (Hgo : forall zc nz far,
    (let '(set, gone) := ecyl_occ_beyond a b h zc org dir in if gone then set else set) = true <->
    match ecyl_beyond a b h zc nz rot far org dir with Leave w => w | Through w => w end <> None).
  { intros zc nz far. pose proof (ecyl_occ_beyond_eq a b h zc nz rot far org dir) as H.
    destruct (ecyl_beyond a b h zc nz rot far org dir) as [w|[w|]].
    - destruct H as [-> ->]. split; [discriminate|intros X; destruct (X eq_refl)].
    - rewrite H. split; [discriminate|reflexivity].
    - rewrite H. split; [discriminate|intros X; destruct (X eq_refl)]. }
  destruct (h / n2 <? vz org) eqn:E1; [apply Hgo|].
  destruct Hz as [E|E]; [discriminate E|]. rewrite E. apply Hgo.
Qed.

(** Beside the cylinder whatever the intersection callback hits is marked. *)
Definition beside3 (a b h : T) (org : vec T) : bool :=
  (- h / n2 <? vz org) && (vz org <? h / n2)
  && (a * a * b * b <? vx org * vx org * b * b + vy org * vy org * a * a).
Lemma beside3_inside4 (L : comparisons N) a b h org : beside3 a b h org = true -> inside4 a b h org = false.
Proof.
  unfold beside3, inside4. intros E. apply andb_prop in E as [_ E]. rewrite (cmp_asym L _ _ E), andb_false_r. reflexivity.
Qed.

Lemma ecyl_local_beside (L : comparisons N) a b h rot org dir :
  beside3 a b h org = true ->
  ecyl_local a b h rot org dir <> None -> ecyl_occ_local a b h org dir = true.
Proof.
  intros E3. unfold ecyl_occ_local, ecyl_local. cbv zeta. fold (inside4 a b h org) (beside3 a b h org).
  rewrite (beside3_inside4 L _ _ _ _ E3), E3. unfold beside3 in E3.
  apply andb_prop in E3 as [E3 _]. apply andb_prop in E3 as [E1 E2].
  rewrite (lt_excl L _ _ E1), (lt_excl L _ _ E2). unfold ecyl_outside. cbv zeta.
  destruct (cyl_C _ _ _ _ _ _ <? n0); [intros X; destruct (X eq_refl)|].
  set (t0 := cyl_t0 _ _ _ _ _ _). set (t1 := cyl_t1 _ _ _ _ _ _).
  destruct (n0 <? t0) eqn:P0; [rewrite (lt_excl L _ _ P0); reflexivity|].
  destruct (n0 <? t1) eqn:P1; [rewrite (lt_excl L _ _ P1), andb_false_r; reflexivity|].
  cbn [andb]. intros X; destruct (X eq_refl).
Qed.

(** From the verdict in local coordinates to the callbacks. *)
Lemma ecyl_verdict c a b h m g valid inst rh :
  let org := mulmv (trans m) (vsub (r_org (rh_ray rh)) c) in
  let dir := mulmv (trans m) (r_dir (rh_ray rh)) in
  (ecyl_occ_local a b h org dir = true <-> ecyl_local a b h m org dir <> None) ->
  same_verdict rh g (ecyl_occluded (ECyl c a b h m (Some g)) 0 valid (rh_ray rh))
    (ecyl_intersect (ECyl c a b h m (Some g)) 0 valid inst rh).
Proof.
  intros org dir Hv Hf Hg. unfold ecyl_occluded, ecyl_intersect, user, at_.
  cbn [nth_error bind ec_center ec_a ec_b ec_h ec_rot ec_geom]. fold org dir.
  assert (Ho : r_tfar (rh_ray rh) = ninf_neg <-> e_geom (rh_hit rh) = Some g)
    by (rewrite Hg; split; [intros E; destruct (Hf E)|discriminate]).
  destruct valid; cbn [negb].
  2: { do 2 eexists. split; [reflexivity|]. split; [reflexivity|exact Ho]. }
  destruct (ecyl_local a b h m org dir) as [[n t]|], (ecyl_occ_local a b h org dir);
    do 2 eexists; (split; [reflexivity|]); (split; [reflexivity|]).
  - split; reflexivity.
  - discriminate (proj2 Hv ltac:(discriminate)).
  - destruct (proj1 Hv eq_refl eq_refl).
  - exact Ho.
Qed.

Lemma ecyl_same_verdict_beyond c a b h m g valid inst rh : comparisons N ->
  (let z := vz (mulmv (trans m) (vsub (r_org (rh_ray rh)) c)) in
   (h / n2 <? z) = true \/ (z <? - h / n2) = true) ->
  same_verdict rh g (ecyl_occluded (ECyl c a b h m (Some g)) 0 valid (rh_ray rh))
    (ecyl_intersect (ECyl c a b h m (Some g)) 0 valid inst rh).
Proof. intros L Hz. apply ecyl_verdict, ecyl_local_beyond; assumption. Qed.

(** The native routine on the same data. *)
Lemma ecyl_agrees c a b h m g inst rh k i ray_ :
  let org := mulmv (trans m) (vsub (r_org (rh_ray rh)) c) in
  let dir := mulmv (trans m) (r_dir (rh_ray rh)) in
  same_hit (cyl_rot_normal m) (ecyl_local a b h m org dir) (cyl_local a b h m org dir) ->
  e_geom (rh_hit rh) = None ->
  ci_org i = r_org (rh_ray rh) -> ci_dir i = r_dir (rh_ray rh) ->
  exists rh' hit i', ecyl_intersect (ECyl c a b h m (Some g)) 0 true inst rh = Ok rh' /\
    cylinder_intersect i (Cylinder c a b h m k) ray_ = (hit, i') /\
    (e_geom (rh_hit rh') = Some g <-> hit = true) /\
    (hit = false -> rh' = rh) /\
    (hit = true -> r_tfar (rh_ray rh') = ci_hd i' /\ e_prim (rh_hit rh') = Some 0%nat /\
       (e_ng (rh_hit rh') = ci_normal i' \/ e_ng (rh_hit rh') = cyl_rot_normal m (ci_normal i'))).
Proof.
  intros org dir Hs Hg Ho Hd. unfold ecyl_intersect, cylinder_intersect, user, at_.
  cbn [nth_error bind ec_center ec_a ec_b ec_h ec_rot ec_geom negb cy_center cy_a cy_b cy_h cy_rot cy_id].
  rewrite Ho, Hd. fold org dir.
  destruct (ecyl_local a b h m org dir) as [[n t]|], (cyl_local a b h m org dir) as [[n' t']|]; try destruct Hs as [];
    do 3 eexists; (split; [reflexivity|]); (split; [reflexivity|]).
  - subst t'. split; [split; reflexivity|]. split; [discriminate|]. intros _. split; [reflexivity|]. split; [reflexivity|assumption].
  - rewrite Hg. split; [split; discriminate|]. split; [reflexivity|discriminate].
Qed.
End Any.

Local Open Scope R_scope.
Section Exact.
Variables big tiny eps : R.
Notation XN := (Xnum big tiny eps).
Variables (xa xb xh : xr) (a b h : R) (rot : mat xr).
Hypothesis Xa : isR xa a.
Hypothesis Xb : isR xb b.
Hypothesis Xh : isR xh h.
Hypothesis Ha : 0 < a.
Hypothesis Hb : 0 < b.
Variables (org dir : vec xr) (x0 y0 z0 j k l : R).
Notation o := (V x0 y0 z0).
Notation d := (V j k l).
Hypothesis Xo : visR org o.
Hypothesis Xd : visR dir d.
Notation A := (a * a * k * k + b * b * j * j).
Notation Cc := (a * a * k * k + b * b * j * j - j * j * y0 * y0 + 2 * j * k * x0 * y0 - k * k * x0 * x0).
Notation F := (Fq a b x0 y0 j k).
Notation r0 := (root0 a b x0 y0 j k).
Notation r1 := (root1 a b x0 y0 j k).
Notation zt t := (z0 + t * l).
Notation t0 := (@cyl_t0 _ XN xa xb (vx org) (vy org) (vx dir) (vy dir)).
Notation t1 := (@cyl_t1 _ XN xa xb (vx org) (vy org) (vx dir) (vy dir)).
Notation C0 := (@cyl_C _ XN xa xb (vx org) (vy org) (vx dir) (vy dir)).

Lemma e_C : xltb C0 (Fin 0) = Rltb Cc 0.
Proof. exact (isR_ltb _ _ _ _ (X_C big tiny eps xa xb a b Xa Xb org dir x0 y0 z0 j k l Xo Xd) (isR_fin 0)). Qed.
Lemma e_nan : A = 0 -> t0 = Xnan /\ t1 = Xnan.
Proof. exact (X_nan big tiny eps xa xb a b Xa Xb Ha Hb org dir x0 y0 z0 j k l Xo Xd). Qed.
Lemma e_t0 : 0 < A -> 0 <= Cc -> isR t0 r0.
Proof. exact (X_t0 big tiny eps xa xb a b Xa Xb org dir x0 y0 z0 j k l Xo Xd). Qed.
Lemma e_t1 : 0 < A -> 0 <= Cc -> isR t1 r1.
Proof. exact (X_t1 big tiny eps xa xb a b Xa Xb org dir x0 y0 z0 j k l Xo Xd). Qed.
Lemma e_A : 0 < A \/ A = 0.
Proof. destruct (Rle_lt_or_eq_dec 0 A (A_nonneg a b j k)) as [H|H]; [left|right; symmetry]; exact H. Qed.

Lemma e_order : (@nltb _ XN C0 (@n0 _ XN)) = false -> (@nltb _ XN t0 t1) = false.
Proof.
  change (@nltb _ XN) with xltb. change (@n0 _ XN) with (Fin 0). rewrite e_C. intros HC.
  destruct e_A as [HA|HA].
  - assert (0 <= Cc) by (apply Rnot_lt_le; intros E; rewrite (Rltb_yes _ _ E) in HC; discriminate).
    rewrite (isR_ltb _ _ _ _ (e_t0 HA H) (e_t1 HA H)). apply Rltb_no. apply (roots_le a b Ha Hb); assumption.
  - destruct (e_nan HA) as [-> ->]. reflexivity.
Qed.

Lemma e_G : isR (@nadd _ XN (@nmul _ XN (@nmul _ XN (@nmul _ XN (vx org) (vx org)) xb) xb) (@nmul _ XN (@nmul _ XN (@nmul _ XN (vy org) (vy org)) xa) xa)) (F 0 + a * a * b * b).
Proof.
  destruct Xo as (Xx & Xy & Xz). change (vx o) with x0 in Xx. change (vy o) with y0 in Xy.
  eapply isR_to; [apply isR_add; apply isR_mul; [apply isR_mul; [apply isR_mul|]| |apply isR_mul; [apply isR_mul|]|]; eassumption|].
  unfold Fq. ring.
Qed.
Lemma e_R : isR (@nmul _ XN (@nmul _ XN (@nmul _ XN xa xa) xb) xb) (a * a * b * b).
Proof. repeat (apply isR_mul; try eassumption). Qed.
Lemma e_z : isR (vz org) z0.
Proof. exact (proj2 (proj2 Xo)). Qed.
Lemma e_in4 : @inside4 _ XN xa xb xh org = Rleb (- (h / 2)) z0 && Rleb z0 (h / 2) && Rleb (F 0 + a * a * b * b) (a * a * b * b).
Proof.
  unfold inside4. change (@nleb _ XN) with xleb.
  rewrite (isR_leb _ _ _ _ e_G e_R), (isR_leb _ _ _ _ e_z (X_h2 big tiny eps xh h Xh)), (isR_leb _ _ _ _ (X_mh2 big tiny eps xh h Xh) e_z).
  reflexivity.
Qed.
Lemma e_be3 : @beside3 _ XN xa xb xh org = Rltb (- (h / 2)) z0 && Rltb z0 (h / 2) && Rltb (a * a * b * b) (F 0 + a * a * b * b).
Proof.
  unfold beside3. change (@nltb _ XN) with xltb.
  rewrite (isR_ltb _ _ _ _ e_R e_G), (isR_ltb _ _ _ _ e_z (X_h2 big tiny eps xh h Xh)), (isR_ltb _ _ _ _ (X_mh2 big tiny eps xh h Xh) e_z).
  reflexivity.
Qed.
Lemma F_C : F 0 <= 0 -> 0 <= Cc.
Proof. intros HF. apply Rnot_lt_le. intros H. pose proof (Fq_neg a b Ha Hb x0 y0 j k H 0). lra. Qed.

Lemma e_in : @inside4 _ XN xa xb xh org = true -> (@nltb _ XN (@n0 _ XN) t1) = false.
Proof.
  rewrite e_in4. intros E. apply andb_prop in E as [_ E]. apply Rleb_spec in E.
  assert (HF : F 0 <= 0) by lra. pose proof (F_C HF) as HC.
  change (@nltb _ XN) with xltb. change (@n0 _ XN) with (Fin 0).
  destruct e_A as [HA|HA].
  - rewrite (isR_ltb _ _ _ _ (isR_fin 0) (e_t1 HA HC)). apply Rltb_no.
    apply (F_outer a b Ha Hb x0 y0 j k 0 HA HC HF).
  - destruct (e_nan HA) as [_ ->]. reflexivity.
Qed.

(** Same answer as the native routine. *)
Lemma ecyl_native : same_hit (@cyl_rot_normal _ XN rot) (@ecyl_local _ XN xa xb xh rot org dir) (@cyl_local _ XN xa xb xh rot org dir).
Proof. apply (@ecyl_local_eq _ XN (x_comparisons big tiny eps)); [apply e_order|apply e_in]. Qed.
Lemma native_none : @ecyl_local _ XN xa xb xh rot org dir <> None <-> @cyl_local _ XN xa xb xh rot org dir <> None.
Proof.
  pose proof ecyl_native as H. destruct (ecyl_local _ _ _ _ _ _) as [[]|], (cyl_local _ _ _ _ _ _) as [[]|]; cbn in H; try tauto;
    split; intros; discriminate.
Qed.

(** The occlusion callback from beside and from inside. *)
Lemma occ_beside : @beside3 _ XN xa xb xh org = true ->
  @ecyl_occ_local _ XN xa xb xh org dir =
  if xltb C0 (Fin 0) then false else negb (xltb t0 (Fin 0) && xltb t1 (Fin 0)).
Proof.
  intros E3. unfold ecyl_occ_local. cbv zeta. fold (@inside4 _ XN xa xb xh org) (@beside3 _ XN xa xb xh org).
  rewrite (@beside3_inside4 _ XN (x_comparisons big tiny eps) _ _ _ _ E3), E3. unfold beside3 in E3.
  apply andb_prop in E3 as [E3 _]. apply andb_prop in E3 as [E1 E2].
  rewrite (@lt_excl _ XN (x_comparisons big tiny eps) _ _ E1), (@lt_excl _ XN (x_comparisons big tiny eps) _ _ E2).
  change (@nltb _ XN) with xltb. change (@n0 _ XN) with (Fin 0).
  destruct (xltb C0 (Fin 0)); [reflexivity|]. destruct (xltb t0 (Fin 0) && xltb t1 (Fin 0)); reflexivity.
Qed.
Lemma int_beside : @beside3 _ XN xa xb xh org = true ->
  @cyl_local _ XN xa xb xh rot org dir = @cyl_outside _ XN xa xb xh rot org dir.
Proof.
  intros E3. unfold cyl_local. cbv zeta. fold (@inside4 _ XN xa xb xh org) (@beside3 _ XN xa xb xh org).
  rewrite (@beside3_inside4 _ XN (x_comparisons big tiny eps) _ _ _ _ E3), E3. unfold beside3 in E3.
  apply andb_prop in E3 as [E3 _]. apply andb_prop in E3 as [E1 E2].
  rewrite (@lt_excl _ XN (x_comparisons big tiny eps) _ _ E1), (@lt_excl _ XN (x_comparisons big tiny eps) _ _ E2).
  destruct (cyl_outside _ _ _ _ _ _); reflexivity.
Qed.

Lemma occ_inside : F 0 < 0 -> - (h / 2) < z0 < h / 2 -> @ecyl_occ_local _ XN xa xb xh org dir = true.
Proof.
  intros HF Hz. unfold ecyl_occ_local. cbv zeta. fold (@inside4 _ XN xa xb xh org) (@beside3 _ XN xa xb xh org).
  rewrite e_be3, e_in4. change (@nltb _ XN) with xltb. change (@nleb _ XN) with xleb. change (@neqb _ XN) with xeqb.
  change (@n0 _ XN) with (Fin 0).
  pose proof (X_h2 big tiny eps xh h Xh) as B1. pose proof (X_mh2 big tiny eps xh h Xh) as B2.
  rewrite (isR_ltb _ _ _ _ B1 e_z), (isR_ltb _ _ _ _ e_z B2), (isR_eqb _ _ _ _ e_z B2), (isR_eqb _ _ _ _ e_z B1).
  rewrite !Reqb_no by lra. rewrite (Rltb_no (h / 2)), (Rltb_no z0 (- (h / 2))) by lra.
  rewrite (Rltb_no (a * a * b * b)) by lra. rewrite andb_false_r.
  rewrite (proj2 (Rleb_spec (- (h / 2)) z0)), (proj2 (Rleb_spec z0 (h / 2))), (proj2 (Rleb_spec (F 0 + a * a * b * b) (a * a * b * b))) by lra.
  cbn [andb orb]. pose proof (F_C ltac:(lra)) as HC. rewrite e_C, (Rltb_no Cc 0) by exact HC.
  destruct e_A as [HA|HA].
  - destruct (inside_A a b Ha Hb x0 y0 j k HF HA) as (_ & H1 & H0).
    rewrite (isR_leb _ _ _ _ (e_t0 HA HC) (isR_fin 0)).
    destruct (Rleb r0 0) eqn:E; [apply Rleb_spec in E; lra|]. reflexivity.
  - destruct (e_nan HA) as [-> ->]. reflexivity.
Qed.
Lemma caps_some : l <> 0 -> @cyl_caps _ XN xh rot org dir <> None.
Proof.
  intros Hl. unfold cyl_caps. cbv zeta. change (@nltb _ XN) with xltb. change (@n0 _ XN) with (Fin 0).
  rewrite (isR_ltb _ _ _ _ (proj2 (proj2 Xd)) (isR_fin 0)), (isR_ltb _ _ _ _ (isR_fin 0) (proj2 (proj2 Xd))). cbn [vz].
  destruct (Rlt_or_le l 0) as [H|H]; [rewrite (Rltb_yes _ _ H); discriminate|].
  rewrite (Rltb_no _ _ H). rewrite (Rltb_yes 0 l) by lra. discriminate.
Qed.
Lemma int_inside : F 0 < 0 -> - (h / 2) < z0 < h / 2 -> (j <> 0 \/ k <> 0 \/ l <> 0) ->
  @cyl_local _ XN xa xb xh rot org dir <> None.
Proof.
  intros HF Hz Hd. unfold cyl_local. cbv zeta. fold (@inside4 _ XN xa xb xh org) (@beside3 _ XN xa xb xh org).
  rewrite e_be3, e_in4. change (@nltb _ XN) with xltb.
  pose proof (X_h2 big tiny eps xh h Xh) as B1. pose proof (X_mh2 big tiny eps xh h Xh) as B2.
  rewrite (isR_ltb _ _ _ _ B1 e_z), (isR_ltb _ _ _ _ e_z B2).
  rewrite (Rltb_no (h / 2)), (Rltb_no z0 (- (h / 2))) by lra.
  rewrite (Rltb_no (a * a * b * b)) by lra. rewrite andb_false_r.
  rewrite (proj2 (Rleb_spec (- (h / 2)) z0)), (proj2 (Rleb_spec z0 (h / 2))), (proj2 (Rleb_spec (F 0 + a * a * b * b) (a * a * b * b))) by lra.
  cbn [andb]. unfold cyl_area4. cbv zeta. change (@neqb _ XN) with xeqb. change (@n0 _ XN) with (Fin 0).
  pose proof (proj1 Xd) as Xj. pose proof (proj1 (proj2 Xd)) as Xk. pose proof (proj2 (proj2 Xd)) as Xl.
  change (vx d) with j in Xj. change (vy d) with k in Xk. change (vz d) with l in Xl.
  rewrite (isR_eqb _ _ _ _ Xl (isR_fin 0)), (isR_eqb _ _ _ _ Xj (isR_fin 0)), (isR_eqb _ _ _ _ Xk (isR_fin 0)).
  rewrite (isR_eqb _ _ _ _ e_z B2), (isR_eqb _ _ _ _ e_z B1), (Reqb_no z0 (- (h / 2))), (Reqb_no z0 (h / 2)) by lra.
  cbn [orb].
  destruct (Req_dec l 0) as [El|Hl].
  - rewrite (Reqb_true l 0 El). destruct e_A as [HA|HA].
    2: { destruct (A_zero a b Ha Hb j k HA). exfalso. tauto. }
    rewrite (inside_x big tiny eps xa xb xh a b h rot Xa Xb Xh Ha Hb org dir x0 y0 z0 j k l Xo Xd true HF HA).
    rewrite (proj2 (Rleb_spec (zt r0) (h / 2))), (proj2 (Rleb_spec (- (h / 2)) (zt r0))) by (rewrite El; lra).
    discriminate.
  - rewrite (Reqb_no l 0 Hl). destruct e_A as [HA|HA].
    + assert (Hjk : Reqb j 0 && Reqb k 0 = false).
      { destruct (Req_dec j 0) as [E1|E1]; [|rewrite (Reqb_no j 0 E1); reflexivity].
        destruct (Req_dec k 0) as [E2|E2]; [|rewrite (Reqb_no k 0 E2); apply andb_false_r].
        exfalso. rewrite E1, E2 in HA. lra. }
      rewrite Hjk, (inside_x big tiny eps xa xb xh a b h rot Xa Xb Xh Ha Hb org dir x0 y0 z0 j k l Xo Xd false HF HA).
      match goal with |- context [if ?c then _ else _] => destruct c end; [discriminate|apply caps_some, Hl].
    + destruct (A_zero a b Ha Hb j k HA) as [Ej Ek]. rewrite (Reqb_true j 0 Ej), (Reqb_true k 0 Ek). cbn [andb].
      assert (XG : isR (@nadd _ XN (@nmul _ XN (@nmul _ XN (@nmul _ XN xb xb) (vx org)) (vx org)) (@nmul _ XN (@nmul _ XN (@nmul _ XN xa xa) (vy org)) (vy org))) (F 0 + a * a * b * b)).
      { destruct Xo as (Xx & Xy & Xz). change (vx o) with x0 in Xx. change (vy o) with y0 in Xy.
        eapply isR_to; [apply isR_add; apply isR_mul; [apply isR_mul; [apply isR_mul|]| |apply isR_mul; [apply isR_mul|]|]; eassumption|].
        unfold Fq. ring. }
      rewrite (isR_eqb _ _ _ _ XG e_R), Reqb_no by lra. apply caps_some, Hl.
Qed.
Lemma verdict_inside : F 0 < 0 -> - (h / 2) < z0 < h / 2 -> (j <> 0 \/ k <> 0 \/ l <> 0) ->
  @ecyl_occ_local _ XN xa xb xh org dir = true /\ @ecyl_local _ XN xa xb xh rot org dir <> None.
Proof. intros HF Hz Hd. split; [apply occ_inside; assumption|]. apply native_none, int_inside; assumption. Qed.

(** From beside, if every crossing of the infinite cylinder ahead lies on the cylinder,
    and the line is neither parallel to the axis nor tangent. *)
Lemma verdict_beside : 0 < F 0 -> - (h / 2) < z0 < h / 2 -> (j <> 0 \/ k <> 0) ->
  (forall u, 0 < u -> F u = 0 -> - (h / 2) <= zt u <= h / 2) ->
  (forall u, 0 < u -> F u = 0 -> r0 = r1 -> False) ->
  @ecyl_occ_local _ XN xa xb xh org dir = true <-> @ecyl_local _ XN xa xb xh rot org dir <> None.
Proof.
  intros HF Hz Hjk Hs Ht.
  assert (E3 : @beside3 _ XN xa xb xh org = true) by (rewrite e_be3, !Rltb_yes by lra; reflexivity).
  split; [|apply (@ecyl_local_beside _ XN (x_comparisons big tiny eps)), E3].
  rewrite native_none, (int_beside E3), (occ_beside E3). unfold cyl_outside. cbv zeta.
  change (@nltb _ XN) with xltb. change (@nleb _ XN) with xleb. change (@n0 _ XN) with (Fin 0).
  rewrite e_C. destruct (Rltb Cc 0) eqn:EC; [discriminate|].
  assert (HC : 0 <= Cc) by (apply Rnot_lt_le; intros E; rewrite (Rltb_yes _ _ E) in EC; discriminate).
  destruct e_A as [HA|HA].
  2: { destruct (A_zero a b Ha Hb j k HA). exfalso. tauto. }
  pose proof (e_t0 HA HC) as T0. pose proof (e_t1 HA HC) as T1.
  rewrite (isR_ltb _ _ _ _ T0 (isR_fin 0)), (isR_ltb _ _ _ _ T1 (isR_fin 0)),
    (isR_ltb _ _ _ _ (isR_fin 0) T1), (isR_ltb _ _ _ _ T1 T0).
  pose proof (roots_le a b Ha Hb x0 y0 j k HA HC) as Hle.
  pose proof (F_root0 a b x0 y0 j k HA HC) as F0. pose proof (F_root1 a b x0 y0 j k HA HC) as F1.
  intros Ho. assert (Hp : 0 < r1).
  { destruct (Rlt_or_le 0 r1) as [|H]; [assumption|]. exfalso.
    destruct (Req_dec r1 0) as [E|E]; [rewrite E in F1; lra|].
    destruct (Rlt_or_le r0 0) as [H'|H']; [rewrite !Rltb_yes in Ho by lra; discriminate|].
    destruct (Req_dec r0 0) as [E'|E']; [rewrite E' in F0; lra|].
    pose proof (F_between a b x0 y0 j k 0 HA HC ltac:(lra)). lra. }
  assert (Hlt : r1 < r0).
  { destruct (Req_dec r0 r1) as [E|E]; [|lra]. destruct (Ht r1 Hp F1 E). }
  rewrite (Rltb_yes _ _ Hp), (Rltb_yes _ _ Hlt). cbn [andb].
  pose proof (X_at big tiny eps org dir x0 y0 z0 j k l Xo Xd _ _ T1) as I1.
  rewrite (isR_leb _ _ _ _ (proj2 (proj2 I1)) (X_h2 big tiny eps xh h Xh)).
  rewrite (isR_leb _ _ _ _ (X_mh2 big tiny eps xh h Xh) (proj2 (proj2 I1))).
  cbn [vz at_t]. specialize (Hs r1 Hp F1).
  match goal with |- context [Rleb ?u (h / 2)] => replace u with (zt r1) by (cbn; ring) end.
  rewrite (proj2 (Rleb_spec (zt r1) (h / 2))), (proj2 (Rleb_spec (- (h / 2)) (zt r1))) by lra. discriminate.
Qed.
End Exact.
