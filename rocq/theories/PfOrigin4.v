(** The sphere mesh of the benchmarks: its geometry over the reals, and rays from the center. *)

From Coq Require Import ZArith Reals List Lia Lra Psatz.
From Verif Require Import Num NumX Vec Ray Bvh Traverse Trimesh OriginSphere.
From Verif Require Import SpecReal SpecBvh SpecNearest SpecTri SpecOrigin PfX PfEmbNear PfTrav2 PfTri3 PfTriF4 PfOrigin PfOrigin2 PfOrigin3.
Import ListNotations.
Local Open Scope R_scope.

Lemma Forall2_nth {A B} (R : A -> B -> Prop) l l' : Forall2 R l l' -> forall i x, nth_error l i = Some x -> exists y, nth_error l' i = Some y /\ R x y.
Proof. induction 1; intros [|i] z E; cbn in E; try discriminate; [injection E as <-; eexists; split; [reflexivity|assumption]|apply IHForall2, E]. Qed.

Section X.
Variables big tiny eps : R.
Notation XN := (Xnum big tiny eps).

Definition qisR (q : vec (vec xr)) (Q : vec (vec R)) : Prop := visR (vx q) (vx Q) /\ visR (vy q) (vy Q) /\ visR (vz q) (vz Q).
Definition rmids (Q : vec (vec R)) := [rmid (vx Q) (vy Q); rmid (vy Q) (vz Q); rmid (vz Q) (vx Q)].

Lemma mid_isR a b A B : visR a A -> visR b B -> rv_dot A A = 1 -> rv_dot B B = 1 -> 0 < rv_dot A B ->
  visR (@midpoint _ XN a b) (rmid A B).
Proof.
  intros Ha Hb HA HB H. destruct (mid_is A B HA HB H) as (s & Hs & E & Er). unfold midpoint.
  pose proof (visR_add big tiny eps a b A B Ha Hb) as K. apply (visR_scaler big tiny eps (@nhalf _ XN) _ (/ 2)) in K.
  2:{ unfold nhalf. replace (/ 2) with (1 / 2) by field. apply isR_div; [reflexivity|reflexivity|lra]. }
  assert (En : rv_norm (rv_scale (/ 2) (rv_add A B)) = s / 2).
  { unfold rv_norm. rewrite dot_scale, dot_scale_l. replace (rv_dot (rv_add A B) (rv_add A B)) with (s * s).
    - replace (/ 2 * (/ 2 * (s * s))) with (s / 2 * (s / 2)) by field. apply sqrt_square. lra.
    - rewrite dot_add, !dot_add_l, HA, HB, (dot_comm B A). lra. }
  apply (visR_normalize big tiny eps) in K; [|rewrite En; lra]. rewrite En in K. rewrite Er.
  replace (rv_scale (/ s) (rv_add A B)) with (rv_scale (/ (s / 2)) (rv_scale (/ 2) (rv_add A B))); [exact K|].
  apply vec_eq; cbn; field; lra.
Qed.
Lemma parts_isR e q Q : 0 < e <= 1 -> qisR q Q -> fine e Q ->
  Forall2 visR (@mids _ XN q) (rmids Q) /\ Forall2 qisR (@split _ XN q) (rsplit Q).
Proof.
  intros He (X & Y & Z) [HA HB HC Hx Hy Hz _].
  pose proof (mid_isR _ _ _ _ X Y HA HB ltac:(lra)) as M1. pose proof (mid_isR _ _ _ _ Y Z HB HC ltac:(lra)) as M2.
  pose proof (mid_isR _ _ _ _ Z X HC HA ltac:(lra)) as M3.
  split; repeat apply Forall2_cons; try apply Forall2_nil; try assumption; (split; [|split]); cbn [vx vy vz]; assumption.
Qed.
Lemma flat_isR e ts Ts : 0 < e <= 1 -> Forall2 qisR ts Ts -> Forall (fine e) Ts ->
  Forall2 visR (flat_map (@mids _ XN) ts) (flat_map rmids Ts) /\ Forall2 qisR (flat_map (@split _ XN) ts) (flat_map rsplit Ts).
Proof.
  intros He. induction 1 as [|q Q ts Ts Hq H IH]; intros HF; [split; constructor|]. cbn [flat_map].
  apply Forall_cons_iff in HF as [F HF]. destruct (parts_isR e q Q He Hq F) as [A B]. destruct (IH HF) as [C D].
  split; apply Forall2_app; assumption.
Qed.
Definition on_unit (p : vec R) : Prop := rv_dot p p = 1.
Lemma mids_unit e Q : 0 < e <= 1 -> fine e Q -> Forall on_unit (rmids Q).
Proof.
  intros He [HA HB HC Hx Hy Hz _]. repeat apply Forall_cons; try apply Forall_nil; apply mid_unit; try assumption; lra.
Qed.
Lemma grown_isR k : forall n s Vs Ts, Forall2 visR (fst s) Vs -> Forall on_unit Vs -> Forall2 qisR (snd s) Ts -> Forall (fine (dev n)) Ts ->
  exists Vs', Forall2 visR (fst (@grown _ XN k s)) Vs' /\ Forall on_unit Vs' /\ Forall2 qisR (snd (@grown _ XN k s)) (rgrown k Ts).
Proof.
  induction k as [|k IH]; intros n s Vs Ts Hv Hu Ht Hf; [exists Vs; auto|]. cbn [grown rgrown].
  destruct (flat_isR (dev n) (snd s) Ts (dev_range n) Ht Hf) as [A B].
  apply (IH (S n) _ (Vs ++ flat_map rmids Ts)); cbn [fst snd].
  - apply Forall2_app; assumption.
  - apply Forall_app. split; [exact Hu|]. clear - Hf. induction Hf; cbn [flat_map]; [constructor|].
    apply Forall_app. split; [apply (mids_unit (dev n)); [apply dev_range|assumption]|assumption].
  - exact B.
  - rewrite <- dev_next. apply fine_flat; [apply dev_range|exact Hf].
Qed.

Lemma ico_isR t tau : isR t tau -> 1 < tau ->
  Forall2 visR (om_vertices (@icosahedron _ XN t)) (map (rr tau) (seq 0 12)) /\ Forall on_unit (map (rr tau) (seq 0 12)) /\
  Forall2 qisR (@ico_points _ XN t) (rico tau).
Proof.
  intros Ht H1.
  assert (N : forall v w, visR v w -> rv_dot w w = 1 + tau * tau -> visR (@normalize _ XN v) (rv_scale (kk tau) w)).
  { intros v w Hv Hw. assert (E : rv_norm w = sqrt (1 + tau * tau)) by (unfold rv_norm; rewrite Hw; reflexivity).
    pose proof (visR_normalize big tiny eps v w Hv) as K. rewrite E in K. apply K. apply Rgt_not_eq, sqrt_lt_R0. nra. }
  assert (Vs : Forall2 visR (om_vertices (@icosahedron _ XN t)) (map (rr tau) (seq 0 12))).
  { assert (O1 : isR (xopp (Fin 1)) (-1)) by (replace (-1) with (- (1)) by ring; apply isR_opp; reflexivity).
    pose proof (isR_opp t tau Ht) as Ot. cbn [icosahedron om_vertices map seq]. unfold rr, r, rawv. cbn [nth].
    repeat apply Forall2_cons; try apply Forall2_nil;
      (apply N; [repeat split; cbn [vx vy vz]; (assumption || reflexivity)|unfold rv_dot; cbn [vx vy vz]; ring]). }
  split; [exact Vs|]. split.
  { pose proof (kk_sq tau) as K. apply Forall_forall. intros p Ip. apply in_map_iff in Ip as (i & <- & Ii). apply in_seq in Ii.
    unfold on_unit, rr. rewrite dot_scale, dot_scale_l.
    replace (rv_dot (r tau i) (r tau i)) with (1 + tau * tau); [rewrite <- K at 2; ring|].
    do 12 (destruct i as [|i]; [unfold r, rawv, rv_dot; cbn [nth vx vy vz]; ring|]). lia. }
  unfold ico_points, rico.
  assert (Pt : forall i, (i < 12)%nat -> visR (nth i (om_vertices (@icosahedron _ XN t)) (vconst (@n0 _ XN))) (rr tau i)).
  { intros i Hi. set (l := om_vertices (@icosahedron _ XN t)) in *.
    assert (Ll : length l = 12%nat) by reflexivity. clearbody l.
    destruct (nth_error l i) as [x|] eqn:Ex; [|apply nth_error_None in Ex; lia].
    destruct (Forall2_nth _ _ _ Vs i x Ex) as (y & Ey & Hy). rewrite (nth_error_nth _ _ _ Ex).
    rewrite nth_error_map in Ey. destruct (nth_error (seq 0 12) i) as [j|] eqn:Ej; [|discriminate]. injection Ey as <-.
    apply (nth_error_nth _ _ 0%nat) in Ej. rewrite seq_nth in Ej by exact Hi. cbn in Ej. subst j. exact Hy. }
  change (om_triangles (@icosahedron _ XN t)) with ico_faces.
  assert (Lt : Forall (fun f => (vx f < 12 /\ vy f < 12 /\ vz f < 12)%nat) ico_faces) by (unfold ico_faces; repeat constructor; cbn; lia).
  induction Lt as [|f fs (A & B & C) Lt IH]; cbn [map]; [constructor|]. constructor; [|exact IH].
  split; [|split]; cbn [vx vy vz]; apply Pt; assumption.
Qed.

Variables (t : xr) (tau : R) (n : nat) (m : omesh xr).
Hypothesis Ht : isR t tau.
Hypothesis H1 : 1 < tau.
Hypothesis Hm : @origin_sphere _ XN t n = Ok m.
Notation faces := (om_triangles m).

Definition tops := rgrown n (rico tau).
Lemma tops_fine : Forall (fine (dev n)) tops.
Proof. pose proof (rgrown_fine n 0 (rico tau) (ico_fine tau H1)) as H. rewrite Nat.add_0_r in H. exact H. Qed.
Lemma tops_apart : apart tops.
Proof. apply (rgrown_apart n 0); [apply ico_fine, H1|apply ico_apart, H1]. Qed.
Lemma tops_cover p : Exists (fun q => cone q p) tops.
Proof. apply (rgrown_cover n 0); [apply ico_fine, H1|apply ico_cover, H1]. Qed.

Lemma sphere_points : exists Vs, Forall2 visR (om_vertices m) Vs /\ Forall on_unit Vs /\
  exists ts, Forall2 (tri_of (om_vertices m)) faces ts /\ Forall2 qisR ts tops.
Proof.
  destruct (sphere_is t n m Hm) as [_ [Ev Hf]]. destruct (ico_isR t tau Ht H1) as (A & B & C).
  destruct (grown_isR n 0 (om_vertices (@icosahedron _ XN t), @ico_points _ XN t) _ _ A B C (ico_fine tau H1)) as (Vs & D & E & F).
  exists Vs. fold (@sphere_parts _ XN t n) in D, F. rewrite <- Ev in D. split; [exact D|]. split; [exact E|].
  exists (snd (@sphere_parts _ XN t n)). split; [rewrite Ev; exact Hf|exact F].
Qed.

Lemma sphere_are : exists P, mesh_are (om_vertices m) faces P.
Proof.
  destruct sphere_points as (Vs & A & _ & _). exists (fun j => nth j Vs rv_zero). split.
  - intros j Hj. destruct (nth_error (om_vertices m) j) as [x|] eqn:E; [|apply nth_error_None in E; lia].
    exists x. split; [reflexivity|]. destruct (Forall2_nth _ _ _ A j x E) as (y & Ey & Hy). rewrite (nth_error_nth _ _ rv_zero Ey). exact Hy.
  - apply (sphere_counts t n m Hm).
Qed.

Variable P : nat -> vec R.
Hypothesis HP : mesh_are (om_vertices m) faces P.

Lemma point_at j x y : nth_error (om_vertices m) j = Some x -> visR x y -> P j = y.
Proof.
  intros E Hy. destruct (proj1 HP j) as (x' & E' & Hx); [apply nth_error_Some; congruence|].
  rewrite E in E'. injection E' as <-. apply (visR_inj x); assumption.
Qed.
Lemma sphere_unit j : (j < length (om_vertices m))%nat -> rv_dot (P j) (P j) = 1.
Proof.
  intros Hj. destruct sphere_points as (Vs & A & B & _).
  destruct (nth_error (om_vertices m) j) as [x|] eqn:E; [|apply nth_error_None in E; lia].
  destruct (Forall2_nth _ _ _ A j x E) as (y & Ey & Hy). rewrite (point_at j x y E Hy).
  apply (proj1 (Forall_forall _ _) B). apply (nth_error_In _ _ Ey).
Qed.
Definition ftri i := V (fa faces P i) (fb faces P i) (fc faces P i).
Lemma face_top i : (i < length faces)%nat -> nth_error tops i = Some (ftri i).
Proof.
  intros Hi. destruct sphere_points as (_ & _ & _ & ts & A & B).
  destruct (nth_error faces i) as [f|] eqn:Ef; [|apply nth_error_None in Ef; lia].
  destruct (Forall2_nth _ _ _ A i f Ef) as (q & Eq & X & Y & Z). destruct (Forall2_nth _ _ _ B i q Eq) as (Q & EQ & X' & Y' & Z').
  rewrite EQ. f_equal. unfold ftri, fa, fb, fc, face. rewrite (nth_error_nth _ _ _ Ef).
  rewrite (point_at _ _ _ X X'), (point_at _ _ _ Y Y'), (point_at _ _ _ Z Z'). destruct Q; reflexivity.
Qed.
Lemma top_count : length tops = length faces.
Proof.
  destruct sphere_points as (_ & _ & _ & ts & A & B). rewrite <- (Forall2_len _ _ _ B). symmetry. apply (Forall2_len _ _ _ A).
Qed.
Lemma face_fine i : (i < length faces)%nat -> fine (dev n) (ftri i).
Proof. intros Hi. apply (proj1 (Forall_forall _ _) tops_fine). apply (nth_error_In _ i). apply face_top, Hi. Qed.
Lemma det_cross A B C : rv_dot A (tri_cross A B C) = rdet A B C.
Proof. unfold tri_cross, rdet, rv_dot, rv_cross, rv_sub; cbn; ring. Qed.
Lemma sphere_outward i : (i < length faces)%nat -> 0 < rv_dot (fa faces P i) (tri_cross (fa faces P i) (fb faces P i) (fc faces P i)).
Proof. intros Hi. rewrite det_cross. apply (fi_det _ _ (face_fine i Hi)). Qed.
Lemma dist_dot A B e : rv_dot A A = 1 -> rv_dot B B = 1 -> 1 - e < rv_dot A B -> dist2 A B < 2 * e.
Proof.
  intros HA HB H. unfold dist2. replace (rv_dot (rv_sub B A) (rv_sub B A)) with (rv_dot A A + rv_dot B B - 2 * rv_dot A B)
    by (unfold rv_dot, rv_sub; cbn; ring). rewrite HA, HB. lra.
Qed.
Lemma sphere_edges i : (i < length faces)%nat ->
  dist2 (fa faces P i) (fb faces P i) < 6 / (2 + 4 ^ n) /\ dist2 (fb faces P i) (fc faces P i) < 6 / (2 + 4 ^ n) /\
  dist2 (fc faces P i) (fa faces P i) < 6 / (2 + 4 ^ n).
Proof.
  intros Hi. destruct (face_fine i Hi) as [HA HB HC Hx Hy Hz _]. cbn [ftri vx vy vz] in *.
  replace (6 / (2 + 4 ^ n)) with (2 * dev n) by (unfold dev; pose proof (pow4 n); field; lra).
  repeat split; apply dist_dot; assumption.
Qed.
Lemma sphere_cover p : exists i, (i < length faces)%nat /\ in_cone (fa faces P i) (fb faces P i) (fc faces P i) p.
Proof.
  pose proof (tops_cover p) as H. apply Exists_exists in H as (q & Iq & Hq). apply In_nth_error in Iq as (i & Ei).
  assert (Hi : (i < length faces)%nat) by (rewrite <- top_count; apply nth_error_Some; congruence).
  exists i. split; [exact Hi|]. rewrite (face_top i Hi) in Ei. injection Ei as <-. exact Hq.
Qed.
Lemma sphere_once i j p : (i < length faces)%nat -> (j < length faces)%nat ->
  within_cone (fa faces P i) (fb faces P i) (fc faces P i) p -> within_cone (fa faces P j) (fb faces P j) (fc faces P j) p -> i = j.
Proof. intros Hi Hj A B. apply (tops_apart i j (ftri i) (ftri j) p (face_top i Hi) (face_top j Hj) A B). Qed.

(** Points of a face are near the unit sphere. *)
Lemma cs A B : rv_dot A A = 1 -> rv_dot B B = 1 -> rv_dot A B <= 1.
Proof.
  intros HA HB. assert (0 <= rv_dot (rv_sub A B) (rv_sub A B)) by apply rv_dot_nonneg.
  replace (rv_dot (rv_sub A B) (rv_sub A B)) with (rv_dot A A + rv_dot B B - 2 * rv_dot A B) in H by (unfold rv_dot, rv_sub; cbn; ring). lra.
Qed.
Lemma near_unit e q p : 0 < e <= 1 -> fine e q -> on_tri (vx q) (vy q) (vz q) p -> 1 - 2 / 3 * e <= rv_dot p p <= 1.
Proof.
  intros He [HA HB HC Hx Hy Hz _] (u & v & Hu & Hv & Huv & ->). destruct q as [A B C]. cbn [vx vy vz] in *.
  pose proof (cs A B HA HB) as X. pose proof (cs B C HB HC) as Y. pose proof (cs C A HC HA) as Z.
  set (w := 1 - u - v).
  assert (E : rv_dot (bary A B C u v) (bary A B C u v) = 1 - 2 * (w * u * (1 - rv_dot A B) + u * v * (1 - rv_dot B C) + v * w * (1 - rv_dot C A))).
  { transitivity (w * w * rv_dot A A + u * u * rv_dot B B + v * v * rv_dot C C + 2 * (w * u * rv_dot A B + u * v * rv_dot B C + v * w * rv_dot C A)).
    - unfold w, bary, rv_dot, rv_add, rv_scale; cbn; ring.
    - rewrite HA, HB, HC. unfold w. ring. }
  rewrite E. set (x := rv_dot A B) in *. set (y := rv_dot B C) in *. set (z := rv_dot C A) in *.
  assert (Hw : 0 <= w) by (unfold w; lra).
  assert (W1 : 0 <= w * u) by (apply Rmult_le_pos; assumption). assert (W2 : 0 <= u * v) by (apply Rmult_le_pos; assumption). assert (W3 : 0 <= v * w) by (apply Rmult_le_pos; assumption).
  assert (S : 3 * (w * u + u * v + v * w) <= 1).
  { assert (Q : 1 = (w + u + v) * (w + u + v)) by (unfold w; ring). pose proof (Rle_0_sqr (w - u)) as S1. pose proof (Rle_0_sqr (u - v)) as S2. pose proof (Rle_0_sqr (v - w)) as S3. unfold Rsqr in *. lra. }
  assert (T1 : 0 <= w * u * (1 - x) <= w * u * e) by (split; [apply Rmult_le_pos|apply Rmult_le_compat_l]; lra).
  assert (T2 : 0 <= u * v * (1 - y) <= u * v * e) by (split; [apply Rmult_le_pos|apply Rmult_le_compat_l]; lra).
  assert (T3 : 0 <= v * w * (1 - z) <= v * w * e) by (split; [apply Rmult_le_pos|apply Rmult_le_compat_l]; lra).
  split; [|lra]. assert (3 * (w * u + u * v + v * w) * e <= 1 * e) by (apply Rmult_le_compat_r; lra). lra.
Qed.
Lemma dev_low : 1 - 2 / 3 * dev n = 4 ^ n / (2 + 4 ^ n).
Proof. unfold dev. pose proof (pow4 n). field. lra. Qed.
Lemma sphere_surface i p : (i < length faces)%nat -> on_tri (fa faces P i) (fb faces P i) (fc faces P i) p ->
  4 ^ n / (2 + 4 ^ n) <= rv_dot p p <= 1.
Proof. intros Hi Hp. rewrite <- dev_low. apply (near_unit (dev n) (ftri i) p (dev_range n) (face_fine i Hi) Hp). Qed.

Lemma sphere_bounds : 1 <= big -> forall i, (i < length faces)%nat ->
  in_bounds big (tri_lower (fa faces P i) (fb faces P i) (fc faces P i)) /\ in_bounds big (tri_upper (fa faces P i) (fb faces P i) (fc faces P i)).
Proof.
  intros Hb i Hi.
  assert (K : forall A, rv_dot A A = 1 -> (-1 <= vx A <= 1) /\ (-1 <= vy A <= 1) /\ (-1 <= vz A <= 1)).
  { intros A HA. unfold rv_dot in HA. repeat split; nra. }
  destruct (face_fine i Hi) as [HA HB HC _ _ _ _]. cbn [ftri vx vy vz] in HA, HB, HC. apply K in HA, HB, HC.
  unfold in_bounds, tri_lower, tri_upper; cbn [vx vy vz]. unfold Rmin, Rmax.
  repeat match goal with |- context [Rle_dec ?a ?b] => destruct (Rle_dec a b) end; lra.
Qed.
End X.

(** Rays from the center. *)
Section Query.
Variables big tiny : R.
Notation XN := (Xnum big tiny 0).
Variables (t : xr) (tau : R) (n : nat) (m : omesh xr).
Hypothesis Hbig : 1 <= big.
Hypothesis Ht : isR t tau.
Hypothesis H1 : 1 < tau.
Hypothesis Hm : @origin_sphere _ XN t n = Ok m.
Notation faces := (om_triangles m).
Variable P : nat -> vec R.
Hypothesis HP : mesh_are (om_vertices m) faces P.

Lemma at_center U s : at_t rv_zero U s = rv_scale s U.
Proof. apply vec_eq; cbn; ring. Qed.
Lemma unit_dot D : 1 <= rv_norm D -> rv_dot (unit_of D) (unit_of D) = 1.
Proof.
  intros H. unfold unit_of. rewrite dot_scale, dot_scale_l. replace (rv_dot D D) with (rv_norm D * rv_norm D) by (apply sqrt_sqrt, rv_dot_nonneg).
  field. lra.
Qed.
(** A direction in the cone over a face crosses it. *)
Lemma cone_cross U i m0 tmax : rv_dot U U = 1 -> (i < length faces)%nat -> in_cone (fa faces P i) (fb faces P i) (fc faces P i) U ->
  0 <= m0 -> m0 * m0 <= 4 ^ n / (2 + 4 ^ n) -> xltb (Fin 1) tmax = true -> exists s, mesh_cross faces P rv_zero U m0 tmax i s.
Proof.
  intros HU Hi (a & b & c & Ha & Hb & Hc & E) H0 Hm0 Hx.
  pose proof (face_fine big tiny 0 t tau n m Ht H1 Hm P HP i Hi) as F.
  assert (Hs : 0 < a + b + c).
  { destruct (Rle_lt_or_eq_dec 0 (a + b + c)) as [L|L]; [lra|exact L|exfalso].
    assert (a = 0 /\ b = 0 /\ c = 0) as (-> & -> & ->) by lra. rewrite E in HU. unfold rv_dot, rv_add, rv_scale in HU; cbn in HU. lra. }
  set (s := a + b + c) in *.
  assert (On : on_tri (fa faces P i) (fb faces P i) (fc faces P i) (rv_scale (/ s) U)).
  { assert (Hi0 : 0 <= / s) by (apply Rlt_le, Rinv_0_lt_compat; exact Hs).
    exists (b * / s), (c * / s). repeat split; try (apply Rmult_le_pos; assumption).
    - apply Rmult_le_reg_r with s; [exact Hs|]. replace ((b * / s + c * / s) * s) with (b + c) by (field; lra). unfold s; lra.
    - rewrite E. unfold bary. replace (1 - b * / s - c * / s) with (a * / s) by (unfold s; field; unfold s in Hs; lra). apply vec_eq; cbn; ring. }
  pose proof (sphere_surface big tiny 0 t tau n m Ht H1 Hm P HP i _ Hi On) as [L1 L2].
  rewrite dot_scale, dot_scale_l, HU in L1, L2. set (d := / s) in *. assert (Hd : 0 < d) by (apply Rinv_0_lt_compat; exact Hs).
  exists d. split; [exact Hi|]. split; [split; [|split]|].
  - unfold tri_det. rewrite E. destruct F as [_ _ _ _ _ _ Fd]. cbn [ftri vx vy vz] in Fd.
    replace (rv_dot _ _) with (s * rdet (fa faces P i) (fb faces P i) (fc faces P i))
      by (unfold s, rdet, tri_cross, rv_dot, rv_cross, rv_sub, rv_add, rv_scale; cbn; ring).
    apply Rgt_not_eq, Rmult_lt_0_compat; assumption.
  - rewrite at_center. exact On.
  - nra.
  - assert (d <= 1) by nra. destruct tmax as [|[|]|s' r']; cbn in Hx |- *; try discriminate; [reflexivity|].
    unfold NumR.Rltb in *. destruct (Rlt_dec 1 r'); [|discriminate]. destruct (Rlt_dec d r'); [reflexivity|lra].
Qed.

Lemma sphere_query opt part ms nodes st : partition_ok part -> @make_mesh _ XN (om_vertices m) faces = Ok ms ->
  @build _ XN _ part [] (@mesh_coll _ XN ms) opt = Ok (nodes, st) -> (forall k d, node_depth nodes k d -> (d <= 26)%nat) ->
  forall o d tmin tmax any D m0 rh, admissible o d tmin rv_zero D m0 -> vz D <> 0 -> m0 * m0 <= 4 ^ n / (2 + 4 ^ n) -> xltb (Fin 1) tmax = true ->
  exists rh' i s, @traverse _ XN _ _ (@tri_isector _ XN ms) nodes (@make_ray _ XN o d tmin tmax any) rh = Ok (true, rh') /\
    h_prim rh' = Some i /\ (i < length faces)%nat /\ in_cone (fa faces P i) (fb faces P i) (fc faces P i) D /\
    isR (h_distance rh') s /\ 0 < s /\ 4 ^ n / (2 + 4 ^ n) <= s * s <= 1.
Proof.
  intros Hpart Hms Hb Hdep o d tmin tmax any D m0 rh Ha Hz Hm0 Hx.
  pose proof (mesh_exact_query big tiny (om_vertices m) faces P ms part opt nodes st o d tmin tmax any rv_zero D m0 rh HP Hms
    (sphere_bounds big tiny 0 t tau n m Ht H1 Hm P HP Hbig) Hpart Hb Hdep Ha ltac:(intros; contradiction)) as (b & rh' & E & Hit & _ & Ans).
  assert (Hlen : 1 <= rv_norm D) by (destruct (ad_len _ _ _ _ _ _ Ha) as [->|[L _]]; lra).
  pose proof (unit_dot D Hlen) as HU.
  destruct (sphere_cover big tiny 0 t tau n m Ht H1 Hm P HP (unit_of D)) as (i & Hi & Hc).
  destruct (cone_cross (unit_of D) i m0 tmax HU Hi Hc (ad_m _ _ _ _ _ _ Ha) Hm0 Hx) as (s & Hs).
  assert (b = true) by (apply Hit; eauto). subst b. destruct (Ans eq_refl) as (j & s' & Hj & Hp & Hd & _ & _ & _).
  exists rh', j, s'. split; [exact E|]. split; [exact Hp|]. destruct Hj as (Hj & (_ & On & Hms') & _). split; [exact Hj|].
  rewrite at_center in On. pose proof (sphere_surface big tiny 0 t tau n m Ht H1 Hm P HP j _ Hj On) as L.
  rewrite dot_scale, dot_scale_l, HU in L. pose proof (pow4 n) as P4.
  assert (0 < 4 ^ n / (2 + 4 ^ n)) by (apply Rdiv_lt_0_compat; lra).
  pose proof (ad_m _ _ _ _ _ _ Ha). assert (Hs' : 0 < s') by nra. split; [|split; [exact Hd|split; [exact Hs'|split; lra]]].
  destruct On as (u & v & Hu & Hv & Huv & Eq).
  assert (K : forall x, 0 <= x -> 0 <= x * (rv_norm D / s')) by (intros x Hx0; apply Rmult_le_pos; [exact Hx0|apply Rlt_le, Rdiv_lt_0_compat; lra]).
  exists ((1 - u - v) * (rv_norm D / s')), (u * (rv_norm D / s')), (v * (rv_norm D / s')).
  split; [apply K; lra|]. split; [apply K; lra|]. split; [apply K; lra|].
  transitivity (rv_scale (rv_norm D / s') (rv_scale s' (unit_of D))).
  - apply vec_eq; cbn; field; lra.
  - rewrite Eq. unfold bary. apply vec_eq; cbn; ring.
Qed.
End Query.
