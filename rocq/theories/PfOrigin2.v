(** The sphere mesh of the benchmarks over the reals: one subdivision. *)

From Coq Require Import Reals List Lia Lra Psatz.
From Verif Require Import Vec SpecReal SpecTri SpecOrigin PfX.
Import ListNotations.
Local Open Scope R_scope.

Definition rmid (A B : vec R) : vec R := unit_of (rv_add A B).
Definition rsplit (q : vec (vec R)) : list (vec (vec R)) :=
  [V (vx q) (rmid (vx q) (vy q)) (rmid (vz q) (vx q));
   V (rmid (vx q) (vy q)) (vy q) (rmid (vy q) (vz q));
   V (rmid (vy q) (vz q)) (vz q) (rmid (vz q) (vx q));
   V (rmid (vx q) (vy q)) (rmid (vy q) (vz q)) (rmid (vz q) (vx q))].
Definition rdet (A B C : vec R) : R := rv_dot A (rv_cross B C).

(** A face on the unit sphere, whose corners are seen under small angles, turned outwards. *)
Record fine (e : R) (q : vec (vec R)) : Prop := {
  fi_x : rv_dot (vx q) (vx q) = 1; fi_y : rv_dot (vy q) (vy q) = 1; fi_z : rv_dot (vz q) (vz q) = 1;
  fi_xy : 1 - e < rv_dot (vx q) (vy q); fi_yz : 1 - e < rv_dot (vy q) (vz q); fi_zx : 1 - e < rv_dot (vz q) (vx q);
  fi_det : 0 < rdet (vx q) (vy q) (vz q) }.

Lemma dot_comm A B : rv_dot A B = rv_dot B A.
Proof. unfold rv_dot. ring. Qed.
(** The middle of two directions, by the length of the sum. *)
Lemma mid_is A B : rv_dot A A = 1 -> rv_dot B B = 1 -> 0 < rv_dot A B ->
  exists s, 0 < s /\ s * s = 2 + 2 * rv_dot A B /\ rmid A B = rv_scale (/ s) (rv_add A B).
Proof.
  intros HA HB H. exists (rv_norm (rv_add A B)).
  assert (E : rv_dot (rv_add A B) (rv_add A B) = 2 + 2 * rv_dot A B).
  { transitivity (rv_dot A A + rv_dot B B + 2 * rv_dot A B); [unfold rv_dot, rv_add; cbn; ring|rewrite HA, HB; ring]. }
  unfold rv_norm. rewrite E. split; [apply sqrt_lt_R0; lra|]. split; [apply sqrt_sqrt; lra|].
  unfold rmid, unit_of, rv_norm. rewrite E. reflexivity.
Qed.
Lemma dot_scale k A B : rv_dot A (rv_scale k B) = k * rv_dot A B.
Proof. unfold rv_dot, rv_scale; cbn; ring. Qed.
Lemma dot_scale_l k A B : rv_dot (rv_scale k A) B = k * rv_dot A B.
Proof. unfold rv_dot, rv_scale; cbn; ring. Qed.
Lemma dot_add A B C : rv_dot A (rv_add B C) = rv_dot A B + rv_dot A C.
Proof. unfold rv_dot, rv_add; cbn; ring. Qed.
Lemma dot_add_l A B C : rv_dot (rv_add A B) C = rv_dot A C + rv_dot B C.
Proof. unfold rv_dot, rv_add; cbn; ring. Qed.
Lemma mid_unit A B : rv_dot A A = 1 -> rv_dot B B = 1 -> 0 < rv_dot A B -> rv_dot (rmid A B) (rmid A B) = 1.
Proof.
  intros HA HB H. destruct (mid_is A B HA HB H) as (s & Hs & E & ->).
  rewrite dot_scale, dot_scale_l, dot_add, !dot_add_l, HA, HB, (dot_comm B A).
  replace (1 + rv_dot A B + (rv_dot A B + 1)) with (s * s) by lra. field. lra.
Qed.
Lemma mid_comm_R A B : rmid A B = rmid B A.
Proof. unfold rmid. f_equal. unfold rv_add. f_equal; ring. Qed.

(** How the deviation [e] shrinks. *)
Definition next (e : R) : R := e / (4 - 2 * e).
Lemma side_near e A B : 0 < e <= 1 -> rv_dot A A = 1 -> rv_dot B B = 1 -> 1 - e < rv_dot A B ->
  1 - next e < rv_dot A (rmid A B).
Proof.
  intros He HA HB H. destruct (mid_is A B HA HB ltac:(lra)) as (s & Hs & E & ->).
  rewrite dot_scale, dot_add, HA. set (x := rv_dot A B) in *.
  replace (/ s * (1 + x)) with (s / 2) by (replace (1 + x) with (s * s / 2) by lra; field; lra).
  unfold next. set (k := e / (4 - 2 * e)).
  assert (Hk : k * (4 - 2 * e) = e) by (unfold k; field; lra).
  assert (K0 : 0 < k) by (unfold k; apply Rdiv_lt_0_compat; lra).
  assert (K1 : k <= / 2) by (apply Rmult_le_reg_r with (4 - 2 * e); lra).
  destruct (Rlt_or_le (1 - k) (s / 2)) as [L|L]; [exact L|exfalso].
  assert (s * s <= 4 * (1 - k) * (1 - k)) by nra.
  assert (Q : 4 * (1 - k) * (1 - k) <= 4 - 2 * e); [|nra].
  assert (Z : 4 * k - 2 * (k * k) - e = k * (2 * e - 2 * k)) by lra.
  assert (Y : 0 <= k * (2 * e - 2 * k)); [|lra]. apply Rmult_le_pos; [lra|]. nra.
Qed.
Lemma mids_near e A B C : 0 < e <= 1 -> rv_dot A A = 1 -> rv_dot B B = 1 -> rv_dot C C = 1 ->
  1 - e < rv_dot A B -> 1 - e < rv_dot B C -> 1 - e < rv_dot C A -> 1 - next e < rv_dot (rmid A B) (rmid B C).
Proof.
  intros He HA HB HC Hx Hy Hz.
  destruct (mid_is A B HA HB ltac:(lra)) as (s & Hs & E & ->). destruct (mid_is B C HB HC ltac:(lra)) as (s' & Hs' & E' & ->).
  rewrite dot_scale, dot_scale_l, dot_add, !dot_add_l, HB, (dot_comm A C).
  set (x := rv_dot A B) in *. set (y := rv_dot B C) in *. set (z := rv_dot C A) in *.
  assert (P : s * s' <= 2 + x + y) by (pose proof (Rle_0_sqr (s - s')) as Q; unfold Rsqr in Q; lra).
  unfold next. set (k := e / (4 - 2 * e)). assert (Hk : k * (4 - 2 * e) = e) by (unfold k; field; lra).
  assert (K0 : 0 < k) by (unfold k; apply Rdiv_lt_0_compat; lra). assert (K1 : k <= / 2) by (apply Rmult_le_reg_r with (4 - 2 * e); lra).
  assert (P0 : 0 < s * s') by (apply Rmult_lt_0_compat; assumption).
  replace (/ s' * (/ s * (x + 1 + (z + y)))) with ((1 + x + y + z) / (s * s')) by (field; lra).
  apply Rmult_lt_reg_r with (s * s'); [exact P0|]. replace ((1 + x + y + z) / (s * s') * (s * s')) with (1 + x + y + z) by (field; lra).
  apply Rle_lt_trans with ((1 - k) * (2 + x + y)); [apply Rmult_le_compat_l; lra|]. nra.
Qed.

Lemma det_scale k A B C : rdet A B (rv_scale k C) = k * rdet A B C /\ rdet A (rv_scale k B) C = k * rdet A B C /\ rdet (rv_scale k A) B C = k * rdet A B C.
Proof. unfold rdet, rv_dot, rv_cross, rv_scale; cbn; repeat split; ring. Qed.
Lemma fine_split e q : 0 < e <= 1 -> fine e q -> Forall (fine (next e)) (rsplit q).
Proof.
  intros He [HA HB HC Hx Hy Hz Hd]. destruct q as [A B C]. cbn [vx vy vz] in *.
  assert (X : 0 < rv_dot A B) by lra. assert (Y : 0 < rv_dot B C) by lra. assert (Z : 0 < rv_dot C A) by lra.
  pose proof (mid_unit A B HA HB X) as U1. pose proof (mid_unit B C HB HC Y) as U2. pose proof (mid_unit C A HC HA Z) as U3.
  pose proof (side_near e A B He HA HB Hx) as S1. pose proof (side_near e B C He HB HC Hy) as S2. pose proof (side_near e C A He HC HA Hz) as S3.
  pose proof (side_near e B A He HB HA ltac:(rewrite dot_comm; exact Hx)) as S4. rewrite (mid_comm_R B A) in S4.
  pose proof (side_near e C B He HC HB ltac:(rewrite dot_comm; exact Hy)) as S5. rewrite (mid_comm_R C B) in S5.
  pose proof (side_near e A C He HA HC ltac:(rewrite dot_comm; exact Hz)) as S6. rewrite (mid_comm_R A C) in S6.
  pose proof (mids_near e A B C He HA HB HC Hx Hy Hz) as M1. pose proof (mids_near e B C A He HB HC HA Hy Hz Hx) as M2.
  pose proof (mids_near e C A B He HC HA HB Hz Hx Hy) as M3.
  destruct (mid_is A B HA HB X) as (s1 & P1 & _ & E1). destruct (mid_is B C HB HC Y) as (s2 & P2 & _ & E2). destruct (mid_is C A HC HA Z) as (s3 & P3 & _ & E3).
  assert (Q1 : 0 < / s1) by (apply Rinv_0_lt_compat; exact P1). assert (Q2 : 0 < / s2) by (apply Rinv_0_lt_compat; exact P2). assert (Q3 : 0 < / s3) by (apply Rinv_0_lt_compat; exact P3).
  assert (Q13 : 0 < / s1 * / s3) by (apply Rmult_lt_0_compat; assumption). assert (Q12 : 0 < / s1 * / s2) by (apply Rmult_lt_0_compat; assumption).
  assert (Q23 : 0 < / s2 * / s3) by (apply Rmult_lt_0_compat; assumption). assert (Q123 : 0 < / s1 * / s2 * / s3) by (apply Rmult_lt_0_compat; assumption).
  repeat apply Forall_cons; try apply Forall_nil; (constructor; cbn [vx vy vz]; try assumption; try (rewrite dot_comm; assumption)).
  - rewrite E1, E3. replace (rdet A _ _) with (/ s1 * / s3 * rdet A B C) by (unfold rdet, rv_dot, rv_cross, rv_scale, rv_add; cbn; ring). apply Rmult_lt_0_compat; assumption.
  - rewrite E1, E2. replace (rdet _ _ _) with (/ s1 * / s2 * rdet A B C) by (unfold rdet, rv_dot, rv_cross, rv_scale, rv_add; cbn; ring). apply Rmult_lt_0_compat; assumption.
  - rewrite E2, E3. replace (rdet _ _ _) with (/ s2 * / s3 * rdet A B C) by (unfold rdet, rv_dot, rv_cross, rv_scale, rv_add; cbn; ring). apply Rmult_lt_0_compat; assumption.
  - rewrite E1, E2, E3. replace (rdet _ _ _) with (/ s1 * / s2 * / s3 * (2 * rdet A B C)) by (unfold rdet, rv_dot, rv_cross, rv_scale, rv_add; cbn; ring). apply Rmult_lt_0_compat; lra.
Qed.

(** The cones over the four parts cover the cone over the face. *)
Definition cone (q : vec (vec R)) := in_cone (vx q) (vy q) (vz q).
Definition inner (q : vec (vec R)) := within_cone (vx q) (vy q) (vz q).
Lemma mid_back e q : 0 < e <= 1 -> fine e q -> exists s1 s2 s3, 0 < s1 /\ 0 < s2 /\ 0 < s3 /\
  rmid (vx q) (vy q) = rv_scale (/ s1) (rv_add (vx q) (vy q)) /\ rmid (vy q) (vz q) = rv_scale (/ s2) (rv_add (vy q) (vz q)) /\
  rmid (vz q) (vx q) = rv_scale (/ s3) (rv_add (vz q) (vx q)).
Proof.
  intros He [HA HB HC Hx Hy Hz Hd].
  destruct (mid_is _ _ HA HB ltac:(lra)) as (s1 & P1 & _ & E1). destruct (mid_is _ _ HB HC ltac:(lra)) as (s2 & P2 & _ & E2).
  destruct (mid_is _ _ HC HA ltac:(lra)) as (s3 & P3 & _ & E3). exists s1, s2, s3. auto 8.
Qed.
Lemma cone_split e q p : 0 < e <= 1 -> fine e q -> cone q p -> Exists (fun q' => cone q' p) (rsplit q).
Proof.
  intros He Hq (a & b & c & Ha & Hb & Hc & ->). destruct (mid_back e q He Hq) as (s1 & s2 & s3 & P1 & P2 & P3 & E1 & E2 & E3).
  unfold rsplit, cone, in_cone. rewrite E1, E2, E3.
  destruct (Rle_or_lt (b + c) a) as [L|L1].
  - apply Exists_cons_hd. cbn [vx vy vz]. exists (a - b - c), (b * s1), (c * s3). repeat split; try nra.
    apply vec_eq; cbn; field; lra.
  - apply Exists_cons_tl. destruct (Rle_or_lt (a + c) b) as [L|L2].
    + apply Exists_cons_hd. cbn [vx vy vz]. exists (a * s1), (b - a - c), (c * s2). repeat split; try nra.
      apply vec_eq; cbn; field; lra.
    + apply Exists_cons_tl. destruct (Rle_or_lt (a + b) c) as [L|L3].
      * apply Exists_cons_hd. cbn [vx vy vz]. exists (b * s2), (c - a - b), (a * s3). repeat split; try nra.
        apply vec_eq; cbn; field; lra.
      * apply Exists_cons_tl, Exists_cons_hd. cbn [vx vy vz]. exists ((a + b - c) / 2 * s1), ((b + c - a) / 2 * s2), ((c + a - b) / 2 * s3).
        repeat split; try (apply Rmult_le_pos; lra). apply vec_eq; cbn; field; lra.
Qed.

(** Coefficients are unique. *)
Lemma det_coeff A B C a b c a' b' c' : rdet A B C <> 0 ->
  rv_add (rv_add (rv_scale a A) (rv_scale b B)) (rv_scale c C) = rv_add (rv_add (rv_scale a' A) (rv_scale b' B)) (rv_scale c' C) ->
  a = a' /\ b = b' /\ c = c'.
Proof.
  intros Hd E.
  assert (K : forall X Y, rdet (rv_add (rv_add (rv_scale a A) (rv_scale b B)) (rv_scale c C)) X Y = rdet (rv_add (rv_add (rv_scale a' A) (rv_scale b' B)) (rv_scale c' C)) X Y)
    by (intros; rewrite E; reflexivity).
  assert (Z : forall x y z X Y, rdet (rv_add (rv_add (rv_scale x A) (rv_scale y B)) (rv_scale z C)) X Y = x * rdet A X Y + y * rdet B X Y + z * rdet C X Y)
    by (intros; unfold rdet, rv_dot, rv_cross, rv_scale, rv_add; cbn; ring).
  assert (D1 : rdet B B C = 0) by (unfold rdet, rv_dot, rv_cross; cbn; ring). assert (D2 : rdet C B C = 0) by (unfold rdet, rv_dot, rv_cross; cbn; ring).
  assert (D3 : rdet A C A = 0) by (unfold rdet, rv_dot, rv_cross; cbn; ring). assert (D4 : rdet C C A = 0) by (unfold rdet, rv_dot, rv_cross; cbn; ring).
  assert (D5 : rdet A A B = 0) by (unfold rdet, rv_dot, rv_cross; cbn; ring). assert (D6 : rdet B A B = 0) by (unfold rdet, rv_dot, rv_cross; cbn; ring).
  assert (D7 : rdet B C A = rdet A B C) by (unfold rdet, rv_dot, rv_cross; cbn; ring). assert (D8 : rdet C A B = rdet A B C) by (unfold rdet, rv_dot, rv_cross; cbn; ring).
  pose proof (K B C) as K1. pose proof (K C A) as K2. pose proof (K A B) as K3. rewrite !Z in K1, K2, K3.
  rewrite D1, D2 in K1. rewrite D3, D4, D7 in K2. rewrite D5, D6, D8 in K3.
  repeat split; apply Rmult_eq_reg_r with (rdet A B C); try exact Hd; lra.
Qed.
(** Part [k] of a face, by the coefficients. *)
Definition part_of (k : nat) (a b c : R) : Prop :=
  match k with
  | 0 => b + c < a | 1 => a + c < b | 2 => a + b < c | _ => a < b + c /\ b < a + c /\ c < a + b
  end.
Lemma inner_split e q k q' p : 0 < e <= 1 -> fine e q -> nth_error (rsplit q) k = Some q' -> inner q' p ->
  exists a b c, 0 < a /\ 0 < b /\ 0 < c /\ p = rv_add (rv_add (rv_scale a (vx q)) (rv_scale b (vy q))) (rv_scale c (vz q)) /\ part_of k a b c.
Proof.
  intros He Hq Hk (a & b & c & Ha & Hb & Hc & ->). destruct (mid_back e q He Hq) as (s1 & s2 & s3 & P1 & P2 & P3 & E1 & E2 & E3).
  unfold rsplit in Hk. rewrite E1, E2, E3 in Hk.
  assert (Q1 : 0 < / s1) by (apply Rinv_0_lt_compat; exact P1). assert (Q2 : 0 < / s2) by (apply Rinv_0_lt_compat; exact P2). assert (Q3 : 0 < / s3) by (apply Rinv_0_lt_compat; exact P3).
  destruct k as [|[|[|[|k]]]]; [| | | |destruct k; discriminate]; injection Hk as <-; cbn [vx vy vz].
  - exists (a + b * / s1 + c * / s3), (b * / s1), (c * / s3). assert (0 < b * / s1) by nra. assert (0 < c * / s3) by nra. cbn [part_of].
    repeat split; try lra. apply vec_eq; cbn; ring.
  - exists (a * / s1), (b + a * / s1 + c * / s2), (c * / s2). assert (0 < a * / s1) by nra. assert (0 < c * / s2) by nra. cbn [part_of].
    repeat split; try lra. apply vec_eq; cbn; ring.
  - exists (c * / s3), (a * / s2), (b + a * / s2 + c * / s3). assert (0 < c * / s3) by nra. assert (0 < a * / s2) by nra. cbn [part_of].
    repeat split; try lra. apply vec_eq; cbn; ring.
  - exists (a * / s1 + c * / s3), (a * / s1 + b * / s2), (b * / s2 + c * / s3). assert (0 < a * / s1) by nra. assert (0 < b * / s2) by nra. assert (0 < c * / s3) by nra. cbn [part_of].
    repeat split; try lra. apply vec_eq; cbn; ring.
Qed.

(** No two cones overlap. *)
Definition apart (l : list (vec (vec R))) : Prop := forall i j q q' p, nth_error l i = Some q -> nth_error l j = Some q' ->
  inner q p -> inner q' p -> i = j.
Lemma nth_flat l : forall k s, nth_error (flat_map rsplit l) k = Some s ->
  exists i r q, k = (4 * i + r)%nat /\ (r < 4)%nat /\ nth_error l i = Some q /\ nth_error (rsplit q) r = Some s.
Proof.
  induction l as [|q l IH]; intros k s H; [destruct k; discriminate|]. cbn [flat_map] in H.
  destruct (Nat.lt_ge_cases k 4) as [L|L].
  - rewrite nth_error_app1 in H by exact L. exists 0%nat, k, q. repeat split; [lia|exact H].
  - rewrite nth_error_app2 in H by exact L. apply IH in H as (i & r & q' & E & Hr & Hi & Hs).
    exists (S i), r, q'. change (length (rsplit q)) with 4%nat in E. repeat split; [lia|exact Hr|exact Hi|exact Hs].
Qed.
Lemma apart_split e l : 0 < e <= 1 -> Forall (fine e) l -> apart l -> apart (flat_map rsplit l).
Proof.
  intros He Hf H k k' s s' p Hk Hk' Hs Hs'.
  apply nth_flat in Hk as (i & r & q & -> & Hr & Hi & Hq). apply nth_flat in Hk' as (i' & r' & q' & -> & Hr' & Hi' & Hq').
  pose proof (proj1 (Forall_forall _ _) Hf q (nth_error_In _ _ Hi)) as Fq.
  pose proof (proj1 (Forall_forall _ _) Hf q' (nth_error_In _ _ Hi')) as Fq'.
  destruct (inner_split e q r s p He Fq Hq Hs) as (a & b & c & Ha & Hb & Hc & E & Hp).
  destruct (inner_split e q' r' s' p He Fq' Hq' Hs') as (a' & b' & c' & Ha' & Hb' & Hc' & E' & Hp').
  assert (i = i') by (apply (H i i' q q' p Hi Hi'); [exists a, b, c; auto|exists a', b', c'; auto]). subst i'.
  rewrite Hi in Hi'. injection Hi' as <-.
  destruct (det_coeff (vx q) (vy q) (vz q) a b c a' b' c') as (<- & <- & <-); [pose proof (fi_det _ _ Fq); lra|congruence|].
  cut (r = r'); [intros ->; reflexivity|].
  destruct r as [|[|[|[|r]]]]; [| | | |lia]; (destruct r' as [|[|[|[|r']]]]; [| | | |lia]); try reflexivity; exfalso; cbn [part_of] in *; lra.
Qed.

(** All subdivisions. *)
Fixpoint rgrown (k : nat) (l : list (vec (vec R))) := match k with O => l | S k => rgrown k (flat_map rsplit l) end.
(** The deviation after [n] subdivisions. *)
Definition dev (n : nat) : R := 3 / (2 + 4 ^ n).
Lemma pow4 n : 1 <= 4 ^ n. Proof. apply pow_R1_Rle. lra. Qed.
Lemma dev_range n : 0 < dev n <= 1.
Proof.
  unfold dev. pose proof (pow4 n). split; [apply Rdiv_lt_0_compat; lra|].
  apply Rmult_le_reg_r with (2 + 4 ^ n); [lra|]. unfold Rdiv. rewrite Rmult_assoc, Rinv_l by lra. lra.
Qed.
Lemma dev_next n : next (dev n) = dev (S n).
Proof. unfold next, dev. cbn [pow]. pose proof (pow4 n). field. lra. Qed.
Lemma fine_flat e l : 0 < e <= 1 -> Forall (fine e) l -> Forall (fine (next e)) (flat_map rsplit l).
Proof. intros He. induction 1; cbn [flat_map]; [constructor|]. apply Forall_app. split; [apply fine_split; assumption|assumption]. Qed.
Lemma rgrown_fine k : forall n l, Forall (fine (dev n)) l -> Forall (fine (dev (k + n))) (rgrown k l).
Proof.
  induction k as [|k IH]; intros n l H; [exact H|]. cbn [rgrown plus]. rewrite plus_n_Sm. apply IH. rewrite <- dev_next.
  apply fine_flat; [apply dev_range|exact H].
Qed.
Lemma rgrown_apart k : forall n l, Forall (fine (dev n)) l -> apart l -> apart (rgrown k l).
Proof.
  induction k as [|k IH]; intros n l H Ha; [exact Ha|]. cbn [rgrown]. apply (IH (S n)).
  - rewrite <- dev_next. apply fine_flat; [apply dev_range|exact H].
  - apply (apart_split (dev n)); [apply dev_range|exact H|exact Ha].
Qed.
Lemma rgrown_cover k : forall n l p, Forall (fine (dev n)) l -> Exists (fun q => cone q p) l -> Exists (fun q => cone q p) (rgrown k l).
Proof.
  induction k as [|k IH]; intros n l p H Hc; [exact Hc|]. cbn [rgrown]. apply (IH (S n)).
  - rewrite <- dev_next. apply fine_flat; [apply dev_range|exact H].
  - apply Exists_exists in Hc as (q & Iq & Hq). pose proof (proj1 (Forall_forall _ _) H q Iq) as F.
    pose proof (cone_split (dev n) q p (dev_range n) F Hq) as K. apply Exists_exists in K as (q' & Iq' & K).
    apply Exists_exists. exists q'. split; [apply in_flat_map; exists q; auto|exact K].
Qed.
