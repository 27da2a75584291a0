(** The sphere mesh of the benchmarks over the reals: the icosahedron. *)

From Coq Require Import Reals List Lia Lra Psatz.
From Verif Require Import Num NumX Vec SpecReal SpecTri SpecOrigin OriginSphere PfX PfOrigin2.
Import ListNotations.
Local Open Scope R_scope.

Section Ico.
Variable t : R.
Hypothesis Ht : 1 < t.

Definition rawv : list (vec R) :=
  [V (-1) t 0; V 1 t 0; V (-1) (-t) 0; V 1 (-t) 0; V 0 (-1) t; V 0 1 t; V 0 (-1) (-t); V 0 1 (-t);
   V t 0 (-1); V t 0 1; V (-t) 0 (-1); V (-t) 0 1].
Definition r (i : nat) : vec R := nth i rawv rv_zero.
Definition ico_faces : list (vec nat) :=
  [V 0 11 5; V 0 5 1; V 0 1 7; V 0 7 10; V 0 10 11; V 1 5 9; V 5 11 4; V 11 10 2; V 10 7 6; V 7 1 8;
   V 3 9 4; V 3 4 2; V 3 2 6; V 3 6 8; V 3 8 9; V 4 9 5; V 2 4 11; V 6 2 10; V 8 6 7; V 9 8 1]%nat.
Definition kk : R := / sqrt (1 + t * t).
Definition rr (i : nat) : vec R := rv_scale kk (r i).
Definition rico : list (vec (vec R)) := map (fun f => V (rr (vx f)) (rr (vy f)) (rr (vz f))) ico_faces.
Definition raw : list (vec (vec R)) := map (fun f => V (r (vx f)) (r (vy f)) (r (vz f))) ico_faces.

Lemma kk_sq : kk * kk * (1 + t * t) = 1.
Proof. unfold kk. rewrite <- (sqrt_sqrt (1 + t * t)) at 3 by nra. field. apply Rgt_not_eq, sqrt_lt_R0. nra. Qed.
Lemma kk_pos : 0 < kk.
Proof. apply Rinv_0_lt_compat, sqrt_lt_R0. nra. Qed.

Lemma ico_fine : Forall (fine (dev 0)) rico.
Proof.
  replace (dev 0) with 1 by (unfold dev; cbn; field). pose proof kk_sq as K. pose proof kk_pos as K0.
  unfold rico, ico_faces, rr. set (k := kk) in *. clearbody k.
  assert (A : 0 < k * k) by nra. assert (B : 0 < k * k * t) by nra. assert (C : 0 < k * k * (t * t - 1)) by (apply Rmult_lt_0_compat; nra).
  assert (D : 0 < k * k * k) by nra. assert (D1 : 0 < k * k * k * t) by nra. assert (D2 : 0 < k * k * k * t * t) by nra.
  assert (D3 : 0 < k * k * k * t * t * t) by nra.
  cbn [map]. repeat apply Forall_cons; try apply Forall_nil; (constructor; unfold rdet, rv_dot, rv_cross, rv_scale, r, rawv; cbn [nth vx vy vz]; lra).
Qed.

Lemma cone_dets A B C p : 0 < rdet A B C -> 0 <= rdet p B C -> 0 <= rdet p C A -> 0 <= rdet p A B -> in_cone A B C p.
Proof.
  intros Hd Ha Hb Hc. exists (rdet p B C / rdet A B C), (rdet p C A / rdet A B C), (rdet p A B / rdet A B C).
  assert (Hi : 0 <= / rdet A B C) by (apply Rlt_le, Rinv_0_lt_compat; exact Hd).
  repeat split; try (apply Rmult_le_pos; assumption).
  apply vec_eq; cbn; unfold rdet, rv_dot, rv_cross in *; cbn in *; field; lra.
Qed.
Lemma cone_scale A B C p : in_cone A B C p -> in_cone (rv_scale kk A) (rv_scale kk B) (rv_scale kk C) p.
Proof.
  intros (a & b & c & Ha & Hb & Hc & ->). pose proof kk_pos as K. assert (Hi : 0 <= / kk) by (apply Rlt_le, Rinv_0_lt_compat; exact K).
  exists (a * / kk), (b * / kk), (c * / kk). repeat split; try (apply Rmult_le_pos; assumption).
  apply vec_eq; cbn; field; lra.
Qed.
Lemma within_scale A B C p : within_cone (rv_scale kk A) (rv_scale kk B) (rv_scale kk C) p -> within_cone A B C p.
Proof.
  intros (a & b & c & Ha & Hb & Hc & ->). pose proof kk_pos as K. exists (a * kk), (b * kk), (c * kk).
  repeat split; try (apply Rmult_lt_0_compat; assumption). apply vec_eq; cbn; ring.
Qed.

(** The face a direction points to. *)
Definition pick (p a b c : vec R) (i j k l : nat) : nat :=
  if Rlt_dec (rdet p a b) 0 then i else if Rlt_dec (rdet p b c) 0 then j else if Rlt_dec (rdet p c a) 0 then k else l.
Definition which (p : vec R) : nat :=
if Rle_dec 0 (vx p) then
 if Rle_dec 0 (vy p) then
 if Rle_dec 0 (vz p) then
 pick p (r 1) (r 5) (r 9) 1 15 19 5
 else
 pick p (r 7) (r 1) (r 8) 2 19 18 9
 else
 if Rle_dec 0 (vz p) then
 pick p (r 3) (r 9) (r 4) 14 15 11 10
 else
 pick p (r 3) (r 6) (r 8) 12 18 14 13
 else
 if Rle_dec 0 (vy p) then
 if Rle_dec 0 (vz p) then
 pick p (r 0) (r 11) (r 5) 4 6 1 0
 else
 pick p (r 0) (r 7) (r 10) 2 8 4 3
 else
 if Rle_dec 0 (vz p) then
 pick p (r 2) (r 4) (r 11) 11 6 7 16
 else
 pick p (r 6) (r 2) (r 10) 12 7 8 17.

Lemma grow a : 0 <= a -> 0 <= a /\ a <= t * a /\ t * a <= t * t * a /\ t * t * a <= t * t * t * a.
Proof. intros H. assert (0 <= t * a) by nra. assert (0 <= t * t * a) by nra. repeat split; nra. Qed.
Lemma shrink a : a < 0 -> a < 0 /\ t * a <= a /\ t * t * a <= t * a /\ t * t * t * a <= t * t * a.
Proof. intros H. destruct (grow (- a)) as (A & B & C & D); [lra|]. repeat split; lra. Qed.

Lemma which_in p : exists f, nth_error ico_faces (which p) = Some f /\ in_cone (r (vx f)) (r (vy f)) (r (vz f)) p.
Proof.
  destruct p as [x y z]. unfold which, pick. cbn [vx vy vz].
  destruct (Rle_dec 0 x) as [X|X]; [apply grow in X|apply Rnot_le_lt, shrink in X];
  (destruct (Rle_dec 0 y) as [Y|Y]; [apply grow in Y|apply Rnot_le_lt, shrink in Y]);
  (destruct (Rle_dec 0 z) as [Z|Z]; [apply grow in Z|apply Rnot_le_lt, shrink in Z]);
  repeat match goal with |- context [Rlt_dec ?a 0] => let H := fresh in destruct (Rlt_dec a 0) as [H|H]; unfold rdet, rv_dot, rv_cross, r, rawv in H; cbn [nth vx vy vz] in H end;
  (eexists; split; [reflexivity|]; apply cone_dets; unfold rdet, rv_dot, rv_cross, r, rawv; cbn [nth vx vy vz]; try lra; nra).
Qed.
Lemma ico_cover p : Exists (fun q => cone q p) rico.
Proof.
  destruct (which_in p) as (f & Hf & Hc). apply Exists_exists. exists (V (rr (vx f)) (rr (vy f)) (rr (vz f))). split.
  - unfold rico. apply in_map_iff. exists f. split; [reflexivity|]. apply (nth_error_In _ _ Hf).
  - apply cone_scale. exact Hc.
Qed.

Lemma growp a : 0 < a -> 0 < a /\ a < t * a /\ t * a < t * t * a /\ t * t * a < t * t * t * a.
Proof. intros H. assert (0 < t * a) by nra. assert (0 < t * t * a) by nra. repeat split; nra. Qed.
Lemma which_is i f p : nth_error ico_faces i = Some f -> within_cone (r (vx f)) (r (vy f)) (r (vz f)) p -> which p = i.
Proof.
  intros Hf (a & b & c & Ha & Hb & Hc & E). apply growp in Ha, Hb, Hc.
  assert (Hi : (i < 20)%nat) by (change 20%nat with (length ico_faces); apply nth_error_Some; congruence).
  destruct p as [x y z]. injection E as Ex Ey Ez.
  do 20 (destruct i as [|i]; [injection Hf as <-; unfold r, rawv in Ex, Ey, Ez; cbn [nth vx vy vz] in Ex, Ey, Ez; clear Hi; unfold which; cbn [vx vy vz];
    (destruct (Rle_dec 0 x) as [X|X]; [|apply Rnot_le_lt in X]; try (exfalso; lra));
    (destruct (Rle_dec 0 y) as [Y|Y]; [|apply Rnot_le_lt in Y]; try (exfalso; lra));
    (destruct (Rle_dec 0 z) as [Z|Z]; [|apply Rnot_le_lt in Z]; try (exfalso; lra));
    unfold pick; subst x y z;
    repeat match goal with
      | |- context [Rlt_dec ?e 0] => let H := fresh in destruct (Rlt_dec e 0) as [H|H]; unfold rdet, rv_dot, rv_cross, r, rawv in H; cbn [nth vx vy vz] in H; try (exfalso; lra)
      end; try reflexivity; exfalso; lra|]). lia.
Qed.
Lemma ico_apart : apart rico.
Proof.
  intros i j q q' p Hi Hj Hq Hq'. unfold rico in Hi, Hj. rewrite nth_error_map in Hi, Hj.
  destruct (nth_error ico_faces i) as [f|] eqn:Ef; [|discriminate]. destruct (nth_error ico_faces j) as [g|] eqn:Eg; [|discriminate].
  injection Hi as <-. injection Hj as <-. apply within_scale in Hq, Hq'.
  rewrite <- (which_is i f p Ef Hq). apply (which_is j g p Eg Hq').
Qed.
End Ico.
