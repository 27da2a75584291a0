(** Rays for which the node test skips a box that the ray meets. *)

From Coq Require Import Reals ZArith List Bool Lra.
From Verif Require Import Num NumR NumX Vec Ray Bvh Traverse SpecReal.
Import ListNotations.
Local Open Scope R_scope.

Ltac xdec1 :=
  match goal with
  | |- context [Req_EM_T ?a ?b] =>
      first [ let H := fresh in assert (H : a = b) by lra; destruct (Req_EM_T a b) as [_|?]; [clear H|contradiction]
            | let H := fresh in assert (H : a <> b) by lra; destruct (Req_EM_T a b) as [?|_]; [contradiction|clear H] ]
  | |- context [Rlt_dec ?a ?b] =>
      first [ let H := fresh in assert (H : a < b) by lra; destruct (Rlt_dec a b) as [_|?]; [clear H|contradiction]
            | let H := fresh in assert (H : ~ a < b) by lra; destruct (Rlt_dec a b) as [?|_]; [contradiction|clear H] ]
  | |- context [Rle_dec ?a ?b] =>
      first [ let H := fresh in assert (H : a <= b) by lra; destruct (Rle_dec a b) as [_|?]; [clear H|contradiction]
            | let H := fresh in assert (H : ~ a <= b) by lra; destruct (Rle_dec a b) as [?|_]; [contradiction|clear H] ]
  end; cbn [xsign xmul xadd xsub xopp xorb andb negb Bool.eqb xltb xleb xdiv Fin].

Definition node_of (m M : vec R) : node xr unit := Node (vfin m) (vfin M) true None None None [].

Ltac node_eval :=
  unfold intersect_node, slab_axis, make_ray, smin, smax, n1, n4, n0;
  cbn [origin direction_inv direction_sign nd_min nd_max node_of vfin vmap vx vy vz
       nadd nsub nmul ndiv nltb nleb nofZ neps Xnum];
  unfold xmul, xadd, xsub, xopp, xdiv, xltb, xleb, xsign, Fin, Rltb, Rleb; cbn [negb andb xorb Bool.eqb];
  repeat xdec1; try reflexivity.


(** The ray meets the box within its interval, but the test answers false. *)
Definition skips (big tiny eps : R) (o d : vec xr) (lo hi : R) (O D m M : vec R) : Prop :=
  visR o O /\ visR d D /\ 0 < rv_norm D /\ 0 <= lo /\
  (exists t, lo <= t <= hi /\ in_box m M (at_t O (unit_of D) t)) /\
  @intersect_node _ (Xnum big tiny eps) _ (Fin lo) (Fin hi) (node_of m M)
    (@make_ray _ (Xnum big tiny eps) o d (Fin lo) (Fin hi) false) = false.

Lemma norm_x a : 0 <= a -> rv_norm (V a 0 0) = a.
Proof. intros H. unfold rv_norm, rv_dot; cbn. replace (a * a + 0 * 0 + 0 * 0) with (a * a) by ring. apply sqrt_square, H. Qed.
Lemma unit_x a : 0 < a -> unit_of (V a 0 0) = V 1 0 0.
Proof. intros H. unfold unit_of. rewrite norm_x by lra. unfold rv_scale; cbn. f_equal; field; lra. Qed.

Section C.
Variables big tiny eps : R.
Hypothesis Heps : 0 <= eps <= 1 / 100.

Ltac meets := rewrite unit_x by lra; unfold in_box, at_t, rv_add, rv_scale; cbn; lra.

(** A direction of length 1/2. *)
Lemma short_direction : skips big tiny eps (vfin (V 0 0 0)) (vfin (V (1 / 2) 0 0)) 0 10
  (V 0 0 0) (V (1 / 2) 0 0) (V 8 (-1) (-1)) (V 9 1 1).
Proof.
  split; [repeat split|]. split; [repeat split|]. split; [rewrite norm_x; lra|]. split; [lra|].
  split; [exists 8; split; [lra|meets]|]. node_eval.
Qed.

(** A direction of length 2 with a positive min_hit_distance. *)
Lemma long_direction : skips big tiny eps (vfin (V 0 0 0)) (vfin (V 2 0 0)) 5 10
  (V 0 0 0) (V 2 0 0) (V 8 (-1) (-1)) (V 9 1 1).
Proof.
  split; [repeat split|]. split; [repeat split|]. split; [rewrite norm_x; lra|]. split; [lra|].
  split; [exists 8; split; [lra|meets]|]. node_eval.
Qed.

(** A unit direction with a negative zero. *)
Lemma negative_zero : skips big tiny eps (vfin (V 0 0 0)) (V (Fin 1) (Xf true 0) (Fin 0)) 0 10
  (V 0 0 0) (V 1 0 0) (V 2 (-1) (-1)) (V 3 1 1).
Proof.
  split; [repeat split|]. split; [repeat split|]. split; [rewrite norm_x; lra|]. split; [lra|].
  split; [exists 2; split; [lra|meets]|]. node_eval.
Qed.

(** A unit direction in the xy plane, from the height of the box's lower face. *)
Lemma face_origin : skips big tiny eps (vfin (V 0 0 0)) (vfin (V 1 0 0)) 0 10
  (V 0 0 0) (V 1 0 0) (V 2 (-1) 0) (V 3 1 1).
Proof.
  split; [repeat split|]. split; [repeat split|]. split; [rewrite norm_x; lra|]. split; [lra|].
  split; [exists 2; split; [lra|meets]|]. node_eval.
Qed.
End C.

Lemma short_refutes big tiny eps : 0 <= eps <= 1 / 100 ->
  exists o d lo hi O D m M, skips big tiny eps o d lo hi O D m M /\ rv_norm D < 1.
Proof. intros H. do 8 eexists. split; [apply short_direction, H|]. rewrite norm_x; lra. Qed.
Lemma long_refutes big tiny eps : 0 <= eps <= 1 / 100 ->
  exists o d lo hi O D m M, skips big tiny eps o d lo hi O D m M /\ (1 < rv_norm D /\ 0 < lo).
Proof. intros H. do 8 eexists. split; [apply long_direction, H|]. rewrite norm_x; lra. Qed.
Lemma negzero_refutes big tiny eps : 0 <= eps <= 1 / 100 ->
  exists o d lo hi O D m M, skips big tiny eps o d lo hi O D m M /\ rv_norm D = 1 /\ vy d = Xf true 0.
Proof. intros H. do 8 eexists. split; [apply negative_zero, H|]. split; [apply norm_x; lra|reflexivity]. Qed.
Lemma face_refutes big tiny eps : 0 <= eps <= 1 / 100 ->
  exists o d lo hi O D m M, skips big tiny eps o d lo hi O D m M /\
    admissible o d (Fin lo) O D lo /\ vz D = 0 /\ vz O = vz m.
Proof.
  intros H. do 8 eexists. split; [apply face_origin, H|]. split; [|split; reflexivity].
  split; try (repeat split); try lra.
  - intros s E. injection E as <- ?. lra.
  - intros s E. injection E as <-. reflexivity.
  - intros s E. injection E as <-. reflexivity.
  - left. apply norm_x. lra.
Qed.
