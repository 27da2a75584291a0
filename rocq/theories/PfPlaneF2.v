(** The plane routine in any arithmetic: what an accepted patch passes. *)

From Coq Require Import ZArith Bool.
From Verif Require Import Num Vec Ray Plane.

Section Any.
Context {T : Type} {N : num T}.
Local Open Scope num_scope.
Variables (i : plane_isect T) (c : vec T) (fdx fdy : T) (m : mat T) (id : nat) (r : ray T).

Definition p_org := mulmv (trans m) (vsub (pi_org i) c).
Definition p_dir := mulmv (trans m) (pi_dir i).
Definition p_t := - vz p_org / vz p_dir.
Definition p_ic := vadd p_org (vscale p_t p_dir).
Definition p_s := vz p_org / nabs (vz p_org).
Definition p_inr := (pi_min i <? p_t) && (p_t <? pi_hd i).
Definition p_done (n : vec T) : plane_isect T :=
  PlaneIsect n (pi_org i) (pi_dir i) (pi_min i) (pi_uv i) (norm (vscale p_t p_dir)) (Some id).
(** How a coordinate lies between the sides, and what is then added to the normal. *)
Definition placed (x h a : T) (g : T) : Prop :=
  (a = n0 /\ (g / n2 <? x) = true /\ (x <? h / n2) = true) \/
  (a = - n1 /\ (x =? g / n2) = true /\ (x <? h / n2) = true) \/
  (a = n1 /\ (g / n2 <? x) = true /\ (x =? h / n2) = true).
Definition p_normal (n : vec T) : Prop :=
  exists a b, placed (vx p_ic) fdx a (- fdx) /\ placed (vy p_ic) fdy b (- fdy) /\
    ((a = n0 /\ b = n0 /\ n = vscale p_s (mulmv m (V n0 n0 n1))) \/ n = mulmv m (V a b p_s)).

Lemma plane_accepts i' : plane_intersect i (Plane c fdx fdy m id) r = (true, i') ->
  exists n, i' = p_done n /\ p_inr = true /\ p_normal n.
Proof.
  unfold plane_intersect. cbv zeta. cbn [pl_rot pl_center pl_dx pl_dy pl_id].
  fold p_org. fold p_dir. change (- vz p_org / vz p_dir) with p_t. fold p_ic. fold p_s. fold p_inr.
  destruct p_inr; cbn [andb]; [|intros H; discriminate H].
  destruct (- fdx / n2 <? vx p_ic) eqn:X1, (vx p_ic <? fdx / n2) eqn:X2, (- fdy / n2 <? vy p_ic) eqn:Y1, (vy p_ic <? fdy / n2) eqn:Y2;
  destruct (vx p_ic =? - fdx / n2) eqn:X3, (vx p_ic =? fdx / n2) eqn:X4, (vy p_ic =? - fdy / n2) eqn:Y3, (vy p_ic =? fdy / n2) eqn:Y4;
  cbn [andb]; intros [= <-] || intros [=];
  (eexists; split; [reflexivity|]; split; [reflexivity|];
   first [ exists n0, n0; split; [left; auto|]; split; [left; auto|]; left; auto
         | eexists _, _; split; [|split; [|right; reflexivity]]; unfold placed; auto 6 ]).
Qed.
Lemma plane_inside : p_inr = true -> (- fdx / n2 <? vx p_ic) = true -> (vx p_ic <? fdx / n2) = true ->
  (- fdy / n2 <? vy p_ic) = true -> (vy p_ic <? fdy / n2) = true ->
  exists n, plane_intersect i (Plane c fdx fdy m id) r = (true, p_done n).
Proof.
  intros H X1 X2 Y1 Y2. unfold plane_intersect. cbv zeta. cbn [pl_rot pl_center pl_dx pl_dy pl_id].
  fold p_org. fold p_dir. change (- vz p_org / vz p_dir) with p_t. fold p_ic. fold p_s. fold p_inr.
  rewrite H, X1, X2, Y1, Y2. cbn [andb]. eexists. reflexivity.
Qed.
End Any.
