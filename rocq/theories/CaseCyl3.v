(** distance_to_surface for cylinders: cases (C34). *)

From Coq Require Import Reals ZArith List Bool Arith Lra Lia Floats.SpecFloat.
From Verif Require Import Num NumR NumX NumF Vec Ray Cylinder CylDist SpecReal SpecPlane SpecCyl.
From Verif Require Import PfX PfPlane PfCyl PfCyl3 PfCylDist PfCylDist2 CaseCyl CaseCyl2 CasePlane.
Import ListNotations.
Local Open Scope R_scope.

(** The number that a finite binary64 value stands for. *)
Definition isF (x : spec_float) (r : R) : Prop :=
  match x with
  | S754_zero _ => r = 0
  | S754_finite s m e => r = (if s then -1 else 1) * IZR (Zpos m) * powerRZ 2 e
  | _ => False
  end.
Definition visF (v : vec spec_float) (w : vec R) : Prop := isF (vx v) (vx w) /\ isF (vy v) (vy w) /\ isF (vz v) (vz w).
Definition misF (m : mat spec_float) (w : mat R) : Prop := visF (vx m) (vx w) /\ visF (vy m) (vy w) /\ visF (vz m) (vz w).

(** The constants 1e-7 and 0.95, and blaze::isZero for the strict comparison. *)
Definition eps64 : spec_float := f64 7555786372591432 (-76).
Definition pct64 : spec_float := f64 8556839292003942 (-53).
Definition zero64 (x : spec_float) : bool := @neqb _ F64 x (f64 0 0).
Definition dist64 := @cylinder_distance _ F64 eps64 pct64 zero64.

(** Semi-axes 4 and 1, height 16. *)
Definition flat64 : cylinder spec_float := Cylinder o64 (f64 4 0) (f64 1 0) (f64 16 0) id64 0.
Definition near64 : vec spec_float := V (f64 1 (-1)) (f64 0 0) (f64 0 0).
Definition out64 : vec spec_float := V (f64 6 0) (f64 3 (-1)) (f64 0 0).
Lemma near_dist : dist64 flat64 near64 = f64 7 (-1).
Proof. vm_compute. reflexivity. Qed.
Lemma out_dist : dist64 flat64 out64 = S754_nan.
Proof. vm_compute. reflexivity. Qed.

Lemma powerRZ_neg p : powerRZ 2 (Zneg p) = / IZR (2 ^ Zpos p).
Proof. unfold powerRZ. f_equal. rewrite <- (positive_nat_Z p), <- pow_IZR. f_equal. Qed.
Ltac fval := match goal with |- isF ?x _ => let y := eval vm_compute in x in change x with y end; cbn [isF];
  rewrite ?powerRZ_neg; repeat match goal with |- context [(2 ^ ?z)%Z] => let y := eval vm_compute in (2 ^ z)%Z in change (2 ^ z)%Z with y end; lra.

Lemma flat_data : visF (cy_center flat64) (V 0 0 0) /\ isF (cy_a flat64) 4 /\ isF (cy_b flat64) 1 /\ isF (cy_h flat64) 16 /\
  misF (cy_rot flat64) ident.
Proof.
  cbn [flat64 cy_center cy_a cy_b cy_h cy_rot]. unfold o64, id64, misF, visF, ident. cbn [vx vy vz].
  repeat split; fval.
Qed.
(** The routine says 7/2; the point (0, 1, 0) of the surface is nearer than 9/8. *)
Lemma near_refutes : exists cy p C a b h Rm Q d P,
  visF (cy_center cy) C /\ isF (cy_a cy) a /\ isF (cy_b cy) b /\ isF (cy_h cy) h /\ misF (cy_rot cy) Rm /\
  orthogonal Rm /\ 0 < a /\ 0 < b /\ 0 < h /\ visF p Q /\
  isF (dist64 cy p) d /\ world (on_surface a b h) C Rm P /\ rv_norm (rv_sub Q P) < d / 3.
Proof.
  destruct flat_data as (F1 & F2 & F3 & F4 & F5).
  exists flat64, near64, (V 0 0 0), 4, 1, 16, ident, (V (1 / 2) 0 0), (7 / 2), (V 0 1 0).
  split; [exact F1|]. split; [exact F2|]. split; [exact F3|]. split; [exact F4|]. split; [exact F5|].
  split; [apply ident_orthogonal|]. split; [lra|]. split; [lra|]. split; [lra|].
  split. { unfold visF, near64. cbn [vx vy vz]. repeat split; fval. }
  split. { rewrite near_dist. fval. }
  split.
  - exists (V 0 1 0). split; [apply vec_eq; rvs; ring|]. left. cyls. rewrite Rabs_R0. lra.
  - apply Rsqr_incrst_0; [|apply rv_norm_nonneg|lra]. unfold Rsqr. rewrite norm_sq. rvs. lra.
Qed.
(** Here it returns no number at all. *)
Lemma nan_refutes : exists cy p C a b h Rm Q,
  visF (cy_center cy) C /\ isF (cy_a cy) a /\ isF (cy_b cy) b /\ isF (cy_h cy) h /\ misF (cy_rot cy) Rm /\
  orthogonal Rm /\ 0 < a /\ 0 < b /\ 0 < h /\ visF p Q /\ dist64 cy p = S754_nan.
Proof.
  destruct flat_data as (F1 & F2 & F3 & F4 & F5).
  exists flat64, out64, (V 0 0 0), 4, 1, 16, ident, (V 6 (3 / 2) 0).
  split; [exact F1|]. split; [exact F2|]. split; [exact F3|]. split; [exact F4|]. split; [exact F5|].
  split; [apply ident_orthogonal|]. split; [lra|]. split; [lra|]. split; [lra|].
  split; [|exact out_dist]. unfold visF, out64. cbn [vx vy vz]. repeat split; fval.
Qed.

(** Exact arithmetic: the center of a tilted cylinder of radius 1 and height 1. *)
Definition zerox (x : xr) : bool := xeqb x (Fin 0).
Lemma zerox_ok x r : isR x r -> (zerox x = true <-> r = 0).
Proof. intros H. unfold zerox. rewrite (isR_eqb _ _ _ _ H (isR_fin 0)). apply Reqb_spec. Qed.
Lemma center_case : isR (@cylinder_distance _ (Xnum 1000 0 (1 / 100)) (Fin (1 / 10000000)) (Fin (95 / 100)) zerox
    (cyl_at (V 10 0 0) 1 turn) (vfin (V 10 0 0))) (1 / 2) /\
  least_to (world (on_surface 1 1 1) (V 10 0 0) turn) (V 10 0 0) (1 / 2).
Proof.
  pose proof turn_orthogonal as Ho.
  assert (Hl : to_local (V 10 0 0) turn (V 10 0 0) = V 0 0 0) by (apply vec_eq; rvs; lra).
  destruct (distance_exact 1000 0 (1 / 100) (Fin (1 / 10000000)) (Fin (95 / 100)) zerox zerox_ok
    (cyl_at (V 10 0 0) 1 turn) (vfin (V 10 0 0)) (V 10 0 0) 1 1 1 turn (V 10 0 0)
    (visR_fin _) (isR_fin 1) (isR_fin 1) (isR_fin 1) (misR_fin _) (visR_fin _)) as (d & Hd & HL); auto; try lra.
  - rewrite Hl. right. cyls. rewrite Rabs_left; lra.
  - rewrite Hl. intros [H|(_ & H & _)]; cyls; lra.
  - replace d with (1 / 2) in *; [auto|]. symmetry. destruct HL as [(p & Hp & Ed) Hmin]. apply Rle_antisym.
    + assert (Hw : world (on_surface 1 1 1) (V 10 0 0) turn (rv_add (V 10 0 0) (rv_mul turn (V 0 0 (1 / 2))))).
      { exists (V 0 0 (1 / 2)). split; [reflexivity|]. right; left. cyls. lra. }
      specialize (Hmin _ Hw). eapply Rle_trans; [exact Hmin|]. right. symmetry. apply norm_is; [lra|]. rvs. lra.
    + rewrite Ed, <- (local_norm (V 10 0 0) turn _ _ Ho), Hl. apply (world_local _ _ _ _ Ho) in Hp.
      destruct (to_local (V 10 0 0) turn p) as [u v w]. apply norm_ge; [lra|]. unfold rv_dot, rv_sub. cbn [vx vy vz].
      pose proof (Rle_0_sqr u) as S1. pose proof (Rle_0_sqr v) as S2. pose proof (Rle_0_sqr w) as S3. unfold Rsqr in *.
      destruct Hp as [[H _]|[[_ H]|[_ H]]]; cyls; [|rewrite H in *; lra|rewrite H in *; lra].
      replace (u / 1) with u in H by field. replace (v / 1) with v in H by field. lra.
Qed.
