(** Functions of datatypes.h that the library does not call. *)

From Coq Require Import Reals ZArith Bool Lra.
From Verif Require Import Num NumR NumX Vec DataExtra SpecReal SpecOptics PfX.
Local Open Scope R_scope.

Definition hull_min (a b : vec R) : vec R := V (Rmin (vx a) (vx b)) (Rmin (vy a) (vy b)) (Rmin (vz a) (vz b)).
Definition hull_max (a b : vec R) : vec R := V (Rmax (vx a) (vx b)) (Rmax (vy a) (vy b)) (Rmax (vz a) (vz b)).

Lemma intersection_hull bmin bmax a b c d A B C D : takes bmin Rmin -> takes bmax Rmax ->
  visR a A -> visR b B -> visR c C -> visR d D ->
  exists L H, visR (fst (intersection bmin bmax a b c d)) L /\ visR (snd (intersection bmin bmax a b c d)) H /\
    (forall p, in_box A B p \/ in_box C D p -> in_box L H p) /\
    (forall L' H', (forall p, p = A \/ p = B \/ p = C \/ p = D -> in_box L' H' p) -> forall p, in_box L H p -> in_box L' H' p).
Proof.
  intros Hm HM (A1 & A2 & A3) (B1 & B2 & B3) (C1 & C2 & C3) (D1 & D2 & D3).
  exists (hull_min C A), (hull_max D B). split; [repeat split; apply Hm; assumption|]. split; [repeat split; apply HM; assumption|].
  unfold in_box, hull_min, hull_max. cbn [vx vy vz]. split.
  - intros p H. unfold Rmin, Rmax. destruct H as [H|H]; repeat destruct (Rle_dec _ _); lra.
  - intros L' H' HL p Hp. pose proof (HL A (or_introl eq_refl)). pose proof (HL B (or_intror (or_introl eq_refl))).
    pose proof (HL C (or_intror (or_intror (or_introl eq_refl)))). pose proof (HL D (or_intror (or_intror (or_intror eq_refl)))).
    clear HL. revert Hp. unfold Rmin, Rmax. repeat destruct (Rle_dec _ _); lra.
Qed.

(** Two boxes apart from each other. *)
Lemma intersection_not : exists bmin bmax a b c d L H A B C D p, takes bmin Rmin /\ takes bmax Rmax /\
  visR a A /\ visR b B /\ visR c C /\ visR d D /\
  visR (fst (intersection bmin bmax a b c d)) L /\ visR (snd (intersection bmin bmax a b c d)) H /\
  in_box L H p /\ ~ in_box A B p /\ ~ in_box C D p.
Proof.
  set (bmin := fun x y => match x, y with Xf _ a, Xf _ b => Fin (Rmin a b) | _, _ => Xnan end).
  set (bmax := fun x y => match x, y with Xf _ a, Xf _ b => Fin (Rmax a b) | _, _ => Xnan end).
  set (f := fun v : vec R => vmap Fin v).
  exists bmin, bmax, (f (V 0 0 0)), (f (V 1 1 1)), (f (V 3 3 3)), (f (V 4 4 4)), (V 0 0 0), (V 4 4 4), (V 0 0 0), (V 1 1 1), (V 3 3 3), (V 4 4 4), (V 2 2 2).
  split. { intros x y a b Hx Hy. apply isR_ex in Hx as (s & ->). apply isR_ex in Hy as (s' & ->). reflexivity. }
  split. { intros x y a b Hx Hy. apply isR_ex in Hx as (s & ->). apply isR_ex in Hy as (s' & ->). reflexivity. }
  do 4 (split; [repeat split|]).
  split. { cbn. repeat split; cbn; f_equal; rewrite Rmin_right by lra; reflexivity. }
  split. { cbn. repeat split; cbn; f_equal; rewrite Rmax_left by lra; reflexivity. }
  unfold in_box. cbn [vx vy vz]. lra.
Qed.

Lemma sgn_ok big tiny eps x a : isR x a ->
  @sgn _ (Xnum big tiny eps) x = (if Rlt_dec 0 a then 1 else if Rlt_dec a 0 then -1 else 0)%Z.
Proof.
  intros H. unfold sgn. change (@nltb _ (Xnum big tiny eps)) with xltb.
  assert (H0 : isR (@nofZ _ (Xnum big tiny eps) 0) 0) by reflexivity.
  rewrite (isR_ltb _ _ _ _ H0 H), (isR_ltb _ _ _ _ H H0). unfold Rltb.
  destruct (Rlt_dec 0 a); destruct (Rlt_dec a 0); try reflexivity. lra.
Qed.
Lemma sgn_nan big tiny eps : @sgn _ (Xnum big tiny eps) Xnan = 0%Z.
Proof. reflexivity. Qed.
Lemma sgn_inf big tiny eps s : @sgn _ (Xnum big tiny eps) (Xinf s) = (if s then -1 else 1)%Z.
Proof. destruct s; reflexivity. Qed.

(** Two boxes that overlap. *)
Definition xmin (x y : xr) : xr := match x, y with Xf _ a, Xf _ b => Fin (Rmin a b) | _, _ => Xnan end.
Definition xmax (x y : xr) : xr := match x, y with Xf _ a, Xf _ b => Fin (Rmax a b) | _, _ => Xnan end.
Lemma hull_case : takes xmin Rmin /\ takes xmax Rmax /\
  visR (fst (intersection xmin xmax (vmap Fin (V 0 0 0)) (vmap Fin (V 2 2 2)) (vmap Fin (V 1 (-1) 0)) (vmap Fin (V 5 1 1)))) (V 0 (-1) 0) /\
  visR (snd (intersection xmin xmax (vmap Fin (V 0 0 0)) (vmap Fin (V 2 2 2)) (vmap Fin (V 1 (-1) 0)) (vmap Fin (V 5 1 1)))) (V 5 2 2).
Proof.
  split. { intros x y a b Hx Hy. apply isR_ex in Hx as (s & ->). apply isR_ex in Hy as (s' & ->). reflexivity. }
  split. { intros x y a b Hx Hy. apply isR_ex in Hx as (s & ->). apply isR_ex in Hy as (s' & ->). reflexivity. }
  split; cbn; repeat split; cbn; unfold Rmin, Rmax; destruct (Rle_dec _ _); try lra; f_equal; lra.
Qed.
Lemma sgn_case big tiny eps : @sgn _ (Xnum big tiny eps) (Fin (-3)) = (-1)%Z /\ @sgn _ (Xnum big tiny eps) (Fin 3) = 1%Z /\
  @sgn _ (Xnum big tiny eps) (Xf true 0) = 0%Z.
Proof.
  split; [|split].
  - rewrite (sgn_ok big tiny eps _ (-3)) by reflexivity. repeat destruct (Rlt_dec _ _); try lra; reflexivity.
  - rewrite (sgn_ok big tiny eps _ 3) by reflexivity. repeat destruct (Rlt_dec _ _); try lra; reflexivity.
  - rewrite (sgn_ok big tiny eps _ 0) by reflexivity. repeat destruct (Rlt_dec _ _); try lra; reflexivity.
Qed.
