(** Comparison is a strict weak order on the scalars other than NaN. *)

From Coq Require Import Reals ZArith List Bool Lia Lra Floats.SpecFloat.
From Verif Require Import Num NumR NumX NumF Vec SpecBvh.

Definition x_number (x : xr) : Prop := x <> Xnan.
Definition f_number (x : spec_float) : Prop := x <> S754_nan.

Lemma x_order big tiny eps : @weak_order xr (Xnum big tiny eps) x_number.
Proof.
  unfold x_number. split; cbn.
  - intros [|[]|s r] H; cbn; try congruence. apply Rltb_false. lra.
  - intros [|[]|s r] [|[]|s' r'] H1 H2; cbn; try congruence; auto.
    intros H. apply Rltb_spec in H. apply Rltb_false. lra.
  - intros [|[]|s r] [|[]|s' r'] [|[]|s'' r''] H1 H2 H3; cbn; try congruence; auto.
    intros H H'. apply Rltb_false in H. apply Rltb_false in H'. apply Rltb_false. lra.
Qed.

(** A lexicographic key for SpecFloat's comparison. *)
Definition fkey (x : spec_float) : Z * Z * Z :=
  match x with
  | S754_nan => (3, 0, 0)
  | S754_infinity true => (-2, 0, 0)
  | S754_finite true m e => (-1, -e, Zneg m)
  | S754_zero _ => (0, 0, 0)
  | S754_finite false m e => (1, e, Zpos m)
  | S754_infinity false => (2, 0, 0)
  end%Z.
Definition klt (a b : Z * Z * Z) : Prop :=
  let '(a1, a2, a3) := a in
  let '(b1, b2, b3) := b in
  (a1 < b1 \/ a1 = b1 /\ (a2 < b2 \/ a2 = b2 /\ a3 < b3))%Z.

Lemma fltb_key x y : f_number x -> f_number y -> SFltb x y = true <-> klt (fkey x) (fkey y).
Proof.
  unfold f_number. intros Hx Hy. unfold SFltb.
  destruct x as [[]|[]| |[] m e], y as [[]|[]| |[] m' e']; try congruence; cbn;
    try (split; [discriminate|intros; exfalso; lia]); try (split; [intros; lia|reflexivity]);
    destruct (Z.compare_spec e e') as [E|E|E]; cbn;
    try (split; [discriminate|intros; exfalso; lia]); try (split; [intros; lia|reflexivity]);
    change (Pos.compare_cont Eq m m') with (m ?= m')%positive;
    destruct (Pos.compare_spec m m') as [E'|E'|E']; cbn;
    try (split; [discriminate|intros; exfalso; lia]); try (split; [intros; lia|reflexivity]).
Qed.

Lemma fltb_key_false x y : f_number x -> f_number y ->
  SFltb x y = false <-> ~ klt (fkey x) (fkey y).
Proof.
  intros Hx Hy. pose proof (fltb_key x y Hx Hy) as H.
  destruct (SFltb x y); split; intros; try tauto; try discriminate.
  intros K. apply H in K. discriminate.
Qed.

Lemma f_order prec emax : @weak_order spec_float (Fnum prec emax) f_number.
Proof.
  split; cbn.
  - intros a Ha. apply fltb_key_false; auto. destruct (fkey a) as [[u v] w]. cbn. lia.
  - intros a b Ha Hb. rewrite fltb_key, fltb_key_false by assumption.
    destruct (fkey a) as [[u v] w], (fkey b) as [[u' v'] w']. cbn. lia.
  - intros a b d Ha Hb Hd. rewrite !fltb_key_false by assumption.
    destruct (fkey a) as [[u v] w], (fkey b) as [[u' v'] w'], (fkey d) as [[u'' v''] w''].
    cbn. lia.
Qed.
