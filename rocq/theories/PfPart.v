(** The two-pointer partition meets the standard's contract. *)

From Coq Require Import ZArith List Bool Arith Lia Permutation.
From Verif Require Import Num Bvh.
Import ListNotations.

Section P.
Variable p : nat -> bool.

Definition last_true := fix last_true (rev : list nat) : option (nat * list nat * list nat) :=
  match rev with
  | [] => None
  | y :: rev' =>
      if p y then Some (y, rev', [])
      else match last_true rev' with
           | Some (z, pre, post) => Some (z, pre, y :: post)
           | None => None
           end
  end.

Lemma last_true_some l y pre post : last_true l = Some (y, pre, post) ->
  l = post ++ y :: pre /\ p y = true /\ forall x, In x post -> p x = false.
Proof.
  revert y pre post; induction l as [|a l IH]; intros y pre post H; cbn in H; [discriminate|].
  destruct (p a) eqn:E.
  - injection H as <- <- <-. repeat split; auto; intros x [].
  - destruct (last_true l) as [[[z pre'] post']|]; [|discriminate].
    injection H as <- <- <-. destruct (IH _ _ _ eq_refl) as (H1 & H2 & H3). subst l.
    repeat split; auto. intros x [<-|Hx]; auto.
Qed.

Lemma last_true_none l : last_true l = None -> forall x, In x l -> p x = false.
Proof.
  induction l as [|a l IH]; intros H x Hx; cbn in *; [contradiction|].
  destruct (p a) eqn:E; [discriminate|].
  destruct (last_true l) as [[[z pre'] post']|] eqn:El; [discriminate|].
  destruct Hx as [<-|Hx]; auto.
Qed.

Lemma part_swap_ok : forall f l a b, length l < f -> part_swap f p l = (a, b) ->
  Permutation (a ++ b) l /\ (forall x, In x a -> p x = true) /\ (forall x, In x b -> p x = false).
Proof.
  induction f as [|f IH]; intros l a b Hl H; [lia|].
  destruct l as [|x l]; cbn in H.
  - injection H as <- <-. repeat split; try (intros ? []). reflexivity.
  - fold last_true in H. cbn in Hl. destruct (p x) eqn:E.
    + destruct (part_swap f p l) as [a' b'] eqn:Es. injection H as <- <-.
      destruct (IH l a' b') as (H1 & H2 & H3); [lia|exact Es|].
      split; [cbn; constructor; exact H1|]. split; [|exact H3].
      intros y [<-|Hy]; auto.
    + destruct (last_true (rev l)) as [[[y pre] post]|] eqn:El.
      * destruct (part_swap f p (rev pre)) as [a' b'] eqn:Es. injection H as <- <-.
        apply last_true_some in El as (H1 & H2 & H3).
        assert (Hl2 : l = rev pre ++ y :: rev post).
        { rewrite <- (rev_involutive l), H1, rev_app_distr. cbn. rewrite <- app_assoc. reflexivity. }
        subst l. rewrite app_length in Hl. cbn in Hl.
        destruct (IH _ _ _ (ltac:(lia) : length (rev pre) < f) Es) as (I1 & I2 & I3).
        split; [|split].
        -- cbn. rewrite app_assoc.
           transitivity (y :: rev pre ++ x :: rev post).
           { constructor. apply Permutation_app; [exact I1|reflexivity]. }
           rewrite <- !Permutation_middle. apply perm_swap.
        -- intros z [<-|Hz]; auto.
        -- intros z Hz. apply in_app_or in Hz as [Hz|[<-|Hz]]; auto.
           apply in_rev in Hz. auto.
      * injection H as <- <-. split; [reflexivity|]. split; [intros ? []|].
        intros z [<-|Hz]; auto. apply (last_true_none _ El). apply in_rev in Hz. exact Hz.
Qed.
End P.

Lemma libstdcxx_partition_ok : partition_ok libstdcxx_partition.
Proof.
  intros p l. unfold libstdcxx_partition.
  destruct (part_swap (S (length l)) p l) as [a b] eqn:E.
  destruct (part_swap_ok p _ _ _ _ (Nat.lt_succ_diag_r _) E) as (H1 & H2 & H3).
  split; [|split; assumption]. intros x. apply Permutation_count_occ. exact H1.
Qed.
