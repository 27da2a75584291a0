(** The sphere mesh of the benchmarks: combinatorics, in any arithmetic. *)

From Coq Require Import ZArith List Bool Lia Floats.SpecFloat Reals.
From Verif Require Import Num NumF NumX Vec OriginSphere SpecOrigin.
Import ListNotations.

Section Any.
Context {T : Type} {N : num T}.

(** A face of the points [q]. *)
Definition tri_of (vs : list (vec T)) (f : vec nat) (q : vec (vec T)) : Prop :=
  nth_error vs (vx f) = Some (vx q) /\ nth_error vs (vy f) = Some (vy q) /\ nth_error vs (vz f) = Some (vz q).
Definition mids (q : vec (vec T)) : list (vec T) :=
  [midpoint (vx q) (vy q); midpoint (vy q) (vz q); midpoint (vz q) (vx q)].
Definition split (q : vec (vec T)) : list (vec (vec T)) :=
  [V (vx q) (midpoint (vx q) (vy q)) (midpoint (vz q) (vx q));
   V (midpoint (vx q) (vy q)) (vy q) (midpoint (vy q) (vz q));
   V (midpoint (vy q) (vz q)) (vz q) (midpoint (vz q) (vx q));
   V (midpoint (vx q) (vy q)) (midpoint (vy q) (vz q)) (midpoint (vz q) (vx q))].

Lemma nth_pre {A} (l l' : list A) i x : nth_error l i = Some x -> nth_error (l ++ l') i = Some x.
Proof. intros H. rewrite nth_error_app1; [exact H|]. apply nth_error_Some. congruence. Qed.
Lemma tri_pre vs w f q : tri_of vs f q -> tri_of (vs ++ w) f q.
Proof. intros (A & B & C). repeat split; apply nth_pre; assumption. Qed.
Lemma nth_at {A} (l l' : list A) k x : nth_error l' k = Some x -> nth_error (l ++ l') (length l + k) = Some x.
Proof. intros H. rewrite nth_error_app2 by lia. replace (length l + k - length l) with k by lia. exact H. Qed.
Lemma at_some {A} w (l : list A) i x : nth_error l i = Some x -> at_ w l i = Ok x.
Proof. intros H. unfold at_. rewrite H. reflexivity. Qed.

Lemma Forall2_weaken {A B} (R S : A -> B -> Prop) l l' : (forall a b, R a b -> S a b) -> Forall2 R l l' -> Forall2 S l l'.
Proof. intros H. induction 1; constructor; auto. Qed.

Lemma face_step vs w fs0 f q : tri_of vs f q ->
  exists fs', subdivide_face vs (OMesh (vs ++ w) fs0) f = Ok (OMesh (vs ++ w ++ mids q) (fs0 ++ fs')) /\
  Forall2 (tri_of (vs ++ w ++ mids q)) fs' (split q).
Proof.
  intros (A & B & C). unfold subdivide_face. rewrite (at_some _ _ _ _ A). cbn [bind]. rewrite (at_some _ _ _ _ B). cbn [bind].
  rewrite (at_some _ _ _ _ C). cbn [bind om_vertices om_triangles].
  set (n := length (vs ++ w)).
  assert (E3 : length ((vs ++ w) ++ [midpoint (vx q) (vy q)]) = n + 1) by (rewrite app_length; reflexivity).
  assert (E4 : length (((vs ++ w) ++ [midpoint (vx q) (vy q)]) ++ [midpoint (vy q) (vz q)]) = n + 2)
    by (rewrite app_length, E3; cbn; lia).
  rewrite E3, E4. eexists. split.
  - do 2 f_equal. rewrite <- !app_assoc. reflexivity.
  - assert (E : vs ++ w ++ mids q = (vs ++ w) ++ mids q) by (rewrite app_assoc; reflexivity).
    assert (X : nth_error (vs ++ w ++ mids q) n = Some (midpoint (vx q) (vy q))).
    { rewrite E. replace n with (length (vs ++ w) + 0) by (unfold n; lia). apply nth_at. reflexivity. }
    assert (Y : nth_error (vs ++ w ++ mids q) (n + 1) = Some (midpoint (vy q) (vz q))) by (rewrite E; apply nth_at; reflexivity).
    assert (Z : nth_error (vs ++ w ++ mids q) (n + 2) = Some (midpoint (vz q) (vx q))) by (rewrite E; apply nth_at; reflexivity).
    apply (nth_pre _ (w ++ mids q)) in A, B, C.
    repeat apply Forall2_cons; try apply Forall2_nil; repeat split; cbn [vx vy vz]; assumption.
Qed.

Lemma faces_step vs fs : forall ts, Forall2 (tri_of vs) fs ts -> forall w fs0, exists fs',
  subdivide_faces vs (OMesh (vs ++ w) fs0) fs = Ok (OMesh (vs ++ w ++ flat_map mids ts) (fs0 ++ fs')) /\
  Forall2 (tri_of (vs ++ w ++ flat_map mids ts)) fs' (flat_map split ts).
Proof.
  induction 1 as [|f q fs ts Hf _ IH]; intros w fs0.
  - exists []. cbn. rewrite !app_nil_r. auto.
  - destruct (face_step vs w fs0 f q Hf) as (g & E & Hg). cbn [subdivide_faces]. rewrite E. cbn [bind].
    destruct (IH (w ++ mids q) (fs0 ++ g)) as (g' & E' & Hg').
    exists (g ++ g'). rewrite E'. cbn [flat_map].
    assert (W : vs ++ (w ++ mids q) ++ flat_map mids ts = vs ++ w ++ mids q ++ flat_map mids ts) by (rewrite <- app_assoc; reflexivity).
    rewrite W in *. split; [rewrite <- app_assoc; reflexivity|].
    apply Forall2_app; [|exact Hg']. revert Hg. apply Forall2_weaken. intros f' q' H.
    replace (vs ++ w ++ mids q ++ flat_map mids ts) with ((vs ++ w ++ mids q) ++ flat_map mids ts)
      by (rewrite <- !app_assoc; reflexivity). apply tri_pre. exact H.
Qed.

(** The mesh [m] has the vertices [vs], and faces of the points [ts]. *)
Definition drawn (m : omesh T) (vs : list (vec T)) (ts : list (vec (vec T))) : Prop :=
  om_vertices m = vs /\ Forall2 (tri_of vs) (om_triangles m) ts.

Lemma mesh_step m vs ts : drawn m vs ts -> exists m', subdivide_mesh m = Ok m' /\
  drawn m' (vs ++ flat_map mids ts) (flat_map split ts).
Proof.
  intros [E H]. unfold subdivide_mesh. rewrite E. destruct (faces_step vs _ ts H [] []) as (fs' & E' & H').
  rewrite app_nil_r in E'. rewrite E'. cbn [app] in *. eexists. split; [reflexivity|]. split; [reflexivity|exact H'].
Qed.

(** The vertices and faces after [k] subdivisions. *)
Fixpoint grown (k : nat) (s : list (vec T) * list (vec (vec T))) :=
  match k with O => s | S k => grown k (fst s ++ flat_map mids (snd s), flat_map split (snd s)) end.

Lemma reserve_ok n : n <= 13 -> reserve n = Ok tt.
Proof.
  intros H. unfold reserve. rewrite (proj2 (Z.ltb_lt _ _)); [reflexivity|].
  pose proof (Z.pow_le_mono_r 4 (Z.of_nat n) 13 ltac:(lia) ltac:(lia)). change (4 ^ 13)%Z with 67108864%Z in *. lia.
Qed.
Lemma reserve_ub n : 13 < n -> reserve n = UB UBconv.
Proof.
  intros H. unfold reserve. rewrite (proj2 (Z.ltb_ge _ _)); [reflexivity|].
  pose proof (Z.pow_le_mono_r 4 14 (Z.of_nat n) ltac:(lia) ltac:(lia)). change (4 ^ 14)%Z with 268435456%Z in *. lia.
Qed.
Lemma steps n k : n <= 13 -> forall m s, drawn m (fst s) (snd s) -> exists m', subdivisions n k m = Ok m' /\
  drawn m' (fst (grown k s)) (snd (grown k s)).
Proof.
  intros Hn. induction k as [|k IH]; intros m [vs ts] H.
  - exists m. split; [reflexivity|exact H].
  - cbn [subdivisions]. rewrite reserve_ok by exact Hn. cbn [bind].
    destruct (mesh_step m vs ts H) as (m1 & E & H1). rewrite E. cbn [bind]. apply IH. exact H1.
Qed.

(** The points of the twenty faces. *)
Definition ico_points (t : T) : list (vec (vec T)) :=
  let vs := om_vertices (icosahedron t) in
  map (fun f => V (nth (vx f) vs (vconst n0)) (nth (vy f) vs (vconst n0)) (nth (vz f) vs (vconst n0))) (om_triangles (icosahedron t)).
Lemma ico_drawn t : drawn (icosahedron t) (om_vertices (icosahedron t)) (ico_points t).
Proof. split; [reflexivity|]. unfold ico_points. cbn. repeat constructor. Qed.
Definition sphere_parts t n := grown n (om_vertices (icosahedron t), ico_points t).

Lemma sphere_drawn t n : n <= 13 -> exists m, origin_sphere t n = Ok m /\ drawn m (fst (sphere_parts t n)) (snd (sphere_parts t n)).
Proof. intros Hn. apply (steps n n Hn). apply ico_drawn. Qed.
Lemma sphere_ub t n : 13 < n -> origin_sphere t n = UB UBconv.
Proof. intros H. destruct n as [|n]; [lia|]. unfold origin_sphere. cbn [subdivisions]. rewrite reserve_ub by exact H. reflexivity. Qed.
Lemma sphere_is t n m : origin_sphere t n = Ok m -> n <= 13 /\ drawn m (fst (sphere_parts t n)) (snd (sphere_parts t n)).
Proof.
  intros E. destruct (Nat.le_gt_cases n 13) as [H|H]; [|rewrite sphere_ub in E by exact H; discriminate].
  split; [exact H|]. destruct (sphere_drawn t n H) as (m' & E' & D). congruence.
Qed.

Lemma grown_length k : forall s, length (snd (grown k s)) = 4 ^ k * length (snd s) /\
  length (fst (grown k s)) + length (snd s) = length (fst s) + 4 ^ k * length (snd s).
Proof.
  assert (L1 : forall ts, length (flat_map split ts) = 4 * length ts) by (induction ts as [|q ts IH]; [reflexivity|cbn [flat_map]; rewrite app_length, IH; cbn; lia]).
  assert (L2 : forall ts, length (flat_map mids ts) = 3 * length ts) by (induction ts as [|q ts IH]; [reflexivity|cbn [flat_map]; rewrite app_length, IH; cbn; lia]).
  induction k as [|k IH]; intros s.
  - cbn. lia.
  - cbn [grown]. destruct (IH (fst s ++ flat_map mids (snd s), flat_map split (snd s))) as [A B]. cbn [fst snd] in A, B.
    rewrite L1 in A, B. rewrite app_length, L2 in B. rewrite Nat.pow_succ_r'. nia.
Qed.
Lemma Forall2_len {A B} (R : A -> B -> Prop) l l' : Forall2 R l l' -> length l = length l'.
Proof. induction 1; cbn; congruence. Qed.

Lemma sphere_counts t n m : origin_sphere t n = Ok m ->
  length (om_triangles m) = 20 * 4 ^ n /\ length (om_vertices m) + 8 = 20 * 4 ^ n /\ indexed m.
Proof.
  intros E. apply sphere_is in E as [_ [Ev Hf]]. destruct (grown_length n (om_vertices (icosahedron t), ico_points t)) as [A B].
  fold (sphere_parts t n) in A, B. cbn [fst snd] in A, B.
  change (length (ico_points t)) with 20 in A, B. change (length (om_vertices (icosahedron t))) with 12 in B.
  rewrite (Forall2_len _ _ _ Hf), A. split; [lia|]. split; [rewrite Ev; lia|].
  intros f If. rewrite <- Ev in Hf. clear - Hf If. induction Hf as [|f' q fs ts (X & Y & Z) _ IH]; [contradiction|].
  destruct If as [->|If]; [|auto]. repeat split; apply nth_error_Some; congruence.
Qed.

(** Edges of faces given by points. *)
Definition tedge (ts : list (vec (vec T))) (a b : vec T) : Prop := exists q, In q ts /\
  ((a = vx q /\ b = vy q) \/ (a = vy q /\ b = vz q) \/ (a = vz q /\ b = vx q)).
Definition tclosed ts := forall a b, tedge ts a b -> tedge ts b a.

Lemma mid_comm : (forall x y : T, nadd x y = nadd y x) -> forall a b : vec T, midpoint a b = midpoint b a.
Proof. intros H a b. unfold midpoint. do 2 f_equal. unfold vadd, vmap2. f_equal; apply H. Qed.

Lemma closed_step ts : (forall x y : T, nadd x y = nadd y x) -> tclosed ts -> tclosed (flat_map split ts).
Proof.
  intros Hc H.
  assert (halves : forall a b, tedge ts a b -> tedge (flat_map split ts) a (midpoint a b) /\ tedge (flat_map split ts) (midpoint a b) b).
  { intros a b (q & Iq & [[-> ->]|[[-> ->]|[-> ->]]]).
    - split; [exists (V (vx q) (midpoint (vx q) (vy q)) (midpoint (vz q) (vx q)))|exists (V (midpoint (vx q) (vy q)) (vy q) (midpoint (vy q) (vz q)))];
        (split; [apply in_flat_map; exists q; split; [exact Iq|cbn; auto]|cbn; auto]).
    - split; [exists (V (midpoint (vx q) (vy q)) (vy q) (midpoint (vy q) (vz q)))|exists (V (midpoint (vy q) (vz q)) (vz q) (midpoint (vz q) (vx q)))];
        (split; [apply in_flat_map; exists q; split; [exact Iq|cbn; auto]|cbn; auto]).
    - split; [exists (V (midpoint (vy q) (vz q)) (vz q) (midpoint (vz q) (vx q)))|exists (V (vx q) (midpoint (vx q) (vy q)) (midpoint (vz q) (vx q)))];
        (split; [apply in_flat_map; exists q; split; [exact Iq|cbn; auto]|cbn; auto 6]). }
  assert (back : forall a b, tedge ts a b -> tedge (flat_map split ts) (midpoint a b) a /\ tedge (flat_map split ts) b (midpoint a b)).
  { intros a b E. apply H in E. apply halves in E. rewrite (mid_comm Hc b a) in E. tauto. }
  intros a b (q' & Iq & E). apply in_flat_map in Iq as (q & Iq & Is).
  set (x := vx q) in *. set (y := vy q) in *. set (z := vz q) in *.
  assert (Exy : tedge ts x y) by (exists q; auto). assert (Eyz : tedge ts y z) by (exists q; auto). assert (Ezx : tedge ts z x) by (exists q; auto 6).
  assert (I1 : In (V x (midpoint x y) (midpoint z x)) (flat_map split ts)) by (apply in_flat_map; exists q; split; [exact Iq|cbn; auto]).
  assert (I2 : In (V (midpoint x y) y (midpoint y z)) (flat_map split ts)) by (apply in_flat_map; exists q; split; [exact Iq|cbn; auto]).
  assert (I3 : In (V (midpoint y z) z (midpoint z x)) (flat_map split ts)) by (apply in_flat_map; exists q; split; [exact Iq|cbn; auto]).
  assert (I4 : In (V (midpoint x y) (midpoint y z) (midpoint z x)) (flat_map split ts)) by (apply in_flat_map; exists q; split; [exact Iq|cbn; auto]).
  destruct (back _ _ Exy), (back _ _ Eyz), (back _ _ Ezx).
  cbn [In split] in Is. fold x y z in Is.
  destruct Is as [<-|[<-|[<-|[<-|[]]]]]; cbn [vx vy vz] in E; destruct E as [[-> ->]|[[-> ->]|[-> ->]]]; try assumption.
  - eexists. split; [exact I4|]. cbn. auto.
  - eexists. split; [exact I4|]. cbn. auto.
  - eexists. split; [exact I4|]. cbn. auto.
  - eexists. split; [exact I2|]. cbn. auto.
  - eexists. split; [exact I3|]. cbn. auto.
  - eexists. split; [exact I1|]. cbn. auto.
Qed.
Lemma grown_closed k : (forall x y : T, nadd x y = nadd y x) -> forall s, tclosed (snd s) -> tclosed (snd (grown k s)).
Proof. intros Hc. induction k as [|k IH]; intros s H; [exact H|]. apply IH. apply (closed_step _ Hc). exact H. Qed.

(** The closed index triples of the icosahedron. *)
Definition ie (f : vec nat) (e : nat * nat) : bool :=
  let '(i, j) := e in (Nat.eqb i (vx f) && Nat.eqb j (vy f)) || (Nat.eqb i (vy f) && Nat.eqb j (vz f)) || (Nat.eqb i (vz f) && Nat.eqb j (vx f)).
Lemma ico_closed_indices t : forallb (fun f => forallb (fun e => existsb (fun g => ie g e) (om_triangles (icosahedron t)))
  [(vy f, vx f); (vz f, vy f); (vx f, vz f)]) (om_triangles (icosahedron t)) = true.
Proof. reflexivity. Qed.
Lemma ico_closed t : tclosed (ico_points t).
Proof.
  intros a b (q & Iq & E). apply in_map_iff in Iq as (f & <- & If).
  pose proof (ico_closed_indices t) as H. rewrite forallb_forall in H. specialize (H f If). rewrite forallb_forall in H.
  set (vs := om_vertices (icosahedron t)) in *. set (p := fun i => nth i vs (vconst n0)). cbn [vx vy vz] in E.
  assert (K : exists i j, a = p i /\ b = p j /\ In (j, i) [(vy f, vx f); (vz f, vy f); (vx f, vz f)]).
  { destruct E as [[-> ->]|[[-> ->]|[-> ->]]]; [exists (vx f), (vy f)|exists (vy f), (vz f)|exists (vz f), (vx f)]; cbn; auto 8. }
  destruct K as (i & j & -> & -> & K). apply H in K. apply existsb_exists in K as (g & Ig & K).
  exists (V (p (vx g)) (p (vy g)) (p (vz g))). split; [unfold ico_points; apply in_map_iff; exists g; split; [reflexivity|exact Ig]|].
  cbn [vx vy vz]. unfold ie in K. rewrite !orb_true_iff, !andb_true_iff, !Nat.eqb_eq in K.
  destruct K as [[[-> ->]|[-> ->]]|[-> ->]]; auto.
Qed.

Lemma edge_points m vs ts a b : drawn m vs ts -> (edge m a b <-> tedge ts a b).
Proof.
  intros [E H]. unfold edge, tedge. rewrite E. clear E. induction H as [|f q fs ts (X & Y & Z) H IH].
  - split; [intros (f & i & j & [] & _)|intros (q & [] & _)].
  - split.
    + intros (g & i & j & [<-|Ig] & K & A & B).
      * exists q. split; [left; reflexivity|]. destruct K as [[-> ->]|[[-> ->]|[-> ->]]]; [left|right; left|right; right]; split; congruence.
      * destruct (proj1 IH ltac:(exists g, i, j; auto)) as (q' & Iq & K'). exists q'. split; [right; exact Iq|exact K'].
    + intros (q' & [<-|Iq] & K).
      * destruct K as [[-> ->]|[[-> ->]|[-> ->]]]; [exists f, (vx f), (vy f)|exists f, (vy f), (vz f)|exists f, (vz f), (vx f)];
          repeat split; try assumption; cbn; auto.
      * destruct (proj2 IH ltac:(exists q'; auto)) as (g & i & j & Ig & K'). exists g, i, j. split; [right; exact Ig|exact K'].
Qed.
Lemma sphere_closed t n m : (forall x y : T, nadd x y = nadd y x) -> origin_sphere t n = Ok m -> closed m.
Proof.
  intros Hc E a b He. apply sphere_is in E as [_ D]. apply (edge_points m _ _ b a D). apply (edge_points m _ _ a b D) in He.
  revert He. apply (grown_closed n Hc (_, ico_points t)). apply ico_closed.
Qed.
End Any.

Lemma xadd_comm x y : xadd x y = xadd y x.
Proof.
  destruct x as [|s|s a], y as [|s'|s' b]; try reflexivity; unfold xadd.
  - destruct s, s'; reflexivity.
  - rewrite Rplus_comm, andb_comm. reflexivity.
Qed.
Lemma SFadd_comm prec emax x y : SFadd prec emax x y = SFadd prec emax y x.
Proof.
  destruct x as [s|s| |s m e], y as [s'|s'| |s' m' e']; try reflexivity; unfold SFadd; try (destruct s, s'; reflexivity).
  rewrite (Z.min_comm e' e), Z.add_comm. reflexivity.
Qed.
Lemma sphere_closed_X big tiny eps t n m : @origin_sphere _ (Xnum big tiny eps) t n = Ok m -> closed m.
Proof. apply sphere_closed. exact xadd_comm. Qed.
Lemma sphere_closed_F prec emax t n m : @origin_sphere _ (Fnum prec emax) t n = Ok m -> closed m.
Proof. apply sphere_closed. exact (SFadd_comm prec emax). Qed.
