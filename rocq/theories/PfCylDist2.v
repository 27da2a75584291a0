(** What distance_to_surface for cylinders returns. *)

From Coq Require Import Reals ZArith List Bool Arith Lra Lia.
From Verif Require Import Num NumR NumX Vec Ray Cylinder CylDist SpecReal SpecPlane SpecCyl.
From Verif Require Import PfX PfPlane PfClosest PfCyl PfCyl3 PfCyl4 PfCylDist.
Import ListNotations.
Local Open Scope R_scope.

Lemma abs_sq r : Rabs r * Rabs r = r * r.
Proof. rewrite <- Rabs_mult. apply Rabs_pos_eq. pose proof (Rle_0_sqr r). unfold Rsqr in *. lra. Qed.

Section G.
Variables a b h : R.
Hypothesis Ha : 0 < a.
Hypothesis Hb : 0 < b.
Hypothesis Hh : 0 < h.
Variables x y z : R.
Notation q := (V x y z).
Notation top := (Rabs (z - h / 2)).
Notation bot := (Rabs (z + h / 2)).
Notation S := (on_surface a b h).

Lemma surface_facts p : S p -> ellipse a b p <= 1 /\ - (h / 2) <= vz p <= h / 2 /\
  (ellipse a b p = 1 \/ vz p = h / 2 \/ vz p = - (h / 2)).
Proof. intros [[H1 H2]|[[H1 H2]|[H1 H2]]]; [rewrite Rabs_le_iff in H2|..]; lra. Qed.

(** Points at the distances in question. *)
Lemma top_point : ellipse a b q <= 1 -> exists p, S p /\ top = rv_norm (rv_sub q p).
Proof.
  intros HE. exists (V x y (h / 2)). split; [right; left; split; [exact HE|reflexivity]|].
  apply norm_is; [apply Rabs_pos|]. rewrite abs_sq. unfold rv_dot, rv_sub. cbn [vx vy vz]. ring.
Qed.
Lemma bot_point : ellipse a b q <= 1 -> exists p, S p /\ bot = rv_norm (rv_sub q p).
Proof.
  intros HE. exists (V x y (- (h / 2))). split; [right; right; split; [exact HE|reflexivity]|].
  apply norm_is; [apply Rabs_pos|]. rewrite abs_sq. unfold rv_dot, rv_sub. cbn [vx vy vz]. ring.
Qed.
Lemma side_point p : on_ellipse a b p -> Rabs z <= h / 2 -> exists p', S p' /\ rv_norm (rv_sub (V x y 0) p) = rv_norm (rv_sub q p').
Proof.
  destruct p as [u v w]. intros [HE Hw] Hz. cbn [vz] in Hw. exists (V u v z). split; [left; split; [exact HE|exact Hz]|].
  unfold rv_norm, rv_dot, rv_sub. cbn [vx vy vz]. f_equal. rewrite Hw. ring.
Qed.
Lemma top_rim p : on_ellipse a b p ->
  exists p', S p' /\ sqrt (rv_norm (rv_sub (V x y 0) p) * rv_norm (rv_sub (V x y 0) p) + top * top) = rv_norm (rv_sub q p').
Proof.
  destruct p as [u v w]. intros [HE Hw]. cbn [vz] in Hw. exists (V u v (h / 2)).
  split; [right; left; split; [change (ellipse a b (V u v w) <= 1); lra|reflexivity]|].
  unfold rv_norm at 3. f_equal. rewrite norm_sq, abs_sq. unfold rv_dot, rv_sub. cbn [vx vy vz]. rewrite Hw. ring.
Qed.
Lemma bot_rim p : on_ellipse a b p ->
  exists p', S p' /\ sqrt (rv_norm (rv_sub (V x y 0) p) * rv_norm (rv_sub (V x y 0) p) + bot * bot) = rv_norm (rv_sub q p').
Proof.
  destruct p as [u v w]. intros [HE Hw]. cbn [vz] in Hw. exists (V u v (- (h / 2))).
  split; [right; right; split; [change (ellipse a b (V u v w) <= 1); lra|reflexivity]|].
  unfold rv_norm at 3. f_equal. rewrite norm_sq, abs_sq. unfold rv_dot, rv_sub. cbn [vx vy vz]. rewrite Hw. ring.
Qed.
Lemma axis_point : x = 0 -> y = 0 -> Rabs z <= h / 2 ->
  (exists p, S p /\ a = rv_norm (rv_sub q p)) /\ (exists p, S p /\ b = rv_norm (rv_sub q p)).
Proof.
  intros Ex Ey Hz. split.
  - exists (V a 0 z). split; [left; split; [unfold ellipse; cbn [vx vy]; field; lra|exact Hz]|].
    apply norm_is; [lra|]. unfold rv_dot, rv_sub. cbn [vx vy vz]. rewrite Ex, Ey. ring.
  - exists (V 0 b z). split; [left; split; [unfold ellipse; cbn [vx vy]; field; lra|exact Hz]|].
    apply norm_is; [lra|]. unfold rv_dot, rv_sub. cbn [vx vy vz]. rewrite Ex, Ey. ring.
Qed.

Lemma attained res ds : found a b ds x y -> outcome a b h x y z res ds ->
  res = Xnan \/ exists p, S p /\ isR res (rv_norm (rv_sub q p)).
Proof.
  intros Hf Ho.
  assert (Axis : x = 0 -> y = 0 -> ellipse a b q <= 1).
  { intros -> ->. unfold ellipse. cbn [vx vy]. unfold Rdiv. rewrite !Rmult_0_l. lra. }
  assert (Fin : forall m, isR res m -> (exists p, S p /\ m = rv_norm (rv_sub q p)) -> res = Xnan \/ exists p, S p /\ isR res (rv_norm (rv_sub q p))).
  { intros m Hm (p & Sp & ->). right. exists p. auto. }
  destruct Ho as [(Ex & Ey & _ & m & Hm & Hor & _)|[(Ex & Ey & Hz & m & Hm & Hor & _)|[(HE & _ & m & Hm & Hor & _)|[(HE & Hz & Hm)|
    [(HE & _ & Hm)|[(HE & _ & Hm)|[(HE & _ & Hz & Hn & Hd)|[(HE & Hz & ->)|(HE & _ & Hn & Hd)]]]]]]]].
  - apply (Fin m Hm). destruct Hor as [-> | ->]; [apply top_point|apply bot_point]; auto.
  - apply (Fin m Hm). destruct (axis_point Ex Ey Hz). destruct Hor as [-> |[-> |[-> | ->]]]; auto; [apply top_point|apply bot_point]; auto.
  - apply (Fin m Hm). destruct Hor as [-> | ->]; [apply top_point|apply bot_point]; lra.
  - apply (Fin 0 Hm). exists q. split; [left; split; [exact HE|exact Hz]|].
    apply norm_is; [lra|]. unfold rv_dot, rv_sub. cbn [vx vy vz]. ring.
  - apply (Fin _ Hm), top_point. lra.
  - apply (Fin _ Hm), bot_point. lra.
  - destruct Hf as [E|(p & Hp & Hds)]; [auto|]. destruct (Hd _ Hds) as (m & Hm & Hor & _). apply (Fin m Hm).
    destruct Hor as [-> |[-> | ->]]; [apply side_point; [exact Hp|lra]|apply top_point; lra|apply bot_point; lra].
  - destruct Hf as [E|(p & Hp & Hds)]; [auto|]. apply (Fin _ Hds). apply side_point; [exact Hp|lra].
  - destruct Hf as [E|(p & Hp & Hds)]; [auto|]. destruct (Hd _ Hds) as (m & Hm & Hor & _). apply (Fin m Hm).
    destruct Hor as [-> | ->]; [apply top_rim|apply bot_rim]; exact Hp.
Qed.

(** Lower bounds. *)
Lemma norm_vert u v w m : Rabs (z - w) = m -> m <= rv_norm (rv_sub q (V u v w)).
Proof.
  intros <-. apply norm_ge; [apply Rabs_pos|]. rewrite abs_sq. unfold rv_dot, rv_sub. cbn [vx vy vz].
  pose proof (Rle_0_sqr (x - u)). pose proof (Rle_0_sqr (y - v)). unfold Rsqr in *. lra.
Qed.
Lemma norm_vert_ge u v w m : 0 <= m -> m <= Rabs (z - w) -> m <= rv_norm (rv_sub q (V u v w)).
Proof. intros H0 Hm. eapply Rle_trans; [exact Hm|]. apply norm_vert. reflexivity. Qed.
Lemma norm_flat p d : least_to (on_ellipse a b) (V x y 0) d -> ellipse a b p = 1 \/ (1 < ellipse a b q /\ ellipse a b p <= 1) ->
  d * d + (z - vz p) * (z - vz p) <= rv_dot (rv_sub q p) (rv_sub q p) /\ 0 <= d.
Proof.
  intros [(p0 & _ & Ed) Hmin] Hp.
  assert (Hd : 0 <= d) by (rewrite Ed; apply rv_norm_nonneg). split; [|exact Hd].
  assert (Hk : exists u v, ellipse a b (V u v 0) = 1 /\
    (x - u) * (x - u) + (y - v) * (y - v) <= (x - vx p) * (x - vx p) + (y - vy p) * (y - vy p)).
  { destruct Hp as [HE|[HQ HE]].
    - exists (vx p), (vy p). split; [exact HE|lra].
    - destruct (crossing a b q p Ha Hb HQ HE) as (k & K1 & K2 & K3). exists (vx k), (vy k). split; [exact K1|exact K3]. }
  destruct Hk as (u & v & K1 & K2).
  specialize (Hmin (V u v 0) (conj K1 eq_refl)).
  assert (H2 : d * d <= rv_dot (rv_sub (V x y 0) (V u v 0)) (rv_sub (V x y 0) (V u v 0))).
  { rewrite <- norm_sq. pose proof (rv_norm_nonneg (rv_sub (V x y 0) (V u v 0))). nra. }
  unfold rv_dot, rv_sub in *. destruct p as [px py pz]. cbn [vx vy vz] in *. lra.
Qed.

Lemma axis_least p : x = 0 -> y = 0 -> ellipse a b p = 1 -> forall m, 0 <= m -> m <= a -> m <= b -> m <= rv_norm (rv_sub q p).
Proof.
  intros Ex Ey HE m Hm Hma Hmb. apply norm_ge; [exact Hm|]. destruct p as [u v w]. unfold ellipse in HE. cbn [vx vy] in HE.
  unfold rv_dot, rv_sub. cbn [vx vy vz]. rewrite Ex, Ey.
  assert (Eu : u = a * (u / a)) by (field; lra). assert (Ev : v = b * (v / b)) by (field; lra).
  set (s := u / a) in *. set (t := v / b) in *. rewrite Eu, Ev.
  assert (H1 : m * m <= a * a) by nra. assert (H2 : m * m <= b * b) by nra.
  pose proof (Rle_0_sqr s). pose proof (Rle_0_sqr t). pose proof (Rle_0_sqr (z - w)). unfold Rsqr in *.
  assert (m * m * (s * s) <= a * a * (s * s)) by nra. assert (m * m * (t * t) <= b * b * (t * t)) by nra. nra.
Qed.

Lemma outer_caps p : h / 2 <= Rabs z -> - (h / 2) <= vz p <= h / 2 -> forall m, 0 <= m -> m <= top -> m <= bot -> m <= Rabs (z - vz p).
Proof.
  intros Hz Hp m H0 Ht Hbt. unfold Rabs in *.
  destruct (Rcase_abs z), (Rcase_abs (z - h / 2)), (Rcase_abs (z + h / 2)), (Rcase_abs (z - vz p)); lra.
Qed.

Lemma exact_least res ds :
  (1 < ellipse a b q \/ (ellipse a b q < 1 /\ (x <> 0 \/ y <> 0) /\ Rabs z < h / 2) ->
     exists d, isR ds d /\ least_to (on_ellipse a b) (V x y 0) d) ->
  outcome a b h x y z res ds -> exists d, isR res d /\ least_to S q d.
Proof.
  intros Hf Ho.
  assert (Axis : x = 0 -> y = 0 -> ellipse a b q <= 1).
  { intros -> ->. unfold ellipse. cbn [vx vy]. unfold Rdiv. rewrite !Rmult_0_l. lra. }
  pose proof (Rabs_pos (z - h / 2)) as T0. pose proof (Rabs_pos (z + h / 2)) as B0.
  assert (Hnan : forall d, isR Xnan d -> False) by (intros d []).
  destruct Ho as [(Ex & Ey & Hz & m & Hm & Hor & L1 & L2)|[(Ex & Ey & Hz & m & Hm & Hor & L1 & L2 & L3 & L4)|[(HE & Hz & m & Hm & Hor & L1 & L2)|[(HE & Hz & Hm)|
    [(HE & Hz & Hm)|[(HE & Hz & Hm)|[(HE & Hxy & Hz & Hn & Hd)|[(HE & Hz & ->)|(HE & Hz & Hn & Hd)]]]]]]]].
  - exists m. split; [exact Hm|]. split.
    { destruct Hor as [-> | ->]; [apply top_point|apply bot_point]; auto. }
    intros [u v w] Hp. destruct (surface_facts _ Hp) as (P1 & P2 & P3). assert (0 <= m) by (destruct Hor; lra).
    apply norm_vert_ge; [assumption|]. apply (outer_caps (V u v w)); try assumption. lra.
  - exists m. split; [exact Hm|]. destruct (axis_point Ex Ey Hz) as [A1 A2]. assert (H0 : 0 <= m) by (destruct Hor as [-> |[-> |[-> | ->]]]; lra). split.
    { destruct Hor as [-> |[-> |[-> | ->]]]; auto; [apply top_point|apply bot_point]; auto. }
    intros [u v w] Hp. destruct (surface_facts _ Hp) as (P1 & P2 & [P3|[P3|P3]]).
    + apply axis_least; assumption.
    + cbn [vz] in P3. subst w. eapply Rle_trans; [exact L3|]. apply norm_vert. reflexivity.
    + cbn [vz] in P3. subst w. eapply Rle_trans; [exact L4|]. apply norm_vert. f_equal. ring.
  - exists m. split; [exact Hm|]. split.
    { destruct Hor as [-> | ->]; [apply top_point|apply bot_point]; lra. }
    intros [u v w] Hp. destruct (surface_facts _ Hp) as (P1 & P2 & P3). assert (0 <= m) by (destruct Hor; lra).
    apply norm_vert_ge; [assumption|]. apply (outer_caps (V u v w)); try assumption. lra.
  - exists 0. split; [exact Hm|]. split; [|intros; apply rv_norm_nonneg].
    exists q. split; [left; split; [exact HE|exact Hz]|].
    apply norm_is; [lra|]. unfold rv_dot, rv_sub. cbn [vx vy vz]. ring.
  - exists top. split; [exact Hm|]. split; [apply top_point; lra|].
    intros [u v w] Hp. destruct (surface_facts _ Hp) as (P1 & P2 & P3). cbn [vz] in P2.
    apply norm_vert_ge; [assumption|]. rewrite !Rabs_pos_eq by lra. lra.
  - exists bot. split; [exact Hm|]. split; [apply bot_point; lra|].
    intros [u v w] Hp. destruct (surface_facts _ Hp) as (P1 & P2 & P3). cbn [vz] in P2.
    apply norm_vert_ge; [assumption|]. rewrite !Rabs_left1 by lra. lra.
  - destruct Hf as (d & Hds & HL); [right; auto|]. destruct (Hd _ Hds) as (m & Hm & Hor & L1 & L2 & L3).
    exists m. split; [exact Hm|]. split.
    { destruct HL as [(p & Hp & Ed) _].
      destruct Hor as [-> |[-> | ->]]; [rewrite Ed; apply side_point; [exact Hp|lra]|apply top_point; lra|apply bot_point; lra]. }
    intros [u v w] Hp. destruct (surface_facts _ Hp) as (P1 & P2 & [P3|[P3|P3]]).
    + destruct (norm_flat _ d HL (or_introl P3)) as [N1 N2]. eapply Rle_trans; [exact L1|]. apply norm_ge; [exact N2|].
      cbn [vz] in N1. pose proof (Rle_0_sqr (z - w)). unfold Rsqr in *. lra.
    + cbn [vz] in P3. subst w. eapply Rle_trans; [exact L2|]. apply norm_vert. reflexivity.
    + cbn [vz] in P3. subst w. eapply Rle_trans; [exact L3|]. apply norm_vert. f_equal. ring.
  - destruct Hf as (d & Hds & HL); [left; exact HE|]. exists d. split; [exact Hds|]. split.
    { destruct HL as [(p & Hp & Ed) _]. rewrite Ed. apply side_point; [exact Hp|lra]. }
    intros p Hp. destruct (surface_facts _ Hp) as (P1 & _).
    destruct (norm_flat p d HL (or_intror (conj HE P1))) as [N1 N2]. apply norm_ge; [exact N2|].
    pose proof (Rle_0_sqr (z - vz p)). unfold Rsqr in *. lra.
  - destruct Hf as (d & Hds & HL); [left; exact HE|]. destruct (Hd _ Hds) as (m & Hm & Hor & L1 & L2).
    exists m. split; [exact Hm|]. split.
    { destruct HL as [(p & Hp & Ed) _].
      destruct Hor as [-> | ->]; rewrite Ed; [apply top_rim|apply bot_rim]; exact Hp. }
    intros p Hp. destruct (surface_facts _ Hp) as (P1 & P2 & _).
    destruct (norm_flat p d HL (or_intror (conj HE P1))) as [N1 N2].
    assert (Hw : Rmin top bot <= Rabs (z - vz p)).
    { apply (outer_caps p Hz P2); [apply Rmin_glb; assumption|apply Rmin_l|apply Rmin_r]. }
    assert (Hm2 : m <= sqrt (d * d + Rmin top bot * Rmin top bot)).
    { unfold Rmin. destruct (Rle_dec top bot); assumption. }
    eapply Rle_trans; [exact Hm2|]. unfold rv_norm. apply sqrt_le_1.
    + pose proof (Rle_0_sqr d). pose proof (Rle_0_sqr (Rmin top bot)). unfold Rsqr in *. lra.
    + apply rv_dot_nonneg.
    + assert (0 <= Rmin top bot) by (apply Rmin_glb; assumption). pose proof (abs_sq (z - vz p)).
      assert (Rmin top bot * Rmin top bot <= Rabs (z - vz p) * Rabs (z - vz p)) by nra. lra.
Qed.
End G.

(** In world coordinates. *)
Lemma local_norm C Rm Q p : orthogonal Rm -> rv_norm (rv_sub (to_local C Rm Q) (to_local C Rm p)) = rv_norm (rv_sub Q p).
Proof.
  intros Ho. rewrite <- (orth_norm' Rm (rv_sub Q p) Ho). f_equal.
  unfold to_local. destruct Q as [x y z], p as [u v w], C as [i j k].
  unfold rv_mul, rv_sub, rv_dot. cbn [vx vy vz]. apply vec_eq; cbn [vx vy vz]; ring.
Qed.
Lemma least_local S C Rm Q d : orthogonal Rm -> least_to S (to_local C Rm Q) d -> least_to (world S C Rm) Q d.
Proof.
  intros Ho [(p & Sp & Ed) Hmin]. split.
  - exists (rv_add C (rv_mul Rm p)). split; [exists p; split; [reflexivity|exact Sp]|].
    rewrite <- (local_norm C Rm _ _ Ho), (to_local_of C Rm p Ho). exact Ed.
  - intros p' Hp. rewrite <- (local_norm C Rm _ _ Ho). apply Hmin. apply (world_local _ _ _ _ Ho), Hp.
Qed.

Section W.
Variables big tiny eps : R.
Notation XN := (Xnum big tiny eps).
Variables (newton_eps percentage : xr) (iszero : xr -> bool).
Hypothesis Hzero : forall x r, isR x r -> (iszero x = true <-> r = 0).
Variables (cy : cylinder xr) (p : vec xr) (C : vec R) (a b h : R) (Rm : mat R) (Q : vec R).
Hypothesis HC : visR (cy_center cy) C.
Hypothesis Xa : isR (cy_a cy) a.
Hypothesis Xb : isR (cy_b cy) b.
Hypothesis Xh : isR (cy_h cy) h.
Hypothesis Xr : misR (cy_rot cy) Rm.
Hypothesis HQ : visR p Q.
Hypothesis Ha : 0 < a.
Hypothesis Hb : 0 < b.
Hypothesis Hh : 0 < h.
Hypothesis Heps : 0 < eps.
Hypothesis Ho : orthogonal Rm.
Notation l := (to_local C Rm Q).
Hypothesis Hband : ellipse a b l = 1 \/ eps <= Rabs (ellipse a b l - 1).

Lemma the_outcome : exists ds, found a b ds (vx l) (vy l) /\
  outcome a b h (vx l) (vy l) (vz l) (@cylinder_distance _ XN newton_eps percentage iszero cy p) ds /\
  exists xq yq, isR xq (vx l) /\ isR yq (vy l) /\ ds = @find_minimum_distance_to_ellipse _ XN newton_eps percentage (cy_a cy) (cy_b cy) xq yq.
Proof.
  assert (HL : visR (@mulmv _ XN (@trans _ (cy_rot cy)) (@vsub _ XN p (cy_center cy))) l).
  { apply visR_mul; [apply misR_trans, Xr|]. apply visR_sub; assumption. }
  eexists. split; [|split].
  - apply find_found; [exact Xa|exact Xb|exact Ha|exact Hb|apply HL|apply HL].
  - destruct cy as [c xa xb xh rot i]. cbn [cy_center cy_a cy_b cy_h cy_rot] in *.
    destruct l as [x y z] eqn:El. apply distance_outcome; assumption.
  - do 2 eexists. split; [|split; [|reflexivity]]; apply HL.
Qed.

Lemma distance_attained :
  @cylinder_distance _ XN newton_eps percentage iszero cy p = Xnan \/
  exists P, world (on_surface a b h) C Rm P /\
    isR (@cylinder_distance _ XN newton_eps percentage iszero cy p) (rv_norm (rv_sub Q P)).
Proof.
  destruct the_outcome as (ds & Hf & Hout & _).
  destruct (attained a b h Ha Hb _ _ _ _ _ Hf Hout) as [E|(P & SP & HP)]; [left; exact E|right].
  exists (rv_add C (rv_mul Rm P)). split; [exists P; split; [reflexivity|exact SP]|].
  rewrite <- (local_norm C Rm _ _ Ho), (to_local_of C Rm P Ho).
  destruct l as [x y z] eqn:El. exact HP.
Qed.
Lemma distance_exact :
  (1 < ellipse a b l \/ (ellipse a b l < 1 /\ (vx l <> 0 \/ vy l <> 0) /\ Rabs (vz l) < h / 2) ->
   forall xq yq, isR xq (vx l) -> isR yq (vy l) -> exists d,
     isR (@find_minimum_distance_to_ellipse _ XN newton_eps percentage (cy_a cy) (cy_b cy) xq yq) d /\
     least_to (on_ellipse a b) (V (vx l) (vy l) 0) d) ->
  exists d, isR (@cylinder_distance _ XN newton_eps percentage iszero cy p) d /\
    least_to (world (on_surface a b h) C Rm) Q d.
Proof.
  intros Hn. destruct the_outcome as (ds & Hf & Hout & xq & yq & Hx & Hy & Eds).
  assert (E : exists d, isR (@cylinder_distance _ XN newton_eps percentage iszero cy p) d /\ least_to (on_surface a b h) l d).
  { destruct l as [x y z] eqn:El. cbn [vx vy vz] in *.
    apply (fun H => exact_least a b h Ha Hb Hh x y z _ ds H Hout). intros H. rewrite Eds. apply Hn; assumption. }
  destruct E as (d & Hd & HL). exists d. split; [exact Hd|]. apply least_local; assumption.
Qed.
End W.

(** The same with the point's local coordinates given. *)
Lemma distance_attained_at big tiny eps newton_eps percentage iszero cy p C a b h Rm Q L :
  (forall x r, isR x r -> (iszero x = true <-> r = 0)) ->
  visR (cy_center cy) C -> isR (cy_a cy) a -> isR (cy_b cy) b -> isR (cy_h cy) h -> misR (cy_rot cy) Rm -> visR p Q ->
  0 < a -> 0 < b -> 0 < h -> 0 < eps -> orthogonal Rm -> placed C Rm L Q ->
  ellipse a b L = 1 \/ eps <= Rabs (ellipse a b L - 1) ->
  @cylinder_distance _ (Xnum big tiny eps) newton_eps percentage iszero cy p = Xnan \/
  exists P, world (on_surface a b h) C Rm P /\
    isR (@cylinder_distance _ (Xnum big tiny eps) newton_eps percentage iszero cy p) (rv_norm (rv_sub Q P)).
Proof.
  intros H0 H1 H2 H3 H4 H5 H6 H7 H8 H9 H10 H11 HL H12.
  assert (L = to_local C Rm Q) as -> by (unfold placed in HL; subst Q; symmetry; apply to_local_of; exact H11).
  apply (distance_attained big tiny eps newton_eps percentage iszero H0 cy p C a b h Rm Q); assumption.
Qed.
Lemma distance_exact_at big tiny eps newton_eps percentage iszero cy p C a b h Rm Q L :
  (forall x r, isR x r -> (iszero x = true <-> r = 0)) ->
  visR (cy_center cy) C -> isR (cy_a cy) a -> isR (cy_b cy) b -> isR (cy_h cy) h -> misR (cy_rot cy) Rm -> visR p Q ->
  0 < a -> 0 < b -> 0 < h -> 0 < eps -> orthogonal Rm -> placed C Rm L Q ->
  ellipse a b L = 1 \/ eps <= Rabs (ellipse a b L - 1) ->
  (1 < ellipse a b L \/ (ellipse a b L < 1 /\ (vx L <> 0 \/ vy L <> 0) /\ Rabs (vz L) < h / 2) ->
   forall xq yq, isR xq (vx L) -> isR yq (vy L) -> exists d,
     isR (@find_minimum_distance_to_ellipse _ (Xnum big tiny eps) newton_eps percentage (cy_a cy) (cy_b cy) xq yq) d /\
     least_to (on_ellipse a b) (V (vx L) (vy L) 0) d) ->
  exists d, isR (@cylinder_distance _ (Xnum big tiny eps) newton_eps percentage iszero cy p) d /\
    least_to (world (on_surface a b h) C Rm) Q d.
Proof.
  intros H0 H1 H2 H3 H4 H5 H6 H7 H8 H9 H10 H11 HL H12 H13.
  assert (L = to_local C Rm Q) as -> by (unfold placed in HL; subst Q; symmetry; apply to_local_of; exact H11).
  apply (distance_exact big tiny eps newton_eps percentage iszero H0 cy p C a b h Rm Q); assumption.
Qed.
