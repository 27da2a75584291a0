(** The cylinder's box. *)

From Coq Require Import Reals ZArith List Bool Arith Lra Lia.
From Verif Require Import Num NumR NumX Vec Ray Bvh Traverse Cylinder SpecBvh SpecReal SpecNearest SpecPlane SpecCyl.
From Verif Require Import PfBuild PfX PfPlane PfClosest PfCyl.
Import ListNotations.
Local Open Scope R_scope.

Section Box.
Variables big tiny eps : R.
Notation XN := (Xnum big tiny eps).

(** std::min and std::max of finite lists. *)
Lemma isR_smin_list xs : forall x r rs, isR x r -> Forall2 isR xs rs ->
  exists m, isR (@smin_list _ XN x xs) m /\ (m = r \/ In m rs) /\ m <= r /\ forall y, In y rs -> m <= y.
Proof.
  induction xs as [|y ys IH]; intros x r rs Hx Hxs; inversion Hxs; subst.
  - exists r. split; [exact Hx|]. split; [auto|]. split; [lra|]. intros ? [].
  - cbn [smin_list fold_left]. change (@nltb _ XN y x) with (xltb y x).
    rewrite (isR_ltb _ _ _ _ H1 Hx).
    destruct (ltb_cases y0 r) as [[-> H]|[-> H]].
    + destruct (IH y y0 l' H1 H3) as (m & M1 & M2 & M3 & M4). exists m. split; [exact M1|].
      split; [cbn; intuition|]. split; [lra|]. cbn. intros z [<-|Hz]; auto.
    + destruct (IH x r l' Hx H3) as (m & M1 & M2 & M3 & M4). exists m. split; [exact M1|].
      split; [cbn; intuition|]. split; [lra|]. cbn. intros z [<-|Hz]; [lra|auto].
Qed.
Lemma isR_smax_list xs : forall x r rs, isR x r -> Forall2 isR xs rs ->
  exists m, isR (@smax_list _ XN x xs) m /\ (m = r \/ In m rs) /\ r <= m /\ forall y, In y rs -> y <= m.
Proof.
  induction xs as [|y ys IH]; intros x r rs Hx Hxs; inversion Hxs; subst.
  - exists r. split; [exact Hx|]. split; [auto|]. split; [lra|]. intros ? [].
  - cbn [smax_list fold_left]. change (@nltb _ XN x y) with (xltb x y).
    rewrite (isR_ltb _ _ _ _ Hx H1).
    destruct (ltb_cases r y0) as [[-> H]|[-> H]].
    + destruct (IH y y0 l' H1 H3) as (m & M1 & M2 & M3 & M4). exists m. split; [exact M1|].
      split; [cbn; intuition|]. split; [lra|]. cbn. intros z [<-|Hz]; auto.
    + destruct (IH x r l' Hx H3) as (m & M1 & M2 & M3 & M4). exists m. split; [exact M1|].
      split; [cbn; intuition|]. split; [lra|]. cbn. intros z [<-|Hz]; [lra|auto].
Qed.

Lemma Rabs_cases x : (0 <= x /\ Rabs x = x) \/ (x < 0 /\ Rabs x = - x).
Proof. unfold Rabs. destruct (Rcase_abs x); [right|left]; lra. Qed.
Lemma Rmax_cases x y : (y <= x /\ Rmax x y = x) \/ (x <= y /\ Rmax x y = y).
Proof. unfold Rmax. destruct (Rle_dec x y); [right|left]; lra. Qed.

(** The six coordinates along one axis. *)
Lemma six_least p q s u v w x c : isR p (c + u) -> isR q (c + v) -> isR s (c - u) -> isR x (c - v) ->
  forall y z, isR y (c + w) -> isR z (c - w) ->
  isR (@smin_list _ XN p [q; s; x; y; z]) (c - Rmax (Rmax (Rabs u) (Rabs v)) (Rabs w)).
Proof.
  intros H1 H2 H3 H4 y z H5 H6.
  destruct (isR_smin_list [q; s; x; y; z] p (c + u) [c + v; c - u; c - v; c + w; c - w] H1) as (m & M1 & M2 & M3 & M4).
  { repeat constructor; assumption. }
  eapply isR_to; [exact M1|].
  pose proof (M4 (c + v) ltac:(cbn; auto)). pose proof (M4 (c - u) ltac:(cbn; auto)).
  pose proof (M4 (c - v) ltac:(cbn; auto)). pose proof (M4 (c + w) ltac:(cbn; auto)).
  pose proof (M4 (c - w) ltac:(cbn; auto 8)). cbn in M2.
  destruct (Rabs_cases u) as [[]|[]], (Rabs_cases v) as [[]|[]], (Rabs_cases w) as [[]|[]],
    (Rmax_cases (Rabs u) (Rabs v)) as [[? ->]|[? ->]].
  all: match goal with |- _ = _ - Rmax ?a ?b => destruct (Rmax_cases a b) as [[? ->]|[? ->]] end; lra.
Qed.
Lemma six_most p q s u v w x c : isR p (c + u) -> isR q (c + v) -> isR s (c - u) -> isR x (c - v) ->
  forall y z, isR y (c + w) -> isR z (c - w) ->
  isR (@smax_list _ XN p [q; s; x; y; z]) (c + Rmax (Rmax (Rabs u) (Rabs v)) (Rabs w)).
Proof.
  intros H1 H2 H3 H4 y z H5 H6.
  destruct (isR_smax_list [q; s; x; y; z] p (c + u) [c + v; c - u; c - v; c + w; c - w] H1) as (m & M1 & M2 & M3 & M4).
  { repeat constructor; assumption. }
  eapply isR_to; [exact M1|].
  pose proof (M4 (c + v) ltac:(cbn; auto)). pose proof (M4 (c - u) ltac:(cbn; auto)).
  pose proof (M4 (c - v) ltac:(cbn; auto)). pose proof (M4 (c + w) ltac:(cbn; auto)).
  pose proof (M4 (c - w) ltac:(cbn; auto 8)). cbn in M2.
  destruct (Rabs_cases u) as [[]|[]], (Rabs_cases v) as [[]|[]], (Rabs_cases w) as [[]|[]],
    (Rmax_cases (Rabs u) (Rabs v)) as [[? ->]|[? ->]].
  all: match goal with |- _ = _ + Rmax ?a ?b => destruct (Rmax_cases a b) as [[? ->]|[? ->]] end; lra.
Qed.

(** The stored box. *)
Lemma cylinder_box_is c xa xb xh r C a b h Rm :
  visR c C -> isR xa a -> isR xb b -> isR xh h -> misR r Rm ->
  visR (fst (@cylinder_box _ XN c xa xb xh r)) (cyl_lower C a b h Rm) /\
  visR (snd (@cylinder_box _ XN c xa xb xh r)) (cyl_upper C a b h Rm).
Proof.
  intros HC Ha Hb Hh HR. unfold cylinder_box. cbv zeta. cbn [fst snd].
  assert (Hh2 : isR (@ndiv _ XN xh (@n2 _ XN)) (h / 2)) by (apply isR_div; [exact Hh|apply isR_fin|lra]).
  assert (Va : visR (V xa (@n0 _ XN) (@n0 _ XN)) (V a 0 0)) by (repeat split; exact Ha).
  assert (Vb : visR (V (@n0 _ XN) xb (@n0 _ XN)) (V 0 b 0)) by (repeat split; exact Hb).
  assert (Vh : visR (V (@n0 _ XN) (@n0 _ XN) (@ndiv _ XN xh (@n2 _ XN))) (V 0 0 (h / 2))) by (repeat split; exact Hh2).
  pose proof (visR_mul big tiny eps _ _ _ _ HR Va) as Ma. pose proof (visR_mul big tiny eps _ _ _ _ HR Vb) as Mb.
  pose proof (visR_mul big tiny eps _ _ _ _ HR Vh) as Mh.
  pose proof (visR_add big tiny eps _ _ _ _ HC Ma) as (A1 & A2 & A3). pose proof (visR_sub big tiny eps _ _ _ _ HC Ma) as (A4 & A5 & A6).
  pose proof (visR_add big tiny eps _ _ _ _ HC Mb) as (B1 & B2 & B3). pose proof (visR_sub big tiny eps _ _ _ _ HC Mb) as (B4 & B5 & B6).
  pose proof (visR_add big tiny eps _ _ _ _ HC Mh) as (H1 & H2 & H3). pose proof (visR_sub big tiny eps _ _ _ _ HC Mh) as (H4 & H5 & H6).
  assert (E : forall row : vec R, Rmax (Rmax (Rabs (rv_dot row (V a 0 0))) (Rabs (rv_dot row (V 0 b 0)))) (Rabs (rv_dot row (V 0 0 (h / 2)))) = tip_extent a b h row).
  { intros row. unfold tip_extent, rv_dot. cbn [vx vy vz].
    f_equal; [f_equal|]; f_equal; ring. }
  split; unfold cyl_lower, cyl_upper; rewrite <- !E; (split; [|split]);
    first [eapply six_least | eapply six_most]; eassumption.
Qed.
End Box.

(** The support of the solid along a row. *)
Lemma solid_row a b h r q : 0 < a -> 0 < b -> 0 < h -> axis_row r -> in_solid a b h q ->
  Rabs (rv_dot r q) <= tip_extent a b h r.
Proof.
  intros Ha Hb Hh Hr (He & Hz). unfold ellipse in He. set (u := vx q / a) in *. set (v := vy q / b) in *.
  assert (Ex : vx q = u * a) by (unfold u; field; lra). assert (Ey : vy q = v * b) by (unfold v; field; lra).
  assert (Hu : Rabs u <= 1). { apply Rabs_le_iff. split; nra. }
  assert (Hv : Rabs v <= 1). { apply Rabs_le_iff. split; nra. }
  unfold rv_dot. rewrite Ex, Ey. unfold tip_extent. rewrite !Rabs_mult.
  rewrite (Rabs_pos_eq a), (Rabs_pos_eq b), (Rabs_pos_eq (h / 2)) by lra.
  pose proof (Rabs_pos (vx r)). pose proof (Rabs_pos (vy r)). pose proof (Rabs_pos (vz r)).
  pose proof (Rmax_l (Rmax (Rabs (vx r) * a) (Rabs (vy r) * b)) (Rabs (vz r) * (h / 2))) as M1.
  pose proof (Rmax_r (Rmax (Rabs (vx r) * a) (Rabs (vy r) * b)) (Rabs (vz r) * (h / 2))) as M2.
  pose proof (Rmax_l (Rabs (vx r) * a) (Rabs (vy r) * b)) as M3.
  pose proof (Rmax_r (Rabs (vx r) * a) (Rabs (vy r) * b)) as M4.
  destruct Hr as [[E1 E2]|[[E1 E2]|[E1 E2]]].
  - replace (vx r * (u * a) + vy r * (v * b) + vz r * vz q) with (vz r * vz q) by (rewrite E1, E2; ring).
    rewrite Rabs_mult. eapply Rle_trans; [|exact M2]. apply Rmult_le_compat_l; assumption.
  - replace (vx r * (u * a) + vy r * (v * b) + vz r * vz q) with (v * (vy r * b)) by (rewrite E1, E2; ring).
    rewrite !Rabs_mult, (Rabs_pos_eq b) by lra. eapply Rle_trans; [|eapply Rle_trans; [exact M4|exact M1]].
    rewrite <- (Rmult_1_l (Rabs (vy r) * b)) at 2. apply Rmult_le_compat_r; [|exact Hv]. apply Rmult_le_pos; lra.
  - replace (vx r * (u * a) + vy r * (v * b) + vz r * vz q) with (u * (vx r * a)) by (rewrite E1, E2; ring).
    rewrite !Rabs_mult, (Rabs_pos_eq a) by lra. eapply Rle_trans; [|eapply Rle_trans; [exact M3|exact M1]].
    rewrite <- (Rmult_1_l (Rabs (vx r) * a)) at 2. apply Rmult_le_compat_r; [|exact Hu]. apply Rmult_le_pos; lra.
Qed.
(** If the tips bound the support, the row has at most one nonzero entry. *)
Lemma row_support a b h r : 0 < a -> 0 < b -> 0 < h ->
  (forall q, in_solid a b h q -> rv_dot r q <= tip_extent a b h r) -> axis_row r.
Proof.
  intros Ha Hb Hh H.
  set (u := vx r * a). set (v := vy r * b). set (p := vz r * (h / 2)).
  set (s := sqrt (u * u + v * v)).
  assert (Hs0 : 0 <= u * u + v * v) by nra.
  assert (Hss : s * s = u * u + v * v) by (apply sqrt_sqrt, Hs0).
  pose proof (sqrt_pos (u * u + v * v)) as Hs. fold s in Hs.
  assert (Zx : u = 0 -> vx r = 0) by (unfold u; intros E; apply Rmult_integral in E; destruct E; lra).
  assert (Zy : v = 0 -> vy r = 0) by (unfold v; intros E; apply Rmult_integral in E; destruct E; lra).
  assert (Zz : p = 0 -> vz r = 0) by (unfold p; intros E; apply Rmult_integral in E; destruct E; lra).
  destruct (Req_dec s 0) as [Es|Es].
  { left. rewrite Es in Hss. split; [apply Zx|apply Zy]; nra. }
  assert (HS : s + Rabs p <= tip_extent a b h r).
  { set (sg := if Rlt_dec p 0 then - (1) else 1).
    assert (Esg : sg * p = Rabs p) by (unfold sg, Rabs; destruct (Rlt_dec p 0), (Rcase_abs p); lra).
    assert (Hsg : Rabs (sg * (h / 2)) <= h / 2) by (apply Rabs_le_iff; unfold sg; destruct (Rlt_dec p 0); lra).
    specialize (H (V (a * (u / s)) (b * (v / s)) (sg * (h / 2)))).
    replace (s + Rabs p) with (rv_dot r (V (a * (u / s)) (b * (v / s)) (sg * (h / 2)))).
    - apply H. split; [|exact Hsg]. unfold ellipse. cbn [vx vy].
      replace (a * (u / s) / a * (a * (u / s) / a) + b * (v / s) / b * (b * (v / s) / b)) with ((u * u + v * v) / (s * s))
        by (field; repeat split; lra).
      rewrite <- Hss. right. field. exact Es.
    - unfold rv_dot. cbn [vx vy vz]. rewrite <- Esg.
      replace (vx r * (a * (u / s)) + vy r * (b * (v / s)) + vz r * (sg * (h / 2))) with ((u * u + v * v) / s + sg * p)
        by (unfold u, v, p; field; exact Es).
      rewrite <- Hss. field. exact Es. }
  unfold tip_extent in HS. fold u v p in HS.
  pose proof (Rabs_pos p). pose proof (Rabs_pos u). pose proof (Rabs_pos v).
  assert (Su : Rabs u * Rabs u = u * u) by (rewrite <- Rabs_mult; apply Rabs_pos_eq; nra).
  assert (Sv : Rabs v * Rabs v = v * v) by (rewrite <- Rabs_mult; apply Rabs_pos_eq; nra).
  assert (Zp : Rabs p = 0 -> p = 0) by (intros E; destruct (Req_dec p 0) as [|N]; [assumption|]; apply Rabs_no_R0 in N; contradiction).
  destruct (Rmax_cases (Rabs u) (Rabs v)) as [[L E]|[L E]]; rewrite E in HS;
    match type of HS with context [Rmax ?a ?b] => destruct (Rmax_cases a b) as [[L' E']|[L' E']] end; rewrite E' in HS; try lra.
  - right; right. split; [apply Zy; nra|apply Zz, Zp]. nra.
  - right; left. split; [apply Zx; nra|apply Zz, Zp]. nra.
Qed.

(** C32: the box encloses the cylinder exactly if it is axis-aligned. *)
Lemma box_encloses C a b h Rm : 0 < a -> 0 < b -> 0 < h ->
  (forall p, world (in_solid a b h) C Rm p -> in_box (cyl_lower C a b h Rm) (cyl_upper C a b h Rm) p) <-> axis_aligned Rm.
Proof.
  intros Ha Hb Hh. split.
  - intros H.
    assert (H' : forall q, in_solid a b h q -> in_box (cyl_lower C a b h Rm) (cyl_upper C a b h Rm) (rv_add C (rv_mul Rm q))).
    { intros q Hq. apply H. exists q. split; [reflexivity|exact Hq]. }
    split; [|split]; apply (row_support a b h _ Ha Hb Hh); intros q Hq; destruct (H' q Hq) as (H1 & H2 & H3);
      cbn [vx vy vz cyl_lower cyl_upper rv_add rv_mul] in *; lra.
  - intros (R1 & R2 & R3) p (q & -> & Hq).
    pose proof (solid_row a b h _ q Ha Hb Hh R1 Hq) as H1. pose proof (solid_row a b h _ q Ha Hb Hh R2 Hq) as H2.
    pose proof (solid_row a b h _ q Ha Hb Hh R3 Hq) as H3. rewrite Rabs_le_iff in H1, H2, H3.
    split; [|split]; cbn [vx vy vz cyl_lower cyl_upper rv_add rv_mul]; lra.
Qed.
(** The same for the surface alone. *)
Lemma box_surface C a b h Rm p : 0 < a -> 0 < b -> 0 < h -> axis_aligned Rm ->
  world (on_surface a b h) C Rm p -> in_box (cyl_lower C a b h Rm) (cyl_upper C a b h Rm) p.
Proof.
  intros Ha Hb Hh HR (q & Hq & Hs). apply (proj2 (box_encloses C a b h Rm Ha Hb Hh) HR). exists q. split; [exact Hq|].
  unfold in_solid. destruct Hs as [(H1 & H2)|[(H1 & H2)|(H1 & H2)]]; (split; [lra|]); try exact H2; rewrite H2; apply Rabs_le_iff; lra.
Qed.
(** The center of the cylinder lies in the box, for any matrix. *)
Lemma box_center C a b h Rm : in_box (cyl_lower C a b h Rm) (cyl_upper C a b h Rm) C.
Proof.
  assert (H : forall row, 0 <= tip_extent a b h row).
  { intros row. unfold tip_extent. eapply Rle_trans; [|apply Rmax_r]. apply Rabs_pos. }
  pose proof (H (vx Rm)). pose proof (H (vy Rm)). pose proof (H (vz Rm)).
  split; [|split]; cbn [vx vy vz cyl_lower cyl_upper]; lra.
Qed.
