(** The shadow test. *)

From Coq Require Import Reals ZArith List Bool Arith Lra Lia Psatz.
From Verif Require Import Num NumR NumX Vec Datatypes Ray Bvh Traverse Trimesh PathTracer SpecBvh SpecReal SpecNearest SpecTri SpecShadow.
From Verif Require Import PfX PfTri3.
Import ListNotations.
Local Open Scope R_scope.

Lemma no_neg_zero_sub x y a b : isR x a -> isR y b -> no_neg_zero x -> no_neg_zero (xsub x y).
Proof.
  intros Hx Hy Hn s E. apply isR_ex in Hx as (sx & ->). apply isR_ex in Hy as (sy & ->).
  unfold xsub, xadd in E. cbn [xopp] in E. injection E as Es Eab. rewrite <- Es.
  destruct (Req_EM_T a 0) as [->|Ha].
  - rewrite (Hn sx eq_refl). unfold xsign. destruct (Rlt_dec 0 0) as [F|_]; [lra|]. reflexivity.
  - unfold xsign. destruct (Rlt_dec a 0); destruct (Rlt_dec (- b) 0); destruct (Rlt_dec 0 a); destruct (Rlt_dec 0 (- b));
      try lra; try reflexivity; apply andb_false_r.
Qed.

Section S.
Variables big tiny eps : R.
Hypothesis Heps : 0 <= eps.
Notation XN := (Xnum big tiny eps).

Lemma shadow_wide vertices faces P ms part opt nodes st p1 p2 P1 P2 :
  mesh_are vertices faces P -> @make_mesh _ XN vertices faces = Ok ms -> faces_bounded big faces P ->
  partition_ok part -> @build _ XN _ part [] (@mesh_coll _ XN ms) opt = Ok (nodes, st) ->
  (forall k d, node_depth nodes k d -> (d <= 26)%nat) ->
  visR p1 P1 -> visR p2 P2 -> no_neg_zeros p2 -> 1 <= rv_norm (rv_sub P2 P1) ->
  (vz P1 = vz P2 -> off_face_planes (vz P1) faces P) ->
  exists b, @check_for_occluder _ XN p1 p2 ms nodes = Ok b /\
    (b = true -> exists i, nears_segment (4 * eps) faces P P1 P2 (1 / 100000) (rv_norm (rv_sub P2 P1) - 1 / 100000) i) /\
    (b = false -> forall i, ~ crosses_segment faces P P1 P2 (1 / 100000 * rv_norm (rv_sub P2 P1)) (rv_norm (rv_sub P2 P1) - 1 / 100000) i).
Proof.
  intros Hm Hmk Hbd Hp Hb Hdep H1 H2 (Z1 & Z2 & Z3) Hlen Hoff.
  pose proof (visR_sub big tiny eps _ _ _ _ H2 H1) as Hd. pose proof (isR_norm big tiny eps _ _ Hd) as Hn.
  assert (He : isR (@ray_eps _ XN) (1 / 100000)) by (apply isR_div; [reflexivity|reflexivity|lra]).
  set (D := rv_sub P2 P1) in *.
  assert (Hmax : isR (@nsub _ XN (@norm _ XN (@vsub _ XN p2 p1)) (@ray_eps _ XN)) (rv_norm D - 1 / 100000)) by (apply isR_sub; assumption).
  assert (Hlt : forall t, xltb (Fin t) (@nsub _ XN (@norm _ XN (@vsub _ XN p2 p1)) (@ray_eps _ XN)) = true <-> t < rv_norm D - 1 / 100000).
  { intros t. rewrite (isR_ltb _ _ _ _ (isR_fin t) Hmax). apply Rltb_spec. }
  assert (Had : wide p1 (@vsub _ XN p2 p1) (@ray_eps _ XN) P1 D (1 / 100000)).
  { destruct H1 as (A1 & A2 & A3), H2 as (B1 & B2 & B3).
    split; [split; [exact A1|split; [exact A2|exact A3]]|exact Hd|..]; try assumption; try lra;
      cbn [vsub vmap2 vx vy vz]; eapply no_neg_zero_sub; eassumption. }
  pose proof (mesh_query_wide big tiny eps Heps vertices faces P ms Hm Hmk Hbd part Hp opt nodes st Hb Hdep
    p1 (@vsub _ XN p2 p1) (@ray_eps _ XN) (@nsub _ XN (@norm _ XN (@vsub _ XN p2 p1)) (@ray_eps _ XN)) true P1 D (1 / 100000) Had) as Hq.
  destruct (Hq) with (rh := @new_rayhit _ XN) as (b & rh' & E & Q0 & Q1).
  { intros Hz. apply Hoff. unfold D, rv_sub in Hz. cbn in Hz. lra. }
  unfold check_for_occluder, shadow_ray. rewrite E. cbn [bind fst]. exists b. split; [reflexivity|]. split.
  - intros Eb. destruct (Q1 Eb) as (i & t & (F1 & (F2 & (u & v & F3) & F4) & F5) & _).
    apply Hlt in F5. exists i, t, u, v. auto.
  - intros Eb i (t & F1 & F2 & F3 & F4). destruct (Q0 Eb) as [_ Q]. apply (Q i t).
    split; [exact F1|]. split; [split; [exact F3|split; [exact F4|apply F2]]|]. apply Hlt, F2.
Qed.
End S.

(** Between points at distance 1 and without tolerance the answer is exact. *)
Lemma shadow_unit big tiny vertices faces P ms part opt nodes st p1 p2 P1 P2 :
  mesh_are vertices faces P -> @make_mesh _ (Xnum big tiny 0) vertices faces = Ok ms -> faces_bounded big faces P ->
  partition_ok part -> @build _ (Xnum big tiny 0) _ part [] (@mesh_coll _ (Xnum big tiny 0) ms) opt = Ok (nodes, st) ->
  (forall k d, node_depth nodes k d -> (d <= 26)%nat) ->
  visR p1 P1 -> visR p2 P2 -> no_neg_zeros p2 -> rv_norm (rv_sub P2 P1) = 1 ->
  (vz P1 = vz P2 -> off_face_planes (vz P1) faces P) ->
  exists b, @check_for_occluder _ (Xnum big tiny 0) p1 p2 ms nodes = Ok b /\
    (b = true <-> exists i, crosses_segment faces P P1 P2 (1 / 100000) (1 - 1 / 100000) i).
Proof.
  intros Hm Hmk Hbd Hp Hb Hdep H1 H2 Hz Hlen Hoff.
  destruct (shadow_wide big tiny 0 (Rle_refl 0) vertices faces P ms part opt nodes st p1 p2 P1 P2 Hm Hmk Hbd Hp Hb Hdep H1 H2 Hz)
    as (b & E & Q1 & Q0); [lra|exact Hoff|]. rewrite Hlen in *. exists b. split; [exact E|]. split.
  - intros Eb. destruct (Q1 Eb) as (i & t & u & v & F1 & F2 & F3 & F4). exists i, t.
    split; [exact F1|]. split; [exact F2|]. split; [exact F3|].
    assert (Hh : mesh_hit (4 * 0) faces P P1 (unit_of (rv_sub P2 P1)) (1 / 100000) (Xinf false) i t).
    { split; [exact F1|]. split; [|reflexivity]. split; [exact F3|]. split; [exists u, v; exact F4|apply F2]. }
    apply mesh_hit_cross in Hh. apply Hh.
  - intros (i & Hi). destruct b; [reflexivity|]. destruct (Q0 eq_refl i). rewrite Rmult_1_r. exact Hi.
Qed.
