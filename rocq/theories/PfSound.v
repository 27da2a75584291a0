(** What a mesh query reports for any ray, also one whose direction is not a number. *)

From Coq Require Import Reals ZArith List Bool Arith Lra Lia.
From Verif Require Import Num NumR NumX Vec Datatypes Ray Bvh Traverse Trimesh SpecBvh SpecReal SpecNearest SpecTri.
From Verif Require Import PfBuild PfTree PfStack PfBuild2 PfTrav PfTrav2 PfX PfNumbered PfNearest PfTri PfTri2 PfTri3.
Import ListNotations.
Local Open Scope R_scope.

Section S.
Variables big tiny eps : R.
Notation XN := (Xnum big tiny eps).
Notation tol := (4 * eps).
Variables (vertices : list (vec xr)) (faces : list (vec nat)) (P : nat -> vec R) (ms : mesh xr).
Hypothesis Hdata : mesh_are vertices faces P.
Hypothesis Hmake : @make_mesh _ XN vertices faces = Ok ms.
Variable part : (nat -> bool) -> list nat -> list nat * list nat.
Hypothesis Hpart : partition_ok part.
Variable opt : options.
Variables (nodes : list (node xr (triangle xr))) (st : stats).
Hypothesis Hbuild : @build _ XN _ part [] (@mesh_coll _ XN ms) opt = Ok (nodes, st).
Hypothesis Hdepth : forall k d, node_depth nodes k d -> (d <= 26)%nat.

Let good (p : triangle xr) : Prop := exists i, (i < c_size (@mesh_coll _ XN ms))%nat /\ c_prim (@mesh_coll _ XN ms) i = Ok p.

Lemma tree_sound r rh best inv won : contract (@tri_isector _ XN ms) r good best inv won ->
  exists ps, (forall p, In p ps -> good p) /\
  answers (@tri_isector _ XN ms) best won (fun _ => False) ps (max_hit_distance r) (any_hit r) rh
    (@traverse _ XN _ _ (@tri_isector _ XN ms) nodes r rh).
Proof.
  intros Hc. destruct (@built_tree _ _ XN part Hpart (@mesh_coll _ XN ms) opt nodes st Hbuild) as (t & Hw & E & Hax). rewrite E in *.
  assert (Hg : forall p, In p (tprims t) -> good p).
  { intros p Hp. pose proof (wf_stored _ _ _ _ _ Hw 0) as Hs. rewrite stored_tprims in Hs.
    destruct (mapM_in_inv _ _ _ _ Hs Hp) as (i & Ei & Hi). exists i. split; [|exact Ei].
    apply (Permutation.Permutation_in _ (wf_tids _ _ _ _ _ Hw)) in Hi. apply in_seq in Hi. lia. }
  exists (tprims t). split; [exact Hg|].
  refine (tree_answers big tiny eps (@tri_isector _ XN ms) r good best inv won Hc (fun _ => False) t rh _ Hg Hax _).
  - apply (covers_sub big tiny eps r best (fun _ => False) t 0). intros dd t' k' Hs q u hd Hq [].
  - destruct (height_reached t 0) as (t' & k' & Hs). apply (Hdepth k'). apply node_depth_sub. eauto.
Qed.

Definition nan_vec (v : vec xr) : Prop := vx v = Xnan /\ vy v = Xnan /\ vz v = Xnan.

Lemma nan_misses i tri r : nan_vec (direction r) -> @tri_intersect _ XN i tri r = (false, i).
Proof.
  intros (H1 & H2 & H3). unfold tri_intersect.
  assert (Hc : forall c, @cross _ XN (direction r) c = V Xnan Xnan Xnan).
  { intros c. unfold cross. rewrite H1, H2, H3. reflexivity. }
  rewrite Hc. assert (Hd : forall v, @dot _ XN (V Xnan Xnan Xnan) v = Xnan) by reflexivity. rewrite !Hd.
  change (@npsign _ XN) with xpsign. unfold xpsign at 1. change (@nleb _ XN) with xleb.
  assert (Hl : forall x, xleb x Xnan = false) by (intros [|[]|[] ]; reflexivity).
  replace (if xsign _ then xopp Xnan else Xnan) with Xnan by (destruct (xsign _); reflexivity). rewrite Hl. reflexivity.
Qed.

Lemma mesh_sound r rh O m : visR (origin r) O -> isR (min_hit_distance r) m ->
  ((exists U, visR (direction r) U) \/ nan_vec (direction r)) ->
  exists b rh', @traverse _ XN _ _ (@tri_isector _ XN ms) nodes r rh = Ok (b, rh') /\
    (b = true -> exists U i t, visR (direction r) U /\ mesh_hit tol faces P O U m (max_hit_distance r) i t /\
       h_prim rh' = Some i /\ isR (h_distance rh') t /\ mesh_about faces P O U i t rh').
Proof.
  intros HO Hm [(U & HU)|Hn].
  - set (best := fun p : triangle xr => let k := tr_id p in tri_best tol (fa faces P k) (fb faces P k) (fc faces P k) O U m).
    set (inv := fun i : tri_isect xr => ti_min i = min_hit_distance r).
    set (won := fun (p : triangle xr) (i : tri_isect xr) => ti_prim i = Some (tr_id p) /\
      forall t, best p = Some t -> exists u v, isR (fst (ti_uv i)) u /\ isR (snd (ti_uv i)) v /\
        at_t O U t = bary (fa faces P (tr_id p)) (fb faces P (tr_id p)) (fc faces P (tr_id p)) u v).
    assert (Hgood : forall p, good p -> (tr_id p < length faces)%nat).
    { intros p (k & Hk & Ek). rewrite (mesh_size big tiny eps vertices faces P ms Hdata Hmake) in Hk. cbn [c_prim mesh_coll] in Ek.
      destruct (mesh_prims big tiny eps vertices faces P ms Hdata Hmake k Hk) as (a & b & c & Ep & _). rewrite Ek in Ep. injection Ep as ->. exact Hk. }
    assert (Hc : contract (@tri_isector _ XN ms) r good best inv won).
    { constructor; [reflexivity|reflexivity|].
      intros i p (k & Hk & Ek) I1. rewrite (mesh_size big tiny eps vertices faces P ms Hdata Hmake) in Hk. cbn [c_prim mesh_coll] in Ek.
      destruct (mesh_prims big tiny eps vertices faces P ms Hdata Hmake k Hk) as (a & b & c & Ep & P1 & P2 & P3). rewrite Ek in Ep. injection Ep as ->.
      cbn [is_prim is_hd tri_isector].
      pose proof (tri_step big tiny eps i a b c k r O U m (fa faces P k) (fb faces P k) (fc faces P k)) as Hs.
      unfold inv in I1. rewrite I1 in Hs. specialize (Hs HO HU Hm P1 P2 P3).
      unfold won, best. cbv zeta. change (tr_id (@make_triangle _ XN a b c k)) with k.
      destruct (tri_best tol (fa faces P k) (fb faces P k) (fc faces P k) O U m) as [t|] eqn:Eb; [|exact Hs].
      destruct (xltb (Fin t) (ti_hd i)); [|exact Hs].
      destruct Hs as (hd & u & v & Hhd & Hu & Hv' & E). eexists. split; [exact E|].
      unfold inv. cbn [ti_min ti_hd ti_prim ti_uv fst snd].
      split; [reflexivity|]. split; [exact Hhd|]. split; [reflexivity|]. intros t' Et. injection Et as <-.
      do 2 eexists. split; [exact Hu|]. split; [exact Hv'|].
      unfold tri_best in Eb. destruct (Req_EM_T _ 0) as [|Hd]; [discriminate|].
      apply cramer; [exact Hd|]. repeat destruct (Rle_dec _ _); try discriminate. injection Eb as <-. auto. }
    destruct (tree_sound r rh best inv won Hc) as (ps & Hps & [[E _]|(p & t & i & F1 & F2 & F3 & [W1 W2] & F5 & F6 & _)]).
    + exists false, rh. split; [exact E|discriminate].
    + specialize (Hps p F1). destruct (W2 t F2) as (u & v & Hu & Hv' & E).
      destruct (tri_post_ok big tiny eps vertices P (proj1 Hdata) faces (proj2 Hdata) ms i rh (tr_id p) u v Hmake W1 (Hgood p Hps) Hu Hv')
        as (rh' & E' & Q1 & Q2 & Q3 & Q4 & Q5).
      cbn [is_post is_hd tri_isector] in *. rewrite E' in F6. cbn [bind] in F6. exists true, rh'. split; [exact F6|]. intros _.
      exists U, (tr_id p), t. split; [exact HU|].
      destruct (tri_best_some _ _ _ _ _ _ _ _ F2) as [(G1 & G2 & G3) _].
      split; [split; [apply Hgood, Hps|]; split; [split; [exact G1|split; [exact G2|exact G3]]|exact F3]|].
      split; [exact Q1|]. split; [rewrite Q2; exact F5|]. exists u, v. rewrite Q3. auto.
  - set (best := fun p : triangle xr => @None R).
    assert (Hc : contract (@tri_isector _ XN ms) r good best (fun _ => True) (fun _ _ => True)).
    { constructor; [exact I|reflexivity|]. intros i p _ _. unfold best. apply nan_misses, Hn. }
    destruct (tree_sound r rh best _ _ Hc) as (ps & _ & [[E _]|(p & t & i & _ & F2 & _)]); [|discriminate].
    exists false, rh. split; [exact E|discriminate].
Qed.
End S.
