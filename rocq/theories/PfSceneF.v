(** Scene queries with rounding, from the queries of the single geometries. *)

From Coq Require Import Reals ZArith List Bool Arith Lia Lra Floats.SpecFloat.
From Flocq Require Import Core IEEE754.BinarySingleNaN.
From Verif Require Import Num NumR NumF Vec Datatypes Ray Bvh Traverse Trimesh Sphere Plane Cylinder Scene.
From Verif Require Import SpecBvh SpecReal SpecIEEE SpecTri SpecTriF SpecSphF SpecPlane SpecPlaneF SpecTubeF SpecTubeQ SpecMeshN SpecScene SpecCombine SpecSceneF.
From Verif Require Import PfNumbered PfBuild PfTree PfScene PfScene2 PfScene3 PfScene4 PfCombine PfTrav2 PfIEEE PfTriF5 PfMeshF PfMeshN2 PfSphF4 PfSphF5 PfPlaneF8 PfPlaneF9 PfTubeQ2 PfTubeQ3.
Import ListNotations.
Local Open Scope R_scope.

Section F.
Variables prec emax : Z.
Context (Hprec : Prec_gt_0 prec) (Hmax : Prec_lt_emax prec emax).
Notation FN := (Fnum prec emax).
Variable M : R.
Variables (o d : vec spec_float) (tmin tmax : spec_float) (any : bool) (O D : vec R) (lo : R).
Notation r := (@make_ray _ FN o d tmin tmax any).
Notation U := (unit_of D).
Notation l0 := (lo_unit lo D).
Variable part : (nat -> bool) -> list nat -> list nat * list nat.
Hypothesis Hpart : partition_ok part.

Lemma in_front_le c sh k x x' : x <= x' -> in_front prec emax M O D l0 c sh k x' -> in_front prec emax M O D l0 c sh k x.
Proof.
  intros Hx. destruct c, sh; cbn [in_front]; try exact (fun H => H).
  - intros H s Hs. destruct (H s Hs) as (y & H1 & H2). exists y. split; [lra|exact H2].
  - intros H y0 y H1 H2. specialize (H y0 y H1 H2). lra.
  - intros H t H1. specialize (H t H1). lra.
  - intros H Ho t H1. destruct (H Ho t H1) as (j & y & Hj & Hy & Hl). exists j, y. split; [exact Hj|]. split; [exact Hy|lra].
Qed.

Lemma alone_answer c sh opt a : shape_ray prec emax M o d tmin tmax O D lo c sh -> shallow opt (primitives c) ->
  @alone _ FN part opt c r a ->
  (exists rec, a = Ok (false, rec) /\ forall k, ~ sure prec emax M O D l0 c sh k) \/
  (exists rec k x, a = Ok (true, rec) /\ h_prim rec = Some k /\ isF prec emax (h_distance rec) x /\
     near prec emax M O U lo c sh k x rec /\
     (any = false -> forall k, (k < primitives c)%nat -> in_front prec emax M O D l0 c sh k x)).
Proof.
  intros Hr Hsh Ha. destruct c, sh; cbn [shape_ray] in Hr; try contradiction; cbn [alone primitives] in Ha, Hsh;
    destruct Ha as (m & n & st & Em & Eb & ->).
  - assert (Hs : c_size (@mesh_coll _ FN m) = length faces).
    { cbn [c_size mesh_coll]. unfold make_mesh in Em. apply bind_ok in Em as ([[[? ?] ?] ?] & _ & Em). injection Em as <-. reflexivity. }
    pose proof (shallow_depth part Hpart (@mesh_coll _ FN m) opt n st Eb ltac:(rewrite Hs; exact Hsh)) as Hd.
    destruct (mesh_query_normal prec emax Hprec Hmax M vertices faces P o d tmin tmax O D lo Hr m Em part Hpart opt n st Eb Hd any (@new_rayhit _ FN))
      as [(E & H)|(rh' & k & x & u & v & E & Hk & Hp & Hx & Hu & Hv & Hn & Hf & Hw)].
    + left. exists (@new_rayhit _ FN). split; [exact E|]. intros k (Hk & s & Hs'). exact (H k s Hk Hs').
    + right. exists rh', k, x. split; [exact E|]. split; [exact Hp|]. split; [exact Hx|].
      split; [split; [exact Hk|]; exists u, v; auto|]. intros Ha j Hj s Hs'. exact (Hf Ha j s Hj Hs').
  - pose proof (shallow_depth part Hpart (@sphere_coll _ m) opt n st Eb ltac:(rewrite (Ssize prec emax centers radii m Em); exact Hsh)) as Hd.
    destruct (query_ready prec emax Hprec Hmax M centers radii C r o d tmin tmax O D lo Hr m Em part Hpart opt n st Eb Hd any (@new_rayhit _ FN))
      as [(E & H)|(rh' & k & x & E & Hk & Hp & Hx & H1 & H2 & H3 & Hf)].
    + left. exists (@new_rayhit _ FN). split; [exact E|]. intros k (Hk & y0 & y & Hy & Hc). exact (H k y0 y Hk Hy Hc).
    + right. exists rh', k, x. split; [exact E|]. split; [exact Hp|]. split; [exact Hx|].
      split; [split; [exact Hk|]; auto|]. intros Ha j Hj y0 y Hy Hc. exact (Hf Ha j y0 y Hj Hy Hc).
  - pose proof (shallow_depth part Hpart (@plane_coll _ m) opt n st Eb ltac:(rewrite (Psize prec emax centers dxs dys rots m Em); exact Hsh)) as Hd.
    destruct (patch_query_ready prec emax Hprec Hmax M centers dxs dys rots C dx dy Q o d tmin tmax O D lo Hr m Em part Hpart opt n st Eb Hd any (@new_rayhit _ FN))
      as [(E & H)|(rh' & k & x & E & Hk & Hp & Hx & H1 & H2 & H3 & Hf)].
    + left. exists (@new_rayhit _ FN). split; [exact E|]. intros k (Hk & t & Ht). exact (H k t Hk Ht).
    + right. exists rh', k, x. split; [exact E|]. split; [exact Hp|]. split; [exact Hx|].
      split; [split; [exact Hk|]; auto|]. intros Ha j Hj t Ht. exact (Hf Ha j t Hj Ht).
  - pose proof (shallow_depth part Hpart (@cylinder_coll _ m) opt n st Eb ltac:(rewrite (Tsize prec emax centers sa sb hs rots m Em); exact Hsh)) as Hd.
    destruct (tube_query_ready prec emax Hprec Hmax M ratio v centers sa sb hs rots C a0 b h Q B o d tmin tmax O D lo Hr m Em part Hpart opt n st Eb Hd any (@new_rayhit _ FN))
      as [(E & H)|(rh' & k & x & E & Hk & Hp & Hx & Hf & Hn)].
    + left. exists (@new_rayhit _ FN). split; [exact E|]. intros k (Hk & Ho & t & Ht). exact (H Ho k t Hk Ht).
    + right. exists rh', k, x. split; [exact E|]. split; [exact Hp|]. split; [exact Hx|].
      split; [split; [exact Hk|split; [exact Hf|exact Hn]]|]. intros Ha j Hj Ho t Ht. exists k, x. split; [exact Hk|]. split; [exact Hf|apply Rle_refl].
Qed.

Variables (opt0 : options) (cs : list (call spec_float)) (s : scene spec_float) (l : list (reply spec_float)).
Variable sh : call spec_float -> shape.
Hypothesis Hrun : @run _ FN part (new_scene opt0) cs = Ok (s, l).
Hypothesis Hcommit : In Commit cs.
Hypothesis Hopt : all_shallow opt0 cs l.
Hypothesis Hok : forall g c, geometry_of cs l g c -> shape_ray prec emax M o d tmin tmax O D lo c (sh c).

Lemma scene_query_F rh : (forall t, @nltb _ FN t tmax = true -> @nltb _ FN t (h_distance rh) = true) ->
  answerF prec emax M (geometry_of cs l) sh O D lo any rh (@intersect1 _ FN s r rh).
Proof.
  intros Hrh. destruct (@history_combines _ FN part Hpart opt0 cs s l Hrun Hcommit (ordered_F prec emax) r rh Hrh) as (la & (A1 & A2 & _) & Hc).
  assert (Q : forall g a, In (g, a) la -> exists c, geometry_of cs l g c /\
    ((exists rec, a = Ok (false, rec) /\ forall k, ~ sure prec emax M O D l0 c (sh c) k) \/
     (exists rec k x, a = Ok (true, rec) /\ h_prim rec = Some k /\ isF prec emax (h_distance rec) x /\
       near prec emax M O U lo c (sh c) k x rec /\
       (any = false -> forall k, (k < primitives c)%nat -> in_front prec emax M O D l0 c (sh c) k x)))).
  { intros g a H. destruct (A1 g a H) as (c & opt & Gc & Ho & Ha). exists c. split; [exact Gc|].
    exact (alone_answer c (sh c) opt a (Hok g c Gc) (Hopt opt g c Ho Gc) Ha). }
  assert (Uq : forall g c c', geometry_of cs l g c -> geometry_of cs l g c' -> c = c') by (intros; eapply geometry_unique; eauto).
  destruct Hc as (b & rh' & E & H1 & H2 & H3).
  { intros g a H. destruct (Q g a H) as (c & _ & [(rec & -> & _)|(rec & k & x & -> & _)]); eauto. }
  unfold answerF. rewrite E. destruct b.
  - right. destruct (H3 eq_refl) as (l1 & g & rec & l2 & El & -> & L1 & L2).
    destruct (Q g (Ok (true, rec))) as (c & Gc & [(rec' & Er & _)|(rec' & k & x & Er & Hp & Hx & Hn & Hf)]);
      [rewrite El; apply in_or_app; right; left; reflexivity|discriminate Er|]. injection Er as <-.
    exists (RayHit (h_normal rec) (h_uv rec) (h_distance rec) (h_prim rec) (Some g)), g, c, k, x. cbn [h_geom h_prim h_distance].
    split; [reflexivity|]. split; [exact Gc|]. split; [reflexivity|]. split; [exact Hp|]. split; [exact Hx|].
    split; [clear - Hn; destruct c, (sh _); exact Hn|].
    intros Ha g' c' k' Gc' Hk'. destruct (A2 g' c' Gc') as (a & Ina). destruct (Q g' a Ina) as (c2 & Gc2 & Hq). rewrite (Uq _ _ _ Gc2 Gc') in Hq.
    destruct Hq as [(rec' & -> & Hm)|(rec' & j & x' & -> & _ & Hx' & _ & Hf')].
    + pose proof (Hok g' c' Gc') as Hr. clear - Hm Hk' Hr. specialize (Hm k'). unfold sure in Hm. pose proof (fun H => Hm (conj Hk' H)) as H. clear Hm.
      destruct c', (sh _); cbn [in_front shape_ray] in *; try contradiction; intros; exfalso; apply H; eauto.
    + apply (in_front_le c' (sh c') k' x x'); [|exact (Hf' Ha k' Hk')].
      rewrite El in Ina. apply in_app_or in Ina as [I|[I|I]].
      * specialize (L1 _ _ I). rewrite (isF_ltb prec emax _ _ _ _ Hx Hx') in L1. apply Rltb_spec in L1. lra.
      * injection I as _ <-. destruct Hx as (_ & _ & <-), Hx' as (_ & _ & <-). apply Rle_refl.
      * specialize (L2 _ _ I). rewrite (isF_ltb prec emax _ _ _ _ Hx' Hx) in L2. apply Rltb_false in L2. lra.
  - left. rewrite (H2 eq_refl). split; [reflexivity|]. intros g c k Gc. destruct (A2 g c Gc) as (a & Ina).
    destruct (Q g a Ina) as (c2 & Gc2 & [(rec & _ & Hm)|(rec & j & x & -> & _)]).
    + rewrite <- (Uq _ _ _ Gc2 Gc). apply Hm.
    + exfalso. assert (false = true) by (apply H1; eauto). discriminate.
Qed.
End F.

(** Histories run if their geometries can be built, for any type of numbers. *)
Section G.
Context {T : Type} {N : num T}.
Variable part : (nat -> bool) -> list nat -> list nat * list nat.
Hypothesis Hpart : partition_ok part.
Variable allowed : options -> Prop.

Definition can_build {P} (c : coll T P) : Prop := forall opt, allowed opt -> exists n st, build part [] c opt = Ok (n, st).
Definition call_builds (c : call T) : Prop :=
  match c with
  | AddMesh vs fs => exists m, make_mesh vs fs = Ok m /\ can_build (mesh_coll m)
  | AddSpheres ce ra => exists m, make_spheres ce ra = Ok m /\ can_build (sphere_coll m)
  | AddPlanes ce dxs dys ro => exists m, make_planes ce dxs dys ro = Ok m /\ can_build (plane_coll m)
  | AddCylinders ce sa sb hs ro => exists m, make_cylinders ce sa sb hs ro = Ok m /\ can_build (cylinder_coll m)
  | SetOptions opt => allowed opt
  | Commit => True
  | Query _ _ => False
  end.
Definition geo_can {C P} (f : C -> coll T P) (g : option (geometry C T P)) : Prop := forall x, g = Some x -> can_build (f (g_coll x)).
Definition scene_can (s : scene T) : Prop :=
  allowed (sc_options s) /\ geo_can mesh_coll (sc_mesh s) /\ geo_can sphere_coll (sc_spheres s) /\
  geo_can plane_coll (sc_planes s) /\ geo_can cylinder_coll (sc_cylinders s).

Lemma geo_again {C P} (f : C -> coll T P) g opt : allowed opt -> geo_can f g ->
  exists g', build_geometry part f opt g = Ok g' /\ geo_can f g'.
Proof.
  intros Ho H. destruct g as [x|]; [|exists None; split; [reflexivity|discriminate]].
  destruct (H x eq_refl opt Ho) as (n & st & E).
  pose proof (@build_prefix _ _ N part Hpart (f (g_coll x)) opt [] (g_nodes x)) as B. rewrite E in B. cbn in B.
  cbn [build_geometry]. destruct (build part (g_nodes x) (f (g_coll x)) opt) as [[n2 st2]| |]; try discriminate B.
  cbn [bind]. eexists. split; [reflexivity|]. intros y [= <-]. cbn. exact (H x eq_refl).
Qed.

Lemma step_can s c : scene_can s -> call_builds c -> exists s' a, step part s c = Ok (s', a) /\ scene_can s'.
Proof.
  intros B Hc. pose proof B as (B0 & B1 & B2 & B3 & B4). destruct c; cbn [SpecScene.step call_builds] in *; try contradiction.
  - destruct Hc as (m & Em & Hm). unfold add_mesh.
    destruct (sc_mesh s) eqn:Es; [cbn [bind]; eauto|]. destruct (sc_committed s); [cbn [bind]; eauto|]. rewrite Em. cbn [bind].
    eexists _, _. split; [reflexivity|]. split; [exact B0|]. cbn. split; [|auto]. intros x [= <-]. exact Hm.
  - destruct Hc as (m & Em & Hm). unfold add_spheres.
    destruct (sc_spheres s) eqn:Es; [cbn [bind]; eauto|]. destruct (sc_committed s); [cbn [bind]; eauto|]. rewrite Em. cbn [bind].
    eexists _, _. split; [reflexivity|]. split; [exact B0|]. cbn. split; [auto|]. split; [|auto]. intros x [= <-]. exact Hm.
  - destruct Hc as (m & Em & Hm). unfold add_planes.
    destruct (sc_planes s) eqn:Es; [cbn [bind]; eauto|]. destruct (sc_committed s); [cbn [bind]; eauto|]. rewrite Em. cbn [bind].
    eexists _, _. split; [reflexivity|]. split; [exact B0|]. cbn. split; [auto|]. split; [auto|]. split; [|auto]. intros x [= <-]. exact Hm.
  - destruct Hc as (m & Em & Hm). unfold add_cylinders.
    destruct (sc_cylinders s) eqn:Es; [cbn [bind]; eauto|]. destruct (sc_committed s); [cbn [bind]; eauto|]. rewrite Em. cbn [bind].
    eexists _, _. split; [reflexivity|]. split; [exact B0|]. cbn. split; [auto|]. split; [auto|]. split; [auto|]. intros x [= <-]. exact Hm.
  - eexists _, _. split; [reflexivity|]. split; [exact Hc|]. cbn. auto.
  - unfold commit. destruct (geo_again _ _ _ B0 B1) as (me & -> & G1). destruct (geo_again _ _ _ B0 B2) as (sp & -> & G2).
    destruct (geo_again _ _ _ B0 B3) as (pl & -> & G3). destruct (geo_again _ _ _ B0 B4) as (cy & -> & G4). cbn [bind].
    eexists _, _. split; [reflexivity|]. split; [exact B0|]. cbn. auto.
Qed.

Lemma run_can cs : forall s, scene_can s -> (forall c, In c cs -> call_builds c) -> exists s' l, run part s cs = Ok (s', l).
Proof.
  induction cs as [|c cs IH]; intros s B Hc; [cbn; eauto|].
  destruct (step_can s c B (Hc c (or_introl eq_refl))) as (s1 & a & E & B1).
  destruct (IH s1 B1) as (s2 & l & E2); [intros; apply Hc; right; assumption|].
  cbn. rewrite E. cbn. rewrite E2. cbn. eauto.
Qed.
End G.

Lemma call_runs prec emax (Hprec : Prec_gt_0 prec) (Hmax : Prec_lt_emax prec emax) M o d tmin tmax O D lo c sh allowed part :
  partition_ok part -> (exists opt, allowed opt) ->
  (forall opt, allowed opt -> bins_ok opt /\ shallow opt (primitives c) /\ shape_wide prec emax M opt c sh) ->
  shape_ray prec emax M o d tmin tmax O D lo c sh -> @call_builds _ (Fnum prec emax) part allowed c.
Proof.
  intros Hp (opt1 & Ho1) Ha Hr. destruct c, sh; cbn [shape_ray] in Hr; try contradiction; cbn [call_builds primitives shape_wide] in *.
  - destruct (Ha _ Ho1) as ((H1 & H2) & H3 & H4).
    destruct (mesh_answer prec emax Hprec Hmax M vertices faces P o d tmin tmax O D lo Hr opt1 H1 H2 H3 H4 part Hp) as (m & _ & _ & Em & _).
    exists m. split; [exact Em|]. intros opt Ho. destruct (Ha _ Ho) as ((Q1 & Q2) & Q3 & Q4).
    destruct (mesh_answer prec emax Hprec Hmax M vertices faces P o d tmin tmax O D lo Hr opt Q1 Q2 Q3 Q4 part Hp) as (m' & n & st & Em' & Eb & _).
    rewrite Em in Em'. injection Em' as <-. eauto.
  - destruct (Ha _ Ho1) as ((H1 & H2) & H3 & H4).
    destruct (spheres_answer prec emax M centers radii C r o d tmin tmax O D lo Hr opt1 H1 H2 H3 H4 part Hp) as (m & _ & _ & Em & _).
    exists m. split; [exact Em|]. intros opt Ho. destruct (Ha _ Ho) as ((Q1 & Q2) & Q3 & Q4).
    destruct (spheres_answer prec emax M centers radii C r o d tmin tmax O D lo Hr opt Q1 Q2 Q3 Q4 part Hp) as (m' & n & st & Em' & Eb & _).
    rewrite Em in Em'. injection Em' as <-. eauto.
  - destruct (Ha _ Ho1) as ((H1 & H2) & H3 & H4).
    destruct (planes_answer prec emax Hprec Hmax M centers dxs dys rots C dx dy Q o d tmin tmax O D lo Hr opt1 H1 H2 H3 H4 part Hp) as (m & _ & _ & Em & _).
    exists m. split; [exact Em|]. intros opt Ho. destruct (Ha _ Ho) as ((Q1 & Q2) & Q3 & Q4).
    destruct (planes_answer prec emax Hprec Hmax M centers dxs dys rots C dx dy Q o d tmin tmax O D lo Hr opt Q1 Q2 Q3 Q4 part Hp) as (m' & n & st & Em' & Eb & _).
    rewrite Em in Em'. injection Em' as <-. eauto.
  - destruct (Ha _ Ho1) as ((H1 & H2) & H3 & H4).
    destruct (tubes_answer prec emax Hprec Hmax M ratio v centers sa sb hs rots C a b h Q B o d tmin tmax O D lo Hr opt1 H1 H2 H3 H4 part Hp) as (m & _ & _ & Em & _).
    exists m. split; [exact Em|]. intros opt Ho. destruct (Ha _ Ho) as ((Q1 & Q2) & Q3 & Q4).
    destruct (tubes_answer prec emax Hprec Hmax M ratio v centers sa sb hs rots C a b h Q B o d tmin tmax O D lo Hr opt Q1 Q2 Q3 Q4 part Hp) as (m' & n & st & Em' & Eb & _).
    rewrite Em in Em'. injection Em' as <-. eauto.
Qed.

Lemma geometry_in {T} {N : num T} part opt0 (cs : list (call T)) s l g c : run part (new_scene opt0) cs = Ok (s, l) ->
  geometry_of cs l g c -> In c cs /\ adds c <> None.
Proof.
  intros E Gc. pose proof (made_run part opt0 cs s l E g c Gc) as Hm. destruct Gc as (j & Hj & _). split; [exact (nth_error_In _ _ Hj)|].
  destruct c; cbn in Hm; try contradiction; discriminate.
Qed.

Lemma scene_answer_F prec emax (Hprec : Prec_gt_0 prec) (Hmax : Prec_lt_emax prec emax) M o d tmin tmax O D lo part opt0 cs sh :
  partition_ok part -> In Commit cs ->
  (forall c, In c cs -> is_query c = false /\ (adds c <> None -> shape_ray prec emax M o d tmin tmax O D lo c (sh c))) ->
  (forall opt, used_options opt0 cs opt -> bins_ok opt /\
     forall c, In c cs -> adds c <> None -> shallow opt (primitives c) /\ shape_wide prec emax M opt c (sh c)) ->
  exists s l, @run _ (Fnum prec emax) part (new_scene opt0) cs = Ok (s, l) /\
    forall any rh, (forall t, @nltb _ (Fnum prec emax) t tmax = true -> @nltb _ (Fnum prec emax) t (h_distance rh) = true) ->
    answerF prec emax M (geometry_of cs l) sh O D lo any rh (@intersect1 _ (Fnum prec emax) s (@make_ray _ (Fnum prec emax) o d tmin tmax any) rh).
Proof.
  intros Hp Hcom Hc Ho.
  destruct (@run_can _ (Fnum prec emax) part Hp (used_options opt0 cs) cs (new_scene opt0)) as (s & l & E).
  - split; [left; reflexivity|]. cbn. repeat split; discriminate.
  - intros c Hin. destruct (Hc c Hin) as [Hq Ha]. destruct (adds c) eqn:Ek.
    + apply (call_runs prec emax Hprec Hmax M o d tmin tmax O D lo c (sh c)); [exact Hp|exists opt0; left; reflexivity| |apply Ha; discriminate].
      intros opt Hopt. destruct (Ho opt Hopt) as (H1 & H2). split; [exact H1|]. apply H2; [exact Hin|congruence].
    + destruct c; try discriminate Ek; cbn; [right; exact Hin|exact I|discriminate Hq].
  - exists s, l. split; [exact E|]. intros any rh Hrh.
    apply (scene_query_F prec emax Hprec Hmax M o d tmin tmax any O D lo part Hp opt0 cs s l sh E Hcom).
    + intros opt g c Hopt Gc. destruct (geometry_in _ _ _ _ _ _ _ E Gc) as [Hin Hn]. apply (proj2 (Ho opt Hopt)); assumption.
    + intros g c Gc. destruct (geometry_in _ _ _ _ _ _ _ E Gc) as [Hin Hn]. apply Hc; assumption.
    + exact Hrh.
Qed.

(** With a single cylinder in its collection: nothing is reported behind the place where the ray enters it,
    or leaves it if it starts inside. *)
Lemma scene_one_cylinder prec emax (Hprec : Prec_gt_0 prec) (Hmax : Prec_lt_emax prec emax) M o d tmin tmax O D lo part :
  partition_ok part -> forall opt0 cs s l sh, @run _ (Fnum prec emax) part (new_scene opt0) cs = Ok (s, l) -> In Commit cs -> all_shallow opt0 cs l ->
  (forall g c, geometry_of cs l g c -> shape_ray prec emax M o d tmin tmax O D lo c (sh c)) ->
  forall rh, (forall t, @nltb _ (Fnum prec emax) t tmax = true -> @nltb _ (Fnum prec emax) t (h_distance rh) = true) ->
  forall g c sa sb hs m ratio v C a b h Q B t,
  geometry_of cs l g (AddCylinders [c] sa sb hs m) -> sh (AddCylinders [c] sa sb hs m) = Tubes ratio v C a b h Q B ->
  off_sides prec emax [c] sa sb hs m O D ->
  plain_view prec M ratio (a 0%nat) (b 0%nat) (h 0%nat) (C 0%nat) (Q 0%nat) O (unit_of D) (lo_unit lo D) t ->
  let e := tube_err prec M ratio in let ez := cap_err prec M in let X s := local (C 0%nat) (Q 0%nat) (at_t O (unit_of D) s) in
  exists rh' x, @intersect1 _ (Fnum prec emax) s (@make_ray _ (Fnum prec emax) o d tmin tmax false) rh = Ok (true, rh') /\
    isF prec emax (h_distance rh') x /\
    (outside e ez (a 0%nat) (b 0%nat) (h 0%nat) (local (C 0%nat) (Q 0%nat) O) -> x <= t) /\
    (deep_in e ez (a 0%nat) (b 0%nat) (h 0%nat) (local (C 0%nat) (Q 0%nat) O) ->
      forall s, 0 <= s -> ~ in_tube e ez (a 0%nat) (b 0%nat) (h 0%nat) (X s) -> x <= s).
Proof.
  intros Hp opt0 cs s l sh E Hcom Hall Hok rh Hrh g c sa sb hs m ratio v C a b h Q B t Hg Hsh Hof Hv e ez X.
  destruct (scene_query_F prec emax Hprec Hmax M o d tmin tmax false O D lo part Hp opt0 cs s l sh E Hcom Hall Hok rh Hrh)
    as [(_ & H)|(rh' & g' & c' & k & x & Er & _ & _ & _ & Hx & _ & Hf)].
  - exfalso. apply (H g _ 0%nat Hg). split; [cbn; lia|]. rewrite Hsh. cbn. split; [exact Hof|]. exists t. exact Hv.
  - exists rh', x. split; [exact Er|]. split; [exact Hx|].
    specialize (Hf eq_refl g _ 0%nat Hg ltac:(cbn; lia)). rewrite Hsh in Hf. destruct (Hf Hof t Hv) as (j & y & Hj & (H1 & _ & H2 & H3) & Hle).
    cbn [length] in Hj. destruct j as [|j]; [|lia]. assert (Ht : 0 <= t).
    { destruct Hv as (_ & [->|Hv] & _); [lra|]. pose proof (bpow_gt_0 radix2 (- prec)) as Hu. unfold ulpf in Hv. lra. }
    split.
    + intros Ho. destruct (Rle_lt_dec x t) as [K|K]; [exact K|]. exfalso. apply (H2 Ho t); [lra|]. apply Hv.
    + intros Hi u Hu Hn. destruct (Rle_lt_dec x u) as [K|K]; [exact K|]. exfalso. apply Hn, (H3 Hi u). lra.
Qed.
