(** Embree-backed float scenes of one cylinder in IEEE arithmetic. *)

From Coq Require Import Reals ZArith List Floats.SpecFloat.
From Flocq Require Import Core IEEE754.BinarySingleNaN.
From Verif Require Import Num NumF Vec Ray Scene Embree EmbreeScene SpecReal SpecIEEE SpecTriF SpecSphF SpecPlane SpecPlaneF SpecTubeF SpecTubeN SpecScene SpecEmbScene SpecEmbF SpecAxis.
From Verif Require Import CaseTriF CaseSphF CasePlaneF CaseEmbNear CaseEmbF PfESceneC PfESceneB CaseESceneC.
Import ListNotations.
Local Open Scope R_scope.

(** C110: a scene to which cylinders were added once and which was committed.  However often Embree runs the
    callback, a query from outside leaves the caller's record or reports a point close to the surface, with the
    surface's normal, and the ray is not deep inside before it. *)
Theorem C110_from_outside : forall prec emax, Prec_gt_0 prec -> Prec_lt_emax prec emax ->
  forall M k v c fa fb fh m O U C a b h Q B r,
  tube_ray prec emax M k v (origin r) (direction r) c fa fb fh m O U C a b h Q B ->
  forall part tri calls opt cs sa sb hs ms q l,
  @e_run _ (Fnum prec emax) part true tri calls (@new_escene _ opt)
    [AddCylinders (c :: cs) (fa :: sa) (fb :: sb) (fh :: hs) (m :: ms); Commit] = Ok (q, l) ->
  forall ids, (forall i, In i ids -> i = 0%nat) ->
  forall rh, outside (tube_err prec M k) (cap_err prec M) a b h (local C Q O) ->
  exists f out, @e_intersect1 _ (Fnum prec emax) true tri ids q r rh = Ok (f, out) /\
    (f = false -> out = rh) /\
    (f = true -> exists x, (isF prec emax (h_distance out) x /\ h_prim out = Some 0%nat /\ 0 <= x <= 3 * M /\
      on_tube (tube_err prec M k) (cap_err prec M) a b h (local C Q (at_t O U x)) /\
      (M <= / (4096 * ulpf prec) ->
         cap_normal prec emax (tube_err prec M k) (cap_err prec M) h Q (h_normal out) (local C Q (at_t O U x)) \/
         side_normal prec emax (tube_err prec M k) a b Q (h_normal out) (local C Q (at_t O U x)))) /\
      forall t, 0 <= t <= x -> ~ deep_in (tube_err prec M k) (cap_err prec M) a b h (local C Q (at_t O U t))).
Proof. exact @scene_from_outside. Qed.
Print Assumptions C110_from_outside.

(** C110: a ray that gets deep inside and keeps away from the rims is not missed if Embree runs the callback. *)
Theorem C110_not_missed : forall prec emax, Prec_gt_0 prec -> Prec_lt_emax prec emax ->
  forall M k v c fa fb fh m O U C a b h Q B r,
  tube_ray prec emax M k v (origin r) (direction r) c fa fb fh m O U C a b h Q B ->
  forall part tri calls opt cs sa sb hs ms q l,
  @e_run _ (Fnum prec emax) part true tri calls (@new_escene _ opt)
    [AddCylinders (c :: cs) (fa :: sa) (fb :: sb) (fh :: hs) (m :: ms); Commit] = Ok (q, l) ->
  forall ids, (forall i, In i ids -> i = 0%nat) ->
  forall rh t', ids <> [] -> clear_outside (tube_err prec M k) (cap_err prec M) a b h (local C Q O) -> 0 <= t' ->
  deep_in (tube_err prec M k) (cap_err prec M) a b h (local C Q (at_t O U t')) ->
  (forall t, 0 <= t <= t' -> ~ near_rim (tube_err prec M k) (cap_err prec M) a b h (local C Q (at_t O U t))) ->
  exists out x, @e_intersect1 _ (Fnum prec emax) true tri ids q r rh = Ok (true, out) /\ isF prec emax (h_distance out) x /\ x < t'.
Proof. exact @scene_not_missed. Qed.
Print Assumptions C110_not_missed.
Example C110_outside_case : exists q l out, tin_tube drop_ray (pR 0 0 3) /\ 8 <= / (4096 * ulpf 24) /\ tin_run = Ok (q, l) /\
  clear_outside (tube_err 24 8 1) (cap_err 24 8) 2 1 2 (local (pR 0 0 0) flat_Q (pR 0 0 3)) /\
  deep_in (tube_err 24 8 1) (cap_err 24 8) 2 1 2 (local (pR 0 0 0) flat_Q (at_t (pR 0 0 3) down_U 2)) /\
  (forall t, 0 <= t <= 2 -> ~ near_rim (tube_err 24 8 1) (cap_err 24 8) 2 1 2 (local (pR 0 0 0) flat_Q (at_t (pR 0 0 3) down_U t))) /\
  @e_intersect1 _ F32 true id_tri [0%nat] q drop_ray (@new_rayhit _ F32) = Ok (true, out) /\ isF 24 128 (h_distance out) 1 /\ h_normal out = p32 0 0 1.
Proof. exact tin_outside. Qed.

(** C110: if the matrix maps axes to axes, the bounds callback's box holds all points deep inside
    (tilted cylinders stick out, C32). *)
Theorem C110_bounds : forall prec emax, Prec_gt_0 prec -> Prec_lt_emax prec emax ->
  forall M k v c fa fb fh m O U C a b h Q B r,
  tube_ray prec emax M k v (origin r) (direction r) c fa fb fh m O U C a b h Q B -> coords M C ->
  visF prec emax (vx m) (vx Q) /\ visF prec emax (vy m) (vy Q) /\ visF prec emax (vz m) (vz Q) ->
  axis_entries (vx Q) /\ axis_entries (vy Q) /\ axis_entries (vz Q) ->
  forall g bb X, @ecyl_bounds _ (Fnum prec emax) (ECyl c fa fb fh m g) 0 = Ok bb ->
  deep_in (tube_err prec M k) (cap_err prec M) a b h (local C Q X) ->
  exists low high, visF prec emax (fst bb) low /\ visF prec emax (snd bb) high /\ in_box low high X.
Proof. exact @tube_box. Qed.
Print Assumptions C110_bounds.

(** C110: so Embree, if it leaves out only geometries whose bounds the ray does not meet, runs the callback, and
    the ray is not missed. *)
Theorem C110_found : forall prec emax, Prec_gt_0 prec -> Prec_lt_emax prec emax ->
  forall M k v c fa fb fh m O U C a b h Q B r,
  tube_ray prec emax M k v (origin r) (direction r) c fa fb fh m O U C a b h Q B -> coords M C ->
  visF prec emax (vx m) (vx Q) /\ visF prec emax (vy m) (vy Q) /\ visF prec emax (vz m) (vz Q) ->
  axis_entries (vx Q) /\ axis_entries (vy Q) /\ axis_entries (vz Q) ->
  forall part tri calls opt cs sa sb hs ms q l,
  @e_run _ (Fnum prec emax) part true tri calls (@new_escene _ opt)
    [AddCylinders (c :: cs) (fa :: sa) (fb :: sb) (fh :: hs) (m :: ms); Commit] = Ok (q, l) ->
  forall ids, (forall i, In i ids -> i = 0%nat) ->
  forall lo mesh, (forall w, @intersect_calls _ (Fnum prec emax) tri q ids (@rtc_start _ (Fnum prec emax) r) = Ok w ->
     covers_near prec emax mesh q ids O U lo w) ->
  forall rh t, lo <= t -> (forall s, isF prec emax (max_hit_distance r) s -> t < s) ->
  clear_outside (tube_err prec M k) (cap_err prec M) a b h (local C Q O) -> 0 <= t ->
  deep_in (tube_err prec M k) (cap_err prec M) a b h (local C Q (at_t O U t)) ->
  (forall s, 0 <= s <= t -> ~ near_rim (tube_err prec M k) (cap_err prec M) a b h (local C Q (at_t O U s))) ->
  exists out x, @e_intersect1 _ (Fnum prec emax) true tri ids q r rh = Ok (true, out) /\ isF prec emax (h_distance out) x /\ x < t.
Proof. exact @scene_found. Qed.
Print Assumptions C110_found.
(** Together with [C110_outside_case]. *)
Example C110_found_case : exists q l, tin_run = Ok (q, l) /\ coords 8 (pR 0 0 0) /\
  (visF 24 128 (vx card_m) (vx flat_Q) /\ visF 24 128 (vy card_m) (vy flat_Q) /\ visF 24 128 (vz card_m) (vz flat_Q)) /\
  (axis_entries (vx flat_Q) /\ axis_entries (vy flat_Q) /\ axis_entries (vz flat_Q)) /\
  (forall w, covers_near 24 128 nothing q [0%nat] (pR 0 0 3) down_U 0 w) /\ (forall s, isF 24 128 (max_hit_distance drop_ray) s -> 2 < s).
Proof. exact tin_found. Qed.

(** C110: from deep inside the query always answers with the point where the ray leaves. *)
Theorem C110_from_inside : forall prec emax, Prec_gt_0 prec -> Prec_lt_emax prec emax ->
  forall M k v c fa fb fh m O U C a b h Q B r,
  tube_ray prec emax M k v (origin r) (direction r) c fa fb fh m O U C a b h Q B ->
  forall part tri calls opt cs sa sb hs ms q l,
  @e_run _ (Fnum prec emax) part true tri calls (@new_escene _ opt)
    [AddCylinders (c :: cs) (fa :: sa) (fb :: sb) (fh :: hs) (m :: ms); Commit] = Ok (q, l) ->
  forall ids, (forall i, In i ids -> i = 0%nat) ->
  forall rh, ids <> [] -> deep_in (tube_err prec M k) (cap_err prec M) a b h (local C Q O) ->
  exists out x, @e_intersect1 _ (Fnum prec emax) true tri ids q r rh = Ok (true, out) /\ (isF prec emax (h_distance out) x /\ h_prim out = Some 0%nat /\ 0 <= x <= 3 * M /\
      on_tube (tube_err prec M k) (cap_err prec M) a b h (local C Q (at_t O U x)) /\
      (M <= / (4096 * ulpf prec) ->
         cap_normal prec emax (tube_err prec M k) (cap_err prec M) h Q (h_normal out) (local C Q (at_t O U x)) \/
         side_normal prec emax (tube_err prec M k) a b Q (h_normal out) (local C Q (at_t O U x)))) /\
      forall t, 0 <= t <= x -> in_tube (tube_err prec M k) (cap_err prec M) a b h (local C Q (at_t O U t)).
Proof. exact @scene_from_inside. Qed.
Print Assumptions C110_from_inside.
Example C110_inside_case : exists q l out, tin_tube well_ray (pR 0 0 0) /\ 8 <= / (4096 * ulpf 24) /\ tin_run = Ok (q, l) /\
  deep_in (tube_err 24 8 1) (cap_err 24 8) 2 1 2 (local (pR 0 0 0) flat_Q (pR 0 0 0)) /\
  @e_intersect1 _ F32 true id_tri [0%nat] q well_ray (@new_rayhit _ F32) = Ok (true, out) /\ isF 24 128 (h_distance out) 2 /\ h_normal out = p32 0 0 (-1).
Proof. exact tin_inside. Qed.

(** C110: the ray's interval does not matter: a ray that ends at 1/2 hits at 1, in binary32. *)
Theorem C110_interval_refuted : exists q l out, tin_tube short_ray (pR 0 0 3) /\ tin_run = Ok (q, l) /\
  @e_intersect1 _ F32 true id_tri [0%nat] q short_ray (@new_rayhit _ F32) = Ok (true, out) /\
  isF 24 128 (max_hit_distance short_ray) (/ 2) /\ isF 24 128 (h_distance out) 1.
Proof. exact tin_short. Qed.
Print Assumptions C110_interval_refuted.
