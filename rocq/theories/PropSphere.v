(** C16-C19: spheres, in exact arithmetic. *)

From Coq Require Import Reals ZArith List Bool.
From Verif Require Import Num NumX Vec Ray Bvh Sphere SpecReal SpecSphere PfSphere CaseSphere2.
Local Open Scope R_scope.

(** C16.  The current best distance [si_hd i] is any scalar, also infinite. *)
Theorem C16_sphere_exact : forall big tiny eps i s r O U m C rad h i',
  visR (si_org i) O -> visR (si_dir i) U -> isR (si_min i) m ->
  visR (sp_center s) C -> isR (sp_radius s) rad -> rv_dot U U = 1 -> 0 <= m ->
  @sphere_intersect _ (Xnum big tiny eps) i s r = (h, i') ->
  (h = true <-> exists t, on_sphere C rad (at_t O U t) /\ m < t /\ xltb (Fin t) (si_hd i) = true) /\
  (h = true -> exists t, isR (si_hd i') t /\ si_prim i' = Some (sp_id s) /\
     on_sphere C rad (at_t O U t) /\ m < t /\ xltb (Fin t) (si_hd i) = true /\
     forall u, on_sphere C rad (at_t O U u) -> m < u -> t <= u) /\
  (h = false -> i' = i).
Proof. exact sphere_exact. Qed.
Print Assumptions C16_sphere_exact.
Example C16_case : exists i', @sphere_intersect _ (Xnum 1000 0 0) case_isect case_sphere case_ray = (true, i') /\
  isR (si_hd i') 2.
Proof. exact sphere_case. Qed.

(** C17. *)
Theorem C17_sphere_normal : forall big tiny eps s i rh O U C rad t k c0,
  visR (si_org i) O -> visR (si_dir i) U -> isR (si_hd i) t -> si_prim i = Some k ->
  nth_error (ss_centers s) k = Some c0 -> visR c0 C ->
  on_sphere C rad (at_t O U t) -> rad <> 0 ->
  exists rh', @sphere_post _ (Xnum big tiny eps) s i rh = Ok rh' /\
    visR (h_normal rh') (rv_scale (/ Rabs rad) (rv_sub (at_t O U t) C)) /\
    rv_norm (rv_scale (/ Rabs rad) (rv_sub (at_t O U t) C)) = 1 /\
    h_distance rh' = si_hd i /\ h_prim rh' = Some k /\ h_geom rh' = h_geom rh.
Proof. exact sphere_normal. Qed.
Print Assumptions C17_sphere_normal.

(** C18.  [vget p k] is the coordinate [k]. *)
Theorem C18_sphere_box : forall big tiny eps c0 x C rad, visR c0 C -> isR x rad -> 0 <= rad ->
  exists m M, visR (fst (@sphere_box _ (Xnum big tiny eps) c0 x)) m /\
    visR (snd (@sphere_box _ (Xnum big tiny eps) c0 x)) M /\
    (forall p, rv_dot (rv_sub p C) (rv_sub p C) <= rad * rad -> in_box m M p) /\
    in_box m M C /\
    (forall k a, vget m k = Some a -> exists p, on_sphere C rad p /\ vget p k = Some a) /\
    (forall k a, vget M k = Some a -> exists p, on_sphere C rad p /\ vget p k = Some a).
Proof. exact sphere_box_ok. Qed.
Print Assumptions C18_sphere_box.

(** C19. *)
Theorem C19_sphere_distance : forall big tiny eps s p C rad Q,
  visR (sp_center s) C -> isR (sp_radius s) rad -> 0 <= rad -> visR p Q ->
  exists dist, isR (@sphere_distance _ (Xnum big tiny eps) s p) dist /\
    (forall q, on_sphere C rad q -> dist <= rv_norm (rv_sub q Q)) /\
    (exists q, on_sphere C rad q /\ rv_norm (rv_sub q Q) = dist).
Proof. exact sphere_distance_ok. Qed.
Print Assumptions C19_sphere_distance.

(** The data of C16's case meet the hypotheses of C16-C19. *)
Example C17_case : visR (si_org case_isect) (V 0 0 0) /\ visR (si_dir case_isect) (V (3 / 5) (4 / 5) 0) /\
  rv_dot (V (3 / 5) (4 / 5) 0) (V (3 / 5) (4 / 5) 0) = 1 /\ isR (si_min case_isect) 1 /\
  visR (sp_center case_sphere) (V 3 4 0) /\ isR (sp_radius case_sphere) 3 /\
  on_sphere (V 3 4 0) 3 (at_t (V 0 0 0) (V (3 / 5) (4 / 5) 0) 2).
Proof. exact sphere_case_data. Qed.
