(** C57-C65, C69: functions of datatypes.h that the library does not call, and the path
    tracer of examples/path_tracer/main.cc. *)

From Coq Require Import Reals ZArith List Bool Floats.SpecFloat.
From Verif Require Import Num NumX NumF Vec Ray Bvh Traverse Trimesh PathTracer DataExtra.
From Verif Require Import SpecBvh SpecReal SpecNearest SpecTri SpecOptics SpecLight SpecScatter SpecShadow SpecPath.
From Verif Require Import PfPart PfTri3 PfOptics PfScatter PfLight PfLight2 PfShadow PfDataExtra PfSound PfPath CaseNode CaseSphere CasePlane CaseTri CasePath.
Import ListNotations.
Local Open Scope R_scope.

(** C57.  The function called intersection gives the least box around both boxes. *)
Theorem C57_intersection_encloses : forall bmin bmax a b c d A B C D,
  takes bmin Rmin -> takes bmax Rmax ->
  visR a A -> visR b B -> visR c C -> visR d D ->
  exists L H, visR (fst (intersection bmin bmax a b c d)) L /\ visR (snd (intersection bmin bmax a b c d)) H /\
    (forall p, in_box A B p \/ in_box C D p -> in_box L H p) /\
    (forall L' H', (forall p, p = A \/ p = B \/ p = C \/ p = D -> in_box L' H' p) -> forall p, in_box L H p -> in_box L' H' p).
Proof. exact intersection_hull. Qed.
Print Assumptions C57_intersection_encloses.
Example C57_intersection_encloses_case : takes xmin Rmin /\ takes xmax Rmax /\
  visR (fst (intersection xmin xmax (vmap Fin (V 0 0 0)) (vmap Fin (V 2 2 2)) (vmap Fin (V 1 (-1) 0)) (vmap Fin (V 5 1 1)))) (V 0 (-1) 0) /\
  visR (snd (intersection xmin xmax (vmap Fin (V 0 0 0)) (vmap Fin (V 2 2 2)) (vmap Fin (V 1 (-1) 0)) (vmap Fin (V 5 1 1)))) (V 5 2 2).
Proof. exact hull_case. Qed.
(** It does not give what the boxes have in common. *)
Theorem C57_intersection_refuted : exists bmin bmax a b c d L H A B C D p, takes bmin Rmin /\ takes bmax Rmax /\
  visR a A /\ visR b B /\ visR c C /\ visR d D /\
  visR (fst (intersection bmin bmax a b c d)) L /\ visR (snd (intersection bmin bmax a b c d)) H /\
  in_box L H p /\ ~ in_box A B p /\ ~ in_box C D p.
Proof. exact intersection_not. Qed.
Print Assumptions C57_intersection_refuted.

(** C58.  The sign of a number; no number and both zeros have sign 0. *)
Theorem C58_sgn : forall big tiny eps x a,
  isR x a ->
  @sgn _ (Xnum big tiny eps) x = (if Rlt_dec 0 a then 1 else if Rlt_dec a 0 then -1 else 0)%Z.
Proof. exact sgn_ok. Qed.
Print Assumptions C58_sgn.
Theorem C58_sgn_nan : forall big tiny eps,
  @sgn _ (Xnum big tiny eps) Xnan = 0%Z.
Proof. exact sgn_nan. Qed.
Print Assumptions C58_sgn_nan.
Theorem C58_sgn_inf : forall big tiny eps s,
  @sgn _ (Xnum big tiny eps) (Xinf s) = (if s then -1 else 1)%Z.
Proof. exact sgn_inf. Qed.
Print Assumptions C58_sgn_inf.
Example C58_sgn_case : forall big tiny eps,
  @sgn _ (Xnum big tiny eps) (Fin (-3)) = (-1)%Z /\ @sgn _ (Xnum big tiny eps) (Fin 3) = 1%Z /\
  @sgn _ (Xnum big tiny eps) (Xf true 0) = 0%Z.
Proof. exact sgn_case. Qed.

(** C59.  Two vectors that make an orthonormal frame with the given unit vector. *)
Theorem C59_onb : forall big tiny eps n Nn,
  visR n Nn -> rv_dot Nn Nn = 1 ->
  exists B1 B2, visR (fst (@revised_onb _ (Xnum big tiny eps) n)) B1 /\ visR (snd (@revised_onb _ (Xnum big tiny eps) n)) B2 /\ frame B1 B2 Nn.
Proof. exact onb_ok. Qed.
Print Assumptions C59_onb.
Example C59_onb_case : exists B1 B2, visR (fst (@revised_onb _ (Xnum 1000 0 0) (vfin down))) B1 /\
  visR (snd (@revised_onb _ (Xnum 1000 0 0) (vfin down))) B2 /\ frame B1 B2 down.
Proof. exact down_frame. Qed.

(** C60.  The random direction is a unit vector in the hemisphere of the normal, and lies
    where the two random numbers say. *)
Theorem C60_cos_theta : forall big tiny eps fcos fsin pi p rm k1 k2 n Nn,
  computes fcos cos -> computes fsin sin -> isR pi p -> random_number rm k1 -> random_number rm k2 ->
  visR n Nn -> rv_dot Nn Nn = 1 ->
  exists W B1 B2, visR (@direction_cos_theta _ (Xnum big tiny eps) fcos fsin pi rm k1 k2 n) W /\ frame B1 B2 Nn /\
    visR (fst (@revised_onb _ (Xnum big tiny eps) n)) B1 /\ visR (snd (@revised_onb _ (Xnum big tiny eps) n)) B2 /\
    rv_dot W W = 1 /\
    rv_dot W B1 = sqrt (unit_share rm k1) * cos (2 * p * unit_share rm k2) /\
    rv_dot W B2 = sqrt (unit_share rm k1) * sin (2 * p * unit_share rm k2) /\
    rv_dot W Nn = sqrt (1 - unit_share rm k1).
Proof. exact cos_theta_ok. Qed.
Print Assumptions C60_cos_theta.
Example C60_cos_theta_case : exists W, visR (@direction_cos_theta _ (Xnum 1000 0 0) xcos xsin (Fin PI) 4 3 1 (vfin down)) W /\
  rv_dot W W = 1 /\ rv_dot W down = 1 / 2.
Proof. exact down_bounce. Qed.

(** C61.  The part along the normal is turned round, the rest stays.  Reflecting twice
    gives the first vector. *)
Theorem C61_reflect : forall big tiny eps i n Iv Nn,
  visR i Iv -> visR n Nn -> rv_dot Nn Nn = 1 ->
  exists W, visR (@reflect _ (Xnum big tiny eps) i n) W /\ across Nn W = across Nn Iv /\ along Nn W = rv_scale (-1) (along Nn Iv) /\
    rv_norm W = rv_norm Iv /\ (forall w, visR w W -> visR (@reflect _ (Xnum big tiny eps) w n) Iv).
Proof. exact reflect_ok. Qed.
Print Assumptions C61_reflect.
Example C61_reflect_case : visR (@reflect _ (Xnum 1000 0 0) (vfin slanted) (vfin (V 0 0 1))) (V (3 / 5) 0 (4 / 5)).
Proof. exact slanted_mirror. Qed.

(** C62.  Snell's law with the index ratio [e], or the zero vector on total reflection. *)
Theorem C62_refract : forall big tiny eps i n eta Iv Nn e,
  visR i Iv -> visR n Nn -> isR eta e -> rv_dot Iv Iv = 1 -> rv_dot Nn Nn = 1 ->
  let k := 1 - e * e * (1 - rv_dot Nn Iv * rv_dot Nn Iv) in
  (k < 0 -> visR (@refract _ (Xnum big tiny eps) i n eta) rv_zero) /\
  (0 <= k -> exists W, visR (@refract _ (Xnum big tiny eps) i n eta) W /\ rv_dot W W = 1 /\
     across Nn W = rv_scale e (across Nn Iv) /\ rv_dot W Nn = - sqrt k).
Proof. exact refract_ok. Qed.
Print Assumptions C62_refract.
Example C62_refract_case : exists W, visR (@refract _ (Xnum 1000 0 0) (vfin slanted) (vfin (V 0 0 1)) (Fin (4 / 3))) W /\
  rv_dot W W = 1 /\ vx W = 4 / 5 /\ vz W = - (3 / 5).
Proof. exact slanted_glass. Qed.
Example C62_refract_total_case : visR (@refract _ (Xnum 1000 0 0) (vfin slanted) (vfin (V 0 0 1)) (Fin 2)) rv_zero.
Proof. exact slanted_total. Qed.
(** The index ratio used: [n] from outside and [1 / n] from inside. *)
Theorem C62_index_ratio : forall big tiny eps h d Nn U ior n,
  visR h Nn -> visR d U -> isR ior n -> n <> 0 ->
  let ins := @inside _ (Xnum big tiny eps) d (fst (@shading_normals _ (Xnum big tiny eps) h d)) in
  (rv_dot U Nn <= 0 -> isR ins 1 /\ isR (@index_ratio _ (Xnum big tiny eps) ior ins) n) /\
  (0 < rv_dot U Nn -> isR ins (-1) /\ isR (@index_ratio _ (Xnum big tiny eps) ior ins) (/ n)).
Proof. exact ratio_ok. Qed.
Print Assumptions C62_index_ratio.
(** Snell's law asks for [1 / n] from outside. *)
Theorem C62_index_ratio_refuted : exists h d Nn U ior n, visR h Nn /\ visR d U /\ rv_dot Nn Nn = 1 /\ rv_dot U U = 1 /\ isR ior n /\ 1 < n /\
  rv_dot U Nn < 0 /\
  ~ isR (@index_ratio _ (Xnum 1000 0 0) ior (@inside _ (Xnum 1000 0 0) d (fst (@shading_normals _ (Xnum 1000 0 0) h d)))) (/ n).
Proof. exact ratio_reversed. Qed.
Print Assumptions C62_index_ratio_refuted.

(** C63.  The interaction chosen is the one whose share of [0, 1] holds the random number. *)
Theorem C63_choice : forall big tiny eps m s x f rnd r,
  material_is m s -> physical s -> isR x f -> 0 <= f <= 1 -> isR rnd r -> 0 <= r <= 1 ->
  chosen_by s f r (@choose_event _ (Xnum big tiny eps) (@rho _ (Xnum big tiny eps) m x) rnd).
Proof. exact choice_ok. Qed.
Print Assumptions C63_choice.
Example C63_choice_case : @choose_event _ (Xnum 1000 0 0) (@rho _ (Xnum 1000 0 0) (mixed_material (1 / 2)) (Fin (1 / 4))) (Fin (1 / 2)) = Diffuse.
Proof. exact mixed_choice. Qed.
(** The shares are probabilities. *)
Theorem C63_shares : forall s f,
  physical s -> 0 <= f <= 1 -> 1 / 10000 <= likely_sum s f -> shares_ok s f.
Proof. exact shares_range. Qed.
Print Assumptions C63_shares.
Example C63_shares_case : share (mixed_surface (1 / 2)) (1 / 4) Glossy = 4 / 13 /\
  share (mixed_surface (1 / 2)) (1 / 4) Diffuse = 3 / 13 /\ share (mixed_surface (1 / 2)) (1 / 4) Refract = 6 / 13 /\
  share (mixed_surface (1 / 2)) (1 / 4) Emit = 0.
Proof. exact mixed_shares. Qed.
(** The normal used faces the ray. *)
Theorem C63_normals : forall big tiny eps h d Nn U,
  visR h Nn -> visR d U ->
  visR (fst (@shading_normals _ (Xnum big tiny eps) h d)) (rv_scale (-1) Nn) /\
  (rv_dot Nn U <> 0 -> visR (snd (@shading_normals _ (Xnum big tiny eps) h d)) (facing Nn U)) /\
  (exists W, visR (snd (@shading_normals _ (Xnum big tiny eps) h d)) W /\ (W = Nn \/ W = rv_scale (-1) Nn) /\ rv_dot W U <= 0).
Proof. exact normals_ok. Qed.
Print Assumptions C63_normals.
(** The reflectance is Schlick's and lies in [0, 1]. *)
Theorem C63_reflectance : forall big tiny eps h d Nn U eta e,
  visR h Nn -> visR d U -> rv_dot U U = 1 -> rv_dot Nn Nn = 1 ->
  isR eta e -> 0 < e ->
  let eta2 := @ndiv _ (Xnum big tiny eps) (@n1 _ (Xnum big tiny eps)) eta in
  let f := @fresnel_schlick _ (Xnum big tiny eps) (vmap (@nopp _ (Xnum big tiny eps)) d) (snd (@shading_normals _ (Xnum big tiny eps) h d))
             (@ndiv _ (Xnum big tiny eps) (@nsub _ (Xnum big tiny eps) eta eta2) (@nadd _ (Xnum big tiny eps) eta eta2)) in
  isR f (schlick e (Rabs (rv_dot U Nn))) /\ schlick0 e <= schlick e (Rabs (rv_dot U Nn)) <= 1 /\ 0 <= schlick e (Rabs (rv_dot U Nn)).
Proof. exact reflectance_ok. Qed.
Print Assumptions C63_reflectance.
Theorem C63_dissolve_one : forall big tiny eps m s x f rnd r,
  material_is m s -> physical s -> isR x f -> 0 <= f <= 1 -> isR rnd r -> 0 <= r <= 1 ->
  sf_dissolve s = 1 -> @choose_event _ (Xnum big tiny eps) (@rho _ (Xnum big tiny eps) m x) rnd <> Diffuse.
Proof. exact dissolve_one. Qed.
Print Assumptions C63_dissolve_one.
Theorem C63_dissolve_zero : forall big tiny eps m s x f rnd r,
  material_is m s -> physical s -> isR x f -> 0 <= f <= 1 -> isR rnd r -> 0 <= r <= 1 ->
  sf_dissolve s = 0 -> @choose_event _ (Xnum big tiny eps) (@rho _ (Xnum big tiny eps) m x) rnd <> Refract.
Proof. exact dissolve_zero. Qed.
Print Assumptions C63_dissolve_zero.
(** Dissolve 1 means opaque, yet light goes through. *)
Theorem C63_opaque_refuted : exists m s x f rnd r, material_is m s /\ physical s /\ sf_dissolve s = 1 /\
  isR x f /\ 0 <= f <= 1 /\ isR rnd r /\ 0 <= r < 1 /\
  @choose_event _ (Xnum 1000 0 0) (@rho _ (Xnum 1000 0 0) m x) rnd = Refract.
Proof. exact opaque_refracts. Qed.
Print Assumptions C63_opaque_refuted.

(** C64.  The light is made of the faces that emit, each once, and can be made if every face
    has a material. *)
Theorem C64_make_light : forall T (N : num T) faces ids mats l,
  @make_light T N faces ids mats = Ok l ->
  lists_lights (length faces) ids mats l.
Proof. exact @make_light_ok. Qed.
Print Assumptions C64_make_light.
Theorem C64_make_light_defined : forall T (N : num T) faces ids mats,
  (exists l, @make_light T N faces ids mats = Ok l) <->
  (forall f, (f < length faces)%nat -> exists id m, has_material ids mats f id m).
Proof. exact @make_light_defined. Qed.
Print Assumptions C64_make_light_defined.
Example C64_make_light_case : @make_light _ (Xnum 1000 0 0) quad_faces lamp_ids lamp_materials = Ok [(0%nat, 1%Z)].
Proof. exact lamp_light. Qed.
(** A sample: a point of an emitting face, with its direction, distance, radiance and
    density. *)
Theorem C64_sample : forall big tiny eps floor_u lights vertices faces P materials sf x X xi1 xi2 x1 x2,
  floors floor_u -> mesh_are vertices faces P -> materials_are materials sf ->
  (forall f id, In (f, id) lights -> (f < length faces)%nat /\ (0 <= id < Z.of_nat (length materials))%Z) ->
  (0 < length lights)%nat -> (Z.of_nat (length lights) < 4294967296)%Z ->
  visR x X -> isR xi1 x1 -> isR xi2 x2 -> 0 <= x1 <= 1 -> 0 <= x2 <= 1 ->
  exists i f id l, nth_error lights i = Some (f, id) /\
    @sample_direct _ (Xnum big tiny eps) floor_u lights vertices faces materials x xi1 xi2 = Ok l /\
    INR i <= x1 * INR (length lights) <= INR i + 1 /\ (x1 < 1 -> x1 * INR (length lights) < INR i + 1) /\
    (tri_cross (fa faces P f) (fb faces P f) (fc faces P f) <> rv_zero ->
     sample_says (length lights) (fa faces P f) (fb faces P f) (fc faces P f) (sf_emission (sf (Z.to_nat id)))
       (sampled (fa faces P f) (fb faces P f) (fc faces P f) (x1 * INR (length lights) - INR i) x2) X l).
Proof. exact sample_ok. Qed.
Print Assumptions C64_sample.
Example C64_sample_case : exists l,
  @sample_direct _ (Xnum 1000 0 0) xfloor [(0%nat, 1%Z)] quad_vertices quad_faces lamp_materials
    (vfin (V 23 (1 / 4) 0)) (Fin (1 / 4)) (Fin (1 / 2)) = Ok l /\
  isR (ls_dist l) 3 /\ visR (ls_dir l) (V (-1) 0 0) /\ isR (ls_pdf l) (9 / 8) /\
  exists rad, ls_rad l = Some rad /\ visR rad (V 5 5 4).
Proof. exact lamp_sampled. Qed.
(** The points lie on the face, all of them are reached, and a part of the face gets its
    share of the random numbers. *)
Theorem C64_sampled_on : forall A B C x1 x2,
  0 <= x1 <= 1 -> 0 <= x2 <= 1 -> on_tri A B C (sampled A B C x1 x2).
Proof. exact sampled_on. Qed.
Print Assumptions C64_sampled_on.
Theorem C64_sampled_all : forall A B C p,
  on_tri A B C p -> exists x1 x2, 0 <= x1 <= 1 /\ 0 <= x2 <= 1 /\ p = sampled A B C x1 x2.
Proof. exact sampled_all. Qed.
Print Assumptions C64_sampled_all.
Theorem C64_sampled_even : forall A B C a b x1 x2,
  tri_cross A B C <> rv_zero -> 0 < a <= 1 -> 0 < b <= 1 -> 0 < x1 <= 1 -> 0 <= x2 <= 1 ->
  let D := cut_b A (cut_b B C b) a in
  (on_tri A (cut_b A B a) D (sampled A B C x1 x2) <-> x1 <= a * a /\ x2 <= b) /\
  tri_area A (cut_b A B a) D = a * a * b * tri_area A B C.
Proof. exact sampled_even. Qed.
Print Assumptions C64_sampled_even.
(** Without any emitting face sampling is undefined. *)
Theorem C64_sample_empty : forall big tiny eps floor_u vertices faces materials x xi1 xi2 x1,
  floors floor_u -> isR xi1 x1 -> @sample_direct _ (Xnum big tiny eps) floor_u [] vertices faces materials x xi1 xi2 = UB UBprim.
Proof. exact sample_empty. Qed.
Print Assumptions C64_sample_empty.
Theorem C64_no_lights_refuted : exists floor_u vertices faces materials x xi1 xi2, floors floor_u /\
  @make_light _ (Xnum 1000 0 0) faces [0; 0; 0]%Z materials = Ok [] /\
  @sample_direct _ (Xnum 1000 0 0) floor_u [] vertices faces materials x xi1 xi2 = UB UBprim.
Proof. exact dark_undefined. Qed.
Print Assumptions C64_no_lights_refuted.

(** C65.  The shadow test between points at distance 1 finds every face between them. *)
Theorem C65_shadow_unit : forall big tiny vertices faces P ms part opt nodes st p1 p2 P1 P2,
  mesh_are vertices faces P -> @make_mesh _ (Xnum big tiny 0) vertices faces = Ok ms -> faces_bounded big faces P ->
  partition_ok part -> @build _ (Xnum big tiny 0) _ part [] (@mesh_coll _ (Xnum big tiny 0) ms) opt = Ok (nodes, st) ->
  (forall k d, node_depth nodes k d -> (d <= 26)%nat) ->
  visR p1 P1 -> visR p2 P2 -> no_neg_zeros p2 -> rv_norm (rv_sub P2 P1) = 1 ->
  (vz P1 = vz P2 -> off_face_planes (vz P1) faces P) ->
  exists b, @check_for_occluder _ (Xnum big tiny 0) p1 p2 ms nodes = Ok b /\
    (b = true <-> exists i, crosses_segment faces P P1 P2 (1 / 100000) (1 - 1 / 100000) i).
Proof. exact shadow_unit. Qed.
Print Assumptions C65_shadow_unit.
Example C65_shadow_unit_case : exists ms nodes st,
  @make_mesh _ (Xnum 1000 0 0) quad_vertices quad_faces = Ok ms /\
  @build _ (Xnum 1000 0 0) _ libstdcxx_partition [] (@mesh_coll _ (Xnum 1000 0 0) ms) five_opt = Ok (nodes, st) /\
  @check_for_occluder _ (Xnum 1000 0 0) (vfin (V (19 / 2) 0 0)) (vfin (V (21 / 2) 0 0)) ms nodes = Ok true /\
  @check_for_occluder _ (Xnum 1000 0 0) (vfin (V (25 / 2) 0 0)) (vfin (V (27 / 2) 0 0)) ms nodes = Ok false.
Proof. exact quad_blocked. Qed.
(** At distance 1 or more.  Missing: crossings near the first point, at less than 1/100000
    of the distance. *)
Theorem C65_shadow_partial : forall big tiny eps, 0 <= eps -> forall vertices faces P ms part opt nodes st p1 p2 P1 P2,
  mesh_are vertices faces P -> @make_mesh _ (Xnum big tiny eps) vertices faces = Ok ms -> faces_bounded big faces P ->
  partition_ok part -> @build _ (Xnum big tiny eps) _ part [] (@mesh_coll _ (Xnum big tiny eps) ms) opt = Ok (nodes, st) ->
  (forall k d, node_depth nodes k d -> (d <= 26)%nat) ->
  visR p1 P1 -> visR p2 P2 -> no_neg_zeros p2 -> 1 <= rv_norm (rv_sub P2 P1) ->
  (vz P1 = vz P2 -> off_face_planes (vz P1) faces P) ->
  exists b, @check_for_occluder _ (Xnum big tiny eps) p1 p2 ms nodes = Ok b /\
    (b = true -> exists i, nears_segment (4 * eps) faces P P1 P2 (1 / 100000) (rv_norm (rv_sub P2 P1) - 1 / 100000) i) /\
    (b = false -> forall i, ~ crosses_segment faces P P1 P2 (1 / 100000 * rv_norm (rv_sub P2 P1)) (rv_norm (rv_sub P2 P1) - 1 / 100000) i).
Proof. exact shadow_wide. Qed.
Print Assumptions C65_shadow_partial.
(** At distance 1/2 the answer depends on the direction. *)
Theorem C65_shadow_refuted : exists vertices m nodes st p q,
  @make_mesh _ F64 vertices [V 0 1 2]%nat = Ok m /\
  @build _ F64 _ libstdcxx_partition [] (@mesh_coll _ F64 m) default_options = Ok (nodes, st) /\
  @check_for_occluder _ F64 p q m nodes = Ok false /\ @check_for_occluder _ F64 q p m nodes = Ok true.
Proof. exact near_refutes. Qed.
Print Assumptions C65_shadow_refuted.

(** C69.  A pixel is a finite colour without negative parts, for all random numbers. *)
Theorem C69_pixel : forall big tiny eps vertices faces P ms part opt nodes st material_ids materials sf lights fcos fsin pi p floor_u rand_max width height x y ks rnd,
  mesh_are vertices faces P -> @make_mesh _ (Xnum big tiny eps) vertices faces = Ok ms -> partition_ok part ->
  @build _ (Xnum big tiny eps) _ part [] (@mesh_coll _ (Xnum big tiny eps) ms) opt = Ok (nodes, st) ->
  (forall k d, node_depth nodes k d -> (d <= 26)%nat) -> proper P faces -> normals_defined (4 * eps) faces P ->
  materials_valid faces material_ids materials sf ->
  @make_light _ (Xnum big tiny eps) faces material_ids materials = Ok lights -> lights <> [] ->
  (Z.of_nat (length faces) < 4294967296)%Z ->
  computes fcos cos -> computes fsin sin -> isR pi p -> 0 < p -> floors floor_u ->
  (0 < width)%Z -> (0 < height)%Z ->
  (forall i, random_number rand_max (fst (ks i)) /\ random_number rand_max (snd (ks i))) ->
  (forall s i k, random_number rand_max (rnd s i k)) ->
  exists c, @pixel _ (Xnum big tiny eps) fcos fsin pi floor_u rand_max ms nodes material_ids materials lights width height x y ks rnd = Ok c /\ colour c.
Proof. exact pixel_sound_all. Qed.
Print Assumptions C69_pixel.
Example C69_pixel_case : exists ms nodes st,
  @make_mesh _ (Xnum 1000 0 0) quad_vertices quad_faces = Ok ms /\
  @build _ (Xnum 1000 0 0) _ libstdcxx_partition [] (@mesh_coll _ (Xnum 1000 0 0) ms) five_opt = Ok (nodes, st) /\
  forall ks rnd, (forall i, random_number 32767 (fst (ks i)) /\ random_number 32767 (snd (ks i))) ->
    (forall s i k, random_number 32767 (rnd s i k)) ->
    exists c, @pixel _ (Xnum 1000 0 0) xcos xsin (Fin PI) xfloor 32767 ms nodes lamp_ids lamp_materials [(0%nat, 1%Z)] 512 512 7 9 ks rnd = Ok c /\
      colour c.
Proof. exact quad_pixel. Qed.
Theorem C69_bounce : forall big tiny eps vertices faces P ms part opt nodes st material_ids materials sf lights fcos fsin pi p floor_u rand_max b rnd q,
  mesh_are vertices faces P -> @make_mesh _ (Xnum big tiny eps) vertices faces = Ok ms -> partition_ok part ->
  @build _ (Xnum big tiny eps) _ part [] (@mesh_coll _ (Xnum big tiny eps) ms) opt = Ok (nodes, st) ->
  (forall k d, node_depth nodes k d -> (d <= 26)%nat) -> proper P faces -> normals_defined (4 * eps) faces P ->
  materials_valid faces material_ids materials sf ->
  @make_light _ (Xnum big tiny eps) faces material_ids materials = Ok lights -> lights <> [] ->
  (Z.of_nat (length faces) < 4294967296)%Z ->
  computes fcos cos -> computes fsin sin -> isR pi p -> 0 < p -> floors floor_u ->
  (forall k, random_number rand_max (rnd k)) -> path_ok q ->
  exists go q', @bounce _ (Xnum big tiny eps) fcos fsin pi floor_u rand_max ms nodes material_ids materials lights b rnd q = Ok (go, q') /\ path_ok q'.
Proof. exact bounce_sound_all. Qed.
Print Assumptions C69_bounce.
Example C69_bounce_case : one_bounce [V 0 1 2]%nat = Some (V (f64 5 0) (f64 5 0) (f64 4 0)).
Proof. exact lamp_seen. Qed.
(** Where the interpolated normal vanishes the colour is not a number. *)
Theorem C69_normals_refuted : exists vertices faces m nodes st ids materials lights rnd q go q',
  @make_mesh _ F64 vertices faces = Ok m /\
  @build _ F64 _ libstdcxx_partition [] (@mesh_coll _ F64 m) default_options = Ok (nodes, st) /\
  pa_color q = vconst (f64 0 0) /\ (forall k, random_number 32767 (rnd k)) /\
  @bounce _ F64 (fun x => x) (fun x => x) (f64 3 0) (fun _ => None) 32767 m nodes ids materials lights 0 rnd q = Ok (go, q') /\
  pa_color q' = vconst S754_nan.
Proof. exact twice_refutes. Qed.
Print Assumptions C69_normals_refuted.
