(** examples/path_tracer/main.cc: sampling, scattering, light sampling, shadow test and
    the path loop.

    std::rand() is modelled by the numbers it returns, std::cos, std::sin, std::floor
    with its conversion to unsigned, and the constant pi by arguments.  Decimal
    literals are quotients of integers.  The order in which the arguments of a call
    are evaluated is unspecified; it decides only which random number goes to which
    argument. *)

From Coq Require Import ZArith List Bool Arith.
From Verif Require Import Num Vec Datatypes Ray Bvh Traverse Trimesh.
Import ListNotations.

(** tinyobj::material_t, common/tiny_obj_loader.h:14-38, the members used.  Its floats
    are converted to T, which is exact. *)
Record material (T : Type) := Material {
  mt_diffuse : vec T; mt_emission : vec T; mt_specular : vec T; mt_transmittance : vec T;
  mt_ior : T; mt_dissolve : T }.
Arguments Material {T}.
Arguments mt_diffuse {T} m.
Arguments mt_emission {T} m.
Arguments mt_specular {T} m.
Arguments mt_transmittance {T} m.
Arguments mt_ior {T} m.
Arguments mt_dissolve {T} m.

(** What the call at main.cc:99-140 returns; [ls_rad] is None if dstRadiance is not
    written. *)
Record light_sample (T : Type) := LightSample {
  ls_dir : vec T; ls_dist : T; ls_pdf : T; ls_rad : option (vec T) }.
Arguments LightSample {T}.
Arguments ls_dir {T} l.
Arguments ls_dist {T} l.
Arguments ls_pdf {T} l.
Arguments ls_rad {T} l.

(** The surface interactions, main.cc:411-452. *)
Inductive event := Glossy | Diffuse | Refract | Emit | Stop.

(** [v[i]] with an index of type unsigned int. *)
Definition atZ {A} (w : ub) (l : list A) (i : Z) : res A :=
  if ((0 <=? i) && (i <? Z.of_nat (length l)))%Z then at_ w l (Z.to_nat i) else UB w.

(** static_cast<unsigned int> of an integer. *)
Definition u32 (z : Z) : Z := (z mod 4294967296)%Z.

Section Model.
Context {T : Type} {N : num T}.
Local Open Scope num_scope.

(** main.cc:23-26 uniform; [k] is what std::rand() returns. *)
Definition uniform (rand_max k : Z) (min max : T) : T :=
  min + nofZ k / nofZ rand_max * (max - min).

(** main.cc:29-43 revised_onb: b1 and b2. *)
Definition revised_onb (n : vec T) : vec T * vec T :=
  if vz n <? n0 then
    let a := n1 / (n1 - vz n) in
    let b := vx n * vy n * a in
    (V (n1 - vx n * vx n * a) (- b) (vx n), V b (vy n * vy n * a - n1) (- vy n))
  else
    let a := n1 / (n1 + vz n) in
    let b := - vx n * vy n * a in
    (V (n1 - vx n * vx n * a) b (- vx n), V b (n1 - vy n * vy n * a) (- vy n)).

(** main.cc:45-62 direction_cos_theta with the two random numbers [k1], [k2]. *)
Definition direction_cos_theta (fcos fsin : T -> T) (pi : T) (rand_max k1 k2 : Z) (normal : vec T) : vec T :=
  let u1 := uniform rand_max k1 n0 n1 in
  let phi := uniform rand_max k2 n0 (n2 * pi) in
  let r := nsqrt u1 in
  let x := r * fcos phi in
  let y := r * fsin phi in
  let z := nsqrt (n1 - u1) in
  let (xDir, yDir) := revised_onb normal in
  vadd (vadd (vscaler xDir x) (vscaler yDir y)) (vscale z normal).

(** main.cc:64-67 pdf_a_to_w. *)
Definition pdf_a_to_w (pdf dist cos_there : T) : T := pdf * (dist * dist) / nabs cos_there.

(** main.cc:91-96, one face of the MeshLight constructor. *)
Definition is_emissive (m : material T) : bool :=
  (n0 <? vx (mt_emission m)) || (n0 <? vy (mt_emission m)) || (n0 <? vz (mt_emission m)).

(** main.cc:87-97 MeshLight constructor: pairs of face and material number.  [face] is
    the loop variable, [n] the number of faces left. *)
Fixpoint emissive_faces (material_ids : list Z) (materials : list (material T)) (face n : nat)
    : res (list (nat * Z)) :=
  match n with
  | O => Ok []
  | S n' =>
      do mtl <- at_ UBprim material_ids face;
      do m <- atZ UBprim materials mtl;
      do rest <- emissive_faces material_ids materials (S face) n';
      Ok (if is_emissive m then (face, mtl) :: rest else rest)
  end.
Definition make_light (faces : list (vec nat)) (material_ids : list Z) (materials : list (material T))
    : res (list (nat * Z)) :=
  emissive_faces material_ids materials 0 (length faces).

(** main.cc:99-140 sample_direct.  [floor_u] is static_cast<unsigned>(std::floor(.)),
    None where undefined.  With no emissive faces num_faces - 1 wraps around. *)
Definition sample_direct (floor_u : T -> option Z) (lights : list (nat * Z)) (vertices : list (vec T))
    (faces : list (vec nat)) (materials : list (material T)) (x : vec T) (Xi1 Xi2 : T)
    : res (light_sample T) :=
  let num_faces := Z.of_nat (length lights) in
  do k <- match floor_u (Xi1 * nofZ num_faces) with Some k => Ok k | None => UB UBconv end;
  let face := Z.min k (u32 (num_faces - 1)) in
  let lightPickPdf := n1 / nofZ num_faces in
  let Xi1 := Xi1 * nofZ num_faces - nofZ face in
  do ef <- atZ UBprim lights face;
  do ff <- at_ UBprim faces (fst ef);
  do vs <- face_vertices vertices ff;
  let '(v0, v1, v2) := vs in
  let Xi1_ := nsqrt Xi1 in
  let c0 := n1 - Xi1_ in
  let c1 := Xi1_ * (n1 - Xi2) in
  let c2 := Xi1_ * Xi2 in
  let tmp := cross (vsub v1 v0) (vsub v2 v0) in
  let nrm := normalize tmp in
  let area := norm tmp / n2 in
  let lp := vadd (vadd (vscale c0 v0) (vscale c1 v1)) (vscale c2 v2) in
  let areaPdf := lightPickPdf * (n1 / area) in
  let dir := vsub lp x in
  let dist := norm dir in
  do m <- atZ UBprim materials (snd ef);
  if nofZ 1 / nofZ 1000000 <? dist then
    let dir := normalize dir in
    let cosAtLight := smax (dot (vmap nopp dir) nrm) n0 in
    Ok (LightSample dir dist (pdf_a_to_w areaPdf dist cosAtLight) (Some (vscaler (mt_emission m) cosAtLight)))
  else Ok (LightSample dir dist n0 None).

(** main.cc:223-224 sign. *)
Definition sign (f : T) : T := if f <? nofZ 0 then nofZ (-1) else nofZ 1.

(** main.cc:226-227 reflect. *)
Definition reflect (I Nv : vec T) : vec T := vsub I (vscale (n2 * dot I Nv) Nv).

(** main.cc:229-237 refract. *)
Definition refract (I Nv : vec T) (eta : T) : vec T :=
  let NdotI := dot Nv I in
  let k := n1 - eta * eta * (n1 - NdotI * NdotI) in
  if k <? n0 then vconst n0
  else vsub (vscale eta I) (vscale (eta * NdotI + nsqrt k) Nv).

(** main.cc:239-240 pow5. *)
Definition pow5 (v : T) : T := v * v * v * v * v.

(** main.cc:242-246 fresnel_schlick. *)
Definition fresnel_schlick (H nrm : vec T) (n : T) : T :=
  let r0 := n * n in
  r0 + (n1 - r0) * pow5 (n1 - dot H nrm).

(** main.cc:365-370: the reported normal turned round, and the same facing the ray. *)
Definition shading_normals (hit_normal dir : vec T) : vec T * vec T :=
  let nrm := vmap nopp hit_normal in
  (nrm, if n0 <? dot nrm dir then vscaler nrm (nopp n1) else nrm).

(** main.cc:382-385: which side, and the ratio of refraction indices. *)
Definition inside (dir original : vec T) : T := sign (dot dir original).
Definition index_ratio (ior ins : T) : T := if ins <? nofZ 0 then n1 / ior else ior.

(** main.cc:384-408: probabilities of the interactions, before and after division by
    their sum.  [rho] is (rhoS, rhoD, rhoR, rhoE). *)
Definition third_dot (c : vec T) : T := dot (vdivs (V (nofZ 1) (nofZ 1) (nofZ 1)) (nofZ 3)) c.
Definition rho (m : material T) (fresnel : T) : T * T * T * T :=
  (third_dot (mt_specular m) * fresnel,
   third_dot (mt_diffuse m) * (n1 - fresnel) * (n1 - mt_dissolve m),
   third_dot (mt_transmittance m) * (n1 - fresnel) * mt_dissolve m,
   third_dot (mt_emission m)).

(** main.cc:398-442: the interaction chosen by the random number [rnd]. *)
Definition choose_event (rhos : T * T * T * T) (rnd : T) : event :=
  let '(rhoS, rhoD, rhoR, rhoE) := rhos in
  let totalrho := rhoS + rhoD + rhoR + rhoE in
  if totalrho <? nofZ 1 / nofZ 10000 then Stop
  else
    let rhoS := rhoS / totalrho in
    let rhoD := rhoD / totalrho in
    let rhoR := rhoR / totalrho in
    if rnd <? rhoS then Glossy
    else if rnd <? rhoS + rhoD then Diffuse
    else if rnd <? rhoD + rhoS + rhoR then Refract
    else Emit.

(** main.cc:258-272 check_for_occluder; [ray_eps] is 0.00001. *)
Definition ray_eps : T := nofZ 1 / nofZ 100000.
Definition shadow_ray (p1 p2 : vec T) : ray T :=
  let dir := vsub p2 p1 in
  make_ray p1 dir ray_eps (norm dir - ray_eps) true.
Definition check_for_occluder (p1 p2 : vec T) (ms : mesh T) (nodes : list (node T (triangle T))) : res bool :=
  do a <- traverse (tri_isector ms) nodes (shadow_ray p1 p2) new_rayhit;
  Ok (fst a).
End Model.

(** The state of a path, main.cc:330-340. *)
Record path (T : Type) := Path {
  pa_org : vec T; pa_dir : vec T; pa_color : vec T; pa_weight : vec T; pa_emit : bool }.
Arguments Path {T}.
Arguments pa_org {T} p.
Arguments pa_dir {T} p.
Arguments pa_color {T} p.
Arguments pa_weight {T} p.
Arguments pa_emit {T} p.

Section Loop.
Context {T : Type} {N : num T}.
Variables (fcos fsin : T -> T) (pi : T) (floor_u : T -> option Z) (rand_max : Z).
Variables (ms : mesh T) (nodes : list (node T (triangle T))) (material_ids : list Z)
  (materials : list (material T)) (lights : list (nat * Z)).
Local Open Scope num_scope.

Definition uniform01 (k : Z) : T := uniform rand_max k (nofZ 0) (nofZ 1).

(** main.cc:421-436, the light arriving directly at [x]; [k1], [k2] are the random
    numbers. *)
Definition direct_light (m : material T) (x nrm weight color : vec T) (k1 k2 : Z) : res (vec T) :=
  let brdf := vscale (n1 / pi) (mt_diffuse m) in
  do l <- sample_direct floor_u lights (m_vertices ms) (m_faces ms) materials x (uniform01 k1) (uniform01 k2);
  if n0 <? ls_pdf l then
    match ls_rad l with
    | None => UB UBprim
    | Some rad =>
        let cosTheta := nabs (dot (ls_dir l) nrm) in
        let light := vdivs (vscaler (vmulc brdf rad) cosTheta) (ls_pdf l) in
        do occ <- check_for_occluder x (vadd x (vscaler (ls_dir l) (ls_dist l))) ms nodes;
        Ok (vadd color (vscaler (vmulc light weight) (if negb occ then nofZ 1 else nofZ 0)))
    end
  else Ok color.

(** main.cc:342-456, one bounce.  [rnd k] is the k-th value of std::rand() in this
    bounce.  The answer says whether the path goes on. *)
Definition bounce (b : nat) (rnd : nat -> Z) (p : path T) : res (bool * path T) :=
  let termination := nofZ 1 / nofZ 5 in
  if (3 <? b)%nat && (uniform01 (rnd 0%nat) <? termination) then Ok (false, p)
  else
    let rr_fac := if (3 <? b)%nat then n1 - termination else n1 in
    let weight := vscaler (pa_weight p) (n1 / rr_fac) in
    let r := make_ray (pa_org p) (pa_dir p) (nofZ 1 / nofZ 1000) nmaxv false in
    do a <- traverse (tri_isector ms) nodes r new_rayhit;
    let (hit, rh) := a in
    if negb hit then Ok (false, Path (pa_org p) (pa_dir p) (pa_color p) weight (pa_emit p))
    else
      let org := vadd (pa_org p) (vscaler (direction r) (h_distance rh)) in
      let (original, nrm) := shading_normals (h_normal rh) (direction r) in
      do fid <- match h_prim rh with Some i => Ok i | None => UB UBprim end;
      do mid <- at_ UBprim material_ids fid;
      do m <- atZ UBprim materials mid;
      let ins := inside (direction r) original in
      let eta := index_ratio (mt_ior m) ins in
      let eta2 := n1 / eta in
      let fresnel := fresnel_schlick (vmap nopp (direction r)) nrm ((eta - eta2) / (eta + eta2)) in
      match choose_event (rho m fresnel) (uniform01 (rnd 1%nat)) with
      | Stop => Ok (false, Path org (pa_dir p) (pa_color p) weight (pa_emit p))
      | Glossy =>
          Ok (true, Path org (reflect (direction r) nrm) (pa_color p) (vmulc weight (mt_specular m)) true)
      | Diffuse =>
          do color <- direct_light m org nrm weight (pa_color p) (rnd 2%nat) (rnd 3%nat);
          Ok (true, Path org (direction_cos_theta fcos fsin pi rand_max (rnd 4%nat) (rnd 5%nat) nrm) color
                      (vmulc weight (mt_diffuse m)) false)
      | Refract =>
          Ok (true, Path org (refract (direction r) (vscale (- ins) original) eta) (pa_color p)
                      (vmulc weight (mt_transmittance m)) true)
      | Emit =>
          let color :=
            if pa_emit p then
              vadd (pa_color p) (vscale (smax (dot original (direction r)) n0) (vmulc (mt_emission m) weight))
            else pa_color p in
          Ok (false, Path org (pa_dir p) color weight (pa_emit p))
      end.

(** main.cc:341-456, at most uMaxBounces bounces; [n] is the number left. *)
Fixpoint bounces (n b : nat) (rnd : nat -> nat -> Z) (p : path T) : res (path T) :=
  match n with
  | O => Ok p
  | S n' =>
      do a <- bounce b (rnd b) p;
      let (go, p') := a in
      if go then bounces n' (S b) rnd p' else Ok p'
  end.
Definition uMaxBounces : nat := 10.

(** main.cc:328-340 and 458: one sample of pixel (x, y). *)
Definition pixel_sample (width height x y : Z) (k1 k2 : Z) (rnd : nat -> nat -> Z) : res (vec T) :=
  let px := nofZ x + uniform rand_max k1 (- nhalf) nhalf in
  let py := nofZ y + uniform rand_max k2 (- nhalf) nhalf in
  let dir := V (px / nofZ width - nhalf) (py / nofZ height - nhalf) (nofZ (-1)) in
  do p <- bounces uMaxBounces 0 rnd
            (Path (V (nofZ 0) (nofZ 5) (nofZ 20)) dir (vconst (nofZ 0)) (vconst (nofZ 1)) true);
  Ok (pa_color p).

(** main.cc:326-327, 458-461: the sum over the samples and its mean; [n] samples are
    left. *)
Fixpoint pixel_sum (n : nat) (width height x y : Z) (ks : nat -> Z * Z) (rnd : nat -> nat -> nat -> Z)
    (acc : vec T) : res (vec T) :=
  match n with
  | O => Ok acc
  | S n' =>
      do c <- pixel_sample width height x y (fst (ks n')) (snd (ks n')) (rnd n');
      pixel_sum n' width height x y ks rnd (vadd acc c)
  end.
Definition SPP : nat := 100.
Definition pixel (width height x y : Z) (ks : nat -> Z * Z) (rnd : nat -> nat -> nat -> Z) : res (vec T) :=
  do c <- pixel_sum SPP width height x y ks rnd (vconst (nofZ 0));
  Ok (vscaler c (nofZ 1 / nofZ (Z.of_nat SPP))).
End Loop.
