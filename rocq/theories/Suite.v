(** The assert helpers of the project's own tests, for the model.

    /repo/test checks single rays, points and boxes in float and in double.  The
    files Suite*.v hold every one of these checks with the model's answer to it, so
    that the model can be compared with what its authors expect of the code.  These
    are tests, not proofs. *)

From Coq Require Import ZArith List Bool.
From Coq.Floats Require Import SpecFloat.
From Verif Require Import Num NumF Vec Ray Bvh Traverse Cylinder CylDist Embree.
Import ListNotations.
Local Open Scope Z_scope.

Definition l64 := f64.
Definition l32 := f32.
Definition z : spec_float := S754_zero false.
Definition nz : spec_float := S754_zero true.
Definition M (a b c : vec spec_float) : mat spec_float := V a b c.

(** doctest's Approx: a double compared with relative tolerance 100 times float's
    epsilon; a float operand is widened first. *)
Definition wide (x : spec_float) : spec_float :=
  match x with
  | S754_finite s m e => binary_normalize 53 1024 (cond_Zopp s (Zpos m)) e s
  | _ => x
  end.
Definition tolerance : spec_float := SFmul 53 1024 (f64 1 (-23)) (f64 100 0).
Definition approx (a b : spec_float) : bool :=
  let a := wide a in let b := wide b in
  let m := if SFltb (SFabs a) (SFabs b) then SFabs b else SFabs a in
  SFltb (SFabs (SFsub 53 1024 a b)) (SFmul 53 1024 tolerance (SFadd 53 1024 (f64 1 0) m)).
Definition vapprox (a b : vec spec_float) : bool :=
  approx (vx a) (vx b) && approx (vy a) (vy b) && approx (vz a) (vz b).

Definition on {A : Type} (e : res A) (f : A -> bool) : bool :=
  match e with Ok a => f a | _ => false end.

(** Checks of one collection; line 0 fails if it cannot be made. *)
Definition on_all {A : Type} (e : res A) (f : A -> list (nat * bool)) : list (nat * bool) :=
  match e with Ok a => f a | _ => [(0%nat, false)] end.

Definition same (a b : option nat) : bool :=
  match a, b with
  | Some i, Some j => Nat.eqb i j
  | None, None => true
  | _, _ => false
  end.

Section Helpers.
Context {N : num spec_float} {P I : Type}.
Local Notation F := spec_float.

(** Ray's constructor with its default arguments, ray.h:56-58. *)
Definition ray_of (o d : vec F) : ray F := make_ray o d n0 nmaxv false.

(** assert_helper.h:29-40 *)
Definition box_ok (c : coll F P) (i : nat) (lo hi : vec F) : bool :=
  on (c_box c i) (fun b => vapprox (fst b) lo && vapprox (snd b) hi).

(** assert_helper.h:52-78 *)
Definition boxes_ok (c : coll F P) (lo hi : vec F) : bool :=
  on (mapM (c_box c) (seq 0 (c_size c))) (fun bs =>
    let lo' := fold_left (fun a b => vmap2 smin a (fst b)) bs (vconst nmaxv) in
    let hi' := fold_left (fun a b => vmap2 smax a (snd b)) bs (vconst ntiny) in
    vapprox lo' lo && vapprox hi' hi).

(** assert_helper.h:80-88 *)
Definition center_ok (c : coll F P) (i : nat) (p : vec F) : bool :=
  on (c_center c i) (fun q => vapprox q p).

(** assert_helper.h:102-106 *)
Definition dist_ok (c : coll F P) (dist : P -> vec F -> F) (i : nat) (p : vec F) (d : F) : bool :=
  on (c_prim c i) (fun q => approx (dist q p) d).

Definition hit_ok (h : bool) (rh : rayhit F) (hit : bool) (id : option nat) (d : F) (n : vec F) : bool :=
  Bool.eqb h hit && same (h_prim rh) id && approx (h_distance rh) d && vapprox (h_normal rh) n.

(** assert_helper.h:122-139 *)
Definition prim_answer (c : coll F P) (isx : isector F P I) (r : ray F) : res (bool * rayhit F) :=
  do q <- c_prim c 0;
  let (h, i) := is_prim isx (is_prepare isx r) q r in
  if h then do rh <- is_post isx i new_rayhit; Ok (true, rh) else Ok (false, new_rayhit).
Definition prim_ok (c : coll F P) (isx : isector F P I) (r : ray F)
    (hit : bool) (id : option nat) (d : F) (n : vec F) : bool :=
  on (prim_answer c isx r) (fun a => hit_ok (fst a) (snd a) hit id d n).

(** assert_helper.h:211-228, and without the primitive's number (156-171), with the
    distance only (177-190) and with the answer only (192-209) *)
Definition tree (c : coll F P) : res (list (node F P) * stats) := build libstdcxx_partition [] c default_options.
Local Notation built := (res (list (node F P) * stats)).
Definition bvh_answer (b : built) (isx : isector F P I) (r : ray F) : res (bool * rayhit F) :=
  do b <- b; traverse isx (fst b) r new_rayhit.
Definition bvh_ok (b : built) (isx : isector F P I) (r : ray F)
    (hit : bool) (id : option nat) (d : F) (n : vec F) : bool :=
  on (bvh_answer b isx r) (fun a => hit_ok (fst a) (snd a) hit id d n).
Definition bvh_any_ok (b : built) (isx : isector F P I) (r : ray F) (hit : bool) (d : F) (n : vec F) : bool :=
  on (bvh_answer b isx r) (fun a => hit_ok (fst a) (snd a) hit (h_prim (snd a)) d n).
Definition bvh_dist_ok (b : built) (isx : isector F P I) (r : ray F) (hit : bool) (d : F) : bool :=
  on (bvh_answer b isx r) (fun a => Bool.eqb (fst a) hit && approx (h_distance (snd a)) d).
Definition bvh_flag_ok (b : built) (isx : isector F P I) (r : ray F) (hit : bool) : bool :=
  on (bvh_answer b isx r) (fun a => Bool.eqb (fst a) hit).
End Helpers.

(** The checks of test_bvh/test_intersect.cpp: intersect_node's answer and the
    interval it leaves behind. *)
Section Node.
Context {N : num spec_float}.
Local Notation F := spec_float.
Definition node_answer (lo hi : vec F) (r : ray F) (tmin tmax : F) : bool * (F * F) :=
  let nd := @Node F unit lo hi true None None None [] in
  let (a, b) := slab_axis (vx lo) (vx hi) (vx (origin r)) (vx (direction_inv r)) (vx (direction_sign r)) tmin tmax in
  let (a, b) := slab_axis (vy lo) (vy hi) (vy (origin r)) (vy (direction_inv r)) (vy (direction_sign r)) a b in
  let (a, b) := slab_axis (vz lo) (vz hi) (vz (origin r)) (vz (direction_inv r)) (vz (direction_sign r)) a b in
  (intersect_node tmin tmax nd r, (a, b)).
Definition node_hit_ok (a : bool * (F * F)) (hit : bool) : bool := Bool.eqb (fst a) hit.
Definition node_tmin_ok (a : bool * (F * F)) (d : F) : bool := approx (fst (snd a)) d.
Definition node_tmax_ok (a : bool * (F * F)) (d : F) : bool := approx (snd (snd a)) d.
End Node.

(** The Embree tests.  For them Embree is taken to call the callback of every object
    of the scene once, in the order of their numbers. *)
Section Emb.
Context {N : num spec_float}.
Local Notation F := spec_float.
Definition estart (o : vec F) (tnear : F) (d : vec F) (tfar : F) : rtc_rayhit F :=
  RTCRayHit (RTCRay o d tnear tfar) (RTCHit (vconst n0) n0 n0 None None None).
Fixpoint shoot (fs : list (rtc_rayhit F -> res (rtc_rayhit F))) (rh : rtc_rayhit F) : res (rtc_rayhit F) :=
  match fs with
  | [] => Ok rh
  | f :: fs => do rh <- f rh; shoot fs rh
  end.
Definition tfar_ok (a : res (rtc_rayhit F)) (d : F) : bool := on a (fun rh => approx (r_tfar (rh_ray rh)) d).
Definition ng_ok (c : vec F -> F) (a : res (rtc_rayhit F)) (d : F) : bool :=
  on a (fun rh => approx (c (e_ng (rh_hit rh))) d).
Definition eprim_ok (a : res (rtc_rayhit F)) (i : nat) : bool := on a (fun rh => same (e_prim (rh_hit rh)) (Some i)).
Definition bound_ok (side : vec F * vec F -> vec F) (c : vec F -> F) (a : res (vec F * vec F)) (d : F) : bool :=
  on a (fun b => approx (c (side b)) d).
End Emb.

(** distance_to_surface for cylinders with the constants of cylinder.h:591-598 and 620
    in double and in float, and blaze::isZero for the strict comparison. *)
Definition cyl64 : cylinder spec_float -> vec spec_float -> spec_float :=
  @cylinder_distance _ F64 (f64 944473296573929 (-73)) (f64 4278419646001971 (-52)) (fun x => SFeqb x z).
Definition cyl32 : cylinder spec_float -> vec spec_float -> spec_float :=
  @cylinder_distance _ F32 (f32 13743895 (-37)) (f32 15938355 (-24)) (fun x => SFeqb x z).

(** The lines of the checks that fail. *)
Definition failing (l : list (nat * bool)) : list nat :=
  map fst (filter (fun x => negb (snd x)) l).
