(** Nearest hits of Embree-backed scenes: a concrete case and a counterexample. *)

From Coq Require Import Reals ZArith List Bool Lra Lia Floats.SpecFloat.
From Verif Require Import Num NumR NumX NumF Vec Ray Bvh Sphere Plane Cylinder Scene Embree EmbreeScene.
From Verif Require Import SpecReal SpecSphere SpecPlane SpecScene SpecEmbScene SpecEmbNear.
From Verif Require Import PfPart PfX PfPlane PfEmbNear CaseSphere CasePlane CaseEmbree.
Import ListNotations.
Local Open Scope R_scope.

(** A ball in front of the ray and a square beside it: Embree need not call the
    square's callback. *)
Definition ball_and_square : list (call xr) :=
  [AddSpheres [vfin (V 10 0 0)] [Fin 2]; AddPlanes [vfin (V 0 0 50)] [Fin 2] [Fin 2] [mfin ident]].
Definition no_mesh (g : nat) (t : R) : Prop := False.
Definition no_tri (g : nat) (v : list (vec xr)) (f : list (vec nat)) (rh : rtc_rayhit xr) := rh.

Lemma near_case : exists q l,
  (forall c, In c ball_and_square -> first_given c) /\
  @e_run _ (Xnum 1000 0 0) libstdcxx_partition true no_tri (fun _ _ => [0%nat]) (@new_escene _ (Options 1 26 64))
    (ball_and_square ++ [Commit]) = Ok (q, l) /\
  (forall o, In o (q_geoms q) -> fine o) /\
  finds no_mesh no_tri (V 0 0 0) (V 1 0 0) 1 /\
  (forall w, covers (Xnum 1000 0 0) no_mesh q [0%nat] (V 0 0 0) (V 1 0 0) 1 w) /\
  exists o, nth_error (q_geoms q) 0 = Some o /\ geom_hit no_mesh (V 0 0 0) (V 1 0 0) 1 0 o 8.
Proof.
  do 2 eexists. split; [|split; [|split; [|split; [|split]]]].
  - intros c [<-|[<-|[]]]; repeat split; discriminate.
  - reflexivity.
  - intros o [<-|[<-|[]]]; cbn.
    + exists (V 10 0 0), 2. split; [apply vis|]. split; [reflexivity|lra].
    + exists (V 0 0 50), 2, 2, ident. split; [apply vis|]. split; [reflexivity|]. split; [reflexivity|].
      split; [apply misR_fin|]. split; [lra|]. split; [lra|apply ident_orthogonal].
  - intros g vs fs rh _ _ _. left. split; [reflexivity|]. intros u [].
  - intros w g o Ho Hin. destruct g as [|[|g]]; [destruct Hin; left; reflexivity| |destruct g; discriminate Ho].
    injection Ho as <-.
    match goal with |- match ?x with _ => _ end => change x with (Ok (Some (@plane_box _ (Xnum 1000 0 0) (vfin (V 0 0 50)) (Fin 2) (Fin 2) (mfin ident)))) end.
    intros lo hi t Hlo Hhi _ _ (_ & _ & Hz).
    destruct (plane_box_is 1000 0 0 (vfin (V 0 0 50)) (Fin 2) (Fin 2) (mfin ident) (V 0 0 50) 2 2 ident (vis _) eq_refl eq_refl (misR_fin _))
      as (B & _); try lra.
    rewrite (visR_inj _ _ _ Hlo B) in Hz. cbn in Hz. unfold extent in Hz. cbn in Hz. rewrite Rabs_R0, Rabs_R1 in Hz.
    rewrite Rmax_left in Hz by lra. lra.
  - eexists. split; [reflexivity|]. split; [lra|]. exists (V 10 0 0), 2. split; [apply vis|]. split; [reflexivity|].
    unfold on_sphere, rv_dot. cbn. lra.
Qed.

(** A ball of radius 1/8 just outside a cylinder of radius 1: which hit is reported
    depends on the order of the callbacks. *)
Definition tube_and_ball : list (call spec_float) :=
  [AddSpheres [V (f32 (-5) (-3)) (f32 7 (-3)) (f32 0 0)] [f32 1 (-3)];
   AddCylinders [sv 0 0 0] [f32 1 0] [f32 1 0] [f32 2 0] [seye]].
Definition past_ball : ray spec_float :=
  @make_ray _ F32 (V (f32 (-5) 0) (f32 7 (-3)) (f32 0 0)) (sv 1 0 0) (f32 0 0) (f32 1 10) false.
Definition id_tri (g : nat) (v : list (vec spec_float)) (f : list (vec nat)) (rh : rtc_rayhit spec_float) := rh.
Lemma near_refutes : exists q l ids1 ids2 rh1 rh2,
  @e_run _ F32 libstdcxx_partition true id_tri (fun _ _ => []) (@new_escene _ (Options 1 26 64)) (tube_and_ball ++ [Commit]) = Ok (q, l) /\
  (forall g, (g < length (q_geoms q))%nat -> In g ids1 /\ In g ids2) /\
  @e_intersect1 _ F32 true id_tri ids1 q past_ball (@new_rayhit _ F32) = Ok (true, rh1) /\
  @e_intersect1 _ F32 true id_tri ids2 q past_ball (@new_rayhit _ F32) = Ok (true, rh2) /\
  @nltb _ F32 (h_distance rh1) (h_distance rh2) = true.
Proof.
  do 2 eexists. exists [1%nat; 0%nat], [0%nat; 1%nat]. do 2 eexists.
  split; [vm_compute; reflexivity|]. split.
  { intros [|[|g]] H; cbn in *; auto. lia. }
  split; [vm_compute; reflexivity|]. split; [vm_compute; reflexivity|]. vm_compute. reflexivity.
Qed.
