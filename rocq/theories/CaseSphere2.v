(** One sphere and one ray in exact arithmetic. *)

From Coq Require Import Reals ZArith List Bool Lra.
From Verif Require Import Num NumR NumX Vec Ray Bvh Sphere SpecReal SpecSphere PfX PfSphere.
Local Open Scope R_scope.

Definition case_isect : sphere_isect xr :=
  SphereIsect (vfin (V 0 0 0)) (vfin (V (3 / 5) (4 / 5) 0)) (Fin 1) (Fin 0, Fin 0) (Xinf false) None.
Definition case_sphere : sphere xr := Sphere (vfin (V 3 4 0)) (Fin 3) 7.
Definition case_ray : ray xr :=
  @make_ray _ (Xnum 1000 0 0) (vfin (V 0 0 0)) (vfin (V (3 / 5) (4 / 5) 0)) (Fin 1) (Xinf false) false.

Lemma sphere_case_data : visR (si_org case_isect) (V 0 0 0) /\ visR (si_dir case_isect) (V (3 / 5) (4 / 5) 0) /\
  rv_dot (V (3 / 5) (4 / 5) 0) (V (3 / 5) (4 / 5) 0) = 1 /\ isR (si_min case_isect) 1 /\
  visR (sp_center case_sphere) (V 3 4 0) /\ isR (sp_radius case_sphere) 3 /\
  on_sphere (V 3 4 0) 3 (at_t (V 0 0 0) (V (3 / 5) (4 / 5) 0) 2).
Proof.
  split; [repeat split|]. split; [repeat split|]. split; [unfold rv_dot; cbn; lra|]. split; [reflexivity|].
  split; [repeat split|]. split; [reflexivity|]. unfold on_sphere, rv_dot, rv_sub, at_t, rv_add, rv_scale; cbn. lra.
Qed.

Lemma sphere_case : exists i', @sphere_intersect _ (Xnum 1000 0 0) case_isect case_sphere case_ray = (true, i') /\
  isR (si_hd i') 2.
Proof.
  destruct sphere_case_data as (H1 & H2 & H3 & H4 & H5 & H6 & H7).
  destruct (@sphere_intersect _ (Xnum 1000 0 0) case_isect case_sphere case_ray) as [h i'] eqn:E.
  assert (H0 : 0 <= 1) by lra.
  destruct (sphere_exact 1000 0 0 _ _ _ _ _ _ _ _ _ _ H1 H2 H4 H5 H6 H3 H0 E) as (A & B & _).
  assert (h = true) by (apply A; exists 2; repeat split; auto; lra). subst h.
  destruct (B eq_refl) as (t & Ht & _ & Ho & Hm & _ & Hmin). exists i'. split; [reflexivity|].
  specialize (Hmin 2 H7). unfold on_sphere, rv_dot, rv_sub, at_t, rv_add, rv_scale in Ho; cbn in Ho.
  assert (Hf : (t - 2) * (t - 8) = 0) by lra. apply Rmult_integral in Hf as [Hf|Hf]; [|lra].
  replace 2 with t by lra. exact Ht.
Qed.
