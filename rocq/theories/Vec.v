(** Vectors and matrices: blaze::StaticVector<T,3>, StaticMatrix<T,3,3>
    (blazert/datatypes.h:31-49).  Blaze itself is not part of the repository; its
    operations are modelled by their mathematical definition, evaluated left to
    right. *)

From Coq Require Import ZArith List Bool.
From Verif Require Import Num.
Import ListNotations.

Record vec (A : Type) := V { vx : A; vy : A; vz : A }.
Arguments V {A} vx vy vz.
Arguments vx {A} v.
Arguments vy {A} v.
Arguments vz {A} v.

(** [v[k]]; indices other than 0, 1, 2 are out of range. *)
Definition vget {A} (v : vec A) (k : nat) : option A :=
  match k with 0 => Some (vx v) | 1 => Some (vy v) | 2 => Some (vz v) | _ => None end.

Definition vmap {A B} (f : A -> B) (v : vec A) : vec B := V (f (vx v)) (f (vy v)) (f (vz v)).
Definition vmap2 {A B C} (f : A -> B -> C) (u : vec A) (v : vec B) : vec C :=
  V (f (vx u) (vx v)) (f (vy u) (vy v)) (f (vz u) (vz v)).
Definition vconst {A} (a : A) : vec A := V a a a.

(** Row-major 3x3 matrix as three row vectors. *)
Definition mat (A : Type) := vec (vec A).

Section Ops.
Context {T : Type} {N : num T}.
Local Open Scope num_scope.

Definition vadd (u v : vec T) : vec T := vmap2 nadd u v.
Definition vsub (u v : vec T) : vec T := vmap2 nsub u v.
Definition vmulc (u v : vec T) : vec T := vmap2 nmul u v.        (* componentwise u * v *)
Definition vscale (s : T) (v : vec T) : vec T := vmap (fun x => s * x) v.
Definition vscaler (v : vec T) (s : T) : vec T := vmap (fun x => x * s) v.
Definition vdivs (v : vec T) (s : T) : vec T := vmap (fun x => x / s) v.
Definition vadds (v : vec T) (s : T) : vec T := vmap (fun x => x + s) v.
Definition vsubs (v : vec T) (s : T) : vec T := vmap (fun x => x - s) v.

Definition dot (u v : vec T) : T := vx u * vx v + vy u * vy v + vz u * vz v.
Definition cross (u v : vec T) : vec T :=
  V (vy u * vz v - vz u * vy v) (vz u * vx v - vx u * vz v) (vx u * vy v - vy u * vx v).
Definition norm (v : vec T) : T := nsqrt (dot v v).
Definition normalize (v : vec T) : vec T := vdivs v (norm v).

Definition trans (m : mat T) : mat T :=
  V (V (vx (vx m)) (vx (vy m)) (vx (vz m)))
    (V (vy (vx m)) (vy (vy m)) (vy (vz m)))
    (V (vz (vx m)) (vz (vy m)) (vz (vz m))).
Definition mulmv (m : mat T) (v : vec T) : vec T := vmap (fun row => dot row v) m.
End Ops.
