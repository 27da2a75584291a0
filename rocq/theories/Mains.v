(** The programs examples/renderer, examples/scene_mesh and examples/benchmark_blaze as a whole.

    A file is its contents, or None if it cannot be opened.  The program's result is the contents of
    the file it writes, or nothing where it writes none; what goes to the terminal is left out.
    Loops are run in the order [ps].  The reader's external functions are arguments as in ObjText. *)

From Coq Require Import ZArith Strings.String Strings.Ascii List Bool.
From Verif Require Import Num Vec Ray Bvh Traverse Trimesh Scene PathTracer TinyObj ObjText Image Camera ScenePic.
Import ListNotations.
Local Open Scope Z_scope.

(** Decimal output of a size_t: digits as ASCII codes, the last one for fuel 1; 20 digits suffice
    for 64 bits. *)
Fixpoint digits (fuel : nat) (n : Z) : list Z :=
  match fuel with
  | O => []
  | S fuel => (if n <? 10 then [] else digits fuel (n / 10)) ++ [48 + n mod 10]
  end.
Definition print_size (n : Z) : list Z := digits 20 n.
Fixpoint codes (s : string) : list Z :=
  match s with
  | EmptyString => []
  | String c s => Z.of_N (N_of_ascii c) :: codes s
  end.
(** Indices of type unsigned int. *)
Definition indices (f : vec Z) : vec nat := V (Z.to_nat (vx f)) (Z.to_nat (vy f)) (Z.to_nat (vz f)).
(** renderer.cc:143. *)
Definition ppm_header (width height : Z) : list Z :=
  codes "P6 " ++ print_size width ++ codes " " ++ print_size height ++ codes " " ++ print_size 255 ++ [10].

Section Model.
Context {T : Type} {N : num T}.
Variables (pow_ : Z -> Z -> T) (ldexp_ : T -> Z -> T) (to_float : T -> T).
Variable files : string -> option string.
Variable part : (nat -> bool) -> list nat -> list nat * list nat.

(** renderer.cc:129. *)
Definition renderer_camera : camera T :=
  Camera (V (nofZ 0) (nofZ 5) (nofZ 10)) (V (nofZ 0) (nofZ 0) (nofZ (-1))) (V (nofZ 0) (nofZ 1) (nofZ 0)) (nofZ 60).

(** renderer.cc:126-127: the mesh after LoadObj, whose result is not used; it is empty if reading
    failed. *)
Definition renderer_mesh (base : string) (file : option string) : res (list (vec T) * list (vec nat)) :=
  match file with
  | None => Ok ([], [])
  | Some text =>
      do o <- load_mesh_text pow_ ldexp_ to_float files base (nofZ 1) text;
      Ok (match o with None => ([], []) | Some (m, _) => (om_vertices m, map indices (om_faces m)) end)
  end.
(** renderer.cc:118-156 main. *)
Definition renderer_main (ftan : T -> T) (half_degree : T) (to_u8 : T -> option Z) (base : string) (file : option string)
    (width height : Z) : res (list Z) :=
  do (vertices, faces) <- renderer_mesh base file;
  do ms <- make_mesh vertices faces;
  do (nodes, _) <- build part [] (mesh_coll ms) default_options;
  do pixels <- render ftan half_degree renderer_camera ms nodes width height;
  do bytes <- ppm_bytes to_u8 pixels width height;
  Ok (ppm_header width height ++ bytes).

(** scene_mesh/main.cc:57, benchmark_blaze/main.cc:57. *)
Definition plain_mesh (file : option string) : res (list (vec T) * list (vec nat)) :=
  match file with
  | None => Ok ([], [])
  | Some text =>
      do o <- load_plain_text pow_ ldexp_ to_float files text;
      Ok (match o with None => ([], []) | Some (vs, fs) => (vs, map indices fs) end)
  end.
Fixpoint queries (f : Z -> Z -> res (bool * rayhit T)) (ps : list (Z * Z)) : res unit :=
  match ps with
  | [] => Ok tt
  | (x, y) :: ps => do _ <- f x y; queries f ps
  end.
(** scene_mesh/main.cc:45-78 main. *)
Definition scene_mesh_main (file : option string) (width height : Z) (ps : list (Z * Z)) : res unit :=
  do (vertices, faces) <- plain_mesh file;
  do (s, _) <- add_mesh (new_scene default_options) vertices faces;
  do s <- commit part s;
  queries (fun x y => intersect1 s (pinhole_ray width height x y) new_rayhit) ps.
(** benchmark_blaze/main.cc:46-81 main. *)
Definition benchmark_blaze_main (file : option string) (width height : Z) (ps : list (Z * Z)) : res unit :=
  do (vertices, faces) <- plain_mesh file;
  do ms <- make_mesh vertices faces;
  do (nodes, _) <- build part [] (mesh_coll ms) default_options;
  queries (fun x y => traverse (tri_isector ms) nodes (pinhole_ray width height x y) new_rayhit) ps.
End Model.
