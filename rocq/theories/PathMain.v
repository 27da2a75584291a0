(** examples/path_tracer/main.cc: the program as a whole.

    Random numbers are arguments: [ks x y] and [rnd x y] are the ones drawn for pixel (x, y).  The
    order of the pixels is an argument (OpenMP).  [gamma] is pow(., 1.0 / 2.2), [to_f32] the conversion
    to float.  With an empty picture the program throws at rgb.at(0); the sizes here are positive. *)

From Coq Require Import ZArith Strings.String List Bool Floats.SpecFloat.
From Verif Require Import Num NumF Vec Datatypes Ray Bvh Traverse Trimesh PathTracer TinyObj ObjText Image Mains.
Import ListNotations.

Section Model.
Context {T : Type} {N : num T}.
Variables (pow_ : Z -> Z -> T) (ldexp_ : T -> Z -> T) (to_float : T -> T).
Variable files : string -> option string.
Variable part : (nat -> bool) -> list nat -> list nat * list nat.
Variables (fcos fsin : T -> T) (pi : T) (floor_u : T -> option Z) (rand_max : Z).
Variables (gamma : T -> T) (to_f32 : T -> spec_float).

(** main.cc:300-305; None if there is no such file or it is refused. *)
Definition tracer_load (base : string) (scale : T) (file : option string) : res (option (obj_mesh T * list (material T))) :=
  match file with
  | None => Ok None
  | Some text => load_mesh_text pow_ ldexp_ to_float files base scale text
  end.
(** main.cc:462-470: gamma correction and conversion. *)
Definition tracer_pixel (ms : mesh T) (nodes : list (node T (triangle T))) (ids : list Z) (mats : list (material T))
    (lights : list (nat * Z)) (width height : Z) (ks : Z -> Z -> nat -> Z * Z) (rnd : Z -> Z -> nat -> nat -> nat -> Z) (x y : Z)
    : res (option (vec spec_float)) :=
  do c <- pixel fcos fsin pi floor_u rand_max ms nodes ids mats lights width height x y (ks x y) (rnd x y);
  Ok (Some (vmap (fun v => to_f32 (gamma v)) c)).
(** main.cc:474, after each row. *)
Definition bars (height : Z) : res (list (list bool)) := mapM (fun y => progress_bar (y + 1) height 100) (upto height).
(** main.cc:274-480 main: None if it returns -1, otherwise the bytes handed to stbi_write_png. *)
Definition tracer_main (base : string) (scale : T) (file : option string) (width height : Z) (ps : list (Z * Z))
    (ks : Z -> Z -> nat -> Z * Z) (rnd : Z -> Z -> nat -> nat -> nat -> Z) : res (option (list Z)) :=
  do o <- tracer_load base scale file;
  match o with
  | None => Ok None
  | Some (m, mats) =>
      let faces := map indices (om_faces m) in
      do lights <- make_light faces (om_materials m) mats;
      do ms <- make_mesh (om_vertices m) faces;
      do (nodes, _) <- build part [] (mesh_coll ms) default_options;
      do rgb <- rgb_image (S754_zero false) width height (tracer_pixel ms nodes (om_materials m) mats lights width height ks rnd) ps;
      do _ <- bars height;
      do bytes <- png_bytes (N := F32) sf_u8 rgb width height;
      Ok (Some bytes)
  end.
End Model.
