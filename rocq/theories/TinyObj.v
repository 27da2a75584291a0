(** examples/common/tiny_obj_loader.cc: reading an OBJ file, and the LoadObj functions of
    the examples that turn its shapes into a mesh.

    The file is a list of commands, one per line; how a line is split into tokens and
    numbers is not modelled here.  All floats are of one type T; the sources read
    binary32 numbers and convert them, exactly, to the type of the mesh.  Shape and
    object names, and the material members the path tracer does not use, are left out. *)

From Coq Require Import ZArith Strings.String List Bool.
From Verif Require Import Num Vec Datatypes PathTracer.
Import ListNotations.
Local Open Scope string_scope.
Local Open Scope list_scope.
Local Open Scope Z_scope.

(** tiny_obj_loader.cc:46-64 vertex_index and its order. *)
Record vindex := VIndex { v_idx : Z; vt_idx : Z; vn_idx : Z }.
Definition vindex_lt (a b : vindex) : bool :=
  if negb (v_idx a =? v_idx b) then v_idx a <? v_idx b
  else if negb (vn_idx a =? vn_idx b) then vn_idx a <? vn_idx b
  else if negb (vt_idx a =? vt_idx b) then vt_idx a <? vt_idx b
  else false.

(** std::map<vertex_index, unsigned int>: equal keys are those neither of which is less. *)
Definition cache := list (vindex * Z).
Fixpoint cache_find (m : cache) (i : vindex) : option Z :=
  match m with
  | [] => None
  | (k, z) :: m' => if negb (vindex_lt k i) && negb (vindex_lt i k) then Some z else cache_find m' i
  end.

(** Arithmetic in int; overflow is undefined. *)
Definition int_ (z : Z) : res Z :=
  if (-2147483648 <=? z) && (z <=? 2147483647) then Ok z else UB UBconv.

(** tiny_obj_loader.cc:79-85 fixIndex. *)
Definition fixIndex (idx n : Z) : Z :=
  if 0 <? idx then idx - 1 else if idx =? 0 then 0 else n + idx.

(** A corner of a face as written: i, i/j, i//k or i/j/k. *)
Record corner := Corner { co_v : Z; co_vt : option Z; co_vn : option Z }.
(** tiny_obj_loader.cc:263-294 parseTriple, after the tokens are read. *)
Definition parseTriple (c : corner) (vsize vnsize vtsize : Z) : vindex :=
  VIndex (fixIndex (co_v c) vsize)
    (match co_vt c with Some j => fixIndex j vtsize | None => -1 end)
    (match co_vn c with Some k => fixIndex k vnsize | None => -1 end).

Section Model.
Context {T : Type} {N : num T}.

(** The lines of an OBJ file, tiny_obj_loader.cc:737-898. *)
Inductive cmd :=
  | OVertex (x y z : T)
  | ONormal (x y z : T)
  | OTexcoord (x y : T)
  | OFace (cs : list corner)
  | OUseMtl (name : string)
  | OMtlLib (name : string)
  | OGroup
  | OObject
  | OIgnored.

(** The lines of a material file, tiny_obj_loader.cc:449-632. *)
Inductive mcmd :=
  | MNew (name : string)
  | MDiffuse (c : vec T)
  | MSpecular (c : vec T)
  | MTransmittance (c : vec T)
  | MEmission (c : vec T)
  | MIor (x : T)
  | MDissolve (x : T)
  | MTr (x : T)
  | MOther.

(** tinyobj::mesh_t. *)
Record shape := Shape {
  sh_positions : list T; sh_normals : list T; sh_texcoords : list T;
  sh_indices : list Z; sh_materials : list Z }.
Definition new_shape : shape := Shape [] [] [] [] [].

(** [l[a * i + b]] with the index computed in int and converted to size_t. *)
Definition at_int (l : list T) (a i b : Z) : res T :=
  do p <- int_ (a * i); do q <- int_ (p + b); atZ UBprim l q.

(** tiny_obj_loader.cc:296-333 updateVertex.  A failing assertion counts as undefined. *)
Definition updateVertex (in_v in_vn in_vt : list T) (c : cache) (s : shape) (i : vindex) : res (Z * cache * shape) :=
  match cache_find c i with
  | Some idx => Ok (idx, c, s)
  | None =>
      do x <- at_int in_v 3 (v_idx i) 0;
      do y <- at_int in_v 3 (v_idx i) 1;
      do z <- at_int in_v 3 (v_idx i) 2;
      let positions := sh_positions s ++ [x; y; z] in
      do normals <- (if 0 <=? vn_idx i then
                       do x <- at_int in_vn 3 (vn_idx i) 0;
                       do y <- at_int in_vn 3 (vn_idx i) 1;
                       do z <- at_int in_vn 3 (vn_idx i) 2;
                       Ok (sh_normals s ++ [x; y; z])
                     else Ok (sh_normals s));
      do texcoords <- (if 0 <=? vt_idx i then
                         do x <- at_int in_vt 2 (vt_idx i) 0;
                         do y <- at_int in_vt 2 (vt_idx i) 1;
                         Ok (sh_texcoords s ++ [x; y])
                       else Ok (sh_texcoords s));
      let idx := u32 (Z.of_nat (length positions) / 3 - 1) in
      Ok (idx, (i, idx) :: c, Shape positions normals texcoords (sh_indices s) (sh_materials s))
  end.

Section Export.
Variables in_v in_vn in_vt : list T.
Variable material_id : Z.

(** tiny_obj_loader.cc:379-398: the fan of one polygon; [i2] is the previous corner. *)
Fixpoint fan_loop (i0 i2 : vindex) (rest : list vindex) (c : cache) (s : shape) : res (cache * shape) :=
  match rest with
  | [] => Ok (c, s)
  | k :: rest' =>
      do (v0, c, s) <- updateVertex in_v in_vn in_vt c s i0;
      do (v1, c, s) <- updateVertex in_v in_vn in_vt c s i2;
      do (v2, c, s) <- updateVertex in_v in_vn in_vt c s k;
      fan_loop i0 k rest' c
        (Shape (sh_positions s) (sh_normals s) (sh_texcoords s) (sh_indices s ++ [v0; v1; v2])
           (sh_materials s ++ [material_id]))
  end.
(** tiny_obj_loader.cc:369-400: all polygons. *)
Fixpoint export_loop (faceGroup : list (list vindex)) (c : cache) (s : shape) : res (cache * shape) :=
  match faceGroup with
  | [] => Ok (c, s)
  | face :: faces =>
      do i0 <- at_ UBprim face 0;
      do i2 <- at_ UBprim face 1;
      do (c, s) <- fan_loop i0 i2 (skipn 2 face) c s;
      export_loop faces c s
  end.
(** tiny_obj_loader.cc:358-408 exportFaceGroupToShape, called with an empty shape and an
    empty cache (the cache is passed by value and the caller's is never filled): the
    shapes after the call and the push_back of the caller. *)
Definition export (faceGroup : list (list vindex)) (shapes : list shape) : res (list shape) :=
  match faceGroup with
  | [] => Ok shapes
  | _ =>
      do (_, s) <- export_loop faceGroup [] new_shape;
      Ok (shapes ++ [s])
  end.
End Export.

(** tiny_obj_loader.cc:335-356 InitMaterial. *)
Definition init_material : material T :=
  Material (vconst (nofZ 0)) (vconst (nofZ 0)) (vconst (nofZ 0)) (vconst (nofZ 0)) (nofZ 1) (nofZ 1).

(** std::map<std::string, int>::insert and find. *)
Definition name_map := list (string * Z).
Fixpoint name_find (m : name_map) (n : string) : option Z :=
  match m with
  | [] => None
  | (k, z) :: m' => if String.eqb k n then Some z else name_find m' n
  end.
Definition name_insert (m : name_map) (n : string) (z : Z) : name_map :=
  match name_find m n with Some _ => m | None => m ++ [(n, z)] end.

(** tiny_obj_loader.cc:410-640 LoadMtl. *)
Definition set_material (c : mcmd) (m : material T) : material T :=
  match c with
  | MDiffuse v => Material v (mt_emission m) (mt_specular m) (mt_transmittance m) (mt_ior m) (mt_dissolve m)
  | MSpecular v => Material (mt_diffuse m) (mt_emission m) v (mt_transmittance m) (mt_ior m) (mt_dissolve m)
  | MTransmittance v => Material (mt_diffuse m) (mt_emission m) (mt_specular m) v (mt_ior m) (mt_dissolve m)
  | MEmission v => Material (mt_diffuse m) v (mt_specular m) (mt_transmittance m) (mt_ior m) (mt_dissolve m)
  | MIor x => Material (mt_diffuse m) (mt_emission m) (mt_specular m) (mt_transmittance m) x (mt_dissolve m)
  | MDissolve x => Material (mt_diffuse m) (mt_emission m) (mt_specular m) (mt_transmittance m) (mt_ior m) x
  | MTr x => Material (mt_diffuse m) (mt_emission m) (mt_specular m) (mt_transmittance m) (mt_ior m) (nsub (nofZ 1) x)
  | MNew _ | MOther => m
  end.
Fixpoint mtl_loop (cs : list mcmd) (map : name_map) (materials : list (material T)) (name : string) (m : material T)
    : name_map * list (material T) :=
  match cs with
  | [] => (name_insert map name (Z.of_nat (length materials)), materials ++ [m])
  | MNew n :: cs' =>
      if String.eqb name "" then mtl_loop cs' map materials n init_material
      else mtl_loop cs' (name_insert map name (Z.of_nat (length materials))) (materials ++ [m]) n init_material
  | c :: cs' => mtl_loop cs' map materials name (set_material c m)
  end.
Definition load_mtl (cs : list mcmd) (map : name_map) (materials : list (material T)) : name_map * list (material T) :=
  mtl_loop cs map materials "" init_material.

(** The variables of tinyobj::LoadObj, tiny_obj_loader.cc:689-703. *)
Record reader := Reader {
  rd_v : list T; rd_vn : list T; rd_vt : list T; rd_group : list (list vindex); rd_material : Z;
  rd_map : name_map; rd_materials : list (material T); rd_shapes : list shape }.
Definition new_reader (materials : list (material T)) : reader := Reader [] [] [] [] (-1) [] materials [].

(** The face line, tiny_obj_loader.cc:769-786. *)
Definition read_face (r : reader) (cs : list corner) : list vindex :=
  map (fun c => parseTriple c (Z.of_nat (length (rd_v r)) / 3) (Z.of_nat (length (rd_vn r)) / 3)
                 (Z.of_nat (length (rd_vt r)) / 2)) cs.
Definition flush (r : reader) : res (list shape) :=
  export (rd_v r) (rd_vn r) (rd_vt r) (rd_material r) (rd_group r) (rd_shapes r).

(** Material files by name; None: the file is not found. *)
Variable mtl_file : string -> option (list mcmd).

(** tiny_obj_loader.cc:704-899, one line.  None: the function returns an error. *)
Definition read_line (r : reader) (c : cmd) : res (option reader) :=
  match c with
  | OVertex x y z =>
      Ok (Some (Reader (rd_v r ++ [x; y; z]) (rd_vn r) (rd_vt r) (rd_group r) (rd_material r) (rd_map r) (rd_materials r) (rd_shapes r)))
  | ONormal x y z =>
      Ok (Some (Reader (rd_v r) (rd_vn r ++ [x; y; z]) (rd_vt r) (rd_group r) (rd_material r) (rd_map r) (rd_materials r) (rd_shapes r)))
  | OTexcoord x y =>
      Ok (Some (Reader (rd_v r) (rd_vn r) (rd_vt r ++ [x; y]) (rd_group r) (rd_material r) (rd_map r) (rd_materials r) (rd_shapes r)))
  | OFace cs =>
      Ok (Some (Reader (rd_v r) (rd_vn r) (rd_vt r) (rd_group r ++ [read_face r cs]) (rd_material r) (rd_map r) (rd_materials r) (rd_shapes r)))
  | OUseMtl n =>
      do shapes <- flush r;
      let m := match name_find (rd_map r) n with Some z => z | None => -1 end in
      Ok (Some (Reader (rd_v r) (rd_vn r) (rd_vt r) [] m (rd_map r) (rd_materials r) shapes))
  | OMtlLib n =>
      match mtl_file n with
      | None => Ok None
      | Some cs =>
          let (map, materials) := load_mtl cs (rd_map r) (rd_materials r) in
          Ok (Some (Reader (rd_v r) (rd_vn r) (rd_vt r) (rd_group r) (rd_material r) map materials (rd_shapes r)))
      end
  | OGroup | OObject =>
      do shapes <- flush r;
      Ok (Some (Reader (rd_v r) (rd_vn r) (rd_vt r) [] (rd_material r) (rd_map r) (rd_materials r) shapes))
  | OIgnored => Ok (Some r)
  end.
Fixpoint read_lines (r : reader) (cs : list cmd) : res (option reader) :=
  match cs with
  | [] => Ok (Some r)
  | c :: cs' =>
      do o <- read_line r c;
      match o with None => Ok None | Some r => read_lines r cs' end
  end.
(** tiny_obj_loader.cc:686-909 LoadObj with materials. *)
Definition load_obj (cs : list cmd) : res (option (list shape * list (material T))) :=
  do o <- read_lines (new_reader []) cs;
  match o with
  | None => Ok None
  | Some r => do shapes <- flush r; Ok (Some (shapes, rd_materials r))
  end.

(** tiny_obj_loader.cc:911-1081 LoadObj without materials: usemtl and mtllib are ignored
    and every triangle gets material 0. *)
Definition plain (c : cmd) : cmd := match c with OUseMtl _ | OMtlLib _ => OIgnored | _ => c end.
Definition load_obj_plain (cs : list cmd) : res (option (list shape * list (material T))) :=
  do o <- read_lines (Reader [] [] [] [] 0 [] [] []) (map plain cs);
  match o with
  | None => Ok None
  | Some r => do shapes <- flush r; Ok (Some (shapes, rd_materials r))
  end.

(** The Mesh of path_tracer/main.cc:47-54 and renderer.cc:15-21. *)
Record obj_mesh := ObjMesh {
  om_vertices : list (vec T); om_faces : list (vec Z); om_materials : list Z; om_uvs : list (mat T) }.

(** path_tracer/main.cc:187-190: the faces of a shape; Vec3ui plus size_t is cut to
    unsigned. *)
Definition shape_face (s : shape) (offset : Z) (f : nat) : res (vec Z * Z) :=
  do i0 <- at_ UBprim (sh_indices s) (3 * f);
  do i1 <- at_ UBprim (sh_indices s) (3 * f + 1);
  do i2 <- at_ UBprim (sh_indices s) (3 * f + 2);
  do m <- at_ UBprim (sh_materials s) f;
  Ok (V (u32 (i0 + offset)) (u32 (i1 + offset)) (u32 (i2 + offset)), u32 m).
(** path_tracer/main.cc:193-195. *)
Definition shape_vertex (scale : T) (s : shape) (v : nat) : res (vec T) :=
  do x <- at_ UBprim (sh_positions s) (3 * v);
  do y <- at_ UBprim (sh_positions s) (3 * v + 1);
  do z <- at_ UBprim (sh_positions s) (3 * v + 2);
  Ok (vscale scale (V x y z)).
(** path_tracer/main.cc:200-215: the columns are the texture coordinates of the corners. *)
Definition texcoord (s : shape) (i : Z) : res (vec T) :=
  do a <- atZ UBprim (sh_texcoords s) (u32 (u32 (2 * i) + 0));
  do b <- atZ UBprim (sh_texcoords s) (u32 (u32 (2 * i) + 1));
  Ok (V a b (nofZ 0)).
Definition shape_uv (s : shape) (f : nat) : res (mat T) :=
  do i0 <- at_ UBprim (sh_indices s) (3 * f);
  do i1 <- at_ UBprim (sh_indices s) (3 * f + 1);
  do i2 <- at_ UBprim (sh_indices s) (3 * f + 2);
  do a <- texcoord s i0;
  do b <- texcoord s i1;
  do c <- texcoord s i2;
  Ok (trans (V a b c)).

Fixpoint map_res {A B} (f : A -> res B) (l : list A) : res (list B) :=
  match l with
  | [] => Ok []
  | a :: l' => do b <- f a; do bs <- map_res f l'; Ok (b :: bs)
  end.

(** path_tracer/main.cc:183-219: the loop over the shapes. *)
Fixpoint add_shapes (scale : T) (shapes : list shape) (m : obj_mesh) : res obj_mesh :=
  match shapes with
  | [] => Ok m
  | s :: shapes' =>
      let offset := Z.of_nat (length (om_vertices m)) in
      let faces := seq 0 (length (sh_indices s) / 3) in
      do fs <- map_res (shape_face s offset) faces;
      do vs <- map_res (shape_vertex scale s) (seq 0 (length (sh_positions s) / 3));
      do uvs <- match sh_texcoords s with [] => Ok [] | _ => map_res (shape_uv s) faces end;
      add_shapes scale shapes'
        (ObjMesh (om_vertices m ++ vs) (om_faces m ++ map fst fs) (om_materials m ++ map snd fs) (om_uvs m ++ uvs))
  end.
(** path_tracer/main.cc:166-223, renderer.cc:23-76 LoadObj. *)
Definition load_mesh (scale : T) (cs : list cmd) : res (option (obj_mesh * list (material T))) :=
  do o <- load_obj cs;
  match o with
  | None => Ok None
  | Some (shapes, materials) => do m <- add_shapes scale shapes (ObjMesh [] [] [] []); Ok (Some (m, materials))
  end.

(** scene_mesh/main.cc:14-42, benchmark_blaze/main.cc: positions unscaled, no materials;
    the offset is the number of positions so far. *)
Definition plain_face (s : shape) (offset : Z) (f : nat) : res (vec Z) :=
  do i0 <- at_ UBprim (sh_indices s) (3 * f);
  do i1 <- at_ UBprim (sh_indices s) (3 * f + 1);
  do i2 <- at_ UBprim (sh_indices s) (3 * f + 2);
  Ok (V (u32 (i0 + offset)) (u32 (i1 + offset)) (u32 (i2 + offset))).
Definition plain_vertex (s : shape) (v : nat) : res (vec T) :=
  do x <- at_ UBprim (sh_positions s) (3 * v);
  do y <- at_ UBprim (sh_positions s) (3 * v + 1);
  do z <- at_ UBprim (sh_positions s) (3 * v + 2);
  Ok (V x y z).
Fixpoint add_plain (shapes : list shape) (offset : Z) (vertices : list (vec T)) (faces : list (vec Z))
    : res (list (vec T) * list (vec Z)) :=
  match shapes with
  | [] => Ok (vertices, faces)
  | s :: shapes' =>
      do fs <- map_res (plain_face s offset) (seq 0 (length (sh_indices s) / 3));
      do vs <- map_res (plain_vertex s) (seq 0 (length (sh_positions s) / 3));
      add_plain shapes' (offset + Z.of_nat (length (sh_positions s) / 3)) (vertices ++ vs) (faces ++ fs)
  end.
Definition load_plain (cs : list cmd) : res (option (list (vec T) * list (vec Z))) :=
  do o <- load_obj_plain cs;
  match o with
  | None => Ok None
  | Some (shapes, _) => do m <- add_plain shapes 0 [] []; Ok (Some m)
  end.
End Model.
Arguments cmd : clear implicits.
Arguments mcmd : clear implicits.
Arguments shape : clear implicits.
Arguments reader : clear implicits.
Arguments obj_mesh : clear implicits.
