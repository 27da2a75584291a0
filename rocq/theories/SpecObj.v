(** What an OBJ file says. *)

From Coq Require Import ZArith Strings.String List Bool.
From Verif Require Import Num Vec PathTracer TinyObj.
Import ListNotations.
Local Open Scope string_scope.
Local Open Scope list_scope.
Local Open Scope Z_scope.

(** A polygon as triangles around its first corner. *)
Fixpoint fan_from {A} (a b : A) (l : list A) : list (A * A * A) :=
  match l with [] => [] | c :: l' => (a, b, c) :: fan_from a c l' end.
Definition fan {A} (l : list A) : list (A * A * A) :=
  match l with a :: b :: l' => fan_from a b l' | _ => [] end.

(** Number [i] of a list of [n] entries: from one, or from the end if negative. *)
Definition entry (i n : Z) : Z := if 0 <? i then i - 1 else n + i.

(** The place of a name in a list. *)
Fixpoint place (n : string) (l : list string) : option Z :=
  match l with
  | [] => None
  | k :: l' => if String.eqb k n then Some 0 else option_map Z.succ (place n l')
  end.

Section Spec.
Context {T : Type}.

Definition vertices_of (cs : list (cmd T)) : list (vec T) :=
  flat_map (fun c => match c with OVertex x y z => [V x y z] | _ => [] end) cs.
Definition texcoords_of (cs : list (cmd T)) : list (T * T) :=
  flat_map (fun c => match c with OTexcoord x y => [(x, y)] | _ => [] end) cs.

(** The names of a material file. *)
Definition new_names (ms : list (mcmd T)) : list string :=
  flat_map (fun m => match m with MNew n => [n] | _ => [] end) ms.
Definition names_of (ms : list (mcmd T)) : list string :=
  match new_names ms with [] => [""] | l => l end.

Variable mtl_file : string -> option (list (mcmd T)).

(** A triangle: its corners, each with the number of its vertex and of its texture
    coordinates, and the number of its material, if the name in force is known. *)
Definition spot := (Z * option Z)%type.
Definition tri := (spot * spot * spot * option Z)%type.

(** The triangles of a file; [nv] vertices, [nt] texture coordinates and the materials
    [names] came before, and material [m] is in force. *)
Fixpoint triangles (nv nt : Z) (names : list string) (m : option Z) (cs : list (cmd T)) : list tri :=
  match cs with
  | [] => []
  | OVertex _ _ _ :: cs' => triangles (nv + 1) nt names m cs'
  | OTexcoord _ _ :: cs' => triangles nv (nt + 1) names m cs'
  | OFace f :: cs' =>
      map (fun t => (t, m)) (fan (map (fun c => (entry (co_v c) nv, option_map (fun j => entry j nt) (co_vt c))) f))
      ++ triangles nv nt names m cs'
  | OUseMtl n :: cs' => triangles nv nt names (place n names) cs'
  | OMtlLib n :: cs' =>
      triangles nv nt (names ++ match mtl_file n with Some ms => names_of ms | None => [] end) m cs'
  | _ :: cs' => triangles nv nt names m cs'
  end.
Definition file_triangles (cs : list (cmd T)) : list tri := triangles 0 0 [] None cs.

(** The texture coordinates of a triangle's corners, if all have them. *)
Definition uv_of (t : tri) : option (Z * Z * Z) :=
  match t with ((_, Some a), (_, Some b), (_, Some c), _) => Some (a, b, c) | _ => None end.

(** A number refers to one of [n] entries. *)
Definition refers (i n : Z) : Prop := i <> 0 /\ 0 <= entry i n < n.
Definition corner_ok (nv nt nn : Z) (c : corner) : Prop :=
  refers (co_v c) nv /\ (forall j, co_vt c = Some j -> refers j nt) /\ (forall k, co_vn c = Some k -> refers k nn).
(** All corners have texture coordinates, or none has. *)
Definition textured (b : bool) (f : list corner) : Prop :=
  forall c, In c f -> (co_vt c <> None <-> b = true).

(** Polygons have two corners or more and refer to entries given before; material files
    exist and name their materials. *)
Fixpoint well_formed (nv nt nn : Z) (cs : list (cmd T)) : Prop :=
  match cs with
  | [] => True
  | OVertex _ _ _ :: cs' => well_formed (nv + 1) nt nn cs'
  | OTexcoord _ _ :: cs' => well_formed nv (nt + 1) nn cs'
  | ONormal _ _ _ :: cs' => well_formed nv nt (nn + 1) cs'
  | OFace f :: cs' => (2 <= length f)%nat /\ (forall c, In c f -> corner_ok nv nt nn c) /\ well_formed nv nt nn cs'
  | OMtlLib n :: cs' =>
      (exists ms, mtl_file n = Some ms /\ forall k, In k (new_names ms) -> k <> "") /\ well_formed nv nt nn cs'
  | _ :: cs' => well_formed nv nt nn cs'
  end.
(** Between two lines that end a shape, all polygons are textured or none is; [b] says
    which, once there is one. *)
Fixpoint uniform_shapes (b : option bool) (cs : list (cmd T)) : Prop :=
  match cs with
  | [] => True
  | OFace f :: cs' =>
      exists b', textured b' f /\ (b = None \/ b = Some b') /\ uniform_shapes (Some b') cs'
  | OUseMtl _ :: cs' | OGroup :: cs' | OObject :: cs' => uniform_shapes None cs'
  | _ :: cs' => uniform_shapes b cs'
  end.

(** Sizes for which no index overflows int or unsigned. *)
Definition count {A} (l : list A) : Z := Z.of_nat (length l).
Definition normals_in (cs : list (cmd T)) : Z :=
  count (flat_map (fun c => match c with ONormal _ _ _ => [tt] | _ => [] end) cs).
(** The materials of the files named, in order. *)
Definition file_names (cs : list (cmd T)) : list string :=
  flat_map (fun c => match c with
                     | OMtlLib n => match mtl_file n with Some ms => names_of ms | None => [] end
                     | _ => [] end) cs.
Definition small_file (cs : list (cmd T)) : Prop :=
  3 * count (vertices_of cs) <= 2147483647 /\ 2 * count (texcoords_of cs) <= 2147483647 /\
  3 * normals_in cs <= 2147483647 /\ 6 * count (file_triangles cs) <= 4294967295 /\
  count (file_names cs) <= 2147483647.

(** Index [i] of [vs] holds what [f] makes of entry [j] of [file]. *)
Definition holds {A B} (f : A -> B) (file : list A) (vs : list B) (i j : Z) : Prop :=
  0 <= i /\ 0 <= j /\ exists p, nth_error file (Z.to_nat j) = Some p /\ nth_error vs (Z.to_nat i) = Some (f p).
(** Face [fc] over the vertices [vs] is triangle [t] of the file, moved by [f]. *)
Definition drawn {B} (f : vec T -> B) (file : list (vec T)) (vs : list B) (fc : vec Z) (t : tri) : Prop :=
  match t with
  | ((a, _), (b, _), (c, _), _) =>
      holds f file vs (vx fc) a /\ holds f file vs (vy fc) b /\ holds f file vs (vz fc) c
  end.
(** The columns of [m] are the texture coordinates [a], [b], [c] of the file. *)
Definition uv_drawn (zero : T) (file : list (T * T)) (m : mat T) (t : Z * Z * Z) : Prop :=
  match t with
  | (a, b, c) => exists p q r,
      nth_error file (Z.to_nat a) = Some p /\ nth_error file (Z.to_nat b) = Some q /\
      nth_error file (Z.to_nat c) = Some r /\
      m = V (V (fst p) (fst q) (fst r)) (V (snd p) (snd q) (snd r)) (V zero zero zero)
  end.
Fixpoint somes {A} (l : list (option A)) : list A :=
  match l with [] => [] | Some a :: l' => a :: somes l' | None :: l' => somes l' end.

(** unsigned(-1) stands for an unknown material. *)
Definition stored_material (m : option Z) : Z := match m with Some z => z | None => 4294967295 end.

(** The last value set in a block of lines. *)
Fixpoint last_set {A} (get : mcmd T -> option A) (d : A) (ms : list (mcmd T)) : A :=
  match ms with
  | [] => d
  | m :: ms' => last_set get (match get m with Some a => a | None => d end) ms'
  end.
(** A material file: the lines before the first newmtl, and then the lines of each name. *)
Fixpoint blocks (ms : list (mcmd T)) : list (mcmd T) * list (string * list (mcmd T)) :=
  match ms with
  | [] => ([], [])
  | MNew n :: ms' => ([], (n, fst (blocks ms')) :: snd (blocks ms'))
  | c :: ms' => (c :: fst (blocks ms'), snd (blocks ms'))
  end.
(** A file without newmtl describes one material without a name; otherwise the lines
    before the first newmtl do not count. *)
Definition described (ms : list (mcmd T)) : list (list (mcmd T)) :=
  match snd (blocks ms) with [] => [fst (blocks ms)] | bs => map snd bs end.
Context {N : num T}.
Definition material_of (b : list (mcmd T)) : material T :=
  let black := V (nofZ 0) (nofZ 0) (nofZ 0) in
  Material
    (last_set (fun c => match c with MDiffuse v => Some v | _ => None end) black b)
    (last_set (fun c => match c with MEmission v => Some v | _ => None end) black b)
    (last_set (fun c => match c with MSpecular v => Some v | _ => None end) black b)
    (last_set (fun c => match c with MTransmittance v => Some v | _ => None end) black b)
    (last_set (fun c => match c with MIor x => Some x | _ => None end) (nofZ 1) b)
    (last_set (fun c => match c with MDissolve x => Some x | MTr x => Some (nsub (nofZ 1) x) | _ => None end) (nofZ 1) b).
Definition file_materials (cs : list (cmd T)) : list (material T) :=
  flat_map (fun c => match c with
                     | OMtlLib n => match mtl_file n with Some ms => map material_of (described ms) | None => [] end
                     | _ => [] end) cs.
End Spec.
