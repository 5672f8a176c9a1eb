(** * Statements about HDF5 and XDMF files. *)
From Coq Require Import Ascii.
From Verif Require Import Py Mesh Vtk VtkSpec Files FilesSpec Hdf5.

(** What opening a path in the file gives, when it is a data set. *)
Definition h5_get {F V} (h : h5 F V) (path : string) : option (content F V) :=
  match dget path_eqb (components path) h with Some (Dat c) => Some c | _ => None end.
(** The attribute [k] of a group. *)
Definition h5_attr {F V} (h : h5 F V) (path k : string) : option (attr V) :=
  match dget path_eqb (components path) h with Some (Grp a) => dget String.eqb k a | _ => None end.

Definition zprod (l : list Z) : Z := fold_right Z.mul 1 l.
(** Number of values of a data set; points have three columns. *)
Definition n_values {F V} (c : content F V) : Z :=
  match c with
  | CPts rows => zlen rows * 3
  | CMat m => match m_cols m with Some k => zlen (m_rows m) * Z.of_nat k | None => zlen (m_rows m) end
  | CVar v => zprod (va_shape v)
  end.

(** The references of an XDMF file: the line following each [DataItem]. *)
Fixpoint refs (lines : list string) : list (string * string) :=
  match lines with
  | [] => []
  | a :: r => if prefix "<DataItem" a then match r with b :: r' => (a, b) :: refs r' | [] => [] end else refs r
  end.

(** A reference is right: it names a data set of the file, and the dimensions announced are those of
    as many values. *)
Definition ref_ok {F V} (filename : string) (h : h5 F V) (r : string * string) : Prop :=
  exists dims path c,
    fst r = ("<DataItem Dimensions=" ++ String """" "" ++ String.concat " " (List.map (fun d => dec (Z.to_nat d)) dims)
             ++ String """" "" ++ " Format=" ++ String """" "" ++ "HDF" ++ String """" "" ++ ">")%string /\
    Forall (fun d => 0 <= d) dims /\
    snd r = (filename ++ ":" ++ path)%string /\ h5_get h path = Some c /\ n_values c = zprod dims.

(** A name that denotes something inside the group it is used in. *)
Definition relative (name : string) : Prop := forall r, name <> String "/" r.

(** The names XDMF gives to the cell types of VTK. *)
Definition xdmf_names : list (Z * string) :=
  [ (5, "Triangle"); (9, "Quadrilateral"); (10, "Tetrahedron"); (12, "Hexahedron"); (13, "Prism"); (14, "Pyramid") ]%string.
(** An array that XDMF can describe as the components of a scalar or of a vector. *)
Definition one_or_two_dims {V} (v : var V) : Prop := List.length (va_shape v) = 1%nat \/ List.length (va_shape v) = 2%nat.

(** The VTK codes by increasing name in cfdtools: bar2, hexa8, prism6, pyra5, quad4, tetra4, tri3. *)
Definition imported_order : list Z := [3; 12; 13; 14; 9; 10; 5].
(** The cells type by type. *)
Definition by_types (order : list Z) (cs : list (Z * list Z)) : list (Z * list Z) :=
  flat_map (fun t => filter (fun c => fst c =? t) cs) order.
