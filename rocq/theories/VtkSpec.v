(** * Specification vocabulary for VTK grids. *)
From Coq Require Import Permutation Sorted.
From Verif Require Import Py Conn Mesh Vtk.

(** The arrays of [g] describe the cells [cs], each a type code and its vertices. *)
Record grid_of {P} (g : grid P) (cs : list (Z * list Z)) : Prop := {
  go_types : g_types g = List.map fst cs;
  go_cells : g_cells g = flat_map (fun c => zlen (snd c) :: snd c) cs;
  go_offset : forall k, (k <= List.length cs)%nat ->
     nth_error (g_offset g) k = Some (zsum (List.map (fun c => zlen (snd c)) (firstn k cs)));
  go_offset_len : List.length (g_offset g) = S (List.length cs) }.

(** All vertices are points of the grid. *)
Definition vertices_ok {P} (g : grid P) (cs : list (Z * list Z)) : Prop :=
  forall c v, In c cs -> In v (snd c) -> 0 <= v < zlen (g_points g).

(** The position of a vertex. *)
Definition position {P} (g : grid P) (v : Z) : option P := nth_error (g_points g) (Z.to_nat v).

(** Cell [c'] of [g'] is cell [c] of [g]: same type, same positions vertex by vertex. *)
Definition same_cell {P} (g g' : grid P) (c c' : Z * list Z) : Prop :=
  fst c' = fst c /\ List.map (position g') (snd c') = List.map (position g) (snd c).

(** The codes of VTK for the types of cells of cfdtools, and the nodes of each type. *)
Definition vtk_codes : list (string * Z) :=
  [("bar2", 3); ("tri3", 5); ("quad4", 9); ("tetra4", 10); ("pyra5", 14); ("prism6", 13); ("hexa8", 12)]%string.
Definition type_sizes : list (string * Z) :=
  [("node1", 1); ("bar2", 2); ("tri3", 3); ("quad4", 4); ("tetra4", 4); ("pyra5", 5); ("prism6", 6); ("hexa8", 8)]%string.
