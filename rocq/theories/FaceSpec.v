(** * Specification of face extraction. *)
From Coq Require Import Permutation.
From Verif Require Import Conn ConnSpec.

(** Cells of known types, with arrays wide enough for the side table. *)
Definition cells_ok (tbl : sidetable) (c : econn) : Prop :=
  forall t ed, In (t, ed) (ec_dict c) -> exists faces n,
    dget String.eqb t tbl = Some faces /\ m_cols (ed_e2n ed) = Some n /\
    forall ft efs, In (ft, efs) faces -> forall ef j, In ef efs -> In j ef -> 0 <= j < Z.of_nat n.

(** Face types occurring on cells of the types of [c]. *)
Definition has_face_type (tbl : sidetable) (c : econn) (ft : string) : Prop :=
  exists t ed faces efs, In (t, ed) (ec_dict c) /\ dget String.eqb t tbl = Some faces /\
                         In (ft, efs) faces /\ efs <> [].

(** Rows of a face-to-cell table. *)
Definition ii_rows (ii : indirection) : list (list Z) :=
  match ii with None => [] | Some m => m_rows m end.

(** What the four returned objects must be.  [ec_sides tbl ft c] are all sides of type [ft] of all
    cells: (node tuple pointing out of the cell, cell number); [sharing nodes l] are those with
    exactly these nodes. *)
Record faces_spec (tbl : sidetable) (c : econn) (fs : facesets) : Prop := {
  (* both sets are well-formed and numbered 0,1,2,... in storage order, one table row per face *)
  fsp_bnd_wf : ec_wf (fs_bnd fs) /\ ec_plain (fs_bnd fs);
  fsp_int_wf : ec_wf (fs_int fs) /\ ec_plain (fs_int fs);
  fsp_bnd_numbers : ec_numbers (fs_bnd fs) = zrange 0 (ec_nelem (fs_bnd fs));
  fsp_int_numbers : ec_numbers (fs_int fs) = zrange 0 (ec_nelem (fs_int fs));
  fsp_bnd_len : zlen (ii_rows (fs_bnd_f2c fs)) = ec_nelem (fs_bnd fs);
  fsp_int_len : zlen (ii_rows (fs_int_f2c fs)) = ec_nelem (fs_int fs);
  fsp_bnd_types : forall ft, In ft (ec_types (fs_bnd fs)) <-> has_face_type tbl c ft;
  fsp_int_types : forall ft, In ft (ec_types (fs_int fs)) <-> has_face_type tbl c ft;
  (* a boundary face is a side of exactly one cell, oriented as that side; row: that cell, -1 *)
  fsp_bnd_face : forall ft f nodes, In (f, nodes) (pairs_of_type (fs_bnd fs) ft) ->
     exists ci, nth_error (ii_rows (fs_bnd_f2c fs)) (Z.to_nat f) = Some [ci; -1] /\
                sharing nodes (ec_sides tbl ft c) = [(nodes, ci)];
  (* an internal face is a side of the first cell of its row, oriented as that side, and its nodes
     are those of a side of the second cell *)
  fsp_int_face : forall ft f nodes, In (f, nodes) (pairs_of_type (fs_int fs) ft) ->
     exists c1 c2 nodes2 rest, nth_error (ii_rows (fs_int_f2c fs)) (Z.to_nat f) = Some [c1; c2] /\
       Permutation (sharing nodes (ec_sides tbl ft c)) ((nodes, c1) :: (nodes2, c2) :: rest);
  (* every side of every cell is exactly one of the faces *)
  fsp_cover : forall ft s, In s (ec_sides tbl ft c) ->
     List.length (filter (fun p => same_nodes (fst s) (snd p))
                    (pairs_of_type (fs_bnd fs) ft ++ pairs_of_type (fs_int fs) ft)) = 1%nat }.

(** No three sides have the same nodes. *)
Definition no_triple (tbl : sidetable) (c : econn) : Prop :=
  forall ft nodes, (List.length (sharing nodes (ec_sides tbl ft c)) <= 2)%nat.

(** [R] lists the node sets occurring in [l], each once. *)
Record representatives (R : list (list Z)) (l : list side) : Prop := {
  rep_distinct : ForallOrdPairs (fun a b => same_nodes a b = false) R;
  rep_of_side : forall r, In r R -> exists s, In s l /\ same_nodes r (fst s) = true;
  rep_all : forall s, In s l -> exists r, In r R /\ same_nodes r (fst s) = true }.

(** Cell types of the two tables, with their numbers of nodes. *)
Definition cgns_types : list (string * nat) :=
  [("quad4", 4%nat); ("tetra4", 4%nat); ("pyra5", 5%nat); ("prism6", 6%nat); ("hexa8", 8%nat); ("hexa27", 27%nat)].
Definition gmsh_types : list (string * nat) := ("tri3", 3%nat) :: cgns_types.

(** The table in force and the cell types it knows. *)
Definition in_force (tbl : sidetable) (types : list (string * nat)) : Prop :=
  (tbl = cgns_elem2faces /\ types = cgns_types) \/ (tbl = gmsh_elem2faces /\ types = gmsh_types).

(** All cells are of the listed types, with as many nodes. *)
Definition cells_of (types : list (string * nat)) (c : econn) : Prop :=
  forall t ed, In (t, ed) (ec_dict c) -> exists n, In (t, n) types /\ m_cols (ed_e2n ed) = Some n.

(** What face extraction accepts: for every face type present, there are fewer distinct sides than
    sides, and at least half as many. *)
Definition accepted (tbl : sidetable) (c : econn) : Prop :=
  forall ft R, has_face_type tbl c ft -> representatives R (ec_sides tbl ft c) ->
     zlen R < zlen (ec_sides tbl ft c) <= 2 * zlen R.
