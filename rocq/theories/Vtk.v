(** * Model of [vtkMesh] (cfdtools/vtk/_vtk.py:46-233; [vtk_zconvolution] is in [Zconv], the HDF5
    and XDMF functions are in [Hdf5]).

    pyvista is not modelled beyond its documented contract: an unstructured grid is its arrays.
    Not modelled: [brief], [plot], [write_data] and [read] (pyvista reads and writes the file). *)
From Verif Require Export Py Conn Mesh.

(** ** pyvista.UnstructuredGrid *)

(** [cells] lists, cell after cell, the number of its vertices and the vertices; [offset] has one
    entry more than there are cells; [celltypes] holds VTK type codes; [points] has one row per
    point. *)
Record grid {P : Type} : Type := Grid {
  g_cells : list Z; g_offset : list Z; g_types : list Z; g_points : list P }.
Arguments grid : clear implicits.

(** Splits an array (size, vertices, size, vertices, ...). *)
Fixpoint split_cells (fuel : nat) (l : list Z) : res (list (list Z)) :=
  match l with
  | [] => Ok []
  | n :: r =>
      match fuel with
      | O => Err OutOfFuel
      | S fuel' =>
          if (n <? 0) || (zlen r <? n) then Err ValueError
          else cs <- split_cells fuel' (skipn (Z.to_nat n) r) ;; Ok (firstn (Z.to_nat n) r :: cs)
      end
  end.

(** [pv.UnstructuredGrid(cells, celltypes, points)]: ValueError when the numbers of cells of the
    two arrays differ.  Simplification: an array that cannot be split is a ValueError too. *)
Definition ug_new {P} (cells types : list Z) (points : list P) : res (grid P) :=
  cs <- split_cells (List.length cells) cells ;;
  if zlen cs =? zlen types
  then Ok (Grid P cells (0 :: np_cumsum (List.map zlen cs)) types points)
  else Err ValueError.

(** Vertices per cell, for the VTK types of fixed size (pyvista's table, its linear and common
    quadratic cells; the other codes are taken as unsupported). *)
Definition vtk_nnode : dict Z Z :=
  [ (1, 1); (3, 2); (5, 3); (8, 4); (9, 4); (10, 4); (11, 8); (12, 8); (13, 6); (14, 5); (15, 10);
    (16, 12); (21, 3); (22, 6); (23, 8); (24, 10); (25, 20); (26, 15); (27, 13); (28, 9); (29, 27) ].

(** [pv.UnstructuredGrid(celldict, points)]: the cells of the dictionary, key after key.  Unknown
    types, arrays of another shape, vertices out of range and an empty dictionary: ValueError. *)
Definition ug_of_dict {P} (d : dict Z mat) (points : list P) : res (grid P) :=
  parts <- mapM (fun '(t, m) =>
      match dget Z.eqb t vtk_nnode with
      | None => Err ValueError
      | Some n =>
          match m_cols m with
          | None => Err ValueError
          | Some c =>
              if (Z.of_nat c =? n) &&
                 forallb (forallb (fun v => (0 <=? v) && (v <? zlen points))) (m_rows m)
              then Ok (List.map (fun r => (t, r)) (m_rows m)) else Err ValueError
          end
      end) d ;;
  match d with
  | [] => Err ValueError
  | _ =>
      let cs := List.concat parts in
      ug_new (flat_map (fun c => zlen (snd c) :: snd c) cs) (List.map fst cs) points
  end.

(** [grid.cells_dict]: for each type present, in increasing order, the array of the cells of this
    type, in the order of the grid. *)
Definition cells_dict {P} (g : grid P) : res (dict Z mat) :=
  cs <- split_cells (List.length (g_cells g)) (g_cells g) ;;
  mapM (fun t =>
      match dget Z.eqb t vtk_nnode with
      | None => Err ValueError
      | Some n => Ok (t, Mat (Some (Z.to_nat n))
                             (List.map snd (filter (fun c => fst c =? t) (combine (g_types g) cs))))
      end) (np_unique (g_types g)).

Definition n_cells {P} (g : grid P) : Z := zlen (g_types g).
Definition n_points {P} (g : grid P) : Z := zlen (g_points g).

(** ** [vtkMesh] *)

(** [vtktype_ele], _vtk.py:23-31, with the codes of pyvista's [CellType]. *)
Definition vtktype_ele : dict string Z :=
  [ ("bar2", 3); ("tri3", 5); ("quad4", 9); ("tetra4", 10); ("pyra5", 14); ("prism6", 13); ("hexa8", 12) ].
(** [ele_vtktype], _vtk.py:32. *)
Definition ele_vtktype : dict Z string := List.map (fun '(e, i) => (i, e)) vtktype_ele.

Section VtkMesh.
  Context {F : Type}.

  (** [mesh.nodescoord(ndarray=True)], _mesh.py:139-141: [np.column_stack] of the three arrays
      raises ValueError if their lengths differ. *)
  Fixpoint stack3 (x y z : list F) : res (list (list F)) :=
    match x, y, z with
    | [], [], [] => Ok []
    | a :: x', b :: y', c :: z' => r <- stack3 x' y' z' ;; Ok ([a; b; c] :: r)
    | _, _, _ => Err ValueError
    end.
  Definition nodescoord_nd (m : mesh F) : res (list (list F)) :=
    '(x, y, z) <- nodescoord m ;; stack3 x y z.

  (** [set_mesh], _vtk.py:71-78: the grid it builds.  A mesh without cells ([_cell2node] is None)
      has no [items]. *)
  Definition set_mesh (m : mesh F) : res (grid (list F)) :=
    coords <- nodescoord_nd m ;;
    match me_cell2node m with
    | None => Err AttributeError
    | Some c =>
        d <- mapM (fun '(etype, ed) => t <- dget_err String.eqb etype vtktype_ele ;; Ok (t, ed_e2n ed))
                  (ec_dict c) ;;
        ug_of_dict d coords
    end.

  (** [export_mesh], _vtk.py:92-105.  Points have three columns. *)
  Definition export_cells (d : dict Z mat) : res econn :=
    foldM (fun c '(itype, cellco) =>
        etype <- dget_err Z.eqb itype ele_vtktype ;; ec_add c etype cellco None) ec_empty d.
  Definition export_mesh (g : grid (list F)) : res (mesh F) :=
    d <- cells_dict g ;;
    c <- export_cells d ;;
    let m := set_cell2node (new_mesh (n_cells g) (n_points g)) c in
    match set_coords_nd m 3 (g_points g) with
    | (Ok _, m') => Ok m'
    | (Err e, _) => Err e
    end.
End VtkMesh.

(** ** [vtk_extract_cells], _vtk.py:198-233 *)

(** [l[a:b] = vals] for a 1-D array: the slice must have as many places as there are values, or
    there must be one value, which fills the slice. *)
Definition np_setslice {A} (l : list A) (a b : Z) (vals : list A) : res (list A) :=
  let n := zlen l in
  let a' := slice_bound n a in
  let k := Z.max 0 (slice_bound n b - a') in
  let put vs := Ok (firstn (Z.to_nat a') l ++ vs ++ skipn (Z.to_nat (a' + k)) l) in
  if zlen vals =? k then put vals
  else match vals with
       | [v] => put (List.map (fun _ => v) (zrange 0 k))
       | _ => Err ValueError
       end.

(** The loop of _vtk.py:221-226: [vtk_cells], [i], [j], and whether [i] is still the Python integer
    0.  The sizes are unsigned bytes: [i + 1 + size] is computed in 8 bits as long as [i] is a Python
    integer (numpy >= 2), then in 64 bits. *)
Definition fill_step (newv : list Z) (st : list Z * Z * Z * bool) (size : Z) : res (list Z * Z * Z * bool) :=
  let '(arr, i, j, first) := st in
  arr1 <- py_set arr i size ;;
  let hi := if first then (i + 1 + size) mod 256 else i + 1 + size in
  arr2 <- np_setslice arr1 (i + 1) hi (py_slice newv j (j + size)) ;;
  Ok (arr2, i + size + 1, j + size, false).

(** [enum] is the order in which Python lists a set; [junk i] is what memory holds at place [i] of
    an array made by [np.empty].  Cell numbers are used as numpy indices: out of range raises
    IndexError, negative ones count from the end of each array. *)
Definition extract_cells {P} (enum : list Z -> list Z) (junk : Z -> Z) (g : grid P) (ids : list Z)
  : res (grid P) :=
  new_types <- np_take (g_types g) ids ;;
  parts <- mapM (fun cid =>
      a <- py_get (g_offset g) cid ;; b <- py_get (g_offset g) (cid + 1) ;;
      Ok (py_slice (g_cells g) (a + cid + 1) (b + cid + 1))) ids ;;
  vtex <- match parts with [] => Err ValueError | _ => Ok (List.concat parts) end ;;
  nvtex <- mapM (fun cid =>
      a <- py_get (g_offset g) cid ;; s <- py_get (g_cells g) (a + cid) ;; Ok (s mod 256)) ids ;;
  let used := enum vtex in
  let idmap := dict_of_zip used (zrange 0 (zlen used)) in
  newv <- mapM (fun x => dget_err Z.eqb x idmap) vtex ;;
  let empty := List.map junk (zrange 0 (zlen newv + zlen new_types)) in
  '(cells, _, _, _) <- foldM (fill_step newv) (empty, 0, 0, true) nvtex ;;
  points <- np_take (g_points g) used ;;
  ug_new cells new_types points.

(** ** [volumes], _vtk.py:171-174 *)

(** [compute_cell_sizes] gives one value per cell, [vols].  The truth value of an array is defined
    only for at most one element (an empty array is false). *)
Section Volumes.
  Context {V : Type} (truth : V -> bool).
  Definition volumes (vols : list V) (cached : option (list V)) : res (list V) * option (list V) :=
    match cached with
    | None => (Ok vols, Some vols)
    | Some [] => (Ok vols, Some vols)
    | Some [v] => if truth v then (Ok [v], cached) else (Ok vols, Some vols)
    | Some _ => (Err ValueError, cached)
    end.
  (** What is done with a [vtkMesh]: another grid by [set_mesh], [set_pvmesh], [read] or [importhdfgroup],
      which all forget the volumes by [_reset] (_vtk.py:66-69, 71-72, 80-82, 87-90, 143); the grid itself changed
      through [pyvista_grid] (_vtk.py:107-108); a call of [volumes].  The state is the volumes of the cells of the grid
      and the volumes kept. *)
  Inductive volop : Type := VolSet (vols : list V) | VolMove (vols : list V) | VolAsk.
  Definition volstep (st : list V * option (list V)) (o : volop) : (list V * option (list V)) * list (res (list V)) :=
    match o with
    | VolSet vols => ((vols, None), [])
    | VolMove vols => ((vols, snd st), [])
    | VolAsk => let '(r, cached) := volumes (fst st) (snd st) in ((fst st, cached), [r])
    end.
  (** The outcomes of the calls of [volumes]. *)
  Fixpoint volrun (st : list V * option (list V)) (l : list volop) : (list V * option (list V)) * list (res (list V)) :=
    match l with
    | [] => (st, [])
    | o :: l' => let '(st, r) := volstep st o in let '(st, r') := volrun st l' in (st, r ++ r')
    end.
End Volumes.
Arguments volop : clear implicits.
