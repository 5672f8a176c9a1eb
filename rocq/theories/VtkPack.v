(** * Model of the command [vtkpack] (cfdtools/_cli.py:182-200), with [vtkList.allexist], [read] and [dumphdf]
    (cfdtools/vtk/_vtkList.py:33-34, 55-131) and [DataSetList.dumphdf] (cfdtools/data.py:242-257).

    The files are a finite map from names to contents.  A VTK file is its grid, its cell data and the field
    "TimeValue"; [centers] gives the cell centres [pyvista] computes from the grid.  The other parameters are
    those of [VtkList] (distances, nearest neighbour of [scipy]); [tol] is the default tolerance 1e-10 of
    [read].  The arguments are already parsed.  Not modelled: messages, timers, shapes of arrays other than
    their number of rows; a name with ".." or a link is not resolved. *)
From Verif Require Export Py Mesh Vtk Files Race VtkList Hdf5.

Section VtkPack.
  Context {F P D V T : Type} (mdist kdist : P -> P -> D) (dle : D -> D -> bool)
          (nearest : list P -> P -> Z) (truth : T -> bool) (tol : D) (centers : grid (list F) -> list P).

  Record vtkc : Type := VtkC { vc_grid : grid (list F); vc_data : dict string (list V); vc_time : option T }.
  (** The values of a data set or attribute of the HDF5 file. *)
  Inductive hval : Type := HArr (l : list V) | HTime (t : T).
  (** The content of a file: a VTK grid, something [pv.read] refuses, an HDF5 file written by cfdtools, or
      the HDF5 file left by a dump that failed. *)
  Inductive node : Type := NVtk (c : vtkc) | NBad (e : exn) | NH5 (h : h5 F hval) | NPartial.

  (** [Path(name).exists()]. *)
  Definition exists_ (fs : files node) (name : string) : bool := fexists fs (path_str (path_of name)).
  (** [pv.read(name)].  Stand-in: a file written by this command is refused with a ValueError. *)
  Definition pvread (fs : files node) (name : string) : res vtkc :=
    match dget String.eqb (path_str (path_of name)) fs with
    | Some (NVtk c) => Ok c
    | Some (NBad e) => Err e
    | Some _ => Err ValueError
    | None => Err FileNotFoundError
    end.
  Definition vfile_of (c : vtkc) : vfile P V T := VFile (centers (vc_grid c)) [] (vc_data c) (vc_time c).

  (** [allexist], _vtkList.py:33-34. *)
  Definition allexist (fs : files node) (names : list string) : bool := forallb (exists_ fs) names.

  (** [read()], _vtkList.py:55-117: the grid of the first file, and the data sets. *)
  Definition pack_read (fs : files node) (names : list string) : res (grid (list F) * list (dict string (dval V T))) :=
    match names with
    | [] => Err AssertionError
    | n0 :: _ =>
        c0 <- pvread fs n0 ;;
        dls <- mapM (fun name => c <- pvread fs name ;;
                 read_file mdist kdist dle nearest truth (centers (vc_grid c0)) [] tol (vfile_of c)) names ;;
        Ok (vc_grid c0, dls)
    end.

  (** What h5py stores for an entry. *)
  Definition stored (v : dval V T) : var hval :=
    match v with DArr l => Var [zlen l] (HArr l) | DTime t => Var [1] (HTime t) end.
  Definition stored_set (d : dict string (dval V T)) : dict string (var hval) := List.map (fun kv => (fst kv, stored (snd kv))) d.

  (** [dumphdf(filename)], _vtkList.py:119-131 and data.py:242-257, with the default options: the file is
      opened, hence created, after the mesh is exported. *)
  Definition pack_dump (fuel : nat) (ver filename : string) (fs : files node) (g : grid (list F)) (dls : list (dict string (dval V T)))
    : res string * files node :=
    match export_mesh g with
    | Err e => (Err e, fs)
    | Ok m =>
        match find_safe_newfile fuel (fexists fs) (path_of filename) with
        | Err e => (Err e, fs)
        | Ok (p, _) =>
            let name := path_str p in
            match dl_dumphdf ver m (List.map stored_set dls) with
            | Ok h => (Ok name, dset String.eqb name (NH5 h) fs)
            | Err e => (Err e, dset String.eqb name NPartial fs)
            end
        end
    end.

  (** [vtkpack], _cli.py:182-200. *)
  Definition vtkpack (fuel : nat) (ver : string) (names : list string) (fs : files node) : res string * files node :=
    if allexist fs names then
      match pack_read fs names with
      | Ok (g, dls) => pack_dump fuel ver "dumped.h5" fs g dls
      | Err e => (Err e, fs)
      end
    else (Err RuntimeError, fs).
End VtkPack.
Arguments vtkc : clear implicits.
Arguments hval : clear implicits.
Arguments node : clear implicits.
