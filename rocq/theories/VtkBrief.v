(** * [vtkbrief] as a whole program, cfdtools/_cli.py:166-178, with [vtkMesh.read] and [vtkMesh.brief] (cfdtools/vtk/_vtk.py:87-90, 118-134).

    What is shown is kept as a record: the numbers of cells and of points, the bounds that pyvista computes from the points (a
    parameter), the names of the cell data and of the field data.  Not modelled: the names of the point data, which no file of
    the model has, the type of the grid, and the texts around the values. *)
From Verif Require Export VtkPack Cli CmdLine.

Section VtkBrief.
  Context {F V T : Type} (ints floats : string -> option Z) (bounds : list (list F) -> list F).

  Record brief_of := Brief { br_cells : Z; br_points : Z; br_bounds : list F; br_data : list string; br_field : list string }.
  (** [brief], _vtk.py:118-134: a grid that was read is always true. *)
  Definition grid_brief (c : vtkc F V T) : brief_of :=
    Brief (n_cells (vc_grid c)) (n_points (vc_grid c)) (bounds (g_points (vc_grid c))) (dkeys (vc_data c))
      (match vc_time c with Some _ => ["TimeValue"%string] | None => [] end).

  (** The default format is VTK, which is not one of the choices of --fmt: argparse checks only what is typed.  The format
      is looked up, and the file is read by pyvista in any case. *)
  Definition vtkbrief (argv : list string) (fs : files (node F V T)) : outcome (res brief_of) :=
    ns <<- parse_args ints floats (info_options (available_readers (registry_of cli_registrations)) (Some "VTK"%string)) pos_filename argv ;;
    Done (_ <- parse_filenameformat (registry_of cli_registrations) (ar_fmt (args_of ns)) (ar_filename (args_of ns)) ;;
          c <- pvread fs (ar_filename (args_of ns)) ;; Ok (grid_brief c)).
End VtkBrief.
Arguments brief_of : clear implicits.
Arguments Brief {F}.
