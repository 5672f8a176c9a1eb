(** * The converter to VTK as a whole program, as in Whole.v: [cfdwrite_vtk], cfdtools/_cli.py:272-277, and [cfdwritecube] with
    the VTK writer, _cli.py:280-324.  What [save] puts in a file is a parameter: a function of the grid. *)
From Verif Require Export Vtk Whole.

Section VtkWhole.
  Context {C : Type} (bytes : C -> list Z) (text : C -> list (list string)) (tree : C -> cgnode Z) (of_bytes : list Z -> C) (save : grid (list Z) -> C).
  Context (ints floats : string -> option Z) (int_of float_of ver_of : string -> res Z).
  Context (fadd fmul fdiv : Z -> Z -> Z) (linspace : nat -> list Z) (unread : Z) (enum : list Z -> list Z).
  Context (i2d : Z -> Z) (f2i : Z -> res Z) (host : order) (shown : fmesh -> res unit).

  (** [vtkMesh(mesh)] then [write_data], _vtk.py:52-66, 71-78, 84-85: the file is only opened by [save]. *)
  Definition vtk_file (fm : fmesh) : option C * res unit :=
    match set_mesh (fm_mesh fm) with Ok g => (Some (save g), Ok tt) | Err e => (None, Err e) end.

  Definition cfdwrite_vtk (argv : list string) (fs : files C) : outcome (res string) * files C :=
    cfdwrite ints floats (extruded fadd fmul linspace enum) (scaled fmul) shown
      (write of_bytes enum i2d f2i host vtk_file (elem2faces_after (calls bytes text tree ints floats int_of float_of ver_of unread enum argv fs)))
      (formats bytes text tree int_of float_of ver_of unread enum) (List.length fs + 1) argv ".vtu" ToVTK fs.
  Definition cube_vtk (argv : list string) (fs : files C) : outcome (res string) * files C :=
    cfdwrite_cube bytes text tree of_bytes ints floats int_of float_of ver_of fdiv unread enum i2d f2i host vtk_file argv fs.
End VtkWhole.
