(** * The converters as whole programs: the words of the command line (CmdLine.v), the registry (Cli.v), the
    readers (Ic3.v, Gmsh.v, Cgns.v), the transformations (Extrude.v, Mesh.v) and the IC3 writers (Ic3Fail.v), put
    together as in cfdtools/_cli.py:203-324.

    The contents of a file are seen as bytes, as lines of words (Gmsh) or as the tree of an HDF5 file (CGNS, as
    [h5py] gives it).  What the VTK library writes and the numbers of the log are left out.  A coordinate that a Gmsh
    reader leaves to None is taken as the number [unread]. *)
From Verif Require Export Elements Conn Mesh Extrude Simple Gmsh Cgns Ic3 Ic3Fail Files Race Cli CmdLine.

(** The writers that the commands use. *)
Inductive writer : Type := ToIC3 (v : version) | ToVTK.

Section Whole.
  (** Files; the words of a command line and of a Gmsh file as numbers; floating point sums, products, quotients and
      [np.linspace(0., 1., n)]; the iteration order of the sets; conversions of numbers; the byte order of the machine. *)
  Context {C : Type} (bytes : C -> list Z) (text : C -> list (list string)) (tree : C -> cgnode Z) (of_bytes : list Z -> C).
  Context (ints floats : string -> option Z) (int_of float_of ver_of : string -> res Z).
  Context (fadd fmul fdiv : Z -> Z -> Z) (linspace : nat -> list Z) (unread : Z) (enum : list Z -> list Z).
  Context (i2d : Z -> Z) (f2i : Z -> res Z) (host : order) (shown : fmesh -> res unit) (vtk : fmesh -> option C * res unit).

  (** A mesh without data, parameters and partition (a new [Mesh]). *)
  Definition bare (m : mesh Z) : fmesh := FM m (FDict []) (FDict []) [] None.

  (** The readers: [reader(filename)], [read_data()], [ncell] and [export_mesh()]; a file that does not exist is an
      error (ic3/reader_legacy.py:101-162, gmsh/reader.py:35-192, cgns/cgns.py:156-212). *)
  Definition read_ic3 (fs : files C) (name : string) : res (count * res fmesh) :=
    match dget String.eqb name fs with
    | None => Err RuntimeError
    | Some c => r <- Ic3.read_data false (bytes c) ;; Ok (PyInt (r_cv r), Ic3.export_mesh r)
    end.
  Definition known (o : option Z) : Z := match o with Some v => v | None => unread end.
  Definition plain_mark (b : mark (option Z)) : mark Z :=
    Mark Z (mk_name b) (mk_geodim b) (mk_type b) (mk_index b) (option_map (option_map (List.map known)) (mk_perio b)).
  Definition plain_mesh (m : mesh (option Z)) : mesh Z :=
    Mesh Z (me_ncell m) (me_nnode m) (me_nface m) (me_cell2node m) (me_faces m)
      (List.map (fun '(k, v) => (k, List.map known v)) (me_nodes m)) (List.map (fun '(k, b) => (k, plain_mark b)) (me_bocos m)).
  (** [self._ncell], gmsh/reader.py:70-77. *)
  Definition gmsh_ncell (g : gmsh Z) : Z := zsum (List.map (fun '(_, m) => m_nrow m) (g_conn g)).
  Definition read_gmsh (fs : files C) (name : string) : res (count * res fmesh) :=
    match dget String.eqb name fs with
    | None => Err RuntimeError
    | Some c => let msh := text c in
        g <- Gmsh.read_data int_of float_of ver_of (List.length msh) msh ;;
        Ok (PyInt (gmsh_ncell g), m <- Gmsh.export_mesh 0 g ;; Ok (bare (plain_mesh m)))
    end.
  Definition read_cgns (fs : files C) (name : string) : res (count * res fmesh) :=
    match dget String.eqb name fs with
    | None => Err RuntimeError
    | Some c => z <- Cgns.read_data (tree c) None ;; n <- zone_ncell z ;;
        Ok (NpInt n, m <- Cgns.export_mesh enum z ;; Ok (bare m))
    end.

  (** The registrations [cli_registrations] with the classes themselves. *)
  Definition formats : registry (readfun (C := C)) writer :=
    registry_of [RegReader "IC3" read_ic3 ".ic3"; RegWriter "IC3" (ToIC3 V2) ".ic3"; RegWriter "IC3" (ToIC3 V3) ".ic3";
                 RegReader "GMSH" read_gmsh ".msh"; RegReader "CGNS" read_cgns ".cgns"; RegWriter "VTK" ToVTK ".vtu"]%string.

  (** [export_extruded(extrude=np.linspace(0., 1., nz + 1))], _cli.py:237-242, along z (_mesh.py:257-302); a negative number of
      points is refused by numpy.  The mesh is a new one. *)
  Definition one : Z := 4607182418800017408.
  Definition extruded (n : Z) (fm : fmesh) : res fmesh :=
    if n + 1 <? 0 then Err ValueError
    else m <- export_extruded fadd fmul enum (fm_mesh fm) (0, 0, one) (linspace (Z.to_nat (n + 1))) "fluid" ;; Ok (bare m).
  (** [scale], _cli.py:243-244. *)
  Definition scaled (s : Z * Z * Z) (fm : fmesh) : res fmesh :=
    let '(sx, sy, sz) := s in
    let '(r, m) := scale fmul (fm_mesh fm) sx sy sz in
    _ <- r ;; Ok (FM m (fm_cells fm) (fm_nodes fm) (fm_params fm) (fm_part fm)).

  (** [writer(mesh).write_data(filename)], _cli.py:247-248, with the table of sides in force. *)
  Definition write (tbl : sidetable) (w : writer) (fm : fmesh) : option C * res unit :=
    match w with
    | ToIC3 v => let '(f, r, _) := write_file tbl enum i2d f2i host v "native" fm in (option_map of_bytes f, r)
    | ToVTK => vtk fm
    end.

  (** The reader that a command line calls, as far as the table of sides is concerned. *)
  Definition calls (argv : list string) (fs : files C) : list session_event :=
    match parse_args ints floats (generic_options (available_readers formats)) pos_filename argv with
    | Done ns => let a := args_of ns in
        match parse_filenameformat formats (ar_fmt a) (ar_filename a) with
        | Ok (f, _, _) => if String.eqb f "GMSH" then [GmshRead (fexists fs (path_str (path_of (ar_filename a))))] else [OtherCall]
        | Err _ => []
        end
    | _ => []
    end.

  (** [cfdwrite_ic3v2] and [cfdwrite_ic3v3] (= [cfdwrite_ic3]), _cli.py:252-269; the numbers tried for a safe name are those of
      one more than the files that exist. *)
  Definition cfdwrite_ic3 (v : version) (argv : list string) (fs : files C) : outcome (res string) * files C :=
    cfdwrite ints floats extruded scaled shown (write (elem2faces_after (calls argv fs))) formats (List.length fs + 1) argv ".ic3" (ToIC3 v) fs.
  (** [cfdwritecube], _cli.py:283-324. *)
  Definition cfdwrite_cube (argv : list string) (fs : files C) : outcome (res string) * files C :=
    cube_command ints floats (write (elem2faces_after [])) (fun '(nx, ny, nz) => m <- cube_export nx ny nz fdiv ;; Ok (bare m)) formats argv fs.
End Whole.
