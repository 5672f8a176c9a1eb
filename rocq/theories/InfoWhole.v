(** * The commands that only read, as whole programs: [cfdinfo], cfdtools/_cli.py:131-146, and [ic3brief], _cli.py:149-162, from the
    words of the command line and the contents of the files to what is shown, as in Whole.v. *)
From Verif Require Export Info Whole.

Section InfoWhole.
  Context {C : Type} (bytes : C -> list Z) (text : C -> list (list string)) (tree : C -> cgnode Z).
  Context (ints floats : string -> option Z) (int_of float_of ver_of : string -> res Z) (unread : Z) (enum : list Z -> list Z).
  (** The order and the average of coordinates. *)
  Context (leb : Z -> Z -> bool) (avg : list Z -> Z).

  (** [reader(filename, cIntegrity=check)], [read_data()] and [export_mesh()], _cli.py:143-145: only the IC3 reader looks at
      the option (gmsh/reader.py:23-29). *)
  Definition info_ic3 (fs : files C) (check : bool) (name : string) : res (mesh Z) :=
    match dget String.eqb name fs with
    | None => Err RuntimeError
    | Some c => r <- Ic3.read_data check (bytes c) ;; fm <- Ic3.export_mesh r ;; Ok (fm_mesh fm)
    end.
  Definition info_gmsh (fs : files C) (check : bool) (name : string) : res (mesh Z) :=
    '(_, export) <- read_gmsh text int_of float_of ver_of unread fs name ;; fm <- export ;; Ok (fm_mesh fm).
  Definition info_cgns (fs : files C) (check : bool) (name : string) : res (mesh Z) :=
    '(_, export) <- read_cgns tree enum fs name ;; fm <- export ;; Ok (fm_mesh fm).
  Definition info_formats (fs : files C) : registry (rclass Z) unit :=
    registry_of (info_registrations tt (info_ic3 fs) (info_gmsh fs) (info_cgns fs)).

  Definition checked (ns : namespace) : bool := match ns_get "check" ns with VBool b => b | _ => false end.
  Definition info_command (argv : list string) (fs : files C) : outcome (out Z) :=
    ns <<- parse_args ints floats (info_options (available_readers (info_formats fs)) None) pos_filename argv ;;
    Done (cfdinfo leb avg (info_formats fs) (ar_fmt (args_of ns)) (checked ns) (ar_filename (args_of ns))).

  (** [binreader(filename).read_headers()], ic3/_ic3.py:353-386: the format given is looked up, but the file is read as an IC3
      file in any case. *)
  Definition brief (fs : files C) (filename : string) : res (list header) :=
    match dget String.eqb (path_str (path_of filename)) fs with
    | None => Err FileNotFoundError
    | Some c => read_headers (bytes c)
    end.
  Definition brief_command (argv : list string) (fs : files C) : outcome (res (list header)) :=
    ns <<- parse_args ints floats (info_options (available_readers (info_formats fs)) (Some "IC3"%string)) pos_filename argv ;;
    Done (_ <- parse_filenameformat (info_formats fs) (ar_fmt (args_of ns)) (ar_filename (args_of ns)) ;; brief fs (ar_filename (args_of ns))).
End InfoWhole.
