(** * Model of the format registry (cfdtools/api.py:9-48) and of the command line converters
    (cfdtools/_cli.py:57-59, 115-128, 203-324).

    The parsing of the arguments by [argparse] is in CmdLine.v: here the arguments are a record.  The readers,
    the transformations and the writers are functions of the world given by the user of these definitions
    (the readers and writers of IC3 are modelled in Ic3.v).  A reader does not write; a writer creates or
    truncates the file it is given, even when it fails later, and writes to no other file.  The timers only
    matter through the division by the number of cells (Timer.v models the rest); what [--info] prints is
    modelled in Info.v, here only whether it fails. *)
From Verif Require Export Py Files Race Data Ic3.

(** ** Registry *)
Section Registry.
  Context {R W : Type}.
  (** An entry of [_fileformat_map]: the keys 'reader' and 'writer' may be absent. *)
  Record entry : Type := Entry { en_reader : option R; en_writer : option W; en_ext : string }.
  Definition registry : Type := dict string entry.
  (** The decorators, api.py:14-48. *)
  Inductive registration : Type := RegReader (name : string) (cls : R) (ext : string) | RegWriter (name : string) (cls : W) (ext : string).
  Definition register (m : registry) (r : registration) : registry :=
    match r with
    | RegReader name cls ext =>
        match dget String.eqb name m with
        | Some e => dset String.eqb name (Entry (Some cls) (en_writer e) ext) m
        | None => dset String.eqb name (Entry (Some cls) None ext) m
        end
    | RegWriter name cls ext =>
        match dget String.eqb name m with
        | Some e => dset String.eqb name (Entry (en_reader e) (Some cls) ext) m
        | None => dset String.eqb name (Entry None (Some cls) ext) m
        end
    end.
  Definition registry_of (l : list registration) : registry := fold_left register l [].

  (** [_available_readers], _cli.py:57-59. *)
  Definition available_readers (m : registry) : list string :=
    List.map fst (filter (fun '(_, e) => match en_reader e with Some _ => true | None => false end) m).

  (** [parse_filenameformat], _cli.py:115-128: the name of the format, its reader and its writer. *)
  Definition parse_filenameformat (m : registry) (fmt : option string) (filename : string) : res (string * option R * option W) :=
    let thisfmt := match fmt with
                   | None => List.map fst (filter (fun '(_, e) => String.eqb (en_ext e) (path_suffix (path_of filename))) m)
                   | Some f => [f]
                   end in
    match thisfmt with
    | [] => Err RuntimeError
    | f :: [] => e <- dget_err String.eqb f m ;; Ok (f, en_reader e, en_writer e)
    | _ :: _ :: _ => Err RuntimeError
    end.
End Registry.
Arguments entry : clear implicits.
Arguments registry : clear implicits.
Arguments registration : clear implicits.

(** The registrations made by the imports of _cli.py:12-15, in the order of the imports
    (ic3/__init__.py, ic3/reader_legacy.py:55, ic3/writerV2.py:22, ic3/writerV3.py:21, gmsh/reader.py:19,
    cgns/cgns.py:147, vtk/_vtk.py:45).  The classes are given by their names. *)
Definition cli_registrations : list (registration string string) :=
  [RegReader "IC3" "ic3.reader_legacy.reader" ".ic3"; RegWriter "IC3" "ic3.writerV2.writer" ".ic3"; RegWriter "IC3" "ic3.writerV3.writer" ".ic3";
   RegReader "GMSH" "gmsh.reader.reader" ".msh"; RegReader "CGNS" "cgns.cgns.cgnsMesh" ".cgns"; RegWriter "VTK" "vtk._vtk.vtkMesh" ".vtu"]%string.

(** ** Removing data *)
(** [Mesh.pop_celldata], meshbase/_mesh.py:325-326: a mesh without cell data has the empty dict; a
    [DataSet] is true whatever it contains; a dict that is not empty has no attribute [data]. *)
Definition pop_celldata (name : string) (fm : fmesh) : res (option array) * fmesh :=
  match fm_cells fm with
  | FDict [] => (Ok None, fm)
  | FDict _ => (Err AttributeError, fm)
  | FSet d => (a <- dget_err String.eqb name (ds_data d) ;; Ok (Some a), fm)
  end.
(** The loop of _cli.py:222-227. *)
Fixpoint remove_cells (names : list string) (fm : fmesh) : res unit * fmesh :=
  match names with
  | [] => (Ok tt, fm)
  | n :: l => match pop_celldata n fm with
              | (Ok _, fm') => remove_cells l fm'
              | (Err e, fm') => (Err e, fm')
              end
  end.

(** ** Converters *)
(** The property [ncell] of a reader: an int of Python (IC3, Gmsh) or of numpy (CGNS).  [Timer.stop] divides a
    float by it (api.py:153-158): only an int of Python raises when it is zero.  After an extrusion the
    divisor is a non-zero multiple of it. *)
Inductive count : Type := PyInt (n : Z) | NpInt (n : Z).
Definition per_elem (c : count) : res unit := match c with PyInt n => if n =? 0 then Err ZeroDivisionError else Ok tt | NpInt _ => Ok tt end.
Record args : Type := Args {
  ar_filename : string; ar_fmt : option string; ar_outpath : option string;
  ar_remove : list string; ar_extrude : Z; ar_scale : option (Z * Z * Z); ar_info : bool }.

Section Convert.
  (** What the readers find in a file system, and what the writers do: the contents they leave if they
      open the file, and their outcome. *)
  Context {C W : Type}.
  (** A reader that succeeds in [read_data] gives its number of cells and the outcome of [export_mesh]. *)
  Definition readfun : Type := files C -> string -> res (count * res fmesh).
  Context (extruded : Z -> fmesh -> res fmesh) (scaled : Z * Z * Z -> fmesh -> res fmesh) (shown : fmesh -> res unit) (write : W -> fmesh -> option C * res unit).

  (** Opening and writing the file of the given name. *)
  Definition write_to (fs : files C) (name : string) (o : option C * res unit) : res string * files C :=
    let fs' := match fst o with Some c => dset String.eqb name c fs | None => fs end in
    match snd o with Ok _ => (Ok name, fs') | Err e => (Err e, fs') end.

  (** The name of the output, _cli.py:229-234. *)
  Definition output_name (fuel : nat) (fs : files C) (a : args) (ext : string) : res path :=
    let p := path_of (ar_filename a) in
    let p := match ar_outpath a with None => remove_dir p | Some d => change_dir d p end in
    p <- change_suffix ext p ;; '(p, _) <- find_safe_newfile fuel (fexists fs) p ;; Ok p.

  (** [write_generic], _cli.py:203-249: the outcome and the files. *)
  Definition write_generic (m : registry readfun W) (fuel : nat) (a : args) (ext : string) (writer : W) (fs : files C) : res string * files C :=
    match parse_filenameformat m (ar_fmt a) (ar_filename a) with
    | Err e => (Err e, fs)
    | Ok (_, None, _) => (Err TypeError, fs)
    | Ok (_, Some rd, _) =>
        match rd fs (path_str (path_of (ar_filename a))) with
        | Err e => (Err e, fs)
        | Ok (n, export) =>
        match (_ <- per_elem n ;; export) with
        | Err e => (Err e, fs)
        | Ok fm =>
            match remove_cells (ar_remove a) fm with
            | (Err e, _) => (Err e, fs)
            | (Ok _, fm) =>
                match output_name fuel fs a ext with
                | Err e => (Err e, fs)
                | Ok p =>
                    match (fm <- (if ar_extrude a =? 0 then Ok fm else extruded (ar_extrude a) fm) ;;
                           fm <- match ar_scale a with None => Ok fm | Some s => scaled s fm end ;;
                           _ <- (if ar_info a then shown fm else Ok tt) ;; Ok fm) with
                    | Err e => (Err e, fs)
                    | Ok fm => write_to fs (path_str p) (write writer fm)
                    end
                end
            end
        end
        end
    end.

  (** [cfdwritecube], _cli.py:315-324; [mesh] is the outcome of [cube.export_mesh()]. *)
  Definition cfdwritecube (m : registry readfun W) (a : args) (mesh : res fmesh) (fs : files C) : res string * files C :=
    match parse_filenameformat m (ar_fmt a) (ar_filename a) with
    | Err e => (Err e, fs)
    | Ok (_, _, w) =>
        match mesh with
        | Err e => (Err e, fs)
        | Ok fm => match w with
                   | None => (Err TypeError, fs)
                   | Some w => write_to fs (path_str (path_of (ar_filename a))) (write w fm)
                   end
        end
    end.
End Convert.
