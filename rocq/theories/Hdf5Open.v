(** * Model of [h5File.open], [datatype] and [printinfo] (cfdtools/hdf5/_hdf5.py:25-90), and of
    [vtkMesh.dumphdf] with [overwrite=True] (cfdtools/vtk/_vtk.py:176-196), with what they leave on disk.

    A path is described by what is there: nothing or a HDF5 file.  h5py is modelled by its documented
    modes: 'r' and 'r+' need the file, 'w' empties it, 'w-' and 'x' refuse it, 'a' takes both; any other
    mode is a ValueError.  Simplifications: a file left open by an error is taken as closed (that is, its
    content is what was written before the error); an object that h5py fails to create leaves nothing. *)
From Verif Require Export Hdf5.

Section Open.
  Context {F V : Type}.
  Notation h5 := (h5 F V). Notation attr := (attr V). Notation obj := (obj F V).

  (** The attributes of an [h5File]; [None] outside is an attribute that has not been set.  [_h5ver] is the
      object ' hdf5version' of the file. *)
  Record handle : Type := Handle {
    hd_mode : option string; hd_datatype : option attr; hd_cfdver : option attr;
    hd_h5ver : option (option obj); hd_version : option (option attr) }.
  (** [__init__], _hdf5.py:26-30. *)
  Definition new_handle : handle := Handle None None None None None.
  Definition empty_file : h5 := [([], Grp [])].

  (** _hdf5.py:44-50: the file has just been created. *)
  Definition new_file (ver mode : string) (datatype : option string) (version : option Z) (o : handle) : res unit * handle * option h5 :=
    match datatype with
    | Some d =>
        if existsb (String.eqb d) available_types then
          match version with
          | None => (Err RuntimeError, o, Some [([], Grp [("cfdtools_version", AStr ver); ("cfd_datatype", AStr d)])]%string)
          | Some v => (Ok tt, Handle (Some mode) (hd_datatype o) (hd_cfdver o) (hd_h5ver o) (hd_version o),
                       Some [([], Grp [("cfdtools_version", AStr ver); ("cfd_datatype", AStr d); ("data_version", AInt v)])]%string)
          end
        else (Err AssertionError, o, Some empty_file)
    | None => (Err AssertionError, o, Some empty_file)
    end.
  (** [open], _hdf5.py:32-60. *)
  Definition h5_open (ver mode : string) (datatype : option string) (version : option Z) (o : handle) (disk : option h5)
    : res unit * handle * option h5 :=
    if existsb (String.eqb mode) ["w"; "w-"; "x"]%string then
      match disk with
      | Some _ =>
          if String.eqb mode "w" then new_file ver mode datatype version o else (Err FileExistsError, o, disk)
      | None => new_file ver mode datatype version o
      end
    else if existsb (String.eqb mode) ["r"; "r+"]%string then
      match disk with
      | None => (Err FileNotFoundError, o, disk)
      | Some h =>
          let '(dt, cv, v) := open_old h in
          (Ok tt, Handle (Some mode) dt cv (Some (dget path_eqb [" hdf5version"%string] h)) (Some v), disk)
      end
    else if String.eqb mode "a" then
      (Err RuntimeError, o, Some (match disk with Some h => h | None => empty_file end))
    else (Err ValueError, o, disk).

  (** [bool] of an attribute; an array counts as true. *)
  Definition truthy (a : attr) : bool :=
    match a with AStr s => negb (String.eqb s "") | AInt z => negb (z =? 0) | AVar _ => true end.
  (** What [printinfo] shows, _hdf5.py:80-90, after the name of the file. *)
  Inductive shown : Type := ShH5 (o : obj) | ShCfd (a : attr) | ShType (a : attr) | ShVersion (a : attr).
  Definition show_if (sh : attr -> shown) (a : option attr) : list shown :=
    match a with Some a => if truthy a then [sh a] else [] | None => [] end.
  Definition h5_printinfo (o : handle) : res (list shown) :=
    match hd_mode o with
    | None => Ok []
    | Some _ =>
        match hd_h5ver o with
        | None => Err AttributeError
        | Some hv =>
            match hd_version o with
            | None => Err AttributeError
            | Some v => Ok (match hv with Some b => [ShH5 b] | None => [] end ++ show_if ShCfd (hd_cfdver o)
                            ++ show_if ShType (hd_datatype o) ++ show_if ShVersion v)
            end
        end
    end.

  (** Steps that write in a file, until one fails. *)
  Fixpoint run_steps (l : list (h5 -> res h5)) (h : h5) : res unit * h5 :=
    match l with
    | [] => (Ok tt, h)
    | f :: l' => match f h with Ok h' => run_steps l' h' | Err e => (Err e, h) end
    end.
  (** [write_unsmesh], _hdf5.py:72-78. *)
  Definition unsmesh_steps (cellnode : dict string mat) (nodes : list (list F)) : list (h5 -> res h5) :=
    [fun h => create_group h [] "/mesh"; fun h => Ok (set_attr h ["mesh"] "meshtype" (AStr "unsmesh"));
     fun h => create_dataset h ["mesh"] "nodes" (CPts nodes); fun h => create_group h ["mesh"] "cells"]%string
    ++ List.map (fun '(ctype, cellco) h => create_dataset h ["mesh"; "cells"]%string ctype (CMat cellco)) cellnode.
  (** [vtkMesh.dumphdf(name, overwrite=True)], _vtk.py:188-196, and the file after it. *)
  Definition vtk_overwrite (ver : string) (g : grid (list F)) (disk : option h5) : res unit * option h5 :=
    match h5_open ver "w" (Some "dataset"%string) (Some 1) new_handle disk with
    | (Err e, _, disk) => (Err e, disk)
    | (Ok _, _, None) => (Ok tt, None)
    | (Ok _, _, Some h) =>
        match (d <- cells_dict g ;;
               mapM (fun '(itype, cellco) => e <- dget_err Z.eqb itype ele_vtktype ;; Ok (e, cellco)) d) with
        | Err e => (Err e, Some h)
        | Ok celldict => let '(r, h) := run_steps (unsmesh_steps celldict (g_points g)) h in (r, Some h)
        end
    end.
End Open.
Arguments handle : clear implicits.
Arguments shown : clear implicits.
