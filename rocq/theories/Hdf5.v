(** * Model of the HDF5 and XDMF output: [h5File] (cfdtools/hdf5/_hdf5.py:25-78), [vtkMesh.dumphdf],
    [importhdfgroup], [xdmf_content] (cfdtools/vtk/_vtk.py:139-196), [DataSetList._dumphdfgroup],
    [xdmf_content], [dumphdf] (cfdtools/data.py:191-257) and [vtkList.dumphdf], [_dumpxdmf]
    (cfdtools/vtk/_vtkList.py:119-155).

    h5py is modelled by its contract: a file is a finite map from paths to groups (with attributes) and
    data sets; names are split at '/', a name starting with '/' is taken from the root of the file,
    intermediate groups are created, and nothing can be created twice.  Simplification: every failure of
    h5py to create an object is a ValueError.  Not modelled: storage options, data types of the arrays,
    [printinfo], the choice of the file name (see [Files]) and the XDMF file as text (only its lines). *)
From Coq Require Import Ascii.
From Verif Require Export Py Mesh Vtk Files.

Section Hdf5.
  Context {F V : Type}.
  Open Scope string_scope.

  (** A numpy array of cell data: its shape and values. *)
  Record var : Type := Var { va_shape : list Z; va_val : V }.
  Inductive content : Type := CPts (rows : list (list F)) | CMat (m : mat) | CVar (v : var).
  Inductive attr : Type := AStr (s : string) | AInt (z : Z) | AVar (v : var).
  Inductive obj : Type := Grp (a : dict string attr) | Dat (c : content).

  Fixpoint path_eqb (a b : list string) : bool :=
    match a, b with
    | [], [] => true
    | x :: a', y :: b' => String.eqb x y && path_eqb a' b'
    | _, _ => false
    end.
  Definition h5 : Type := dict (list string) obj.

  (** The objects a name denotes, seen from the group [base]. *)
  Definition components (name : string) : list string := filter kept_part (split_slash name).
  Definition from (base : list string) (name : string) : list string :=
    match name with
    | String "/" _ => components name
    | _ => (base ++ components name)%list
    end.

  (** Missing groups on the way to [pre ++ rest]. *)
  Fixpoint mk_parents (h : h5) (pre rest : list string) : res h5 :=
    match rest with
    | [] => Ok h
    | w :: r =>
        match r with
        | [] => Ok h
        | _ =>
            let p := (pre ++ [w])%list in
            match dget path_eqb p h with
            | Some (Grp _) => mk_parents h p r
            | Some (Dat _) => Err ValueError
            | None => mk_parents (dset path_eqb p (Grp []) h) p r
            end
        end
    end.
  Definition create (h : h5) (target : list string) (o : obj) : res h5 :=
    match target with
    | [] => Err ValueError
    | _ =>
        h1 <- mk_parents h [] target ;;
        if dmem path_eqb target h1 then Err ValueError else Ok (dset path_eqb target o h1)
    end.
  (** [group.create_group(name)]. *)
  Definition create_group (h : h5) (base : list string) (name : string) : res h5 :=
    create h (from base name) (Grp []).
  (** [group.create_dataset(name, data=c)]: the part after the last '/' must be a name. *)
  Definition create_dataset (h : h5) (base : list string) (name : string) (c : content) : res h5 :=
    if kept_part (List.last (split_slash name) "") then create h (from base name) (Dat c) else Err ValueError.
  (** [group.attrs[k] = v]. *)
  Definition set_attr (h : h5) (p : list string) (k : string) (v : attr) : h5 :=
    match dget path_eqb p h with
    | Some (Grp a) => dset path_eqb p (Grp (dset String.eqb k v a)) h
    | _ => h
    end.
  (** [group.items()]: by increasing name. *)
  Fixpoint strip (p q : list string) : option (list string) :=
    match p, q with
    | [], _ => Some q
    | x :: p', y :: q' => if String.eqb x y then strip p' q' else None
    | _, [] => None
    end.
  Definition children (h : h5) (p : list string) : list (string * obj) :=
    flat_map (fun '(q, o) => match strip p q with Some [n] => [(n, o)] | _ => [] end) h.
  Definition items (h : h5) (p : list string) : list (string * obj) :=
    isort (fun a b => String.leb (fst a) (fst b)) (children h p).

  (** ** [h5File] *)

  (** [_available_types], _hdf5.py:16. *)
  Definition available_types : list string := ["external"; "dataset"; "datalist"; "probes"; "cfdmesh"].

  (** [open] in one of the modes 'w', 'w-', 'x', _hdf5.py:32-50 (the file being created): [ver] is
      [cfdtools.__version__]. *)
  Definition open_new (ver : string) (datatype : option string) (version : option Z) : res h5 :=
    match datatype with
    | Some d =>
        if existsb (String.eqb d) available_types then
          match version with
          | None => Err RuntimeError
          | Some v => Ok [([], Grp [("cfdtools_version", AStr ver); ("cfd_datatype", AStr d); ("data_version", AInt v)])]
          end
        else Err AssertionError
    | None => Err AssertionError
    end.
  (** [open] in the modes 'r', 'r+', _hdf5.py:51-57: datatype, version of cfdtools, version of the data. *)
  Definition root_attrs (h : h5) : dict string attr :=
    match dget path_eqb [] h with Some (Grp a) => a | _ => [] end.
  Definition open_old (h : h5) : option attr * option attr * option attr :=
    let a := root_attrs h in
    let datatype := dget String.eqb "cfd_datatype" a in
    (datatype, dget String.eqb "cfdtools_version" a,
     match dget String.eqb "data_version" a with
     | Some v => Some v
     | None => match datatype with
               | None => None
               | Some (AStr "") => None
               | Some _ => Some (AInt 0)
               end
     end).

  (** [write_unsmesh] with its default path and type, _hdf5.py:72-78. *)
  Definition write_unsmesh (h : h5) (cellnode : dict string mat) (nodes : list (list F)) : res h5 :=
    h1 <- create_group h [] "/mesh" ;;
    let h2 := set_attr h1 ["mesh"] "meshtype" (AStr "unsmesh") in
    h3 <- create_dataset h2 ["mesh"] "nodes" (CPts nodes) ;;
    h4 <- create_group h3 ["mesh"] "cells" ;;
    foldM (fun h '(ctype, cellco) => create_dataset h ["mesh"; "cells"] ctype (CMat cellco)) h4 cellnode.

  (** ** [vtkMesh] *)

  (** [dumphdf], _vtk.py:176-196: the file written. *)
  Definition vtk_dumphdf (ver : string) (g : grid (list F)) : res h5 :=
    h <- open_new ver (Some "dataset") (Some 1) ;;
    d <- cells_dict g ;;
    celldict <- mapM (fun '(itype, cellco) => e <- dget_err Z.eqb itype ele_vtktype ;; Ok (e, cellco)) d ;;
    write_unsmesh h celldict (g_points g).

  (** [importhdfgroup], _vtk.py:139-143, on the group [p].  Data sets of another kind than those
      [write_unsmesh] makes are taken as a TypeError. *)
  Definition importhdfgroup (h : h5) (p : list string) : res (grid (list F)) :=
    match dget path_eqb p h with
    | Some (Grp a) =>
        t <- dget_err String.eqb "meshtype" a ;;
        match t with
        | AStr s =>
          if negb (String.eqb s "unsmesh") then Err AssertionError else
            points <- match dget path_eqb (p ++ ["nodes"])%list h with
                      | Some (Dat (CPts rows)) => Ok rows
                      | Some _ => Err TypeError
                      | None => Err KeyError
                      end ;;
            match dget path_eqb (p ++ ["cells"])%list h with
            | Some (Grp _) =>
                celldict <- mapM (fun '(etype, o) =>
                    t <- dget_err String.eqb etype vtktype_ele ;;
                    match o with Dat (CMat m) => Ok (t, m) | _ => Err TypeError end) (items h (p ++ ["cells"])%list) ;;
                ug_of_dict celldict points
            | Some _ => Err AttributeError
            | None => Err KeyError
            end
        | _ => Err AssertionError
        end
    | _ => Err KeyError
    end.

  (** [PYVISTA2XDMF], _vtk.py:33-40. *)
  Definition pyvista2xdmf : dict Z string :=
    [ (5, "Triangle"); (9, "Quadrilateral"); (12, "Hexahedron"); (10, "Tetrahedron"); (14, "Pyramid"); (13, "Prism") ]%Z.

  (** [str] of a non-negative integer. *)
  Definition zdec (n : Z) : string := dec (Z.to_nat n).
  Definition q : string := String """" "".
  Definition mat_size (m : mat) : Z :=
    match m_cols m with Some c => zlen (m_rows m) * Z.of_nat c | None => zlen (m_rows m) end%Z.
  Definition data_item (dims filename path : string) : list string :=
    ["<DataItem Dimensions=" ++ q ++ dims ++ q ++ " Format=" ++ q ++ "HDF" ++ q ++ ">"; filename ++ ":" ++ path; "</DataItem>"].

  (** [xdmf_content], _vtk.py:145-169; pyvista's points have three columns. *)
  Definition mesh_xdmf (filename : string) (g : grid (list F)) : res (list string) :=
    d <- cells_dict g ;;
    topo <- mapM (fun '(itype, cellco) =>
        x <- dget_err Z.eqb itype pyvista2xdmf ;;
        e <- dget_err Z.eqb itype ele_vtktype ;;
        Ok ([("<Topology NumberOfElements=" ++ q ++ zdec (zlen (m_rows cellco)) ++ q ++ " TopologyType=" ++ q ++ x ++ q ++ ">")%string]
            ++ data_item (zdec (mat_size cellco)) filename ("/mesh/cells/" ++ e)%string ++ ["</Topology>"])%list) d ;;
    Ok ([("<Geometry GeometryType=" ++ q ++ "XYZ" ++ q ++ ">")%string]
        ++ data_item (zdec (zlen (g_points g) * 3)) filename "/mesh/nodes" ++ ["</Geometry>"] ++ List.concat topo)%list.

  (** ** [DataSetList] *)

  (** [f"i{i:06}"]. *)
  Fixpoint zeros (n : nat) : string := match n with O => "" | S n' => String "0" (zeros n') end.
  Definition pad6 (s : string) : string := zeros (6 - String.length s) ++ s.
  Definition step_name (i : nat) : string := "i" ++ pad6 (dec i).
  (** [_property_names], data.py:170. *)
  Definition is_property (name : string) : bool := String.eqb name "time".

  (** [_dumphdfgroup], data.py:191-203. *)
  Definition dump_entry (h : h5) (p : list string) (kv : string * var) : res h5 :=
    if is_property (fst kv) then Ok (set_attr h p (fst kv) (AVar (snd kv)))
    else create_dataset h p (fst kv) (CVar (snd kv)).
  Definition dump_step (h : h5) (base : list string) (i : nat) (d : dict string var) : res h5 :=
    h1 <- create_group h base (step_name i) ;;
    foldM (fun h kv => dump_entry h (base ++ [step_name i])%list kv) h1 d.
  Fixpoint dump_steps (h : h5) (base : list string) (i : nat) (dl : list (dict string var)) : res h5 :=
    match dl with
    | [] => Ok h
    | d :: dl' => h' <- dump_step h base i d ;; dump_steps h' base (S i) dl'
    end.

  (** [dumphdf], data.py:242-257, for a mesh of cfdtools.  [dict(mesh._cell2node)] gives the node lists
      of each type. *)
  Definition dl_dumphdf (ver : string) (m : mesh F) (dl : list (dict string var)) : res h5 :=
    h <- open_new ver (Some "datalist") (Some 1) ;;
    match me_cell2node m with
    | None => Err TypeError
    | Some c =>
        nodes <- nodescoord_nd m ;;
        h1 <- write_unsmesh h (List.map (fun '(t, ed) => (t, ed_e2n ed)) (ec_dict c)) nodes ;;
        h2 <- create_group h1 [] "datalist" ;;
        dump_steps h2 ["datalist"] 0 dl
    end.

  (** [xdmf_content], data.py:205-240. *)
  Definition var_xdmf (filename : string) (i : nat) (kv : string * var) : res (list string) :=
    let '(vname, v) := kv in
    typ <- match va_shape v with [_] => Ok "Scalar" | [_; _] => Ok "Vector" | _ => Err ValueError end ;;
    Ok ([("<Attribute AttributeType=" ++ q ++ typ ++ q ++ " Center=" ++ q ++ "Cell" ++ q ++ " Name=" ++ q ++ vname ++ q ++ ">")%string]
        ++ data_item (String.concat " " (List.map zdec (va_shape v))) filename ("/datalist/" ++ step_name i ++ "/" ++ vname)%string
        ++ ["</Attribute>"])%list.
  Definition step_xdmf (filename : string) (geometry : list string) (i : nat) (d : dict string var) : res (list string) :=
    vars <- mapM (var_xdmf filename i) (filter (fun kv => negb (is_property (fst kv))) d) ;;
    Ok ([("<Grid Name=" ++ q ++ "Unstructured Mesh" ++ q ++ ">")%string; ("<Time Value=" ++ q ++ dec i ++ q ++ "/>")%string]
        ++ geometry ++ List.concat vars ++ ["</Grid>"])%list.
  Fixpoint steps_xdmf (filename : string) (geometry : list string) (i : nat) (dl : list (dict string var)) : res (list string) :=
    match dl with
    | [] => Ok []
    | d :: dl' => a <- step_xdmf filename geometry i d ;; b <- steps_xdmf filename geometry (S i) dl' ;; Ok (a ++ b)%list
    end.
  Definition dl_xdmf (filename : string) (geometry : list string) (dl : list (dict string var)) : res (list string) :=
    steps <- steps_xdmf filename geometry 0 dl ;;
    Ok ([("<Grid Name=" ++ q ++ "IC3" ++ q ++ " GridType=" ++ q ++ "Collection" ++ q ++ " CollectionType=" ++ q ++ "Temporal" ++ q ++ ">")%string]
        ++ steps ++ ["</Grid>"])%list.

  (** ** [vtkList.dumphdf] with [xdmf=True], _vtkList.py:119-155: the HDF5 file, which is complete
      before the XDMF file is made, and the lines of the latter. *)
  Definition list_dumphdf (ver filename : string) (g : grid (list F)) (dl : list (dict string var))
    : res (h5 * res (list string)) :=
    m <- export_mesh g ;;
    h <- dl_dumphdf ver m dl ;;
    Ok (h, geometry <- mesh_xdmf filename g ;;
           content <- dl_xdmf filename geometry dl ;;
           Ok ([("<Xdmf Version=" ++ q ++ "3.0" ++ q ++ ">")%string; "<Domain>"] ++ content ++ ["</Domain>"; "</Xdmf>"])%list).
End Hdf5.
Arguments h5 : clear implicits.
Arguments content : clear implicits.
Arguments var : clear implicits.
Arguments obj : clear implicits.
Arguments attr : clear implicits.
