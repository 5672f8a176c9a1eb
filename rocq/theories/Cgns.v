(** * Model of the CGNS reader (cfdtools/cgns/cgns.py).

    A CGNS file is a tree of HDF5 groups.  Each group has a label, an optional dataset named
    " data", and named children; children are listed in the order in which h5py iterates over them.
    Not modelled: logging, [printinfo], and the contents of the 'BCtype' property of marks (its
    presence in the file is).  [F] is the type of coordinates. *)
From Verif Require Import Py Elements IndexList Conn Mesh.

(** Datasets: texts (arrays of bytes), integers in one or two dimensions, reals. *)
Inductive payload {F : Type} : Type :=
| PText (s : string)
| PInts (l : list Z)
| PTable (rows : list (list Z))
| PReals (l : list F).
Arguments payload : clear implicits.

Inductive cgnode {F : Type} : Type :=
| CG (label : string) (data : option (payload F)) (kids : list (string * cgnode)).
Arguments cgnode : clear implicits.

Section Cgns.
  Context {F : Type}.

  Definition cg_label (n : cgnode F) : string := let '(CG l _ _) := n in l.
  Definition cg_kids (n : cgnode F) : dict string (cgnode F) := let '(CG _ _ k) := n in k.
  (** [n[name]] and [n[" data"]]: KeyError if there is none. *)
  Definition cg_child (n : cgnode F) (name : string) : res (cgnode F) := dget_err String.eqb name (cg_kids n).
  Definition cg_data (n : cgnode F) : res (payload F) :=
    match n with CG _ (Some p) _ => Ok p | CG _ None _ => Err KeyError end.
  (** [n["name/ data"]]. *)
  Definition cg_path (n : cgnode F) (name : string) : res (payload F) := c <- cg_child n name ;; cg_data c.

  (** Uses of a dataset.  Simplification: a dataset of another kind is always TypeError. *)
  Definition as_text (p : payload F) : res string := match p with PText s => Ok s | _ => Err TypeError end.
  Definition as_ints (p : payload F) : res (list Z) := match p with PInts l => Ok l | _ => Err TypeError end.
  Definition as_table (p : payload F) : res (list (list Z)) := match p with PTable l => Ok l | _ => Err TypeError end.
  Definition as_reals (p : payload F) : res (list F) := match p with PReals l => Ok l | _ => Err TypeError end.
  (** [data[:].ravel()]. *)
  Definition as_flat (p : payload F) : res (list Z) :=
    match p with PInts l => Ok l | PTable rows => Ok (List.concat rows) | _ => Err TypeError end.

  (** [ele_cgns2local], cgns.py:20. *)
  Definition ele_cgns2local : dict Z string :=
    [(2, "node1"); (3, "bar2"); (5, "tri3"); (7, "quad4"); (17, "hexa8")]%string.

  (** [dict_cgnstype], cgns.py:28-29. *)
  Definition dict_cgnstype (n : cgnode F) (label : string) : dict string (cgnode F) :=
    filter (fun kv => String.eqb (cg_label (snd kv)) label) (cg_kids n).

  Definition dupdate {V} (d d' : dict string V) : dict string V :=
    fold_left (fun d '(k, v) => dset String.eqb k v d) d' d.

  (** [cgnszone.__init__], cgns.py:42-57. *)
  Record zone : Type := Zone {
    zo_node : cgnode F; zo_geodim : Z; zo_elems : dict string (cgnode F); zo_BCs : dict string (cgnode F) }.
  Definition zone_init (n : cgnode F) (geodim : Z) : res zone :=
    p <- cg_path n "ZoneType" ;;
    t <- as_text p ;;
    _ <- assertb (String.eqb t "Unstructured") ;;
    let elems := dict_cgnstype n "Elements_t" in
    let zbcs := dupdate (dict_cgnstype n "ZoneBC_t") (dict_cgnstype n "ZoneGridConnectivity_t") in
    let bcs := fold_left (fun d '(_, z) =>
        dupdate (dupdate d (dict_cgnstype z "BC_t")) (dict_cgnstype z "GridConnectivity_t")) zbcs [] in
    Ok (Zone n geodim elems bcs).

  (** [nnode] and [ncell], cgns.py:59-65. *)
  Definition zone_size (z : zone) (i : Z) : res Z :=
    p <- cg_data (zo_node z) ;; rows <- as_table p ;; r <- py_get rows i ;; py_get r 0.
  Definition zone_nnode (z : zone) : res Z := zone_size z 0.
  Definition zone_ncell (z : zone) : res Z := zone_size z 1.

  (** [coords], cgns.py:67-71. *)
  Definition zone_coord (z : zone) (name : string) : res (list F) :=
    g <- cg_child (zo_node z) "GridCoordinates" ;; p <- cg_path g name ;; as_reals p.
  Definition zone_coords (z : zone) : res (list F * list F * list F) :=
    x <- zone_coord z "CoordinateX" ;; y <- zone_coord z "CoordinateY" ;; w <- zone_coord z "CoordinateZ" ;;
    Ok (x, y, w).

  (** [reshape((-1, n))] of a flat array: ValueError if its size is not a multiple of [n]. *)
  Fixpoint cut (fuel n : nat) (l : list Z) : list (list Z) :=
    match fuel, l with
    | S k, _ :: _ => firstn n l :: cut k n (skipn n l)
    | _, _ => []
    end.
  Definition reshape (n : Z) (l : list Z) : res mat :=
    if zlen l mod n =? 0 then Ok (Mat (Some (Z.to_nat n)) (cut (List.length l) (Z.to_nat n) l)) else Err ValueError.

  (** One turn of the loop of [elemcon], cgns.py:75-84. *)
  Definition section_step (geodim : Z) (c : econn) (e : cgnode F) : res econn :=
    p <- cg_data e ;;
    l <- as_ints p ;;
    code <- py_get l 0 ;;
    etype <- dget_err Z.eqb code ele_cgns2local ;;
    nnode <- dget_err String.eqb etype nnode_elem ;;
    dim <- dget_err String.eqb etype dim_elem ;;
    if dim =? geodim then
      pr <- cg_path e "ElementRange" ;;
      r <- as_ints pr ;;
      lo <- py_get r 0 ;;
      hi <- py_get r 1 ;;
      pc <- cg_path e "ElementConnectivity" ;;
      flat <- as_ints pc ;;
      m <- reshape nnode flat ;;
      ec_add c etype (Mat (m_cols m) (List.map (List.map (fun v => v - 1)) (m_rows m))) (Some (ILrange (lo - 1) (hi - 1)))
    else Ok c.
  Definition elemcon (z : zone) (geodim : Z) : res econn :=
    foldM (section_step geodim) ec_empty (List.map snd (zo_elems z)).

  (** [cg_gridlocation], cgns.py:32-38. *)
  Definition cg_gridlocation (bc : cgnode F) : res string :=
    if dmem String.eqb "GridLocation" (cg_kids bc)
    then p <- cg_path bc "GridLocation" ;; as_text p
    else Ok "Vertex"%string.

  (** [export_BC], cgns.py:95-131; [key] is the name of the node.  [export_facecon] is cached, which
      cannot be seen: its result is not modified. *)
  Definition export_BC (enum : list Z -> list Z) (z : zone) (key : string) (bc : cgnode F) : res (mark F) :=
    name <- (if dmem String.eqb "FamilyName" (cg_kids bc)
             then p <- cg_path bc "FamilyName" ;; as_text p
             else Ok key) ;;
    p <- cg_data bc ;;
    _ <- as_text p ;;
    '(indices, gridloc, type) <-
      (if dmem String.eqb "PointList" (cg_kids bc) then
         p <- cg_path bc "PointList" ;; l <- as_flat p ;; loc <- cg_gridlocation bc ;;
         Ok (List.map (fun v => v - 1) l, loc, "boundary"%string)
       else if dmem String.eqb "ElementList" (cg_kids bc) then
         p <- cg_path bc "ElementList" ;; l <- as_flat p ;; n <- zone_ncell z ;;
         if zlen l =? n then Ok (List.map (fun v => v - 1) l, "CellCenter"%string, "internal"%string)
         else Ok (List.map (fun v => v - 1) l, "FaceCenter"%string, "boundary"%string)
       else Err RuntimeError) ;;
    if String.eqb gridloc "FaceCenter" then
      c <- elemcon z (zo_geodim z - 1) ;;
      nodes <- ec_nodes_of_indexlist enum c indices ;;
      Ok (Mark F name (Some Gnode) (Some type) (Some (ILlist nodes)) (Some None))
    else if String.eqb gridloc "Vertex" then
      n <- zone_nnode z ;;
      Ok (Mark F name (Some Gnode) (Some (if zlen indices =? n then "internal"%string else type)) (Some (ILlist indices)) (Some None))
    else if String.eqb gridloc "CellCenter" then
      Ok (Mark F name (Some Gcell) (Some type) (Some (ILlist indices)) (Some None))
    else Err RuntimeError.

  Definition is_internal (b : mark F) : bool :=
    match mk_type b with Some t => String.eqb t "internal" | None => false end.

  (** [cgnsMesh.read_data], cgns.py:156-178, on an existing file: the zones are those of the last base,
      the dimension that of the first. *)
  Definition read_data (root : cgnode F) (zonename : option string) : res zone :=
    v <- cg_path root "CGNSLibraryVersion" ;;
    vs <- as_reals v ;;
    _ <- py_get vs 0 ;;
    let bases := dict_cgnstype root "CGNSBase_t" in
    let zones := match rev bases with [] => [] | (_, b) :: _ => dict_cgnstype b "Zone_t" end in
    b0 <- py_get bases 0 ;;
    p <- cg_data (snd b0) ;;
    l <- as_ints p ;;
    geodim <- py_get l 0 ;;
    name <- (match zonename with
             | Some n => Ok n
             | None => _ <- assertb (zlen zones =? 1) ;; kv <- py_get zones 0 ;; Ok (fst kv)
             end) ;;
    n <- dget_err String.eqb name zones ;;
    z <- zone_init n geodim ;;
    _ <- zone_ncell z ;;
    Ok z.

  (** [cgnsMesh.export_mesh], cgns.py:191-212. *)
  Definition export_mesh (enum : list Z -> list Z) (z : zone) : res (mesh F) :=
    nc <- zone_ncell z ;;
    nn <- zone_nnode z ;;
    '(x, y, w) <- zone_coords z ;;
    match set_coords_xyz (new_mesh nc nn) x y w with
    | (Err e, _) => Err e
    | (Ok _, m) =>
        c <- elemcon z (zo_geodim z) ;;
        foldM (fun m '(key, bc) =>
            b <- export_BC enum z key bc ;;
            Ok (if is_internal b then m else add_boco m b))
          (set_cell2node m c) (zo_BCs z)
    end.
End Cgns.
