(** * Model of the Gmsh reader (cfdtools/gmsh/reader.py, cfdtools/gmsh/_gmsh.py).

    A file is the list of its lines, each split at blanks ([l.split()]).  Python's conversions of a
    token, [int(tok)], [float(tok)] and [int(float(tok))], are parameters.  Coordinates are [option F]
    because the reader of version 4 starts from [None].
    Not modelled: messages; the existence test of the file (:38-39); the attributes [_nboco] and
    [_elems]; the lists [bnd[tag]] of boundary element numbers, which are passed on and never used
    (their keys are those of [connect_bc], in the same order); the dictionary [bctype], likewise.
    The assignment of [_elem.elem2faces] (:42) is [Use_gmsh] in [Elements]. *)
From Coq Require Import DecimalString.
From Verif Require Import Py Elements IndexList Conn Mesh Files.

(** [gmshtype_elem], _gmsh.py:15-31. *)
Definition gmshtype_elem : dict Z string :=
  [ (1, "bar2"); (2, "tri3"); (3, "quad4"); (4, "tetra4"); (5, "hexa8"); (6, "prism6"); (7, "pyra5");
    (8, "bar3"); (9, "tri6"); (10, "quad9"); (11, "tetra10"); (12, "hexa27"); (13, "prism18");
    (14, "pyra14"); (15, "node1") ].

(** [str(z)] for an integer. *)
Definition py_str (z : Z) : string :=
  if z <? 0 then ("-" ++ dec (Z.to_nat (- z)))%string else dec (Z.to_nat z).

(** [s[1:-1]] for a string. *)
Definition str_inner (s : string) : string := String.substring 1 (String.length s - 2) s.

Notation line := (list string).
Fixpoint line_eqb (a b : line) : bool :=
  match a, b with
  | [], [] => true
  | x :: a', y :: b' => String.eqb x y && line_eqb a' b'
  | _, _ => false
  end.

(** [msh.index(l)]: ValueError when absent. *)
Fixpoint index_from (i : Z) (msh : list line) (l : line) : res Z :=
  match msh with
  | [] => Err ValueError
  | l' :: msh' => if line_eqb l' l then Ok i else index_from (i + 1) msh' l
  end.

(** [__get_section_from_name], reader.py:231-235; [name] without the dollar. *)
Definition get_section (msh : list line) (name : string) : res (list line) :=
  ibeg <- index_from 0 msh ["$" ++ name]%string ;;
  iend <- index_from 0 msh ["$End" ++ name]%string ;;
  Ok (py_slice msh (ibeg + 1) iend).

(** An entry of [boundaries]: ["type"] and ["slicing"].  ["periodic_transform"] is always an array of
    16 zeros. *)
Record bnd : Type := Bnd { b_type : string; b_slicing : list Z }.

(** What [read_data] leaves in the reader: [_maxdim], [_coords], [_cellconnectivity], [_boundaries]. *)
Record gmsh {F : Type} : Type := Gm {
  g_maxdim : Z; g_xyz : list (option F) * list (option F) * list (option F);
  g_conn : dict string mat; g_bnds : dict string bnd }.
Arguments gmsh : clear implicits.

(** ** Analysis of the elements, reader.py:53-165 *)

(** [_elem.dim_elem[gmshtype_elem[e[1]]]], :54. *)
Definition elt_dim (e : list Z) : res Z :=
  k <- py_get e 1 ;; t <- dget_err Z.eqb k gmshtype_elem ;; dget_err String.eqb t dim_elem.

(** [mesh_elt] / [bc_elt], :60-61. *)
Definition types_of_dim (d : Z) : list string :=
  List.map fst (filter (fun td => snd td =? d) dim_elem).

(** :74-88: [connectivity[elt_type].append(elt[3 + ntag:])] for the elements of a type in [ts]. *)
Definition type_of (e : list Z) : res (option string) :=
  k <- py_get e 1 ;; Ok (dget Z.eqb k gmshtype_elem).
Definition elt_tail (e : list Z) : res (list Z) :=
  ntag <- py_get e 2 ;; Ok (py_slice e (3 + ntag) (zlen e)).
Definition str_in (t : string) (ts : list string) : bool := existsb (String.eqb t) ts.

Definition cell_step (ts : list string) (d : dict string (list (list Z))) (e : list Z)
  : res (dict string (list (list Z))) :=
  t <- type_of e ;;
  match t with
  | Some t => if str_in t ts then tl <- elt_tail e ;; Ok (dextend String.eqb t [tl] d) else Ok d
  | None => Ok d
  end.

(** :93-116: [connect_bc[bnd_tag][elt_type].append(...)] and [bnd2fam[bnd_tag] = bnd_fam]. *)
Definition bc_step (ts : list string) (st : dict Z (dict string (list (list Z))) * dict Z Z) (e : list Z)
  : res (dict Z (dict string (list (list Z))) * dict Z Z) :=
  t <- type_of e ;;
  match t with
  | Some t =>
      if str_in t ts then
        ntag <- py_get e 2 ;;
        tag <- py_get e 4 ;;
        fam <- py_get e 3 ;;
        let d := match dget Z.eqb tag (fst st) with Some d => d | None => [] end in
        Ok (dset Z.eqb tag (dextend String.eqb t [py_slice e (3 + ntag) (zlen e)] d) (fst st),
            dset Z.eqb tag fam (snd st))
      else Ok st
  | None => Ok st
  end.

(** :120-125: [np.array(rows) - 1]. *)
Definition shift_rows (rows : list (list Z)) : res mat :=
  m <- mat_of_rows rows ;; Ok (Mat (m_cols m) (List.map (List.map (fun v => v - 1)) (m_rows m))).
Definition shift_conn (d : dict string (list (list Z))) : res (dict string mat) :=
  mapM (fun '(t, rows) => m <- shift_rows rows ;; Ok (t, m)) d.

(** [np.unique(connectivity[elt_type].ravel()).tolist()] for all types, one after the other. *)
Definition conn_nodes (d : dict string mat) : list Z :=
  flat_map (fun '(_, m) => np_unique (List.concat (m_rows m))) d.

(** [__create_bnd], :194-229; the state is [boundaries] and [self._famm]. *)
Definition create_bnd (st : dict string bnd * list string) (family : string) (d : dict string mat)
  : res (dict string bnd * list string) :=
  let '(bnds, famm) := st in
  if str_in family famm then
    b <- dget_err String.eqb family bnds ;;
    Ok (dset String.eqb family (Bnd "boundary" (np_unique (b_slicing b ++ conn_nodes d))) bnds, famm)
  else
    Ok (dset String.eqb family (Bnd "boundary" (conn_nodes d)) bnds, famm ++ [family]).

(** :129-150. *)
Definition bnd_step (fam : option (dict string string)) (bnd2fam : dict Z Z)
  (st : dict string bnd * list string) (td : Z * dict string mat)
  : res (dict string bnd * list string) :=
  match fam with
  | Some fam =>
      p <- dget_err Z.eqb (fst td) bnd2fam ;;
      family <- dget_err String.eqb (py_str p) fam ;;
      if String.eqb family "fluid" then Ok st else create_bnd st family (snd td)
  | None => create_bnd st "fluid" (snd td)
  end.

Definition analyze {F} (fam : option (dict string string))
  (xyz : list (option F) * list (option F) * list (option F)) (elts : list (list Z)) : res (gmsh F) :=
  dims <- mapM elt_dim elts ;;
  maxdim <- py_max dims ;;
  if (maxdim <? 2) || (3 <? maxdim) then Err RuntimeError
  else
    conn <- foldM (cell_step (types_of_dim maxdim)) [] elts ;;
    bc <- foldM (bc_step (types_of_dim (maxdim - 1))) ([], []) elts ;;
    conn <- shift_conn conn ;;
    cbc <- mapM (fun '(tag, d) => d <- shift_conn d ;; Ok (tag, d)) (fst bc) ;;
    st <- foldM (bnd_step fam (snd bc)) ([], []) cbc ;;
    (* :153-165 *)
    Ok (Gm F maxdim xyz conn (dset String.eqb "int_fluid" (Bnd "internal" (conn_nodes conn)) (fst st))).

(** ** [export_mesh], reader.py:167-192 *)
Section Export.
  Context {F : Type} (fzero : F).

  Definition export_cells (maxdim : Z) (conn : dict string mat) : res econn :=
    foldM (fun c '(t, m) =>
        d <- dget_err String.eqb t dim_elem ;;
        if d =? maxdim then ec_add c t m None else Ok c)
      ec_empty conn.

  Definition export_mark (m : mesh (option F)) (nb : string * bnd) : mesh (option F) :=
    let '(name, b) := nb in
    if String.eqb (b_type b) "boundary" then
      add_boco m (Mark (option F) name (Some Gbdnode) (Some (b_type b)) (Some (ILlist (b_slicing b)))
                       (Some (Some (repeat (Some fzero) 16))))
    else m.

  Definition export_mesh (g : gmsh F) : res (mesh (option F)) :=
    let '(x, y, z) := g_xyz g in
    match set_coords_xyz (new_mesh 0 (zlen x)) x y z with
    | (Err e, _) => Err e
    | (Ok _, m) =>
        c <- export_cells (g_maxdim g) (g_conn g) ;;
        Ok (fold_left export_mark (g_bnds g) (set_cell2node m c))
    end.
End Export.

(** ** Reading the sections, reader.py:237-379 *)
Section Read.
  Context {F : Type} (int_of : string -> res Z) (float_of : string -> res F) (ver_of : string -> res Z).

  Definition tok (sec : list line) (i j : Z) : res string := l <- py_get sec i ;; py_get l j.
  Definition int_at (sec : list line) (i j : Z) : res Z := t <- tok sec i j ;; int_of t.
  Definition float_at (sec : list line) (i j : Z) : res F := t <- tok sec i j ;; float_of t.

  (** :245-256 and :279-290. *)
  Definition read_families (msh : list line) : res (option (dict string string)) :=
    if existsb (fun l => line_eqb l ["$PhysicalNames"]) msh then
      sec <- get_section msh "PhysicalNames" ;;
      n <- int_at sec 0 0 ;;
      fam <- foldM (fun fam i =>
                 k <- tok sec i 1 ;; v <- tok sec i 2 ;; Ok (dset String.eqb k (str_inner v) fam))
               [] (zrange 1 (n + 1)) ;;
      Ok (Some fam)
    else Ok None.

  (** [__read_sections_V2], :237-271. *)
  Definition nodes_v2 (coords : list line) : res (list (option F) * list (option F) * list (option F)) :=
    nnodes <- int_at coords 0 0 ;;
    x <- mapM (fun i => float_at coords i 1) (zrange 1 (nnodes + 1)) ;;
    y <- mapM (fun i => float_at coords i 2) (zrange 1 (nnodes + 1)) ;;
    z <- mapM (fun i => float_at coords i 3) (zrange 1 (nnodes + 1)) ;;
    Ok (List.map Some x, List.map Some y, List.map Some z).
  Definition elts_v2 (elements : list line) : res (list (list Z)) :=
    nelems <- int_at elements 0 0 ;;
    mapM (fun i => l <- py_get elements i ;; mapM int_of l) (zrange 1 (nelems + 1)).

  Definition read_v2 (msh : list line) :=
    fam <- read_families msh ;;
    coords <- get_section msh "Nodes" ;;
    xyz <- nodes_v2 coords ;;
    elements <- get_section msh "Elements" ;;
    elts <- elts_v2 elements ;;
    Ok (fam, xyz, elts).

  (** [find_ent], :294-303. *)
  Fixpoint find_ent_loop (entities : list line) (j : Z) (is : list Z) : res Z :=
    match is with
    | [] => Ok 0
    | i :: is' =>
        t <- int_at entities i 0 ;;
        l <- py_get entities i ;;
        if (j =? t) && (8 <=? zlen l) then int_at entities i 8
        else find_ent_loop entities j is'
    end.
  Definition find_ent (msh : list line) (j : Z) : res Z :=
    entities <- get_section msh "Entities" ;;
    np <- int_at entities 0 0 ;;
    nc <- int_at entities 0 1 ;;
    ns <- int_at entities 0 2 ;;
    let bot := np + nc in
    let top := ns + bot in
    find_ent_loop entities j (zrange bot (top + 1)).

  (** :315-324: one line of node numbers and the line of coordinates [cnt] lines further. *)
  Definition node_step (coords : list line) (cnt : Z)
    (xyz : list (option F) * list (option F) * list (option F)) (i : Z)
    : res (list (option F) * list (option F) * list (option F)) :=
    let '(x, y, z) := xyz in
    t <- int_at coords i 0 ;;
    let pos := t - 1 in
    vx <- float_at coords (i + cnt) 0 ;;
    x <- py_set x pos (Some vx) ;;
    vy <- float_at coords (i + cnt) 1 ;;
    y <- py_set y pos (Some vy) ;;
    vz <- float_at coords (i + cnt) 2 ;;
    z <- py_set z pos (Some vz) ;;
    Ok (x, y, z).

  (** The loop [while nodes < nnodes], :316-324, with fuel. *)
  Fixpoint nodes_loop (fuel : nat) (coords : list line) (nnodes nodes counter : Z)
    (xyz : list (option F) * list (option F) * list (option F))
    : res (list (option F) * list (option F) * list (option F)) :=
    if nodes <? nnodes then
      match fuel with
      | O => Err OutOfFuel
      | S fuel' =>
          cnt <- int_at coords counter 3 ;;
          xyz <- foldM (node_step coords cnt) xyz (zrange (counter + 1) (counter + cnt + 1)) ;;
          nodes_loop fuel' coords nnodes (nodes + cnt) (counter + 2 * cnt + 1) xyz
      end
    else Ok xyz.
  Definition nodes_v4 (fuel : nat) (coords : list line)
    : res (list (option F) * list (option F) * list (option F)) :=
    nnodes <- int_at coords 0 3 ;;
    let none := repeat None (Z.to_nat nnodes) in
    nodes_loop fuel coords nnodes 1 1 (none, none, none).

  (** [elt1.insert(1, a)], ..., [elt1.insert(4, d)], :341-345. *)
  Definition insert_tags (elt : list Z) (a c d : Z) : list Z :=
    match elt with
    | [] => [a; 2; c; d]
    | i :: ns => i :: a :: 2 :: c :: d :: ns
    end.

  (** :326-348. *)
  Definition block_step (msh elements : list line) (st : list (list Z) * Z) (i : Z)
    : res (list (list Z) * Z) :=
    let '(elts, count) := st in
    a <- int_at elements count 2 ;;
    d <- int_at elements count 1 ;;
    c <- find_ent msh d ;;
    n <- int_at elements count 3 ;;
    new <- mapM (fun j => l <- py_get elements j ;; elt <- mapM int_of l ;; Ok (insert_tags elt a c d))
                (zrange (count + 1) (count + n + 1)) ;;
    Ok (elts ++ new, count + (n + 1)).
  Definition elts_v4 (msh elements : list line) : res (list (list Z)) :=
    nel <- int_at elements 0 0 ;;
    st <- foldM (block_step msh elements) ([], 1) (zrange 0 nel) ;;
    Ok (fst st).

  (** [__read_sections_V4], :273-350. *)
  Definition read_v4 (fuel : nat) (msh : list line) :=
    fam <- read_families msh ;;
    coords <- get_section msh "Nodes" ;;
    xyz <- nodes_v4 fuel coords ;;
    elements <- get_section msh "Elements" ;;
    elts <- elts_v4 msh elements ;;
    Ok (fam, xyz, elts).

  (** [__read_sections], :352-379. *)
  Definition read_sections (fuel : nat) (msh : list line) :=
    version <- get_section msh "MeshFormat" ;;
    t <- tok version 0 0 ;;
    v <- ver_of t ;;
    binary <- int_at version 0 1 ;;
    _ <- assertb (binary =? 0) ;;
    size <- int_at version 0 2 ;;
    _ <- assertb (size =? 8) ;;
    if v <=? 2 then read_v2 msh
    else if 4 <=? v then read_v4 fuel msh
    else Err RuntimeError.

  (** [read_data], :35-165. *)
  Definition read_data (fuel : nat) (msh : list line) : res (gmsh F) :=
    '(fam, xyz, elts) <- read_sections fuel msh ;;
    analyze fam xyz elts.
End Read.
