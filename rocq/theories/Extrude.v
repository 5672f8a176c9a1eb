(** * Model of the extrusion of meshes (cfdtools/meshbase/_connectivity.py:418-440 and
    cfdtools/meshbase/_mesh.py:257-302). *)
From Verif Require Export Mesh.

(** [np.tile(l, n)] on a list, or on the rows of an array. *)
Definition tile {A} (n : Z) (l : list A) : list A := flat_map (fun _ => l) (zrange 0 n).

(** [for i in range(k): a[i * n : (i + 1) * n] += ...]: positions in the i-th slice of [n] entries
    become [f i]; positions after the [k]-th slice are left alone. *)
Definition by_slices {A} (n k : Z) (f : Z -> A -> A) (l : list A) : list A :=
  List.map (fun '(p, a) => if (0 <? n) && (p / n <? k) then f (p / n) a else a) (combine (zrange 0 (zlen l)) l).

(** [a[lo:hi] += s] on one row. *)
Definition add_columns (lo hi s : Z) (row : list Z) : list Z :=
  List.map (fun '(j, v) => if (lo <=? j) && (j <? hi) then v + s else v) (combine (zrange 0 (zlen row)) row).

(** Body of the loop of [extrude], _connectivity.py:428-439, for one type.  A 1-D array of shape
    (0,) is tiled into an array of [ncell] rows without columns.  Simplification: boxed indices
    raise TypeError. *)
Definition extrude_type (ncell shift : Z) (newcon : econn) (ted : string * edict) : res econn :=
  let '(etype, ed) := ted in
  let nelem := m_nrow (ed_e2n ed) in
  let elemcon := match m_cols (ed_e2n ed) with
                 | Some w => Mat (Some (2 * w)%nat) (tile ncell (List.map (fun r => r ++ r) (m_rows (ed_e2n ed))))
                 | None => Mat (Some 0%nat) (tile ncell [[]])
                 end in
  fnnode <- dget_err String.eqb etype nnode_elem ;;
  let rows := List.map (add_columns fnnode (2 * fnnode) shift) (m_rows elemcon) in
  let rows := by_slices nelem ncell (fun i => List.map (fun v => v + i * shift)) rows in
  l <- il_list (ed_index ed) ;;
  let index := by_slices nelem ncell (fun i v => v + i * shift) (tile ncell l) in
  xtype <- dget_err String.eqb etype extruded_face ;;
  ec_add newcon xtype (Mat (m_cols elemcon) rows) (Some (ILlist index)).

(** [extrude], _connectivity.py:418-440. *)
Definition ec_extrude (c : econn) (nplanes shift : Z) : res econn :=
  _ <- assertb (1 <? nplanes) ;;
  foldM (extrude_type (nplanes - 1) shift) ec_empty (ec_dict c).

(** [submeshmark._available_types], _mesh.py:25-33. *)
Definition available_types : list string :=
  ["internal"; "boundary"; "perio_cart"; "perio_cylx"; "perio_cyly"; "perio_cylz"].

Section Extrude.
  Context {F : Type} (add mul : F -> F -> F).

  (** Body of the loop over the marks, _mesh.py:279-289. *)
  Definition extrude_mark (nrange nnode : Z) (b : mark F) : res (mark F) :=
    _ <- assertb (nodebased b) ;;
    ty <- match mk_type b with Some t => Ok t | None => Err KeyError end ;;
    _ <- assertb (existsb (String.eqb ty) available_types) ;;
    l <- mark_list b ;;
    let index := by_slices (zlen l) nrange (fun i v => v + i * nnode) (tile nrange l) in
    Ok (Mark F (mk_name b) (mk_geodim b) (Some ty) (Some (ILlist index)) None).

  (** The marks of the first and last plane, _mesh.py:290-302. *)
  Definition plane_mark (name : string) (l : list Z) : mark F :=
    Mark F name (Some Gbdnode) (Some "boundary") (Some (ILlist l)) None.

  (** [np.column_stack] of the coordinates: arrays of the same length. *)
  Definition stacked (xyz : list F * list F * list F) : res (list (F * F * F)) :=
    let '(x, y, z) := xyz in
    if (zlen x =? zlen y) && (zlen y =? zlen z) then Ok (combine (combine x y) z) else Err ValueError.

  (** [export_extruded(direction, extrude, domain)], _mesh.py:257-302, with floating point
      coordinates and a direction of three components.  [enum] is the iteration order of Python
      sets. *)
  Definition export_extruded (enum : list Z -> list Z) (m : mesh F) (dir : F * F * F) (planes : list F)
      (domain : string) : res (mesh F) :=
    let nrange := zlen planes in
    let '(dx, dy, dz) := dir in
    _ <- assertb (1 <? nrange) ;;
    let newmesh := new_mesh (me_ncell m * nrange) (me_nnode m * nrange) in
    xyz <- nodescoord m ;;
    pts <- stacked xyz ;;
    let pts := by_slices (me_nnode m) nrange
                 (fun i '(x, y, z) =>
                    match nth_error planes (Z.to_nat i) with
                    | Some s => (add x (mul s dx), add y (mul s dy), add z (mul s dz))
                    | None => (x, y, z)
                    end) (tile nrange pts) in
    let '(r, newmesh) := set_coords_nd newmesh 3 (List.map (fun '(x, y, z) => [x; y; z]) pts) in
    _ <- r ;;
    c <- match me_cell2node m with Some c => Ok c | None => Err AttributeError end ;;
    c' <- ec_extrude c nrange (me_nnode m) ;;
    let newmesh := set_cell2node newmesh c' in
    newmesh <- foldM (fun nm '(_, b) => b' <- extrude_mark nrange (me_nnode m) b ;; Ok (add_boco nm b'))
                     newmesh (me_bocos m) ;;
    let index := ec_nodelist enum c in
    let newmesh := add_boco newmesh (plane_mark (domain ++ "0") index) in
    Ok (add_boco newmesh (plane_mark (domain ++ "1") (List.map (fun v => v + (nrange - 1) * me_nnode m) index))).
End Extrude.
