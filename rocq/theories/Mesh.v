(** * Model of [submeshmark] and [Mesh] (cfdtools/meshbase/_mesh.py; [export_extruded] is in [Extrude]).

    [F] is the type of coordinates.  Methods that change the object return the object next to the
    result, so that what a method leaves behind when it raises is visible.
    Not modelled: [printinfo] (see [Info]), [exportmark_asmesh] (returns an empty mesh), [_facedata], and the
    data setters ([set_celldata], [set_nodedata], [set_params]), which only store their argument
    and are modelled with the file formats.  Each mark is owned by one mesh (no aliasing). *)
From Verif Require Export Py IndexList Conn.

(** [submeshmark._available_geodim], _mesh.py:16-24. *)
Inductive geodim : Type := Gnode | Gintnode | Gbdnode | Gface | Gintface | Gbdface | Gcell.

(** [submeshmark], _mesh.py:14-86: attributes [_name], [_geodim], [_index] (unset until assigned:
    reading it raises AttributeError) and the entries 'type' and 'periodic_transform' of
    [_properties] ([None]: no such key). *)
Record mark {F : Type} : Type := Mark {
  mk_name : string; mk_geodim : option geodim; mk_type : option string; mk_index : option indexlist;
  mk_perio : option (option (list F)) }.
Arguments mark : clear implicits.

(** An entry of [Mesh._faces]: {'face2node': ..., 'face2cell': ...}. *)
Record faceset : Type := FaceSet { f_f2n : econn; f_f2c : option indirection }.

(** [Mesh.__init__], _mesh.py:105-117. *)
Record mesh {F : Type} : Type := Mesh {
  me_ncell : Z; me_nnode : Z; me_nface : Z; me_cell2node : option econn;
  me_faces : dict string faceset; me_nodes : dict string (list F); me_bocos : dict string (mark F) }.
Arguments mesh : clear implicits.

Section Mesh.
  Context {F : Type}.

  (** _mesh.py:71-72. *)
  Definition nodebased (b : mark F) : bool :=
    match mk_geodim b with Some Gnode | Some Gbdnode | Some Gintnode => true | _ => false end.
  (** [boco.geodim in ('face', 'bdface')]. *)
  Definition face_or_bdface (b : mark F) : bool :=
    match mk_geodim b with Some Gface | Some Gbdface => true | _ => false end.

  (** [boco.index.list()]. *)
  Definition mark_list (b : mark F) : res (list Z) :=
    match mk_index b with None => Err AttributeError | Some il => il_list il end.

  (** [index] setter, _mesh.py:57-60: the dimension must have been set. *)
  Definition set_index (b : mark F) (il : indexlist) : res (mark F) :=
    match mk_geodim b with
    | None => Err AssertionError
    | Some _ => Ok (Mark F (mk_name b) (mk_geodim b) (mk_type b) (Some il) (mk_perio b))
    end.

  (** [submeshmark(name)], _mesh.py:35-38. *)
  Definition new_mark (name : string) : mark F := Mark F name None None None None.

  Definition new_mesh (ncell nnode : Z) : mesh F := Mesh F ncell nnode 0 None [] [] [].

  Definition with_faces (m : mesh F) (fs : dict string faceset) : mesh F :=
    Mesh F (me_ncell m) (me_nnode m) (me_nface m) (me_cell2node m) fs (me_nodes m) (me_bocos m).
  Definition with_nface (m : mesh F) (n : Z) : mesh F :=
    Mesh F (me_ncell m) (me_nnode m) n (me_cell2node m) (me_faces m) (me_nodes m) (me_bocos m).
  Definition with_nodes (m : mesh F) (ns : dict string (list F)) : mesh F :=
    Mesh F (me_ncell m) (me_nnode m) (me_nface m) (me_cell2node m) (me_faces m) ns (me_bocos m).
  Definition with_bocos (m : mesh F) (bs : dict string (mark F)) : mesh F :=
    Mesh F (me_ncell m) (me_nnode m) (me_nface m) (me_cell2node m) (me_faces m) (me_nodes m) bs.

  (** ** Coordinates *)

  (** [set_nodescoord_nd], _mesh.py:127-130, with an array of [cols] columns: missing columns raise
      IndexError after the previous ones have been stored. *)
  Definition column (rows : list (list F)) (cols : Z) (i : Z) : res (list F) :=
    if i <? cols then mapM (fun r => py_get r i) rows else Err IndexError.
  Definition set_coords_nd (m : mesh F) (cols : Z) (rows : list (list F)) : res unit * mesh F :=
    if zlen rows =? me_nnode m then
      fold_left (fun st '(i, c) =>
          match st with
          | (Ok _, m) => match column rows cols i with
                         | Ok v => (Ok tt, with_nodes m (dset String.eqb c v (me_nodes m)))
                         | Err e => (Err e, m)
                         end
          | _ => st
          end) [(0, "x"); (1, "y"); (2, "z")] (Ok tt, m)
    else (Err AssertionError, m).

  (** [set_nodescoord_xyz], _mesh.py:132-137. *)
  Definition set_coords_xyz (m : mesh F) (x y z : list F) : res unit * mesh F :=
    if forallb (fun c => zlen c =? me_nnode m) [x; y; z]
    then (Ok tt, with_nodes m (dset String.eqb "z" z (dset String.eqb "y" y (dset String.eqb "x" x (me_nodes m)))))
    else (Err AssertionError, m).

  (** [nodescoord], _mesh.py:139-141 (the three arrays). *)
  Definition nodescoord (m : mesh F) : res (list F * list F * list F) :=
    x <- dget_err String.eqb "x" (me_nodes m) ;;
    y <- dget_err String.eqb "y" (me_nodes m) ;;
    z <- dget_err String.eqb "z" (me_nodes m) ;;
    Ok (x, y, z).

  (** [morph], _mesh.py:430-435. *)
  Definition morph (fmorph : list F -> list F -> list F -> list F * list F * list F) (m : mesh F)
    : res unit * mesh F :=
    match nodescoord m with
    | Ok (x, y, z) => let '(x', y', z') := fmorph x y z in set_coords_xyz m x' y' z'
    | Err e => (Err e, m)
    end.

  (** [scale], _mesh.py:437-445, with [mul] the product of coordinates; coordinates are arrays. *)
  Definition scale (mul : F -> F -> F) (m : mesh F) (sx sy sz : F) : res unit * mesh F :=
    match nodescoord m with
    | Ok (x, y, z) => set_coords_xyz m (List.map (fun v => mul v sx) x) (List.map (fun v => mul v sy) y)
                                       (List.map (fun v => mul v sz) z)
    | Err e => (Err e, m)
    end.

  (** ** Cells and faces *)

  (** [set_cell2node], _mesh.py:143-151, and [_check_cell2node], :395-405. *)
  Definition set_cell2node (m : mesh F) (c : econn) : mesh F :=
    Mesh F (ec_nelem c) (me_nnode m) (me_nface m) (Some c) (me_faces m) (me_nodes m) (me_bocos m).
  Definition check_cell2node (m : mesh F) : res unit :=
    match me_cell2node m with
    | None => Ok tt
    | Some c => assertb (me_ncell m =? ec_nelem c)
    end.

  Definition facetypes : list string := ["mixed"; "internal"; "boundary"].
  Definition total_faces (fs : dict string faceset) : Z :=
    zsum (List.map (fun '(_, f) => ec_nelem (f_f2n f)) fs).

  (** [add_faces], _mesh.py:153-170; [api.error_stop] raises RuntimeError. *)
  Definition add_faces (m : mesh F) (ftype : string) (f2n : econn) (f2c : option indirection)
    : res unit * mesh F :=
    if existsb (String.eqb ftype) facetypes then
      let fs := dset String.eqb ftype (FaceSet f2n f2c) (me_faces m) in
      (Ok tt, with_nface (with_faces m fs) (total_faces fs))
    else (Err RuntimeError, m).

  (** [pop_faces], _mesh.py:172-177. *)
  Definition pop_faces (m : mesh F) (ftype : string) : mesh F :=
    if existsb (String.eqb ftype) facetypes then with_faces m (dpop String.eqb ftype (me_faces m)) else m.

  (** [face2cell.conn] *)
  Definition f2c_conn (f : faceset) : res mat :=
    match f_f2c f with
    | None => Err AttributeError
    | Some None => Err ValueError
    | Some (Some m) => Ok m
    end.

  (** [export_mixedfaces], _mesh.py:179-193. *)
  Definition export_mixedfaces (m : mesh F) : res (econn * indirection) :=
    b <- dget_err String.eqb "boundary" (me_faces m) ;;
    i <- dget_err String.eqb "internal" (me_faces m) ;;
    con <- ec_merge ec_empty [f_f2n b; f_f2n i] ;;
    bc <- f2c_conn b ;;
    ic <- f2c_conn i ;;
    f2c <- np_vcat bc ic ;;
    f2c <- ii_set f2c ;;
    Ok (con, f2c).

  (** [make_face_connectivity], _mesh.py:407-416, with the side table in force. *)
  Definition make_face_connectivity (tbl : sidetable) (m : mesh F) : res unit * mesh F :=
    match me_cell2node m with
    | None => (Err AttributeError, m)
    | Some c =>
        match ec_create_faces tbl c with
        | Err e => (Err e, m)
        | Ok fs =>
            let m1 := pop_faces m "mixed" in
            let m2 := snd (add_faces m1 "internal" (fs_int fs) (Some (fs_int_f2c fs))) in
            add_faces m2 "boundary" (fs_bnd fs) (Some (fs_bnd_f2c fs))
        end
    end.

  (** ** Marks *)

  (** [add_boco], _mesh.py:195-196, and [remove_boco], :198-199. *)
  Definition add_boco (m : mesh F) (b : mark F) : mesh F :=
    with_bocos m (dset String.eqb (mk_name b) b (me_bocos m)).
  Definition remove_boco (m : mesh F) (name : string) : res unit * mesh F :=
    if dmem String.eqb name (me_bocos m) then (Ok tt, with_bocos m (dpop String.eqb name (me_bocos m)))
    else (Err KeyError, m).

  (** A loop over the marks that changes them one after the other and stops at the first error. *)
  Fixpoint each_mark (f : mark F -> res unit * mark F) (bs : dict string (mark F))
    : res unit * dict string (mark F) :=
    match bs with
    | [] => (Ok tt, [])
    | (k, b) :: bs' =>
        match f b with
        | (Ok _, b') => let '(r, bs'') := each_mark f bs' in (r, (k, b') :: bs'')
        | (Err e, b') => (Err e, (k, b') :: bs')
        end
    end.

  (** [face_in_nodelist], _mesh.py:207-208. *)
  Definition face_in_nodelist (nodeset : list Z) (face : list Z) : bool :=
    forallb (fun n => zmem n nodeset) face.

  (** Body of the loop of [bocomarks_set_node_to_face], _mesh.py:212-220.  Simplification: the list
      keeps boxed numbers only if all faces have boxed numbers. *)
  Definition set_node_to_face (bnd : econn) (tuples : list (Z * list Z)) (b : mark F)
    : res unit * mark F :=
    if nodebased b then
      match mark_list b with
      | Err e => (Err e, b)
      | Ok nodeset =>
          let l := List.map fst (filter (fun t => face_in_nodelist nodeset (snd t)) tuples) in
          let il := if existsb (fun '(_, ed) => il_boxed (ed_index ed)) (ec_dict bnd) then ILboxed l else ILlist l in
          (Ok tt, Mark F (mk_name b) (Some Gbdface) (mk_type b) (Some il) (mk_perio b))
      end
    else (Ok tt, b).

  (** [bocomarks_set_node_to_face], _mesh.py:201-221. *)
  Definition bocomarks_set_node_to_face (m : mesh F) : res unit * mesh F :=
    match dget String.eqb "boundary" (me_faces m) with
    | None => (Err AssertionError, m)
    | Some b =>
        match ec_tuples (f_f2n b) with
        | Err e => (Err e, m)
        | Ok tuples =>
            let '(r, bs) := each_mark (set_node_to_face (f_f2n b) tuples) (me_bocos m) in
            (r, with_bocos m bs)
        end
    end.

  (** [list_boco_index], _mesh.py:223-224 (for consumers that need plain integers). *)
  Definition list_boco_index (m : mesh F) : res (list Z) :=
    ls <- mapM (fun '(_, b) => mark_list b) (me_bocos m) ;; Ok (List.concat ls).

  (** [make_unmarked_BC(name)], _mesh.py:226-245.  [enum] is the iteration order of Python sets. *)
  Definition make_unmarked_BC (enum : list Z -> list Z) (name : string) (m : mesh F)
    : res (list Z) * mesh F :=
    match dget String.eqb "boundary" (me_faces m) with
    | None => (Ok [], m)
    | Some b =>
        if forallb (fun '(_, k) => face_or_bdface k) (me_bocos m) then
          match list_boco_index m, ec_all_index (f_f2n b) with
          | Err e, _ => (Err e, m)
          | _, Err e => (Err e, m)
          | Ok marked, Ok all =>
              match enum (filter (fun i => negb (zmem i marked)) all) with
              | [] => (Ok [], m)
              | missing => (Ok missing, add_boco m (Mark F name (Some Gbdface) (Some "boundary")
                                                     (Some (ILlist missing)) (Some None)))
              end
          end
        else (Err AssertionError, m)
    end.

  (** [check], _mesh.py:418-428. *)
  Definition mesh_check (enum : list Z -> list Z) (m : mesh F) : res bool * mesh F :=
    if negb (0 <? me_ncell m) then (Err AssertionError, m)
    else if negb (0 <? me_nnode m) then (Err AssertionError, m)
    else match check_cell2node m with
         | Err e => (Err e, m)
         | Ok _ =>
             match make_unmarked_BC enum "unmarked_faces" m with
             | (Err e, m') => (Err e, m')
             | (Ok [], m') => (Ok true, m')
             | (Ok (_ :: _), m') => (Err AssertionError, m')
             end
         end.

  (** ** [reindex_boundaryfaces], _mesh.py:328-369 *)

  (** The checks of :335-358, giving [newindex]. *)
  Definition reindex_plan (oldindex : list Z) : res (list Z) :=
    c_unique <- np_all_eq (np_unique oldindex) (zsort oldindex) ;;
    mn <- py_min oldindex ;;
    mx <- py_max oldindex ;;
    let c_max := mx <=? zlen oldindex - 1 in
    if c_unique && (mn =? 0) && c_max then
      newindex <- np_put (repeat (-1) (List.length oldindex)) oldindex (zrange 0 (zlen oldindex)) ;;
      mn' <- py_min newindex ;;
      _ <- assertb (0 <=? mn') ;;
      Ok newindex
    else Err RuntimeError.

  (** :359-362: the new index is stored before [compress] may raise. *)
  Definition reindex_mark (newindex : list Z) (b : mark F) : res unit * mark F :=
    match (l <- mark_list b ;; np_take newindex l) with
    | Err e => (Err e, b)
    | Ok l =>
        match set_index b (ILlist l) with
        | Err e => (Err e, b)
        | Ok b' => match il_compress (ILlist l) with
                   | Ok il => (Ok tt, Mark F (mk_name b) (mk_geodim b) (mk_type b) (Some il) (mk_perio b))
                   | Err e => (Err e, b')
                   end
        end
    end.

  (** :363-366: types are renumbered one after the other. *)
  Fixpoint reindex_types (newindex : list Z) (d : dict string edict) : res unit * dict string edict :=
    match d with
    | [] => (Ok tt, [])
    | (t, ed) :: d' =>
        match (l <- il_list (ed_index ed) ;; np_take newindex l) with
        | Err e => (Err e, d)
        | Ok l => let '(r, d'') := reindex_types newindex d' in (r, (t, ED (ILlist l) (ed_e2n ed)) :: d'')
        end
    end.

  (** :367-368: [conn[oldindex, :]] ([None[...]] raises TypeError). *)
  Definition reindex_f2c (oldindex : list Z) (f : option indirection) : res (option indirection) :=
    match f with
    | None => Err AttributeError
    | Some None => Err TypeError
    | Some (Some mt) =>
        rows <- np_take (m_rows mt) oldindex ;;
        ii <- ii_set (Mat (m_cols mt) rows) ;;
        Ok (Some ii)
    end.

  Definition reindex_boundaryfaces (m : mesh F) : res unit * mesh F :=
    match dget String.eqb "boundary" (me_faces m) with
    | None => (Err AssertionError, m)
    | Some b =>
        if negb (forallb (fun '(_, k) => face_or_bdface k) (me_bocos m)) then (Err AssertionError, m)
        else
          match (old <- list_boco_index m ;; new <- reindex_plan old ;; Ok (old, new)) with
          | Err e => (Err e, m)
          | Ok (oldindex, newindex) =>
              let '(r1, bs) := each_mark (reindex_mark newindex) (me_bocos m) in
              let m1 := with_bocos m bs in
              match r1 with
              | Err e => (Err e, m1)
              | Ok _ =>
                  let '(r2, d) := reindex_types newindex (ec_dict (f_f2n b)) in
                  let f2n := EC (ec_nelem (f_f2n b)) d in
                  match r2 with
                  | Err e => (Err e, with_faces m1 (dset String.eqb "boundary" (FaceSet f2n (f_f2c b)) (me_faces m)))
                  | Ok _ =>
                      match reindex_f2c oldindex (f_f2c b) with
                      | Err e => (Err e, with_faces m1 (dset String.eqb "boundary" (FaceSet f2n (f_f2c b)) (me_faces m)))
                      | Ok f2c => (Ok tt, with_faces m1 (dset String.eqb "boundary" (FaceSet f2n f2c) (me_faces m)))
                      end
                  end
              end
          end
    end.
End Mesh.
