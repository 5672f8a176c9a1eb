(** * What reading a written IC3 file must give: vocabulary. *)
From Coq Require Import ZArith List Bool String Permutation.
From Verif Require Import Py Conn ConnSpec Mesh Ic3 Ic3HeaderSpec Ic3FileSpec.

Definition ec_boxed (c : econn) : Prop := forall t ed, In (t, ed) (ec_dict c) -> il_boxed (ed_index ed) = true.

(** The faces of a mesh, in the numbering of a file: [ls] gives the nodes and [rows] the two cells of
    faces 0, 1, 2...  They are held by the set 'mixed' or, without it, by the set 'boundary' (first
    numbers) and the set 'internal'. *)
Record faces_set (f : faceset) (ls rows : list (list Z)) : Prop := {
  fs_wf : ec_wf (f_f2n f);
  fs_pairs : Permutation (ec_pairs (f_f2n f)) (ranked ls);
  fs_cells : exists mt, f_f2c f = Some (Some mt) /\ m_cols mt = Some 2%nat /\ m_rows mt = rows /\ zlen rows = zlen ls }.
Inductive faces_of (m : mesh Z) (ls rows : list (list Z)) : Prop :=
| faces_mixed f : dget String.eqb "mixed" (me_faces m) = Some f -> faces_set f ls rows ->
    (ec_plain (f_f2n f) \/ ec_boxed (f_f2n f)) -> faces_of m ls rows
| faces_split nn b i lb li rb ri : dget String.eqb "mixed" (me_faces m) = None ->
    dget String.eqb "boundary" (me_faces m) = Some b -> dget String.eqb "internal" (me_faces m) = Some i ->
    faces_set b lb rb -> faces_set i li ri -> ec_plain (f_f2n b) -> ec_plain (f_f2n i) ->
    ec_cols nn (f_f2n b) -> ec_cols nn (f_f2n i) -> ls = lb ++ li -> rows = rb ++ ri -> faces_of m ls rows.

(** Values that the writers store, from the Python numbers given. *)
Definition as_int (f2i : Z -> res Z) (x : sval) (n : Z) : Prop :=
  match x with SNum (NInt k) => n = k | SNum (NFlt p) => f2i p = Ok n | SWgt _ => False end.
Definition as_double (i2d : Z -> Z) (x : sval) (p : Z) : Prop :=
  match x with SNum (NInt k) => p = i2d k | SNum (NFlt q) => p = q | SWgt _ => False end.
Definition array_doubles (i2d : Z -> Z) (a : array) : list Z := if a_int a then List.map i2d (a_val a) else a_val a.
(** Integers are kept by the version 3 only. *)
Definition kept_int (v : version) (a : array) : bool := match v with V2 => false | V3 => a_int a end.
Definition scalar_back (i2d : Z -> Z) (v : version) (n : Z) (a : array) : array :=
  if kept_int v a then Arr [n] true (a_val a) else Arr [n] false (array_doubles i2d a).

Definition data_ndof (d : fdata) : Z := match d with FSet d => ds_ndof d | FDict _ => 1 end.
(** The number of items of a cell variable. *)
Definition cell_total (v : version) (fm : fmesh) : Z :=
  match v with V2 => me_ncell (fm_mesh fm) | V3 => data_ndof (fm_cells fm) * me_ncell (fm_mesh fm) end.

(** A mesh that makes sense as an IC3 file of version [v], whatever its cell numbers. *)
Record file_layout (v : version) (fm : fmesh) (ls rows : list (list Z)) : Prop := {
  fi_ncell : 1 <= me_ncell (fm_mesh fm); fi_nnode : 1 <= me_nnode (fm_mesh fm);
  fi_nface : me_nface (fm_mesh fm) = zlen ls; fi_some : 1 <= zlen ls;
  fi_faces : faces_of (fm_mesh fm) ls rows;
  fi_sizes : Forall (fun r => 1 <= zlen r <= 4) ls;
  fi_rows : Forall (fun r => List.length r = 2%nat) rows;
  fi_zones : forall k b lo hi, In (k, b) (zone_marks (fm_mesh fm)) -> mk_index b = Some (ILrange lo hi) ->
                               0 <= lo <= zlen ls /\ hi < zlen ls;
  fi_names : Forall (fun k => good_name k /\ ~ deof k) (mesh_names fm);
  fi_keys : NoDup (List.map fst (zone_marks (fm_mesh fm))) /\ NoDup (List.map fst (fd_items (fm_nodes fm))) /\
            NoDup (List.map fst (fd_items (fm_cells fm)));
  fi_reserved : ~ In "internal-domain"%string (List.map fst (zone_marks (fm_mesh fm)));
  fi_ndof : 1 <= data_ndof (fm_cells fm) }.
(** The same, and the cell numbers reach [ncell - 1] and do not exceed it. *)
Record file_mesh (v : version) (fm : fmesh) (ls rows : list (list Z)) : Prop := {
  fi_layout :> file_layout v fm ls rows;
  fi_reach : In (me_ncell (fm_mesh fm) - 1) (List.concat rows);
  fi_bound : Forall (fun c => c <= me_ncell (fm_mesh fm) - 1) (List.concat rows) }.
(** Cell data can be told from node data and face data by its size. *)
Definition located (fm : fmesh) (ls : list (list Z)) : Prop :=
  fd_items (fm_cells fm) = [] \/ (me_ncell (fm_mesh fm) <> me_nnode (fm_mesh fm) /\ me_ncell (fm_mesh fm) <> zlen ls).

(** The end of the marks: the largest of 0 and of the last faces of the marks. *)
Definition marks_end (m : mesh Z) : Z :=
  fold_right Z.max 0 (flat_map (fun '(_, b) => match mk_index b with Some (ILrange _ hi) => [hi] | _ => [] end) (zone_marks m)).

(** The mesh with other data. *)
Definition data_only (fm : fmesh) (nodes cells : fdata) : fmesh := FM (fm_mesh fm) cells nodes (fm_params fm) (fm_part fm).

(** Arrays of numbers, vectors or tensors, at least one. *)
Definition usual_shape (a : array) : Prop := exists n, 1 <= n /\ (a_shape a = [n] \/ a_shape a = [n; 3] \/ a_shape a = [n; 3; 3]).
Definition one_dim (a : array) : bool := match a_shape a with [_] => true | _ => false end.
(** The first variables of a dictionary: the scalars of [d]. *)
Definition scalars_of (d : dict string array) : dict string array := filter (fun '(_, a) => one_dim a) d.
(** The cell data with other variables. *)
Definition refill (d : fdata) (items : dict string array) : fdata :=
  match d with FSet d => FSet (DS (ds_trep d) (ds_xrep d) (ds_ndof d) (ds_props d) items) | FDict _ => FDict items end.

(** A mark read back: on boundary faces, with 16 reals completed with zeros. *)
Definition zone_back (kb : string * mark Z) : string * mark Z :=
  (fst kb, Mark Z (fst kb) (Some Gbdface) (mk_type (snd kb)) (mk_index (snd kb))
     (Some (Some (let l := match mk_perio (snd kb) with Some (Some l) => l | _ => [] end in l ++ repeat 0 (16 - List.length l))))).

(** [fm2] is what [fm] becomes through a file. *)
Record read_as (i2d : Z -> Z) (f2i : Z -> res Z) (v : version) (fm fm2 : fmesh) (ls rows : list (list Z)) : Prop := {
  ra_ncell : me_ncell (fm_mesh fm2) = me_ncell (fm_mesh fm);
  ra_nnode : me_nnode (fm_mesh fm2) = me_nnode (fm_mesh fm);
  ra_nface : me_nface (fm_mesh fm2) = me_nface (fm_mesh fm);
  ra_coords : nodescoord (fm_mesh fm2) = nodescoord (fm_mesh fm);
  ra_faces : exists f, me_faces (fm_mesh fm2) = [("mixed"%string, f)] /\ faces_set f ls rows;
  ra_marks : me_bocos (fm_mesh fm2) = List.map zone_back (zone_marks (fm_mesh fm)) ++
     [("internal-domain"%string, Mark Z "internal-domain" (Some Gintface) (Some "internal"%string)
         (Some (ILrange (marks_end (fm_mesh fm) + 1) (zlen ls - 1))) (Some (Some (repeat 0 16))))];
  ra_part : exists npart icv, fm_part fm2 = Some (Some (npart, Some icv)) /\
     match fm_part fm with
     | None => npart = 1 /\ icv = repeat 0 (Z.to_nat (me_ncell (fm_mesh fm)))
     | Some p => p = Some (npart, Some icv)
     end;
  ra_step : exists n, dget String.eqb "step" (fm_params fm2) = Some (SNum (NInt n)) /\
     as_int f2i (param (fm_params fm) "step" (SNum (NInt 0))) n;
  ra_dt : exists x, dget String.eqb "dt" (fm_params fm2) = Some (SNum (NFlt x)) /\
     as_double i2d (param (fm_params fm) "dt" (SNum (NInt 0))) x;
  ra_time : exists x, dget String.eqb "time" (fm_params fm2) = Some (SNum (NFlt x)) /\
     as_double i2d (param (fm_params fm) "time" (SNum (NInt 0))) x;
  (** node data: scalars *)
  ra_nodes : forall name a n, In (name, a) (fd_items (fm_nodes fm)) -> a_shape a = [n] ->
     n = me_nnode (fm_mesh fm) /\ dget String.eqb name (fd_items (fm_nodes fm2)) = Some (scalar_back i2d v n a);
  ra_node_names : forall name, In name (List.map fst (fd_items (fm_nodes fm2))) -> In name (List.map fst (fd_items (fm_nodes fm)));
  (** cell data: scalars, vectors, tensors *)
  ra_cells : forall name a n, In (name, a) (fd_items (fm_cells fm)) -> a_shape a = [n] ->
     n = cell_total v fm /\ dget String.eqb name (fd_items (fm_cells fm2)) = Some (scalar_back i2d v n a);
  ra_vectors : forall name a n, In (name, a) (fd_items (fm_cells fm)) -> a_shape a = [n; 3] ->
     n = cell_total v fm /\ dget String.eqb name (fd_items (fm_cells fm2)) = Some (Arr [n; 3] false (array_doubles i2d a));
  ra_tensors : forall name a n, In (name, a) (fd_items (fm_cells fm)) -> a_shape a = [n; 3; 3] ->
     n = cell_total v fm /\ dget String.eqb name (fd_items (fm_cells fm2)) = Some (Arr [n; 3; 3] false (array_doubles i2d a));
  ra_cell_names : forall name, In name (List.map fst (fd_items (fm_cells fm2))) -> In name (List.map fst (fd_items (fm_cells fm)));
  ra_ndof : fd_items (fm_cells fm2) <> [] -> data_ndof (fm_cells fm2) = match v with V2 => 1 | V3 => data_ndof (fm_cells fm) end;
  (** the counts among the parameters: nodes, faces, cells, nodes of the faces, marks, boundary faces (second
      cell -1) and periodic faces (second cell below -1) *)
  ra_counts : forall k n, In (k, n)
     [("no_count"%string, me_nnode (fm_mesh fm)); ("fa_count"%string, zlen ls); ("cv_count"%string, me_ncell (fm_mesh fm)); ("noofa_count"%string, zlen (List.concat ls));
      ("nboco"%string, zlen (zone_marks (fm_mesh fm)) + 1); ("nfa_b"%string, zlen (filter (fun r => nth 1 r 0 =? -1) rows));
      ("nfa_bp"%string, zlen (filter (fun r => nth 1 r 0 <? -1) rows))] ->
     dget String.eqb k (fm_params fm2) = Some (SNum (NInt n)) }.

(** Faces of the marks of a mesh, one by one. *)
Definition mark_faces (l : dict string (mark Z)) : list Z :=
  flat_map (fun '(_, b) => match mk_index b with Some il => entries il | None => [] end) l.
(** Marks that are ranges with at least a face. *)
Definition mark_ranges (l : dict string (mark Z)) : Prop :=
  Forall (fun '(_, b) => exists lo hi, mk_index b = Some (ILrange lo hi) /\ lo <= hi) l.

(** The file with other bytes at position [p]. *)
Definition patch (f : list Z) (p : Z) (b : list Z) : list Z :=
  firstn (Z.to_nat p) f ++ b ++ skipn (Z.to_nat (p + zlen b)) f.

(** A section of data on faces, scalars or vectors, as other programs put in such files. *)
Definition face_section (nfa : Z) (x : string * bool * list Z) : section :=
  let '(name, vector, vals) := x in
  if vector then (Hdr name FA_D3 (256 + 8 * (nfa * 3)) [nfa; 3; 0; 0; 0; 0; 0; 0] (repeat 0 16), [(Cd, nfa * 3, vals)])
  else (Hdr name FA_D1 (256 + 8 * nfa) [nfa; 0; 0; 0; 0; 0; 0; 0] (repeat 0 16), [(Cd, nfa, vals)]).
