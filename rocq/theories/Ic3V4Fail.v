(** * What the writer of the HDF5 files of IC3 leaves when it raises (cfdtools/ic3/writerV4.py:38-255), and the
      reader on such files (cfdtools/ic3/readerV4.py:99-123, 144-306).

    The files are closed by [with] whatever happens: they hold all that was created before the exception.
    A dataset is created entirely or not at all.  Same simplifications as in Ic3V4.v. *)
From Coq Require Import Ascii.
From Verif Require Export Ic3V4.
#[local] Notation F := Z (only parsing).

(** The group 'Boundaries': the groups of the periodic marks, the transformations they hold, and the three
    datasets if they were created. *)
Record bounds_left : Type := BL {
  bl_groups : list string; bl_perio : dict string (list Z);
  bl_labels : option (list string); bl_offsets : option (list Z); bl_kinds : option (list Z) }.
Record mesh_left : Type := ML {
  ml_no : Z; ml_fa : Z; ml_cv : Z; ml_coords : list Z; ml_cells : option (dict string mat);
  ml_cvofa : option (list Z); ml_noofa_i : option (list Z); ml_noofa_v : option (list Z); ml_bounds : option bounds_left }.

Section Writer.
  Context (i2d : Z -> Z) (narrow : Z -> Z).

  (** The checks and the range of a mark, writerV4.py:141-153, before its group is created. *)
  Definition mark_checks (kb : string * mark F) : res (Z * Z * (string * Z)) :=
    let '(key, b) := kb in
    _ <- assertb (String.eqb key (mk_name b)) ;;
    _ <- assertb (face_or_bdface b) ;;
    t <- or_err AssertionError (mk_type b) ;;
    kind <- or_err AssertionError (dget String.eqb t zonekinds) ;;
    il <- or_err AttributeError (mk_index b) ;;
    _ <- assertb (match il with ILrange _ _ => true | _ => false end) ;;
    '(lo, hi) <- il_range il ;;
    Ok (lo, hi, (key, kind)).

  (** The loop of writerV4.py:140-166: rows, groups and transformations so far, and the outcome. *)
  Fixpoint marks_left (bs : dict string (mark F)) (rows : list (Z * Z * (string * Z))) (groups : list string) (perio : dict string (list Z))
    : list (Z * Z * (string * Z)) * list string * dict string (list Z) * res unit :=
    match bs with
    | [] => (rows, groups, perio, Ok tt)
    | (key, b) :: bs' =>
        match mark_checks (key, b) with
        | Err e => (rows, groups, perio, Err e)
        | Ok row =>
            match mk_perio b with
            | Some (Some l) =>
                if zlen (firstn 3 l) =? 3 then marks_left bs' (rows ++ [row]) (groups ++ [key]) (perio ++ [(key, firstn 3 l)])
                else (rows, groups ++ [key], perio, Err ValueError)
            | _ => marks_left bs' (rows ++ [row]) groups perio
            end
        end
    end.

  (** [_write_boundaries], writerV4.py:130-180. *)
  Definition bounds_left_of (bs : dict string (mark F)) (fa : Z) : bounds_left * res unit :=
    let '(ms, groups, perio, r) := marks_left bs [] [] [] in
    let used name := existsb (String.eqb name) groups in
    match r with
    | Err e => (BL groups perio None None None, Err e)
    | Ok _ =>
        let last := fold_left (fun m '(_, hi, _) => Z.max m hi) ms 0 in
        let rows := List.map (fun '(lo, _, kk) => (lo, kk)) ms ++ [(last + 1, ("internal-domain"%string, 6))] in
        let sorted := isort (fun a b => fst a <=? fst b) rows in
        match mapM (fun r => label_of (fst (snd r))) sorted with
        | Err e => (BL groups perio None None None, Err e)
        | Ok labels =>
            if used "labels"%string then (BL groups perio None None None, Err ValueError)
            else match i4_list (List.map fst sorted ++ [fa]) with
                 | Err e => (BL groups perio (Some labels) None None, Err e)
                 | Ok offsets =>
                     if used "offsets"%string then (BL groups perio (Some labels) None None, Err ValueError)
                     else if used "kinds"%string then (BL groups perio (Some labels) (Some offsets) None, Err ValueError)
                     else (BL groups perio (Some labels) (Some offsets) (Some (List.map (fun r => snd (snd r)) sorted)), Ok tt)
                 end
        end
    end.

  (** The mesh file, writerV4.py:38-62 and 81-180. *)
  Definition mesh_left_of (m : mesh F) (w : wstate) : mesh_left * res unit :=
    let cells := option_map (fun c => List.map (fun '(t, ed) => (t, ed_e2n ed)) (ec_dict c)) (me_cell2node m) in
    let f cvofa ni nv b := ML (w_no w) (w_fa w) (w_cv w) (List.concat (w_coords w)) cells cvofa ni nv b in
    match (f2e <- or_err AttributeError (w_f2e w) ;; i4_list (List.concat (m_rows f2e))) with
    | Err e => (f None None None None, Err e)
    | Ok cvofa =>
        let '(b, r) := bounds_left_of (w_bocos w) (w_fa w) in
        (f (Some cvofa) (Some (i4_array narrow (w_nno w))) (Some (i4_array narrow (w_noofa w))) (Some b), r)
    end.

  (** Datasets created one after the other. *)
  Fixpoint put_left (vars : dict string array) (d : dict string (list Z)) : dict string (list Z) * res unit :=
    match vars with
    | [] => (d, Ok tt)
    | (name, a) :: vars' =>
        if dmem String.eqb (lower name) d then (d, Err ValueError) else put_left vars' (d ++ [(lower name, doubles i2d a)])
    end.
  (** Attributes set one after the other ([attrs.update]). *)
  Fixpoint attrs_left (l : dict string sval) (d : dict string num) : dict string num * res unit :=
    match l with
    | [] => (d, Ok tt)
    | (k, v) :: l' => match attr_of v with Ok x => attrs_left l' (d ++ [(k, x)]) | Err e => (d, Err e) end
    end.

  (** The solution file, writerV4.py:64-79 and 205-255. *)
  Definition sol_left_of (params : dict string sval) (w : wstate) : sol4 * res unit :=
    match attrs_left [("step"%string, param params "step" (SNum (NInt 0))); ("time"%string, param params "time" (SNum (NInt 0)))] [] with
    | (attrs, Err e) => (S4 attrs [] None, Err e)
    | (attrs, Ok _) =>
        let cells := fd_items (w_cells w) in
        let present := flat_map (fun x => match dget String.eqb x cells with Some a => [(x, a)] | None => [] end) conserved in
        match (if forallb (fun x => dmem String.eqb x cells) conserved then put_left present [] else ([], Ok tt)) with
        | (vars, Err e) => (S4 attrs vars None, Err e)
        | (vars, Ok _) =>
            match filter (fun '(name, _) => is_stat name) cells with
            | [] => (S4 attrs vars None, Ok tt)
            | stats =>
                match attrs_left (filter (fun '(name, _) => ends_with "_wgt" name) params) [] with
                | (weights, Err e) => (S4 attrs vars (Some (weights, [])), Err e)
                | (weights, Ok _) => let '(d, r) := put_left stats [] in (S4 attrs vars (Some (weights, d)), r)
                end
            end
        end
    end.

  (** [writer(mesh, endian).write_data(mesh_filename, solution_filename)]: the files that were opened, the
      outcome and the mesh. *)
  Definition write4_left (tbl : sidetable) (enum : list Z -> list Z) (host : order) (endian : string) (solution : bool) (fm : fmesh)
    : option mesh_left * option sol4 * res unit * fmesh :=
    match order_of host endian with
    | Err e => (None, None, Err e, fm)
    | Ok _ =>
        let '(r, m) := prepare_mesh tbl enum (fm_mesh fm) in
        let fm' := FM m (fm_cells fm) (fm_nodes fm) (fm_params fm) (fm_part fm) in
        match (_ <- r ;; writer_state fm') with
        | Err e => (None, None, Err e, fm')
        | Ok w =>
            match mesh_left_of m w with
            | (mf, Err e) => (Some mf, None, Err e, fm')
            | (mf, Ok _) => if solution then let '(sf, r) := sol_left_of (fm_params fm') w in (Some mf, Some sf, r, fm')
                            else (Some mf, None, Ok tt, fm')
            end
        end
    end.
End Writer.

(** ** The reader on such files *)
(** [group[name][()]]: a group cannot be read as a dataset. *)
Definition read_item {A} (b : bounds_left) (name : string) (x : option A) : res A :=
  match x with
  | Some a => Ok a
  | None => if existsb (String.eqb name) (bl_groups b) then Err TypeError else Err KeyError
  end.
(** readerV4.py:217-248. *)
Definition read_bounds_left (z : csr) (b : option bounds_left) : res (list (mark F)) :=
  match b with
  | None => Ok []
  | Some b =>
      offsets <- read_item b "offsets" (bl_offsets b) ;;
      labels <- read_item b "labels" (bl_labels b) ;;
      kinds <- read_item b "kinds" (bl_kinds b) ;;
      mapM (read_zone4 z (bl_perio b)) (zip4 labels kinds (removelast offsets) (List.map (fun o => o - 1) (tl offsets)))
  end.
(** readerV4.py:99-123 and 144-266, with the accesses in their order. *)
Definition read_left4 (f : mesh_left) (sol : option sol4) : res rstate4 :=
  nno <- or_err KeyError (ml_noofa_i f) ;;
  let index := 0 :: np_cumsum nno in
  before_last <- py_get index (-2) ;;
  last <- py_get nno (-1) ;;
  _ <- assertb (before_last =? zsum nno - last) ;;
  noofa_v <- or_err KeyError (ml_noofa_v f) ;;
  let z := Csr index noofa_v in
  _ <- csr_check z ;;
  cvofa <- or_err KeyError (ml_cvofa f) ;;
  rows <- reshape (ml_fa f) 2 cvofa ;;
  mx <- py_max cvofa ;;
  _ <- assertb (mx <? ml_cv f) ;;
  _ <- assertb (mx =? ml_cv f - 1) ;;
  bocos <- read_bounds_left z (ml_bounds f) ;;
  coords <- reshape (ml_no f) 3 (ml_coords f) ;;
  cells <- new_dataset "cellaverage" 1 "instant" ;;
  cells <- (match sol with None => Ok cells | Some s => read_vars4 (ml_cv f) s cells end) ;;
  Ok (R4 (ml_no f) (ml_fa f) (ml_cv f) (zsum nno) z rows bocos coords
         (match sol with None => [("step"%string, SNum (NInt 0)); ("time"%string, SNum (NInt 0))] | Some s => read_info4 s end) cells).

(** [reader(mesh_filename, solution_filename)], [read_data()], [export_mesh()]; and the property [ncell],
    set only if there is a solution, readerV4.py:33-44, 67-69 and 99-123. *)
Record reader4 : Type := RD4 { rd_state : rstate4; rd_ncell : option Z }.
Definition open4 (fs_mesh : option mesh_left) (named : bool) (fs_sol : option sol4) : res reader4 :=
  mf <- or_err FileExistsError fs_mesh ;;
  sf <- (if named then s <- or_err FileExistsError fs_sol ;; Ok (Some s) else Ok None) ;;
  r <- read_left4 mf sf ;;
  Ok (RD4 r (match sf with Some _ => Some (r4_cv r) | None => None end)).
Definition ncell4 (r : reader4) : res Z := or_err AttributeError (rd_ncell r).

(** A complete file. *)
Definition as_left_bounds (b : bounds4) : bounds_left := BL (List.map fst (b4_perio b)) (b4_perio b) (Some (b4_labels b)) (Some (b4_offsets b)) (Some (b4_kinds b)).
Definition as_left (f : mesh4) : mesh_left :=
  ML (m4_no f) (m4_fa f) (m4_cv f) (m4_coords f) (m4_cells f) (Some (m4_cvofa f)) (Some (m4_noofa_i f)) (Some (m4_noofa_v f)) (option_map as_left_bounds (m4_bounds f)).
(** What is obtained from files: the mesh and its data. *)
Definition read_files4 (fs_mesh : option mesh_left) (named : bool) (fs_sol : option sol4) : res fmesh :=
  r <- open4 fs_mesh named fs_sol ;; export_mesh4 (rd_state r).
