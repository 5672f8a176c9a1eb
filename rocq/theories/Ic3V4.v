(** * Model of the HDF5 files of IC3: cfdtools/ic3/writerV4.py and cfdtools/ic3/readerV4.py.

    A file is given by the attributes and the datasets that the two classes use.  h5py is modelled by
    contract: what is stored is read back with the type of the dataset; a list of integers outside int32 is
    refused (OverflowError) where an array is stored, with values that HDF5 chooses ([narrow]); groups list their members by increasing
    name; creating an existing name is a ValueError; strings of fixed length are cut and lose their final
    NULs.  Floats are 64-bit patterns.  Not modelled: log output, attributes that are never read (versions,
    mesh type, synonyms), names that are paths for HDF5 (empty, '.' or
    with '/'), the branch [facedata] and the
    dictionary entry 'slicing', of which only the IndexError that computing it can raise is kept.
    What is left in files when the writer raises, and files that do not exist: [Ic3V4Fail]. *)
From Coq Require Import Ascii.
From Verif Require Export Py IndexList Conn Mesh Ic3Bytes Data Ic3.
#[local] Notation F := Z (only parsing).

(** ** Files *)
(** The group 'Boundaries'. *)
Record bounds4 : Type := B4 { b4_labels : list string; b4_offsets : list Z; b4_kinds : list Z; b4_perio : dict string (list Z) }.
Record mesh4 : Type := M4 {
  m4_no : Z; m4_fa : Z; m4_cv : Z; m4_coords : list Z; m4_cells : option (dict string mat);
  m4_cvofa : list Z; m4_noofa_i : list Z; m4_noofa_v : list Z; m4_bounds : option bounds4 }.
Record sol4 : Type := S4 { s4_attrs : dict string num; s4_vars : dict string (list Z);
  s4_stats : option (dict string num * dict string (list Z)) }.

(** ** h5py *)
(** [create_dataset(..., data=list, dtype='i4')]. *)
Definition i4_list (l : list Z) : res (list Z) := if forallb (fits 4) l then Ok l else Err OverflowError.
(** A label as stored in a string of 128 bytes; characters out of ASCII cannot be encoded. *)
Definition nul : ascii := ascii_of_nat 0.
Fixpoint strip_nul (s : string) : string :=
  match s with
  | EmptyString => EmptyString
  | String c s' => match strip_nul s' with
                   | EmptyString => if Ascii.eqb c nul then EmptyString else String c EmptyString
                   | t => String c t
                   end
  end.
Definition label_of (s : string) : res string :=
  if forallb (fun c => Nat.ltb (nat_of_ascii c) 128) (list_ascii_of_string s)
  then Ok (strip_nul (substring 0 128 s)) else Err UnicodeError.
(** An attribute: integers up to 64 bits, floats; a dictionary is not a type of HDF5. *)
Definition attr_of (v : sval) : res num :=
  match v with
  | SNum (NInt n) => if (- 2 ^ 63 <=? n) && (n <? 2 ^ 64) then Ok (NInt n) else Err TypeError
  | SNum x => Ok x
  | SWgt _ => Err TypeError
  end.

Section Writer.
  (** [float(n)] on patterns, and what an int64 out of int32 becomes when HDF5 stores it on 32 bits. *)
  Context (i2d : Z -> Z) (narrow : Z -> Z).
  (** [create_dataset(..., data=array, dtype='i4')]. *)
  Definition i4_array (l : list Z) : list Z := List.map (fun v => if fits 4 v then v else narrow v) l.

  (** ** The writer *)
  (** One mark, writerV4.py:140-166: first face, label, kind; and the group of a periodic transformation. *)
  Definition mark4 (kb : string * mark F) : res (Z * Z * (string * Z) * option (list Z)) :=
    let '(key, b) := kb in
    _ <- assertb (String.eqb key (mk_name b)) ;;
    _ <- assertb (face_or_bdface b) ;;
    t <- or_err AssertionError (mk_type b) ;;
    kind <- or_err AssertionError (dget String.eqb t zonekinds) ;;
    il <- or_err AttributeError (mk_index b) ;;
    _ <- assertb (match il with ILrange _ _ => true | _ => false end) ;;
    '(lo, hi) <- il_range il ;;
    p <- (match mk_perio b with
          | Some (Some l) => if zlen (firstn 3 l) =? 3 then Ok (Some (firstn 3 l)) else Err ValueError
          | _ => Ok None
          end) ;;
    Ok (lo, hi, (key, kind), p).
  Definition reserved4 : list string := ["labels"; "offsets"; "kinds"]%string.

  (** [_write_boundaries], writerV4.py:130-180. *)
  Definition write_bounds4 (bs : dict string (mark F)) (fa : Z) : res bounds4 :=
    ms <- mapM mark4 bs ;;
    let last := fold_left (fun m '(_, hi, _, _) => Z.max m hi) ms 0 in
    let perio := flat_map (fun '(_, _, (key, _), p) => match p with Some l => [(key, l)] | None => [] end) ms in
    let rows := List.map (fun '(lo, _, kk, _) => (lo, kk)) ms ++ [(last + 1, ("internal-domain"%string, 6))] in
    let sorted := isort (fun a b => fst a <=? fst b) rows in
    labels <- mapM (fun r => label_of (fst (snd r))) sorted ;;
    if existsb (fun k => existsb (String.eqb k) reserved4) (List.map fst perio) then Err ValueError
    else
      offsets <- i4_list (List.map fst sorted ++ [fa]) ;;
      Ok (B4 labels offsets (List.map (fun r => snd (snd r)) sorted) perio).

  (** writerV4.py:81-128. *)
  Definition write_mesh4 (m : mesh F) (w : wstate) : res mesh4 :=
    f2e <- or_err AttributeError (w_f2e w) ;;
    cvofa <- i4_list (List.concat (m_rows f2e)) ;;
    b <- write_bounds4 (w_bocos w) (w_fa w) ;;
    Ok (M4 (w_no w) (w_fa w) (w_cv w) (List.concat (w_coords w))
           (option_map (fun c => List.map (fun '(t, ed) => (t, ed_e2n ed)) (ec_dict c)) (me_cell2node m))
           cvofa (i4_array (w_nno w)) (i4_array (w_noofa w)) (Some b)).

  (** [x in var]. *)
  Fixpoint contains (x s : string) : bool :=
    String.prefix x s || match s with EmptyString => false | String _ s' => contains x s' end.
  Definition ends_with (x s : string) : bool :=
    (Nat.leb (String.length x) (String.length s)) && String.eqb (substring (String.length s - String.length x) (String.length x) s) x.
  Definition is_stat (name : string) : bool := existsb (fun x => contains x name) ["_AVG"; "_RMS"; "_REY"]%string.
  Definition conserved : list string := ["RHO"; "RHOU"; "RHOE"]%string.

  (** Datasets created one after the other under the lower-case names. *)
  Definition put_vars (vars : dict string array) (d : dict string (list Z)) : res (dict string (list Z)) :=
    foldM (fun d '(name, a) =>
      if dmem String.eqb (lower name) d then Err ValueError else Ok (d ++ [(lower name, doubles i2d a)])) d vars.

  (** writerV4.py:205-255. *)
  Definition write_sol4 (params : dict string sval) (w : wstate) : res sol4 :=
    step <- attr_of (param params "step" (SNum (NInt 0))) ;;
    time <- attr_of (param params "time" (SNum (NInt 0))) ;;
    let cells := fd_items (w_cells w) in
    vars <- (if forallb (fun x => dmem String.eqb x cells) conserved
             then a <- mapM (fun x => a <- dget_err String.eqb x cells ;; Ok (x, a)) conserved ;; put_vars a []
             else Ok []) ;;
    let stats := filter (fun '(name, _) => is_stat name) cells in
    st <- (match stats with
           | [] => Ok None
           | _ =>
               weights <- mapM (fun '(name, v) => x <- attr_of v ;; Ok (name, x)) (filter (fun '(name, _) => ends_with "_wgt" name) params) ;;
               d <- put_vars stats [] ;;
               Ok (Some (weights, d))
           end) ;;
    Ok (S4 [("step"%string, step); ("time"%string, time)] vars st).

  (** [writer(mesh, endian).write_data(mesh_filename, solution_filename)], with the mesh it leaves. *)
  Definition write4 (tbl : sidetable) (enum : list Z -> list Z) (host : order) (endian : string) (solution : bool) (fm : fmesh)
    : res (mesh4 * option sol4) * fmesh :=
    match order_of host endian with
    | Err e => (Err e, fm)
    | Ok _ =>
        let '(r, m) := prepare_mesh tbl enum (fm_mesh fm) in
        let fm' := FM m (fm_cells fm) (fm_nodes fm) (fm_params fm) (fm_part fm) in
        (_ <- r ;; w <- writer_state fm' ;;
         mf <- write_mesh4 m w ;;
         if solution then sf <- write_sol4 (fm_params fm') w ;; Ok (mf, Some sf) else Ok (mf, None), fm')
    end.
End Writer.

(** ** The reader *)
Record rstate4 : Type := R4 {
  r4_no : Z; r4_fa : Z; r4_cv : Z; r4_noofa : Z; r4_csr : csr; r4_cvofa : list (list Z); r4_bocos : list (mark F);
  r4_coords : list (list Z); r4_sim : dict string sval; r4_cells : dataset }.

(** Face to node connectivity, readerV4.py:163-181. *)
Definition read_noofa4 (f : mesh4) : res csr :=
  let nno := m4_noofa_i f in
  let index := 0 :: np_cumsum nno in
  before_last <- py_get index (-2) ;;
  last <- py_get nno (-1) ;;
  _ <- assertb (before_last =? zsum nno - last) ;;
  let z := Csr index (m4_noofa_v f) in
  _ <- csr_check z ;;
  Ok z.

(** [reshape((n, k))]. *)
Definition reshape (n : Z) (k : nat) (l : list Z) : res (list (list Z)) :=
  if zlen l =? n * Z.of_nat k then Ok (rows_of k l) else Err ValueError.

(** readerV4.py:189-200. *)
Definition read_cvofa4 (f : mesh4) : res (list (list Z)) :=
  rows <- reshape (m4_fa f) 2 (m4_cvofa f) ;;
  mx <- py_max (m4_cvofa f) ;;
  _ <- assertb (mx <? m4_cv f) ;;
  _ <- assertb (mx =? m4_cv f - 1) ;;
  Ok rows.

(** One zone, readerV4.py:224-246. *)
Definition read_zone4 (z : csr) (perio : dict string (list Z)) (x : string * Z * Z * Z) : res (mark F) :=
  let '(label, kind, lo, hi) := x in
  t <- dget_err Z.eqb kind zonetypes ;;
  _ <- py_get (z_index z) lo ;;
  Ok (Mark F label (Some (if String.eqb t "internal" then Gintface else Gbdface)) (Some t) (Some (ILrange lo hi))
           (match dget String.eqb label perio with Some l => Some (Some l) | None => None end)).
(** readerV4.py:217-248. *)
Fixpoint zip4 (ls : list string) (ks los his : list Z) : list (string * Z * Z * Z) :=
  match ls, ks, los, his with
  | l :: ls, k :: ks, lo :: los, hi :: his => (l, k, lo, hi) :: zip4 ls ks los his
  | _, _, _, _ => []
  end.
Definition read_bounds4 (z : csr) (b : option bounds4) : res (list (mark F)) :=
  match b with
  | None => Ok []
  | Some b => mapM (read_zone4 z (b4_perio b))
                   (zip4 (b4_labels b) (b4_kinds b) (removelast (b4_offsets b)) (List.map (fun o => o - 1) (tl (b4_offsets b))))
  end.

(** One variable, readerV4.py:282-306; statistics of no value raise ValueError. *)
Definition read_var4 (cv : Z) (vars : dict string (list Z)) (d : dataset) (var : string) : res dataset :=
  vals <- dget_err String.eqb var vars ;;
  let nb := zlen vals / cv in
  a <- (if 1 <? nb then if zlen vals mod nb =? 0 then Ok (Arr [zlen vals / nb; nb] false vals) else Err ValueError
        else _ <- stats vals ;; Ok (Arr [zlen vals] false vals)) ;;
  Ok (add_data (upper var) a None d).
Definition sorted_names {V} (d : dict string V) : list string := isort String.leb (List.map fst d).
Definition read_vars4 (cv : Z) (f : sol4) (d : dataset) : res dataset :=
  d <- foldM (read_var4 cv (s4_vars f)) d ["rho"; "rhou"; "rhoe"]%string ;;
  match s4_stats f with
  | None => Ok d
  | Some (_, vars) => foldM (read_var4 cv vars) d (sorted_names vars)
  end.
(** readerV4.py:268-280. *)
Definition read_info4 (f : sol4) : dict string sval :=
  let put (d : dict string sval) (l : dict string num) := fold_left (fun d '(k, x) => dset String.eqb k (SNum x) d) l d in
  let d := put [("step"%string, SNum (NInt 0)); ("time"%string, SNum (NInt 0))] (s4_attrs f) in
  match s4_stats f with None => d | Some (weights, _) => put d weights end.

(** [read_data], readerV4.py:99-123 and 144-266. *)
Definition read_data4 (f : mesh4) (sol : option sol4) : res rstate4 :=
  z <- read_noofa4 f ;;
  rows <- read_cvofa4 f ;;
  bocos <- read_bounds4 z (m4_bounds f) ;;
  coords <- reshape (m4_no f) 3 (m4_coords f) ;;
  cells <- new_dataset "cellaverage" 1 "instant" ;;
  cells <- (match sol with None => Ok cells | Some s => read_vars4 (m4_cv f) s cells end) ;;
  Ok (R4 (m4_no f) (m4_fa f) (m4_cv f) (zsum (m4_noofa_i f)) z rows bocos coords
         (match sol with None => [("step"%string, SNum (NInt 0)); ("time"%string, SNum (NInt 0))] | Some s => read_info4 s end) cells).

Definition params4 (r : rstate4) : dict string sval :=
  let n v := SNum (NInt v) in
  [("no_count", n (r4_no r)); ("fa_count", n (r4_fa r)); ("cv_count", n (r4_cv r)); ("noofa_count", n (r4_noofa r));
   ("nboco", n (zlen (r4_bocos r)));
   ("nfa_b", n (count_if (fun c => Z.eqb c (-1)) (second_cells (r4_cvofa r))));
   ("nfa_bp", n (count_if (fun c => Z.ltb c (-1)) (second_cells (r4_cvofa r))))]%string.

(** [export_mesh], readerV4.py:125-142; the entry 'partition' is [None]. *)
Definition export_mesh4 (r : rstate4) : res fmesh :=
  let m := new_mesh (r4_cv r) (r4_no r) in
  let '(e, m) := set_coords_nd m 3 (r4_coords r) in _ <- e ;;
  f2c <- ii_set (Mat (Some 2%nat) (r4_cvofa r)) ;;
  f2n <- ec_import_csr ec_empty (r4_csr r) ;;
  let '(e, m) := add_faces m "mixed" f2n (Some f2c) in _ <- e ;;
  let m := fold_left add_boco (r4_bocos r) m in
  nodes <- new_dataset "nodal" 1 "instant" ;;
  Ok (FM m (FSet (r4_cells r)) (FSet nodes) (dupdate (params4 r) (r4_sim r)) (Some None)).

(** [reader(mesh_filename, solution_filename).read_data()] then [export_mesh()]. *)
Definition read4 (f : mesh4) (sol : option sol4) : res fmesh := r <- read_data4 f sol ;; export_mesh4 r.
