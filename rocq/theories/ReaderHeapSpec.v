(** * Which meshes share: notions that only look at the text of a program. *)
From Verif Require Export ReaderHeap.
#[local] Notation F := Z (only parsing).

(** Calls of [read_data] on reader [r]: of the versions 2 and 3, and all. *)
Definition renews (r : var) (k : cmd) : bool := match k with KRead r' _ _ => Nat.eqb r' r | _ => false end.
Definition reads (r : var) (k : cmd) : bool := match k with KRead r' _ _ | KRead4 r' _ _ => Nat.eqb r' r | _ => false end.
(** The objects that the meshes of a reader get are those of its last call (versions 2 and 3), or those of
    the reader itself (version 4); marks are always those of the last call. *)
Definition home_of (p : list cmd) (r : var) : var * nat := (r, List.length (filter (renews r) p)).
Definition call_of (p : list cmd) (r : var) : var * nat := (r, List.length (filter (reads r) p)).
(** For the mesh that command number [i] exported. *)
Definition source (p : list cmd) (i : var) : option (var * nat) :=
  match nth_error p i with Some (KExport r) => Some (home_of (firstn i p) r) | _ => None end.
Definition batch (p : list cmd) (i : var) : option (var * nat) :=
  match nth_error p i with Some (KExport r) => Some (call_of (firstn i p) r) | _ => None end.

(** Commands that give mesh [i] a part of its own. *)
Definition own_params (i : var) (k : cmd) : Prop := exists p, k = KParams i p.
Definition own_cells (i : var) (k : cmd) : Prop := exists d, k = KCells i d.
Definition own_mark (i : var) (name : string) (k : cmd) : Prop := (exists b, k = KAdd i b /\ mk_name b = name) \/ k = KRemove i name.
Definition never (what : cmd -> Prop) (p : list cmd) : Prop := forall k, In k p -> ~ what k.

(** A mesh with another part. *)
Definition with_params (fm : fmesh) (p : dict string sval) : fmesh := FM (fm_mesh fm) (fm_cells fm) (fm_nodes fm) p (fm_part fm).
Definition with_cells (fm : fmesh) (d : dataset) : fmesh := FM (fm_mesh fm) (FSet d) (fm_nodes fm) (fm_params fm) (fm_part fm).
Definition with_mesh (fm : fmesh) (m : mesh F) : fmesh := FM m (fm_cells fm) (fm_nodes fm) (fm_params fm) (fm_part fm).
Definition with_marks (fm : fmesh) (bs : dict string (mark F)) : fmesh := with_mesh fm (with_bocos (fm_mesh fm) bs).
(** A mark with all attributes of [b] but the name. *)
Definition renamed (name : string) (b : mark F) : mark F := Mark F name (mk_geodim b) (mk_type b) (mk_index b) (mk_perio b).

(** Meshes [j] and [i] (maybe the same) with the same parameters, data set of cells or mark. *)
Definition shares (p : list cmd) (from : list cmd -> var -> option (var * nat)) (own : var -> cmd -> Prop) (j i : var) : Prop :=
  j = i \/ (from p j <> None /\ from p j = from p i /\ never (own j) p /\ never (own i) p).
Definition shares_params p := shares p source own_params.
Definition shares_cells p := shares p source own_cells.
Definition shares_mark p (name : string) := shares p batch (fun i => own_mark i name).

(** The commands that change what mesh [i] shows. *)
Definition alters (p : list cmd) (k : cmd) (i : var) : Prop :=
  match k with
  | KUpdate j _ => shares_params p j i
  | KData j _ _ => shares_cells p j i
  | KMark j name _ => shares_mark p name j i
  | KParams j _ | KCells j _ | KAdd j _ | KRemove j _ | KCoords j _ => j = i
  | KExport r => source p i = Some (home_of p r) /\ never (own_params i) p
  | KRead4 r _ _ => source p i = Some (home_of p r) /\ (never (own_params i) p \/ never (own_cells i) p)
  | KReader | KReader4 _ | KRead _ _ _ => False
  end.

(** The file last read by reader [r] of version 2 or 3, and the simulation state of a reader. *)
Definition last_read (p : list cmd) (r : var) (integrity : bool) (f : list Z) : Prop :=
  exists p1 p2, p = (p1 ++ KRead r integrity f :: p2)%list /\ never (fun k => reads r k = true) p2.
Definition last_read4 (p : list cmd) (r : var) (f : mesh4) : Prop :=
  exists p1 sol p2, p = (p1 ++ KRead4 r f sol :: p2)%list /\ never (fun k => reads r k = true) p2.
(** For version 4: step and time are 0, then every file read puts its attributes and its weights. *)
Definition numbers (l : dict string num) : dict string sval := List.map (fun '(k, x) => (k, SNum x)) l.
Definition puts (sl : sol4) (d : dict string sval) : dict string sval :=
  dupdate (dupdate d (numbers (s4_attrs sl))) (match s4_stats sl with Some (w, _) => numbers w | None => [] end).
Definition state4 (p : list cmd) (r : var) : dict string sval :=
  fold_left (fun d k => match k with KRead4 r' _ (Some sl) => if Nat.eqb r' r then puts sl d else d | _ => d end) p
    [("step"%string, SNum (NInt 0)); ("time"%string, SNum (NInt 0))].
Definition state_of (p : list cmd) (r : var) (sim : dict string sval) : Prop :=
  (exists b f rs, last_read p r b f /\ read_data b f = Ok rs /\ sim = r_sim rs) \/
  (nth_error p r = Some (KReader4 true) /\ sim = state4 p r) \/
  (nth_error p r = Some (KReader4 false) /\ sim = state4 [] r).
(** The geometry and the connectivities [export_mesh] makes from the last file: the mesh but its marks. *)
Definition geometry_of (p : list cmd) (r : var) (fm : fmesh) : Prop :=
  (exists b f, last_read p r b f /\ read_mesh b f = Ok fm) \/ (exists f, last_read4 p r f /\ read4 f None = Ok fm).

(** What reading again puts in the parameters [d]: the counts of the new file, and one more boundary for
    every zone on top of those counted before. *)
Definition recounted (f : mesh4) (rs : rstate4) (d d' : dict string sval) : Prop :=
  let is k v := dget String.eqb k d' = Some (SNum (NInt v)) in
  let count (c : Z -> Prop) (n : Z) := exists l, NoDup l /\ n = zlen l /\ forall k, In k l <-> exists row, nth_error (r4_cvofa rs) k = Some row /\ c (nth 1 row 0) in
  (is "no_count" (m4_no f) /\ is "fa_count" (m4_fa f) /\ is "cv_count" (m4_cv f) /\ is "noofa_count" (zsum (m4_noofa_i f)))%string /\
  (exists n, is "nfa_b"%string n /\ count (fun c => c = -1) n) /\ (exists n, is "nfa_bp"%string n /\ count (fun c => c < -1) n) /\
  (forall n, dget String.eqb "nboco"%string d = Some (SNum (NInt n)) -> is "nboco"%string (n + zlen (r4_bocos rs))) /\
  (forall k, ~ In k ["no_count"; "fa_count"; "cv_count"; "noofa_count"; "nfa_b"; "nfa_bp"; "nboco"]%string -> dget String.eqb k d' = dget String.eqb k d).
(** Variables of a solution file: the conserved ones and the statistics. *)
Definition variable (sl : sol4) (v : string) (vals : list Z) : Prop :=
  (In v ["rho"; "rhou"; "rhoe"]%string /\ dget String.eqb v (s4_vars sl) = Some vals) \/ (exists w vs, s4_stats sl = Some (w, vs) /\ dget String.eqb v vs = Some vals).
(** Data [c'] is [c] with the variables of the file; the variables the file does not have are still there. *)
Definition retaken (sl : sol4) (c c' : dataset) : Prop :=
  ds_xrep c' = ds_xrep c /\ ds_trep c' = ds_trep c /\ ds_ndof c' = ds_ndof c /\
  (forall v vals, variable sl v vals -> exists v' vals' a, variable sl v' vals' /\ upper v' = upper v /\ dget String.eqb (upper v) (ds_data c') = Some a /\ a_val a = vals') /\
  (forall name, (forall v vals, variable sl v vals -> upper v <> name) -> dget String.eqb name (ds_data c') = dget String.eqb name (ds_data c)).
