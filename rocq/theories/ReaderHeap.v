(** * Sharing: the meshes exported by IC3 readers (cfdtools/ic3/reader_legacy.py, readerV4.py and
    meshbase/_mesh.py) with references.

    [Ic3] and [Ic3V4] model reading a file into a mesh by values.  Here the parameters, the data sets and the marks
    are objects that live in a memory: [export_mesh] gives the mesh those of the reader itself, not copies.  Every
    command of a program makes one new variable (None for commands that return nothing); an exception ends the
    program.  Coordinates and connectivities are values, since no function of the package changes such an array in
    place.  Not modelled: the data set of faces (always empty), the dictionaries 'wgt' and 'partition' as objects
    (nothing in the package changes one), a second name for a mesh, and a variable used as something it is not
    (NameError). *)
From Verif Require Export Py Mesh Data Ic3 Ic3V4.
#[local] Notation F := Z (only parsing).

(** ** Programs *)
Definition var : Type := nat.
Bind Scope nat_scope with var.
Inductive cmd : Type :=
| KReader                                             (* ic3.reader(...): versions 2 and 3 *)
| KReader4 (named : bool)                             (* readerV4.reader(...), with a solution file or not *)
| KRead (r : var) (integrity : bool) (f : list Z)     (* r.read_data(), when the file holds f *)
| KRead4 (r : var) (f : mesh4) (sol : option sol4)    (* r.read_data(), when the files hold f and sol *)
| KExport (r : var)                                   (* r.export_mesh() *)
| KUpdate (i : var) (p : dict string sval)            (* i.update_params(p) *)
| KParams (i : var) (p : dict string sval)            (* i.set_params(p), a dictionary of its own *)
| KData (i : var) (name : string) (a : array)         (* i._celldata.add_data(name, a) *)
| KCells (i : var) (d : dataset)                      (* i.set_celldata(d), a data set of its own *)
| KMark (i : var) (name : string) (b : mark F)        (* k = i.seekmark(name); k.geodim, k.type, k.index, ... = those of b *)
| KAdd (i : var) (b : mark F)                         (* i.add_boco(b), a mark of its own *)
| KRemove (i : var) (name : string)                   (* i.remove_boco(name) *)
| KCoords (i : var) (fmorph : list F -> list F -> list F -> list F * list F * list F).   (* i.morph(f), i.scale(s) *)

(** ** Memory *)
Definition loc : Type := nat.
Bind Scope nat_scope with loc.
Inductive obj : Type := OPar (d : dict string sval) | OSet (d : dataset) | OMk (b : mark F).
(** The objects a reader holds: mesh['params'], [celldata], [nodedata] and mesh['bocos']. *)
Record home : Type := Home { ho_params : loc; ho_cells : loc; ho_nodes : loc; ho_marks : list (string * loc) }.
(** A reader, with the values read.  The one of version 4 makes its objects when it is made,
    readerV4.py:46-65, the others whenever a file is read, reader_legacy.py:118-130, 172-187. *)
Inductive reader : Type :=
| R23 (st : option (rstate * home))
| RV4 (named : bool) (st : option rstate4) (sim : dict string sval) (h : home).
(** A mesh: counts, connectivities and coordinates (the marks in [hm_base] are not used), and references. *)
Record hmesh : Type := HM {
  hm_base : mesh F; hm_marks : dict string loc; hm_params : loc; hm_cells : loc; hm_nodes : loc;
  hm_part : option (option (Z * option (list Z))) }.
Inductive hval : Type := VNone | VReader (r : reader) | VMesh (m : hmesh).
Record mem : Type := Mem { objs : list obj; vars : list hval }.
Definition mem0 : mem := Mem [] [].

Definition find_reader (s : mem) (r : var) : res reader := match nth_error (vars s) r with Some (VReader x) => Ok x | _ => Err NameError end.
Definition find_mesh (s : mem) (i : var) : res hmesh := match nth_error (vars s) i with Some (VMesh m) => Ok m | _ => Err NameError end.
Definition get_params (os : list obj) (l : loc) : res (dict string sval) := match nth_error os l with Some (OPar d) => Ok d | _ => Err NameError end.
Definition get_set (os : list obj) (l : loc) : res dataset := match nth_error os l with Some (OSet d) => Ok d | _ => Err NameError end.
Definition get_mark (os : list obj) (l : loc) : res (mark F) := match nth_error os l with Some (OMk b) => Ok b | _ => Err NameError end.

(** The marks of a reader, put one after the other in the memory, and as the entries of [_bocos] of a mesh
    ([add_boco], _mesh.py:195-196). *)
Definition mark_locs (n : nat) (bs : list (mark F)) : list (string * loc) := combine (List.map mk_name bs) (seq n (List.length bs)).
Definition as_bocos (ms : list (string * loc)) : dict string loc := fold_left (fun d '(k, l) => dset String.eqb k l d) ms [].

(** The dictionary of parameters when the reader of version 4 is made, readerV4.py:47-54. *)
Definition params0 : dict string sval :=
  let n v := SNum (NInt v) in [("no_count", n 0); ("fa_count", n 0); ("cv_count", n 0); ("noofa_count", n 0); ("nboco", n 0)]%string.
(** What [_read_connectivity] changes in it, readerV4.py:149-153, 166, 204-213, 226: [nboco] is increased
    by one for each zone.  Simplification: adding to something that is not an integer is refused. *)
Definition add_nboco (d : dict string sval) (k : Z) : res (dict string sval) :=
  if k =? 0 then Ok d
  else v <- dget_err String.eqb "nboco" d ;;
       match v with SNum (NInt n) => Ok (dset String.eqb "nboco" (SNum (NInt (n + k))) d) | _ => Err TypeError end.
Definition reparams (r : rstate4) (d : dict string sval) : res (dict string sval) :=
  let put k v d := dset String.eqb k (SNum (NInt v)) d in
  let d := put "noofa_count" (r4_noofa r) (put "cv_count" (r4_cv r) (put "fa_count" (r4_fa r) (put "no_count" (r4_no r) d))) in
  let d := put "nfa_bp" (count_if (fun c => c <? -1) (second_cells (r4_cvofa r)))
             (put "nfa_b" (count_if (fun c => c =? -1) (second_cells (r4_cvofa r))) d) in
  add_nboco d (zlen (r4_bocos r)).
(** [_read_informative_values], readerV4.py:268-280, on the state that is there. *)
Definition restate (f : sol4) (sim : dict string sval) : dict string sval :=
  let put (d : dict string sval) (l : dict string num) := fold_left (fun d '(k, x) => dset String.eqb k (SNum x) d) l d in
  let d := put sim (s4_attrs f) in match s4_stats f with None => d | Some (weights, _) => put d weights end.

(** ** Commands *)

(** [export_mesh], reader_legacy.py:138-162 and readerV4.py:125-142: the mesh [fm] by values, the
    parameters updated with the state, and the objects of the reader. *)
Definition export_as (s : mem) (fm : fmesh) (sim : dict string sval) (h : home) : res mem :=
  d <- get_params (objs s) (ho_params h) ;;
  Ok (Mem (upd_nat (objs s) (ho_params h) (OPar (dupdate d sim)))
          (vars s ++ [VMesh (HM (fm_mesh fm) (as_bocos (ho_marks h)) (ho_params h) (ho_cells h) (ho_nodes h) (fm_part fm))])).
(** A command that changes mesh [i] and the objects. *)
Definition on_mesh (s : mem) (i : var) (g : hmesh -> res (hmesh * list obj)) : res mem :=
  m <- find_mesh s i ;; '(m', os) <- g m ;; Ok (Mem os (upd_nat (vars s) i (VMesh m') ++ [VNone])).

Definition exec (s : mem) (k : cmd) : res mem :=
  let os := objs s in
  match k with
  | KReader => Ok (Mem os (vars s ++ [VReader (R23 None)]))
  | KReader4 named =>
      cells <- new_dataset "cellaverage" 1 "instant" ;;
      nodes <- new_dataset "nodal" 1 "instant" ;;
      let n := List.length os in
      Ok (Mem (os ++ [OPar params0; OSet cells; OSet nodes])
              (vars s ++ [VReader (RV4 named None [("step"%string, SNum (NInt 0)); ("time"%string, SNum (NInt 0))] (Home n (S n) (S (S n)) []))]))
  | KRead r integrity f =>
      x <- find_reader s r ;;
      match x with
      | RV4 _ _ _ _ => Err NameError
      | R23 _ =>
          rs <- read_data integrity f ;;
          let n := List.length os in
          let h := Home n (S n) (S (S n)) (mark_locs (S (S (S n))) (r_bocos rs)) in
          Ok (Mem (os ++ [OPar (params_of rs); OSet (r_cells rs); OSet (r_nodes rs)] ++ List.map OMk (r_bocos rs))
                  (upd_nat (vars s) r (VReader (R23 (Some (rs, h)))) ++ [VNone]))
      end
  | KRead4 r f sol =>
      x <- find_reader s r ;;
      match x with
      | R23 _ => Err NameError
      | RV4 named _ sim h =>
          rs <- read_data4 f None ;;
          d <- get_params os (ho_params h) ;;
          d' <- reparams rs d ;;
          c <- get_set os (ho_cells h) ;;
          '(c', sim') <- (if named then match sol with
                                        | None => Err FileNotFoundError
                                        | Some sl => c' <- read_vars4 (m4_cv f) sl c ;; Ok (c', restate sl sim)
                                        end
                          else Ok (c, sim)) ;;
          Ok (Mem (upd_nat (upd_nat os (ho_params h) (OPar d')) (ho_cells h) (OSet c') ++ List.map OMk (r4_bocos rs))
                  (upd_nat (vars s) r (VReader (RV4 named (Some rs) sim' (Home (ho_params h) (ho_cells h) (ho_nodes h) (mark_locs (List.length os) (r4_bocos rs))))) ++ [VNone]))
      end
  | KExport r =>
      x <- find_reader s r ;;
      match x with
      | R23 (Some (rs, h)) => fm <- export_mesh rs ;; export_as s fm (r_sim rs) h
      | RV4 _ (Some rs) sim h => fm <- export_mesh4 rs ;; export_as s fm sim h
      | _ => Err AttributeError
      end
  | KUpdate i p => on_mesh s i (fun m => d <- get_params os (hm_params m) ;; Ok (m, upd_nat os (hm_params m) (OPar (dupdate d p))))
  | KParams i p =>
      on_mesh s i (fun m => Ok (HM (hm_base m) (hm_marks m) (List.length os) (hm_cells m) (hm_nodes m) (hm_part m), os ++ [OPar p]))
  | KData i name a => on_mesh s i (fun m => d <- get_set os (hm_cells m) ;; Ok (m, upd_nat os (hm_cells m) (OSet (add_data name a None d))))
  | KCells i d =>
      on_mesh s i (fun m => Ok (HM (hm_base m) (hm_marks m) (hm_params m) (List.length os) (hm_nodes m) (hm_part m), os ++ [OSet d]))
  | KMark i name b =>
      (* [seekmark], _mesh.py:247-250; the name of a mark cannot be changed *)
      on_mesh s i (fun m => l <- dget_err String.eqb name (hm_marks m) ;; old <- get_mark os l ;;
        Ok (m, upd_nat os l (OMk (Mark F (mk_name old) (mk_geodim b) (mk_type b) (mk_index b) (mk_perio b)))))
  | KAdd i b =>
      on_mesh s i (fun m => Ok (HM (hm_base m) (dset String.eqb (mk_name b) (List.length os) (hm_marks m)) (hm_params m) (hm_cells m) (hm_nodes m) (hm_part m), os ++ [OMk b]))
  | KRemove i name =>
      on_mesh s i (fun m => if dmem String.eqb name (hm_marks m)
        then Ok (HM (hm_base m) (dpop String.eqb name (hm_marks m)) (hm_params m) (hm_cells m) (hm_nodes m) (hm_part m), os)
        else Err KeyError)
  | KCoords i g =>
      on_mesh s i (fun m => let '(r, b) := morph g (hm_base m) in _ <- r ;; Ok (HM b (hm_marks m) (hm_params m) (hm_cells m) (hm_nodes m) (hm_part m), os))
  end.
Fixpoint run_from (s : mem) (p : list cmd) : res mem :=
  match p with [] => Ok s | k :: p' => s' <- exec s k ;; run_from s' p' end.
Definition run (p : list cmd) : res mem := run_from mem0 p.

(** ** What a mesh is: the values its references lead to. *)
Definition mesh_now (os : list obj) (m : hmesh) : res fmesh :=
  p <- get_params os (hm_params m) ;;
  c <- get_set os (hm_cells m) ;;
  n <- get_set os (hm_nodes m) ;;
  bs <- mapM (fun '(k, l) => b <- get_mark os l ;; Ok (k, b)) (hm_marks m) ;;
  Ok (FM (with_bocos (hm_base m) bs) (FSet c) (FSet n) p (hm_part m)).
Definition seen (s : mem) (i : var) : res fmesh := m <- find_mesh s i ;; mesh_now (objs s) m.
