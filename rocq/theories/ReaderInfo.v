(** * What the IC3 readers print of themselves: [printinfo] and [__str__] of
    ic3/reader_legacy.py:74-97 and ic3/readerV4.py:71-95, with [_printreadable], api.py:51-60.

    Lines are kept apart: texts, lists of keys, and values with their label.  The text of a number or
    of an array is not modelled, only which number or array it is.  The dictionaries [variables], left
    out of [Ic3.read_data], are read here. *)
From Coq Require Import Ascii.
From Verif Require Import Py IndexList Conn Mesh Data Ic3Bytes Ic3 Ic3V4.
Local Open Scope string_scope.

(** Values found in the attributes of a reader: numbers, arrays, the 0-d array [np.asarray(None)],
    objects of a class that is not shown, and dictionaries. *)
Inductive pv : Type :=
  | PNum (n : num) | PArr (shape vals : list Z) | PArr0 | PObj (cls : string) | PDict (d : list (string * pv)).

(** How a value is shown. *)
Inductive shown : Type :=
  | Snum (n : num)                                            (* the number *)
  | Sarr (shape : list Z) (vals : option (list Z))            (* the shape, and the values of small arrays *)
  | Sarr0                                                     (* 'ndarray () None' *)
  | Stype (cls : string).                                     (* the type *)
Inductive line : Type :=
  | Ltext (s : string)                        (* printed *)
  | Lkeys (title : string) (keys : list string)   (* title, then the list of the keys *)
  | Llog (s : string)                         (* logged *)
  | Lval (label : string) (v : shown).

Definition size_of_shape (shape : list Z) : Z := fold_left Z.mul shape 1%Z.

(** [_printreadable], api.py:51-60. *)
Definition printreadable (label : string) (v : pv) : line :=
  Lval label (match v with
              | PNum n => Snum n
              | PArr shape vals => if (size_of_shape shape <=? 10)%Z then Sarr shape (Some vals) else Sarr shape None
              | PArr0 => Sarr0
              | PObj c => Stype ("<class '" ++ c ++ "'>")
              | PDict _ => Stype "<class 'dict'>"
              end).

(** The loop over [self.mesh], reader_legacy.py:84-93 and readerV4.py:82-91. *)
Definition mesh_lines (d : dict string pv) : list line :=
  flat_map (fun '(key, item) =>
    match item with
    | PDict d2 =>
        flat_map (fun '(key2, item2) =>
          match item2 with
          | PDict d3 => List.map (fun '(key3, item3) => printreadable ("  mesh." ++ key ++ "." ++ key2 ++ "." ++ key3) item3) d3
          | _ => [printreadable ("  mesh." ++ key ++ "." ++ key2) item2]
          end) d2
    | _ => [printreadable ("  mesh." ++ key) item]
    end) d.
(** The loop over [self.variables], reader_legacy.py:95-97 and readerV4.py:93-95. *)
Definition variable_lines (d : dict string (dict string pv)) : list line :=
  flat_map (fun '(key, item) => List.map (fun '(key2, value) => printreadable ("variables." ++ key ++ "." ++ key2) value) item) d.

Definition pv_of (v : sval) : pv :=
  match v with SNum n => PNum n | SWgt w => PDict (List.map (fun '(k, x) => (k, PNum x)) w) end.
Definition pv_params (d : dict string sval) : pv := PDict (List.map (fun '(k, v) => (k, pv_of v)) d).
Definition csr_class : string := "cfdtools.meshbase._connectivity.compressed_listofindex".
Definition int_ (n : Z) : pv := PNum (NInt n).

(** ** The reader of versions 1 to 3 *)

(** [variables["nodes"]] and [variables["faces"]]: shapes and values. *)
Definition seen : Type := (dict string (list Z * list Z) * dict string (list Z * list Z))%type.
Definition put_node (name : string) (a : list Z * list Z) (s : seen) : seen := (dset String.eqb name a (fst s), snd s).
Definition put_face (name : string) (a : list Z * list Z) (s : seen) : seen := (fst s, dset String.eqb name a (snd s)).

(** Scalars, reader_legacy.py:476-510: what goes to [variables], and the position after the values. *)
Definition scalar_seen (version no fa cv : Z) (f : list Z) (o : order) (s : seen) (h : header) (p : Z) : res (seen * Z) :=
  let get n := '(x, p) <- binary_read f o (code_of (h_id h)) n p ;; l <- or_err TypeError x ;; Ok (l, p) in
  if (idata h 0 =? no)%Z then '(l, p) <- get no ;; Ok (put_node (h_name h) ([zlen l], l) s, p)
  else if (idata h 0 =? fa)%Z then '(l, p) <- get fa ;; Ok (put_face (h_name h) ([zlen l], l) s, p)
  else if (idata h 0 =? cv)%Z then
    ndof <- ndof_of version (idata h 1) ;; '(_, p) <- get (ndof * cv)%Z ;; Ok (s, p)
  else Err RuntimeError.
(** Vectors, reader_legacy.py:529-563. *)
Definition vector_seen (version no fa cv : Z) (f : list Z) (o : order) (s : seen) (h : header) (p : Z) : res (seen * Z) :=
  let get n := '(x, p) <- binary_read f o Cd (n * 3)%Z p ;; l <- or_err ValueError x ;; Ok (l, p) in
  if (idata h 0 =? no)%Z then '(l, p) <- get no ;; Ok (put_node (h_name h) ([no; 3%Z], l) s, p)
  else if (idata h 0 =? fa)%Z then '(l, p) <- get fa ;; Ok (put_face (h_name h) ([fa; 3%Z], l) s, p)
  else if (idata h 0 =? cv)%Z then
    ndof <- ndof_of version (idata h 1) ;; '(_, p) <- get (ndof * cv)%Z ;; Ok (s, p)
  else Err RuntimeError.
(** [variables] once the file is read; tensors do not change it. *)
Definition read_seen (version no fa cv : Z) (f : list Z) (o : order) : res seen :=
  s <- scan_file f o scalar_ids (scalar_seen version no fa cv f o) ([], []) ;;
  scan_file f o vector_ids (vector_seen version no fa cv f o) s.

(** [self.mesh] after [read_data], reader_legacy.py:174-186, 275, 292, 300-312, 321-345, 355-374.  After
    [export_mesh], the dictionary of the parameters, shared with the mesh, has the simulation state too
    (:158-159). *)
Definition mesh_dict (exported : bool) (r : rstate) : dict string pv :=
  [("params", pv_params (if exported then dupdate (params_of r) (r_sim r) else params_of r));
   ("connectivity", PDict [("noofa", PObj csr_class);
                           ("cvofa", PDict [("cvofa", PArr [r_fa r; 2%Z] (List.concat (r_cvofa r)))]);
                           ("nkeys", int_ 0)]);
   ("coordinates", PArr [r_no r; 3%Z] (List.concat (r_coords r)));
   ("bocos", PObj "list");
   ("partition", PDict [("npart", int_ (r_npart r));
                        ("icvpart", match r_icvpart r with Some l => PArr [zlen l] l | None => PArr0 end)])].
Definition arrays (d : dict string (list Z * list Z)) : dict string pv := List.map (fun '(k, (shape, vals)) => (k, PArr shape vals)) d.

(** A reader: a file name, and what has been done with it. *)
Inductive stage : Type := Created | Loaded | Exported.
(** [printinfo], reader_legacy.py:81-97.  A reader that has not read its file has no [simulation_state]:
    [__str__], :74-79, raises AttributeError before anything is printed. *)
Definition printinfo_legacy (filename : string) (st : stage) (integrity : bool) (f : list Z) : res (list line) :=
  match st with
  | Created => Err AttributeError
  | _ =>
      r <- read_data integrity f ;;
      '(ns, fs) <- read_seen (r_version r) (r_no r) (r_fa r) (r_cv r) f (r_order r) ;;
      let variables := [("nodes", arrays ns); ("cells", []); ("faces", arrays fs)] in
      let mesh := mesh_dict (match st with Exported => true | _ => false end) r in
      Ok ([Ltext ("    filename: " ++ filename); Lkeys "   simulation: " (dkeys (r_sim r));
           Lkeys "    mesh keys: " (dkeys mesh); Lkeys "variable keys: " (dkeys variables)]
          ++ [Llog "- mesh properties"] ++ mesh_lines mesh
          ++ [Llog "- variable properties"] ++ variable_lines variables)%list
  end.

(** ** The reader of version 4 *)

(** ['%22s' % s]. *)
Fixpoint blanks (n : nat) : string := match n with O => "" | S k => String " "%char (blanks k) end.
Definition right22 (s : string) : string := blanks (22 - String.length s) ++ s.

(** [self.mesh], set by [__init__], readerV4.py:46-58. *)
Definition mesh_dict0 : dict string pv :=
  [("params", PDict [("no_count", int_ 0); ("fa_count", int_ 0); ("cv_count", int_ 0); ("noofa_count", int_ 0); ("nboco", int_ 0)]);
   ("connectivity", PDict [("noofa", PDict []); ("cvofa", PDict []); ("nkeys", int_ 0)]);
   ("coordinates", PObj "NoneType");
   ("bocos", PDict [("nfa_b", int_ 0); ("nfa_bp", int_ 0)]);
   ("partition", PObj "NoneType")].
(** After [read_data], readerV4.py:144-266; after [export_mesh] the parameters are shared (:138-139). *)
Definition mesh_dict4 (exported : bool) (r : rstate4) : dict string pv :=
  [("params", pv_params (if exported then dupdate (params4 r) (r4_sim r) else params4 r));
   ("connectivity", PDict [("noofa", PObj csr_class);
                           ("cvofa", PDict [("cvofa", PArr [r4_fa r; 2%Z] (List.concat (r4_cvofa r)))]);
                           ("nkeys", int_ 0)]);
   ("coordinates", PArr [r4_no r; 3%Z] (List.concat (r4_coords r)));
   ("bocos", PObj "list");
   ("partition", PObj "NoneType")].

(** [printinfo], readerV4.py:79-95, and [__str__], :71-77; [variables] keeps its initial value (:62). *)
Definition printinfo4 (mesh_filename : string) (solution_filename : option string) (st : stage) (f : mesh4) (sol : option sol4)
  : res (list line) :=
  '(mesh, sim) <- (match st with
                   | Created => Ok (mesh_dict0, ["step"; "time"])
                   | _ => r <- read_data4 f sol ;;
                          Ok (mesh_dict4 (match st with Exported => true | _ => false end) r, dkeys (r4_sim r))
                   end) ;;
  let variables : dict string (dict string pv) := [("nodes", []); ("cells", []); ("faces", [])] in
  Ok ([Ltext (right22 "mesh filename: " ++ mesh_filename);
       Ltext (right22 "solution filename: " ++ match solution_filename with Some s => s | None => "None" end);
       Lkeys (right22 "simulation: ") sim; Lkeys (right22 "mesh keys: ") (dkeys mesh);
       Lkeys (right22 "variable keys: ") (dkeys variables)]
      ++ [Llog "- mesh properties"] ++ mesh_lines mesh
      ++ [Llog "- variable properties"] ++ variable_lines variables)%list.
