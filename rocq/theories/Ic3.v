(** * Model of the IC3 restart files: section headers (cfdtools/ic3/_ic3.py), the legacy reader
    (cfdtools/ic3/reader_legacy.py) and the writers V2 and V3 (cfdtools/ic3/writerV2.py, writerV3.py).

    Not modelled: log output; the branches under
    ["nkeys"] > 1 (reader_legacy.py:500-504, 553-557, 586-590), since ["nkeys"] is always 0; entries
    of [_params] other than those the writers use keep their value but are opaque.
    What a writer leaves in the file when it raises is in Ic3Fail.v.
    Names are strings of code points below 256. *)
From Coq Require Import Ascii.
From Verif Require Export Py IndexList Conn Mesh Ic3Bytes Data.
#[local] Notation F := Z (only parsing).

(** ** Codes, _ic3.py:11-44 *)
Definition MAGIC : Z := 123581321.
Definition COUNTS : Z := 10.    Definition I0 : Z := 11.       Definition D0 : Z := 12.
Definition FA_CHECK : Z := 20.  Definition NOOFA : Z := 21.    Definition CVOFA : Z := 22.
Definition FA_ZONE : Z := 23.   Definition FA_D1 : Z := 24.    Definition FA_D3 : Z := 25.
Definition FA_II1 : Z := 26.    Definition NO_CHECK : Z := 30. Definition X_NO : Z := 31.
Definition NO_D1 : Z := 32.     Definition NO_D3 : Z := 33.    Definition NO_II1 : Z := 34.
Definition CV_CHECK : Z := 40.  Definition CV_PART : Z := 41.  Definition CV_D1 : Z := 42.
Definition CV_D3 : Z := 43.     Definition CV_D33 : Z := 44.   Definition CV_II1 : Z := 45.
Definition DATA : Z := 50.      Definition EOF : Z := 51.
(** All the values of [ic3_restart_codes] (-1 is the version, 52 the length of names). *)
Definition all_codes : list Z :=
  [MAGIC; -1; 52; COUNTS; I0; D0; FA_CHECK; NOOFA; CVOFA; FA_ZONE; FA_D1; FA_D3; FA_II1; NO_CHECK; X_NO; NO_D1;
   NO_D3; NO_II1; CV_CHECK; CV_PART; CV_D1; CV_D3; CV_D33; CV_II1; DATA; EOF].

(** [type2zonekind], _ic3.py:127-134, and its inverse. *)
Definition zonekinds : dict string Z :=
  [("boundary", 1); ("perio_cart", 2); ("perio_cylx", 3); ("perio_cyly", 4); ("perio_cylz", 5); ("internal", 6)].
Definition zonetypes : dict Z string := List.map (fun '(t, k) => (k, t)) zonekinds.

(** [struct_endian], _ic3.py:139; [host] is the order of the machine. *)
Definition order_of (host : order) (endian : string) : res order :=
  if String.eqb endian "native" then Ok host
  else if String.eqb endian "little" then Ok Little
  else if String.eqb endian "big" then Ok Big
  else Err ValueError.

(** ** Section headers, _ic3.py:203-330 *)
Record header : Type := Hdr {
  h_name : string; h_id : Z; h_skip : Z; h_idata : list Z; h_rdata : list Z }.

(** [bytes(c, 'utf-8')] must be one byte. *)
Definition char_byte (c : ascii) : res Z :=
  let n := Z.of_nat (nat_of_ascii c) in if n <? 128 then Ok n else Err StructError.
Definition enc_name (s : string) : res (list Z) :=
  bs <- mapM char_byte (firstn 52 (list_ascii_of_string s)) ;;
  Ok (bs ++ repeat 0 (52 - List.length bs)).

(** Bytes up to the first NUL, each decoded on its own (_ic3.py:269-274). *)
Fixpoint dec_name (l : list Z) : res string :=
  match l with
  | [] => Ok EmptyString
  | b :: l' => if b =? 0 then Ok EmptyString
               else if b <? 128 then s <- dec_name l' ;; Ok (String (ascii_of_nat (Z.to_nat b)) s)
               else Err UnicodeError
  end.

(** [restartSectionHeader.write], _ic3.py:301-319; [idata] has 8 entries, [rdata] 16. *)
Definition write_header (o : order) (h : header) : res (list Z) :=
  n <- enc_name (h_name h) ;;
  i <- pack_int o 4 (h_id h) ;;
  s <- pack_int o 8 (h_skip h) ;;
  id <- mapM (pack_int o 8) (h_idata h) ;;
  Ok (n ++ i ++ s ++ List.concat id ++ List.concat (List.map (pack_double o) (h_rdata h))).

(** The tokens of 256 bytes. *)
Definition hdr_name (b : list Z) : res string := dec_name (firstn 52 b).
Definition hdr_of (o : order) (name : string) (b : list Z) : header :=
  Hdr name
      (unpack_int o (firstn 4 (skipn 52 b)))
      (unpack_int o (firstn 8 (skipn 56 b)))
      (List.map (unpack_int o) (chunks 8 (firstn 64 (skipn 64 b))))
      (List.map (unpack_double o) (chunks 8 (skipn 128 b))).

(** [readVar], _ic3.py:244-292, from position [p] where [skip] is the value kept in the header
    object (0 in a new one).  The result is [None] if the search ends at an EOF section or at a name
    beginning with DEOF, and the position after the last header read.  A short read gives [list(None)]:
    TypeError. *)
Fixpoint read_var (fuel : nat) (f : list Z) (o : order) (ids : list Z) (skip p : Z)
  : res (option header * Z) :=
  match fuel with
  | O => Err OutOfFuel
  | S k =>
      let p0 := if 0 <? skip then p + (skip - 256) else p in
      match rd f p0 256 with
      | (None, _) => Err TypeError
      | (Some b, p') =>
          name <- hdr_name b ;;
          if String.prefix "DEOF" name then Ok (None, p')
          else
            let h := hdr_of o name b in
            if zmem (h_id h) ids then Ok (Some h, p')
            else if h_id h =? EOF then Ok (None, p')
            else read_var k f o ids (h_skip h) p'
      end
  end.
Definition fuel_of (f : list Z) : nat := S (List.length f).
(** [reset_offset=True]: from byte 8. *)
Definition find_var (f : list Z) (o : order) (ids : list Z) : res (option header * Z) :=
  read_var (fuel_of f) f o ids 0 8.
(** [readReqVar], _ic3.py:288-299. *)
Definition find_req (f : list Z) (o : order) (ids : list Z) : res (header * Z) :=
  '(h, p) <- find_var f o ids ;;
  match h with Some h => Ok (h, p) | None => Err RuntimeError end.

(** [_ReadRestartHeader], _ic3.py:391-419: order and version.  The second integer is packed again as
    read and unpacked in the other order. *)
Definition read_restart_header (f : list Z) : res (order * Z) :=
  '(r, _) <- binary_read f Big Ci 2 0 ;;
  match r with
  | Some [m; v] =>
      if m =? MAGIC then Ok (Big, v)
      else bs <- pack_int Big 4 v ;; Ok (Little, unpack_int Little bs)
  | _ => Err TypeError
  end.

(** [read_headers], _ic3.py:353-389: the headers printed. *)
Fixpoint headers_loop (fuel : nat) (f : list Z) (o : order) (skip p : Z) : res (list header) :=
  match fuel with
  | O => Err OutOfFuel
  | S k =>
      '(h, p') <- read_var (fuel_of f) f o all_codes skip p ;;
      match h with
      | None => Ok []
      | Some h => if h_id h =? EOF then Ok [h]
                  else hs <- headers_loop k f o (h_skip h) p' ;; Ok (h :: hs)
      end
  end.
Definition read_headers (f : list Z) : res (list header) :=
  '(o, _) <- read_restart_header f ;; headers_loop (fuel_of f) f o 0 8.

(** ** The reader *)

(** Values of the simulation state and of the parameters. *)
Inductive sval : Type := SNum (n : num) | SWgt (w : dict string num).

(** Cell and node data of a mesh: a plain dictionary (the default of [Mesh]) or a [DataSet]. *)
Inductive fdata : Type := FDict (d : dict string array) | FSet (d : dataset).
Definition fd_items (d : fdata) : dict string array := match d with FDict d => d | FSet d => ds_data d end.

(** A mesh with the attributes that only files use: [_celldata], [_nodedata], [_params] and the entry
    'partition' of [_cellprop] (absent, [None], or [npart] and [icvpart], where [icvpart] may be the
    0-d array that a short read gives). *)
Record fmesh : Type := FM {
  fm_mesh : mesh F; fm_cells : fdata; fm_nodes : fdata; fm_params : dict string sval;
  fm_part : option (option (Z * option (list Z))) }.

(** What [read_data] stores in the reader (attributes [mesh], [simulation_state], [celldata],
    [nodedata]; the dictionaries [variables], where node vectors and face data end, are not used by
    [export_mesh]; see [ReaderInfo]). *)
Record rstate : Type := RS {
  r_order : order; r_version : Z;
  r_no : Z; r_fa : Z; r_cv : Z; r_noofa : Z;
  r_csr : csr; r_cvofa : list (list Z); r_bocos : list (mark F);
  r_npart : Z; r_icvpart : option (list Z); r_coords : list (list Z);
  r_sim : dict string sval; r_cells : dataset; r_nodes : dataset }.

Definition or_err {A} (e : exn) (x : option A) : res A := match x with Some a => Ok a | None => Err e end.

(** [np.asarray(s).reshape((-1, n))]. *)
Definition rows_of (n : nat) (l : list Z) : list (list Z) := chunks n l.

(** [np.isclose(a, b)] for integers below 2^31 with the default tolerances: |a - b| <= 1e-8 + 1e-5 |b|,
    over the rationals (rounding cannot change the outcome for such integers: the two sides differ by
    at least 1e-8). *)
Definition np_close (a b : Z) : bool := 10 ^ 8 * Z.abs (a - b) <=? 1 + 10 ^ 3 * Z.abs b.
Fixpoint np_allclose (a b : list Z) : bool :=
  match a, b with
  | x :: a', y :: b' => np_close x y && np_allclose a' b'
  | [], [] => true
  | _, _ => false
  end.

(** One integrity list, reader_legacy.py:214-216: [np.allclose(None, ...)] raises TypeError. *)
Definition check_list (f : list Z) (o : order) (n p : Z) : res unit :=
  '(s, _) <- binary_read f o Ci n p ;;
  s <- or_err TypeError s ;;
  assertb (np_allclose s (zrange 0 n)).

(** [h.idata[k]]. *)
Definition idata (h : header) (k : nat) : Z := nth k (h_idata h) 0.

(** reader_legacy.py:205-245. *)
Definition check_integrity (f : list Z) (o : order) (no fa cv : Z) : res unit :=
  '(h, p) <- find_var f o [NO_CHECK] ;;
  match h with
  | None => Ok tt
  | Some h =>
      _ <- assertb (idata h 0 =? no) ;;
      _ <- check_list f o no p ;;
      '(_, p) <- find_req f o [FA_CHECK] ;;
      _ <- check_list f o fa p ;;
      '(h, p) <- find_req f o [CV_CHECK] ;;
      _ <- assertb (idata h 0 =? cv) ;;
      check_list f o cv p
  end.

(** Face to node connectivity, reader_legacy.py:253-275.  Without any face, or when the counts cannot
    be read, [face2node_index[-2]] or [nno_per_face[-1]] raises IndexError. *)
Definition read_noofa (f : list Z) (o : order) (fa noofa : Z) : res csr :=
  '(h, p) <- find_req f o [NOOFA] ;;
  _ <- assertb (idata h 0 =? fa) ;;
  _ <- assertb (idata h 1 =? noofa) ;;
  '(s, p) <- binary_read f o Ci fa p ;;
  nno <- or_err IndexError s ;;
  let index := 0 :: np_cumsum nno in
  before_last <- py_get index (-2) ;;
  last <- py_get nno (-1) ;;
  _ <- assertb (before_last =? noofa - last) ;;
  '(s, _) <- binary_read f o Ci noofa p ;;
  value <- or_err TypeError s ;;
  let z := Csr index value in
  _ <- csr_check z ;;
  Ok z.

(** Face to cell connectivity, reader_legacy.py:284-299; the position afterwards. *)
Definition read_cvofa (f : list Z) (o : order) (fa cv : Z) : res (list (list Z) * Z) :=
  '(h, p) <- find_req f o [CVOFA] ;;
  _ <- assertb (idata h 0 =? fa) ;;
  _ <- assertb (idata h 1 =? 2) ;;
  '(s, p) <- binary_read f o Ci (fa * 2) p ;;
  l <- or_err TypeError s ;;
  mx <- py_max l ;;
  _ <- assertb (mx <? cv) ;;
  _ <- assertb (mx =? cv - 1) ;;
  Ok (rows_of 2 l, p).

(** A face zone, reader_legacy.py:329-342.  ['slicing'] is not used later; only the IndexError that
    computing it can raise is kept. *)
Definition read_zone (z : csr) (h : header) : res (mark F) :=
  t <- dget_err Z.eqb (idata h 0) zonetypes ;;
  _ <- py_get (z_index z) (idata h 1) ;;
  Ok (Mark F (h_name h) (Some (if String.eqb t "internal" then Gintface else Gbdface)) (Some t)
           (Some (ILrange (idata h 1) (idata h 2))) (Some (Some (h_rdata h)))).

(** The loop of reader_legacy.py:322-345, which goes on from the current position. *)
Fixpoint read_zones (fuel : nat) (f : list Z) (o : order) (z : csr) (p : Z) : res (list (mark F)) :=
  match fuel with
  | O => Err OutOfFuel
  | S k =>
      '(h, p) <- read_var (fuel_of f) f o [FA_ZONE] 0 p ;;
      match h with
      | None => Ok []
      | Some h =>
          b <- read_zone z h ;;
          if idata h 0 =? 6 then Ok [b]
          else bs <- read_zones k f o z p ;; Ok (b :: bs)
      end
  end.

(** reader_legacy.py:352-359: a short read gives an array without dimension, not an error. *)
Definition read_part (f : list Z) (o : order) (cv : Z) : res (Z * option (list Z)) :=
  '(h, p) <- find_req f o [CV_PART] ;;
  '(s, _) <- binary_read f o Ci cv p ;;
  Ok (idata h 1, s).

(** reader_legacy.py:366-374. *)
Definition read_coords (f : list Z) (o : order) (no : Z) : res (list (list Z)) :=
  '(h, p) <- find_req f o [X_NO] ;;
  _ <- assertb (idata h 0 =? no) ;;
  _ <- assertb (idata h 1 =? 3) ;;
  '(s, _) <- binary_read f o Cd (no * 3) p ;;
  l <- or_err ValueError s ;;
  Ok (rows_of 3 l).

(** A loop over the file: [step] handles each section found and gives the position to go on from. *)
Fixpoint scan {S} (fuel : nat) (f : list Z) (o : order) (ids : list Z)
    (step : S -> header -> Z -> res (S * Z)) (s : S) (p : Z) : res S :=
  match fuel with
  | O => Err OutOfFuel
  | Datatypes.S k =>
      '(h, p) <- read_var (fuel_of f) f o ids 0 p ;;
      match h with
      | None => Ok s
      | Some h => '(s, p) <- step s h p ;; scan k f o ids step s p
      end
  end.
Definition scan_file {S} (f : list Z) (o : order) (ids : list Z)
    (step : S -> header -> Z -> res (S * Z)) (s : S) : res S := scan (fuel_of f) f o ids step s 8.

(** [str.lower], on the ASCII letters. *)
Definition lower_char (c : ascii) : ascii :=
  let n := nat_of_ascii c in if (Nat.leb 65 n && Nat.leb n 90)%bool then ascii_of_nat (n + 32) else c.
Definition upper_char (c : ascii) : ascii :=
  let n := nat_of_ascii c in if (Nat.leb 97 n && Nat.leb n 122)%bool then ascii_of_nat (n - 32) else c.
Fixpoint smap (g : ascii -> ascii) (s : string) : string :=
  match s with EmptyString => EmptyString | String c s' => String (g c) (smap g s') end.
Definition lower (s : string) : string := smap lower_char s.
Definition upper (s : string) : string := smap upper_char s.

(** [_ReadInformativeValues], reader_legacy.py:378-407. *)
Definition sim0 : dict string sval :=
  [("step", SNum (NInt 0)); ("dt", SNum (NInt 0)); ("time", SNum (NInt 0)); ("wgt", SWgt [])].
Definition info_step (s : dict string sval) (h : header) (p : Z) : res (dict string sval * Z) :=
  let v := if h_id h =? I0 then NInt (idata h 0) else NFlt (nth 0 (h_rdata h) 0) in
  Ok (dset String.eqb (lower (h_name h)) (SNum v) s, p).
Definition read_info (f : list Z) (o : order) : res (dict string sval) :=
  scan_file f o [I0; D0] info_step sim0.

(** [_set_ndof_properties], reader_legacy.py:415-435. *)
Definition ndof_of (version n : Z) : res Z :=
  if version <? 0 then Err ValueError
  else if version <? 3 then Ok 1
  else if n =? 0 then Ok 1 else Ok n.

(** [celldata.Xrep = 'spectralcell'; celldata.ndof = ndof] if [ndof > 1]. *)
Definition set_cell_ndof (ndof : Z) (d : dataset) : res dataset :=
  if 1 <? ndof then
    let '(r, d) := set_xrep "spectralcell" d in _ <- r ;;
    let '(r, d) := set_ndof ndof d in _ <- r ;; Ok d
  else Ok d.

(** The code of the items of a section, _ic3.py:46-57. *)
Definition code_of (id : Z) : code := if (id =? NO_II1) || (id =? CV_II1) || (id =? FA_II1) then Cq else Cd.
Definition is_q (c : code) : bool := match c with Cq => true | _ => false end.

(** [print_stats_scalar], [print_stats_vector], reader_legacy.py:26-52: the minimum of an empty array. *)
Definition stats (l : list Z) : res unit := match l with [] => Err ValueError | _ => Ok tt end.

(** The state of [_ReadRestartVar]: cell data and node data. *)
Definition vars : Type := (dataset * dataset)%type.

(** Scalars, reader_legacy.py:476-508.  A short read of integers raises TypeError at once; of doubles,
    it stores NaN and the search of the next section, at the end of the file, raises TypeError. *)
Definition scalar_step (version no fa cv : Z) (f : list Z) (o : order) (v : vars) (h : header) (p : Z)
  : res (vars * Z) :=
  let '(cells, nodes) := v in
  let c := code_of (h_id h) in
  let get n := '(s, p) <- binary_read f o c n p ;; l <- or_err TypeError s ;; Ok (l, p) in
  let arr l := Arr [zlen l] (is_q c) l in
  if idata h 0 =? no then
    '(l, p) <- get no ;; _ <- stats l ;; Ok ((cells, add_data (h_name h) (arr l) None nodes), p)
  else if idata h 0 =? fa then
    '(l, p) <- get fa ;; _ <- stats l ;; Ok ((cells, nodes), p)
  else if idata h 0 =? cv then
    ndof <- ndof_of version (idata h 1) ;;
    cells <- set_cell_ndof ndof cells ;;
    '(l, p) <- get (ndof * cv) ;; _ <- stats l ;; Ok ((add_data (h_name h) (arr l) None cells, nodes), p)
  else Err RuntimeError.

(** Vectors, reader_legacy.py:529-561: those on nodes and faces only go to [variables]. *)
Definition vector_step (version no fa cv : Z) (f : list Z) (o : order) (v : vars) (h : header) (p : Z)
  : res (vars * Z) :=
  let '(cells, nodes) := v in
  let get n := '(s, p) <- binary_read f o Cd (n * 3) p ;; l <- or_err ValueError s ;; Ok (l, p) in
  if idata h 0 =? no then '(l, p) <- get no ;; _ <- stats l ;; Ok ((cells, nodes), p)
  else if idata h 0 =? fa then '(l, p) <- get fa ;; _ <- stats l ;; Ok ((cells, nodes), p)
  else if idata h 0 =? cv then
    ndof <- ndof_of version (idata h 1) ;;
    cells <- set_cell_ndof ndof cells ;;
    '(l, p) <- get (ndof * cv) ;; _ <- stats l ;;
    Ok ((add_data (h_name h) (Arr [ndof * cv; 3] false l) None cells, nodes), p)
  else Err RuntimeError.

(** Tensors, reader_legacy.py:573-594. *)
Definition tensor_step (version cv : Z) (f : list Z) (o : order) (v : vars) (h : header) (p : Z)
  : res (vars * Z) :=
  let '(cells, nodes) := v in
  if idata h 0 =? cv then
    ndof <- ndof_of version (idata h 1) ;;
    cells <- set_cell_ndof ndof cells ;;
    '(s, p) <- binary_read f o Cd (ndof * cv * 3 * 3) p ;;
    l <- or_err ValueError s ;; _ <- stats l ;;
    Ok ((add_data (h_name h) (Arr [ndof * cv; 3; 3] false l) None cells, nodes), p)
  else Err RuntimeError.

Definition scalar_ids : list Z := [NO_D1; NO_II1; FA_D1; CV_D1; CV_II1].
Definition vector_ids : list Z := [NO_D3; FA_D3; CV_D3].

(** [_ReadRestartVar], reader_legacy.py:437-595. *)
Definition read_vars (version no fa cv : Z) (f : list Z) (o : order) (v : vars) : res vars :=
  v <- scan_file f o scalar_ids (scalar_step version no fa cv f o) v ;;
  v <- scan_file f o vector_ids (vector_step version no fa cv f o) v ;;
  scan_file f o [CV_D33] (tensor_step version cv f o) v.

(** [read_data], reader_legacy.py:101-133; [integrity] is [cIntegrity]. *)
Definition read_data (integrity : bool) (f : list Z) : res rstate :=
  '(o, version) <- read_restart_header f ;;
  '(h, _) <- find_req f o [COUNTS] ;;
  let no := idata h 0 in let fa := idata h 1 in let cv := idata h 2 in let noofa := idata h 3 in
  _ <- (if integrity then check_integrity f o no fa cv else Ok tt) ;;
  z <- read_noofa f o fa noofa ;;
  '(cvofa, p) <- read_cvofa f o fa cv ;;
  bocos <- read_zones (fuel_of f) f o z p ;;
  '(npart, icvpart) <- read_part f o cv ;;
  coords <- read_coords f o no ;;
  sim <- read_info f o ;;
  cells <- new_dataset "cellaverage" 1 "instant" ;;
  nodes <- new_dataset "nodal" 1 "instant" ;;
  '(cells, nodes) <- read_vars version no fa cv f o (cells, nodes) ;;
  Ok (RS o version no fa cv noofa z cvofa bocos npart icvpart coords sim cells nodes).

(** Entries of [mesh['params']], reader_legacy.py:174-180, 300-312, 328. *)
Definition count_if (g : Z -> bool) (l : list Z) : Z := zlen (filter g l).
Definition second_cells (rows : list (list Z)) : list Z := List.map (fun r => nth 1 r 0) rows.
Definition params_of (r : rstate) : dict string sval :=
  let n v := SNum (NInt v) in
  [("no_count", n (r_no r)); ("fa_count", n (r_fa r)); ("cv_count", n (r_cv r)); ("noofa_count", n (r_noofa r));
   ("nboco", n (zlen (r_bocos r)));
   ("nfa_b", n (count_if (fun c => c =? -1) (second_cells (r_cvofa r))));
   ("nfa_bp", n (count_if (fun c => c <? -1) (second_cells (r_cvofa r))))].
Definition dupdate {V} (d d' : dict string V) : dict string V :=
  fold_left (fun d '(k, v) => dset String.eqb k v d) d' d.

(** [export_mesh], reader_legacy.py:138-162. *)
Definition export_mesh (r : rstate) : res fmesh :=
  let m := new_mesh (r_cv r) (r_no r) in
  let '(e, m) := set_coords_nd m 3 (r_coords r) in _ <- e ;;
  f2c <- ii_set (Mat (Some 2%nat) (r_cvofa r)) ;;
  f2n <- ec_import_csr ec_empty (r_csr r) ;;
  let '(e, m) := add_faces m "mixed" f2n (Some f2c) in _ <- e ;;
  let m := fold_left add_boco (r_bocos r) m in
  Ok (FM m (FSet (r_cells r)) (FSet (r_nodes r)) (dupdate (params_of r) (r_sim r))
         (Some (Some (r_npart r, r_icvpart r)))).

(** Reading a file into a mesh: [reader(filename, cIntegrity).read_data()] then [export_mesh()]. *)
Definition read_mesh (integrity : bool) (f : list Z) : res fmesh := r <- read_data integrity f ;; export_mesh r.

(** ** The writers *)
Inductive version : Type := V2 | V3.
Definition version_number (v : version) : Z := match v with V2 => 2 | V3 => 3 end.

(** What the constructor of the writers prepares: [params], [coordinates], [f2v], [f2e], [bocos],
    [simstate], [vars]. *)
Record wstate : Type := WS {
  w_no : Z; w_fa : Z; w_cv : Z; w_nno : list Z; w_noofa : list Z; w_f2e : option mat;
  w_bocos : dict string (mark F);
  w_part : option (Z * option (list Z)); w_coords : list (list Z);
  w_step : sval; w_dt : sval; w_time : sval; w_wgt : sval;
  w_nodes : fdata; w_cells : fdata }.

Section Writer.
  (** [float(n)] and the conversion of a float stored into an int64 array, on patterns. *)
  Context (i2d : Z -> Z) (f2i : Z -> res Z).

  (** A number stored into [header.rdata] or [header.idata]: a dictionary raises TypeError; integers
      out of int64 raise OverflowError. *)
  Definition to_double (v : sval) : res Z :=
    match v with SNum (NInt n) => Ok (i2d n) | SNum (NFlt p) => Ok p | SWgt _ => Err TypeError end.
  Definition i64 (n : Z) : res Z := if fits 8 n then Ok n else Err OverflowError.
  Definition to_int (v : sval) : res Z :=
    match v with SNum (NInt n) => Ok n | SNum (NFlt p) => f2i p | SWgt _ => Err TypeError end.

  (** A header with the first entries of [idata] and [rdata] set: a 17th real raises IndexError. *)
  Definition mk_hdr (name : string) (id skip : Z) (id_ rd_ : list Z) : res header :=
    l <- mapM i64 id_ ;;
    if 16 <? zlen rd_ then Err IndexError
    else Ok (Hdr name id skip (l ++ repeat 0 (8 - List.length l)) (rd_ ++ repeat 0 (16 - List.length rd_))).

  (** A section: its header, then the calls of [BinaryWrite]. *)
  Definition section : Type := (header * list (code * Z * list Z))%type.
  Definition write_section (o : order) (s : section) : res (list Z) :=
    h <- write_header o (fst s) ;;
    ps <- mapM (fun '(c, n, vals) => binary_write o c n vals) (snd s) ;;
    Ok (h ++ List.concat ps).

  Definition plain (name : string) (id : Z) (id_ rd_ : list Z) : res section :=
    h <- mk_hdr name id 256 id_ rd_ ;; Ok (h, []).

  (** [__WriteRestartConnectivity_check], writerV2.py:217-262; nothing in V3, writerV3.py:51-53. *)
  Definition check_section (name : string) (id n : Z) : res section :=
    h <- mk_hdr name id (256 + 4 * n) [n] [] ;; Ok (h, [(Ci, n, zrange 0 n)]).
  Definition check_sections (v : version) (w : wstate) : list (res section) :=
    match v with
    | V2 => [check_section "NO_CHECK" NO_CHECK (w_no w); check_section "FA_CHECK" FA_CHECK (w_fa w);
             check_section "CV_CHECK" CV_CHECK (w_cv w)]
    | V3 => []
    end.

  (** One zone, writerV2.py:329-350. *)
  Definition zone_section (kb : string * mark F) : res section :=
    let '(key, b) := kb in
    _ <- assertb (String.eqb key (mk_name b)) ;;
    _ <- assertb (face_or_bdface b) ;;
    t <- or_err AssertionError (mk_type b) ;;
    kind <- or_err AssertionError (dget String.eqb t zonekinds) ;;
    il <- or_err AttributeError (mk_index b) ;;
    '(lo, hi) <- il_range il ;;
    plain key FA_ZONE [kind; lo; hi] (match mk_perio b with Some (Some l) => l | _ => [] end).
  Definition last_boco (bs : dict string (mark F)) : Z :=
    fold_left (fun m '(_, b) => match mk_index b with Some (ILrange _ hi) => Z.max m hi | _ => m end) bs 0.

  (** [__WriteRestartConnectivity], writerV2.py:264-390.  A partition without [icvpart] (the 0-d array)
      cannot be iterated: TypeError; [None] has no [get]: AttributeError. *)
  Definition conn_sections (v : version) (w : wstate) : list (res section) :=
    let no := w_no w in let fa := w_fa w in let cv := w_cv w in let noofa := zlen (w_noofa w) in
    [plain "NO_FA_CV_NOOFA_COUNTS" COUNTS [no; fa; cv; noofa] []]
    ++ check_sections v w
    ++ [h <- mk_hdr "NOOFA_I_AND_V" NOOFA (256 + 4 * fa + 4 * noofa) [fa; noofa] [] ;;
        Ok (h, [(Ci, fa, w_nno w); (Ci, noofa, w_noofa w)]);
        h <- mk_hdr "CVOFA" CVOFA (256 + 4 * fa * 2) [fa; 2] [] ;;
        m <- or_err AttributeError (w_f2e w) ;;
        Ok (h, [(Ci, Z.max 0 fa * 2, List.concat (m_rows m))])]
    ++ List.map zone_section (w_bocos w)
    ++ [plain "internal-domain" FA_ZONE [6; last_boco (w_bocos w) + 1; fa - 1] [];
        '(npart, icv) <- or_err AttributeError (w_part w) ;;
        h <- mk_hdr "CV_PART" CV_PART (256 + 4 * cv) [cv; npart] [] ;;
        icv <- or_err TypeError icv ;;
        Ok (h, [(Ci, cv, icv)]);
        h <- mk_hdr "X_NO" X_NO (256 + 8 * no * 3) [no; 3] [] ;;
        Ok (h, [(Cd, Z.max 0 no * 3, List.concat (w_coords w))])].

  (** [__WriteInformativeValues], writerV2.py:392-433. *)
  Definition info_sections (w : wstate) : list (res section) :=
    [plain "DATA" DATA [] [];
     n <- to_int (w_step w) ;; plain "STEP" I0 [n] [];
     x <- to_double (w_dt w) ;; plain "DT" D0 [] [x];
     x <- to_double (w_time w) ;; plain "TIME" D0 [] [x]]
    ++ match w_wgt w with
       | SWgt d => List.map (fun '(k, v) => x <- to_double (SNum v) ;; plain (upper k ++ "_WGT")%string D0 [] [x]) d
       | SNum _ => [Err AttributeError]
       end.

  (** Values passed to a format of doubles. *)
  Definition doubles (a : array) : list Z := if a_int a then List.map i2d (a_val a) else a_val a.

  (** Data that has as many values as its first dimension. *)
  Definition scalars (g : string -> array -> res section) (d : dict string array) : list (res section) :=
    flat_map (fun '(name, a) =>
        match a_shape a with
        | [] => [Err IndexError]
        | n :: _ => if a_size a =? n then [g name a] else []
        end) d.
  (** Data of [k] dimensions. *)
  Definition of_dim (k : nat) (g : string -> array -> res section) (d : dict string array) : list (res section) :=
    flat_map (fun '(name, a) => if Nat.eqb (List.length (a_shape a)) k then [g name a] else []) d.

  (** [__WriteRestartVar], writerV2.py:435-551 and writerV3.py:55-184. *)
  Definition node_scalar (v : version) (no : Z) (name : string) (a : array) : res section :=
    let q := match v with V2 => false | V3 => a_int a end in
    h <- mk_hdr name (if q then NO_II1 else NO_D1) (256 + 8 * no) [no] [] ;;
    Ok (h, [if q then (Cq, no, a_val a) else (Cd, no, doubles a)]).
  Definition node_vector (no : Z) (name : string) (a : array) : res section :=
    h <- mk_hdr name NO_D3 (256 + 8 * no * 3) [no; 3] [] ;;
    Ok (h, [(Cd, Z.max 0 no * 3, doubles a)]).
  (** [tot] is [ncv] in V2 and [ndof * ncv] in V3; [second] the second integers of the headers. *)
  Definition cell_scalar (v : version) (cv tot : Z) (second : list Z) (name : string) (a : array) : res section :=
    let q := match v with V2 => false | V3 => a_int a end in
    h <- mk_hdr name (if q then CV_II1 else CV_D1) (256 + 8 * tot) (cv :: second) [] ;;
    Ok (h, [if q then (Cq, tot, a_val a) else (Cd, tot, doubles a)]).
  Definition cell_vector (cv tot : Z) (second : Z) (name : string) (a : array) : res section :=
    h <- mk_hdr name CV_D3 (256 + 8 * tot * 3) [cv; second] [] ;;
    Ok (h, [(Cd, Z.max 0 tot * 3, doubles a)]).
  Definition cell_tensor (cv tot : Z) (second : Z) (name : string) (a : array) : res section :=
    h <- mk_hdr name CV_D33 (256 + 8 * tot * 9) [cv; second; 3] [] ;;
    Ok (h, [(Cd, Z.max 0 tot * 9, doubles a)]).
  Definition cell_sections (v : version) (cv ndof : Z) (d : dict string array) : list (res section) :=
    match v with
    | V2 => scalars (cell_scalar V2 cv cv []) d ++ of_dim 2 (cell_vector cv cv 3) d
            ++ of_dim 3 (cell_tensor cv cv 3) d
    | V3 => scalars (cell_scalar V3 cv (ndof * cv) [ndof]) d ++ of_dim 2 (cell_vector cv (ndof * cv) ndof) d
            ++ of_dim 3 (cell_tensor cv (ndof * cv) ndof) d
    end.
  Definition var_sections (v : version) (w : wstate) : list (res section) :=
    let nodes := fd_items (w_nodes w) in
    scalars (node_scalar v (w_no w)) nodes ++ of_dim 2 (node_vector (w_no w)) nodes
    ++ match w_cells w, v with
       | FSet d, _ => cell_sections v (w_cv w) (ds_ndof d) (ds_data d)
       | FDict d, V2 => cell_sections V2 (w_cv w) 1 d
       | FDict [], V3 => []
       | FDict (_ :: _), V3 => [Err AttributeError]
       end.

  (** [write_data], writerV2.py:159-192: the bytes of the file; the first error stops. *)
  Definition sections (v : version) (w : wstate) : list (res section) :=
    conn_sections v w ++ info_sections w ++ var_sections v w ++ [plain "EOF" EOF [] []].
  Definition write_data (v : version) (o : order) (w : wstate) : res (list Z) :=
    h <- binary_write o Ci 2 [MAGIC; version_number v] ;;
    bs <- mapM (fun rs => s <- rs ;; write_section o s) (sections v w) ;;
    Ok (h ++ List.concat bs).
End Writer.

(** [set_simstate], writerV2.py:121-136. *)
Definition param (d : dict string sval) (k : string) (default : sval) : sval :=
  match dget String.eqb k d with Some v => v | None => default end.

(** [boco.index.type == 'list'] for any mark, writerV2.py:65. *)
Definition list_type (il : indexlist) : bool := match il with ILlist _ | ILboxed _ => true | _ => false end.
Definition any_list (bs : dict string (mark F)) : res bool :=
  ls <- mapM (fun '(_, b) => il <- or_err AttributeError (mk_index b) ;; Ok (list_type il)) bs ;;
  Ok (existsb (fun b => b) ls).

(** The first part of [set_mesh], writerV2.py:55-67, with the mesh it leaves. *)
Definition prepare_mesh (tbl : sidetable) (enum : list Z -> list Z) (m : mesh F) : res unit * mesh F :=
  let '(r, m) := match me_faces m with [] => make_face_connectivity tbl m | _ => (Ok tt, m) end in
  match r with
  | Err e => (Err e, m)
  | Ok _ =>
      let '(r, m) := if existsb (fun '(_, b) => nodebased b) (me_bocos m)
                     then bocomarks_set_node_to_face m else (Ok tt, m) in
      match r with
      | Err e => (Err e, m)
      | Ok _ =>
          let '(r, m) := if dmem String.eqb "boundary" (me_faces m)
                         then make_unmarked_BC enum "unmarked" m else (Ok [], m) in
          match r with
          | Err e => (Err e, m)
          | Ok _ =>
              match any_list (me_bocos m) with
              | Err e => (Err e, m)
              | Ok true => reindex_boundaryfaces m
              | Ok false => (Ok tt, m)
              end
          end
      end
  end.

(** [np.stack([x, y, z], axis=1)]: different lengths raise ValueError. *)
Fixpoint stack3 (x y z : list F) : res (list (list F)) :=
  match x, y, z with
  | a :: x, b :: y, c :: z => rs <- stack3 x y z ;; Ok ([a; b; c] :: rs)
  | [], [], [] => Ok []
  | _, _, _ => Err ValueError
  end.

(** Faces in one numbering, writerV2.py:89-96. *)
Definition writer_faces (m : mesh F) : res (csr * option mat) :=
  match dget String.eqb "mixed" (me_faces m) with
  | Some fs =>
      z <- ec_export_csr (f_f2n fs) ;;
      c <- or_err AttributeError (f_f2c fs) ;;
      Ok (z, c)
  | None =>
      '(con, f2c) <- export_mixedfaces m ;;
      z <- ec_export_csr con ;;
      Ok (z, f2c)
  end.

(** The rest of the constructor: writerV2.py:71-107, 109-152. *)
Definition writer_state (fm : fmesh) : res wstate :=
  let m := fm_mesh fm in
  '(x, y, z) <- nodescoord m ;;
  coords <- stack3 x y z ;;
  _ <- assertb (zlen coords =? me_nnode m) ;;
  '(zf, f2e) <- writer_faces m ;;
  let p := fm_params fm in
  Ok (WS (me_nnode m) (me_nface m) (me_ncell m) (diffs (z_index zf)) (z_value zf) f2e
         (filter (fun '(_, b) => match mk_type b with Some t => negb (String.eqb t "internal") | None => true end)
                 (me_bocos m))
         (match fm_part fm with None => Some (1, Some (repeat 0 (Z.to_nat (me_ncell m)))) | Some q => q end)
         coords
         (param p "step" (SNum (NInt 0))) (param p "dt" (SNum (NInt 0))) (param p "time" (SNum (NInt 0)))
         (param p "wgt" (SWgt []))
         (fm_nodes fm) (fm_cells fm)).

(** [writer(mesh, endian).write_data(filename)], with the mesh it leaves. *)
Definition write_mesh (tbl : sidetable) (enum : list Z -> list Z) (i2d : Z -> Z) (f2i : Z -> res Z)
    (host : order) (v : version) (endian : string) (fm : fmesh) : res (list Z) * fmesh :=
  match order_of host endian with
  | Err e => (Err e, fm)
  | Ok o =>
      let '(r, m) := prepare_mesh tbl enum (fm_mesh fm) in
      let fm' := FM m (fm_cells fm) (fm_nodes fm) (fm_params fm) (fm_part fm) in
      (_ <- r ;; w <- writer_state fm' ;; write_data i2d f2i v o w, fm')
  end.
