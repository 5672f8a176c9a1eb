(** * Model of [indexindirection], [compressed_listofindex] and [elem_connectivity]
    (cfdtools/meshbase/_connectivity.py:112-440; [extrude] is in [Extrude]). *)
From Verif Require Export Py IndexList Elements.

(** ** [indexindirection], _connectivity.py:112-145 *)

(** [_conn] is [None] or an array; [_nelem], always its number of rows, is dropped. *)
Definition indirection : Type := option mat.

(** The [conn] setter, _connectivity.py:126-130: [array.shape[1]] raises IndexError on a 1-D
    array, and another number of columns than 2 fails the assertion. *)
Definition ii_set (m : mat) : res indirection :=
  match m_cols m with
  | None => Err IndexError
  | Some 2%nat => Ok (Some m)
  | Some _ => Err AssertionError
  end.

(** [append], _connectivity.py:140-145. *)
Definition ii_append (ii : indirection) (m : mat) : res indirection :=
  match ii with
  | None => ii_set m
  | Some m0 => _ <- ii_set m ;; m' <- np_vcat m0 m ;; ii_set m'
  end.

(** ** [compressed_listofindex], _connectivity.py:148-171 *)
Record csr : Type := Csr { z_index : list Z; z_value : list Z }.

(** [check], _connectivity.py:168-171. *)
Definition csr_check (z : csr) : res bool :=
  first <- py_get (z_index z) 0 ;;
  _ <- assertb (first =? 0) ;;
  m <- py_max (z_index z) ;;
  _ <- assertb (m =? zlen (z_value z)) ;;
  Ok true.

(** ** [elem_connectivity], _connectivity.py:174-440 *)

(** An entry of [_elem2node]: {'index': ..., 'elem2node': ...}. *)
Record edict : Type := ED { ed_index : indexlist; ed_e2n : mat }.
Record econn : Type := EC { ec_nelem : Z; ec_dict : dict string edict }.

(** [__init__], _connectivity.py:175-177. *)
Definition ec_empty : econn := EC 0 [].

(** [add_elems], _connectivity.py:179-189.  Simplification: when it raises, the state it leaves
    behind ([_nelem] already increased) is not modelled. *)
Definition ec_add (c : econn) (etype : string) (m : mat) (index : option indexlist) : res econn :=
  let dim := m_nrow m in
  let ind := match index with
             | None => ILrange (ec_nelem c) (ec_nelem c + dim - 1)
             | Some i => i
             end in
  match dget String.eqb etype (ec_dict c) with
  | Some ed =>
      ind' <- il_append_il (ed_index ed) ind ;;
      m' <- np_vcat (ed_e2n ed) m ;;
      Ok (EC (ec_nelem c + dim) (dset String.eqb etype (ED ind' m') (ec_dict c)))
  | None =>
      Ok (EC (ec_nelem c + dim) (dset String.eqb etype (ED ind m) (ec_dict c)))
  end.

(** [__getitem__], _connectivity.py:209-210. *)
Definition ec_getitem (c : econn) (etype : string) : res mat :=
  ed <- dget_err String.eqb etype (ec_dict c) ;; Ok (ed_e2n ed).

(** [check], _connectivity.py:212-219.  With boxed indices the array is a column, which numpy
    compares with the 1-D array of unique values by broadcasting (all pairs); concatenating boxed
    and plain indices raises ValueError. *)
Definition ec_check (c : econn) : res bool :=
  ls <- mapM (fun '(_, ed) => il_entries (ed_index ed)) (ec_dict c) ;;
  let boxes := List.map (fun '(_, ed) => il_boxed (ed_index ed)) (ec_dict c) in
  match boxes with
  | [] => Err ValueError
  | b :: _ =>
      if negb (forallb (Bool.eqb b) boxes) then Err ValueError
      else
        let index := List.concat ls in
        let uniq := np_unique index in
        mn <- py_min index ;;
        _ <- assertb (mn =? 0) ;;
        mx <- py_max index ;;
        _ <- assertb (mx =? zlen index - 1) ;;
        ok <- (if b then Ok (forallb (fun u => forallb (Z.eqb u) index) uniq)
               else np_all_eq uniq index) ;;
        _ <- assertb ok ;;
        Ok true
  end.

(** [all_index], _connectivity.py:235-236, for consumers that hash the entries. *)
Definition ec_all_index (c : econn) : res (list Z) :=
  ls <- mapM (fun '(_, ed) => il_list (ed_index ed)) (ec_dict c) ;; Ok (List.concat ls).

(** One type's contribution to [index_elem_tuples], _connectivity.py:247-251: [ind[i]] raises
    IndexError if the index is shorter than the array; extra indices are dropped. *)
Definition ed_tuples (ed : edict) : res (list (Z * list Z)) :=
  ind <- il_entries (ed_index ed) ;;
  mapM (fun '(i, row) => n <- py_get ind i ;; Ok (n, row))
       (combine (zrange 0 (m_nrow (ed_e2n ed))) (m_rows (ed_e2n ed))).

(** [index_elem_tuples], _connectivity.py:244-252 (whether the numbers are boxed is dropped). *)
Definition ec_tuples (c : econn) : res (list (Z * list Z)) :=
  ls <- mapM (fun '(_, ed) => ed_tuples ed) (ec_dict c) ;; Ok (List.concat ls).

(** [list(set(l))] for integers: Python does not specify the order.  A valid enumeration function
    gives the elements of [l], each once. *)
Definition set_enum (enum : list Z -> list Z) : Prop :=
  forall l, NoDup (enum l) /\ forall x, In x (enum l) <-> In x l.

(** [dict(zip(ks, vs))]: later pairs overwrite earlier ones; [zip] stops at the shorter. *)
Definition dict_of_zip {V} (ks : list Z) (vs : list V) : dict Z V :=
  fold_left (fun d '(k, v) => dset Z.eqb k v d) (combine ks vs) [].

(** [nodes_of_indexlist], _connectivity.py:254-265.  [dict.get] gives [None] for an unknown
    number, over which [chain.from_iterable] raises TypeError. *)
Definition ec_nodes_of_indexlist (enum : list Z -> list Z) (c : econn) (elemlist : list Z)
  : res (list Z) :=
  inds <- mapM (fun '(_, ed) => il_list (ed_index ed)) (ec_dict c) ;;
  let f2n := flat_map (fun '(_, ed) => m_rows (ed_e2n ed)) (ec_dict c) in
  let d := dict_of_zip (List.concat inds) f2n in
  rows <- mapM (fun k => match dget Z.eqb k d with Some r => Ok r | None => Err TypeError end)
               elemlist ;;
  Ok (enum (List.concat rows)).

(** [nodelist], _connectivity.py:411-416. *)
Definition ec_nodelist (enum : list Z -> list Z) (c : econn) : list Z :=
  enum (flat_map (fun '(_, ed) => List.concat (m_rows (ed_e2n ed))) (ec_dict c)).

(** [index[1:] - index[:-1]]. *)
Fixpoint diffs (l : list Z) : list Z :=
  match l with
  | a :: l' => match l' with b :: _ => (b - a) :: diffs l' | [] => [] end
  | [] => []
  end.

(** [np.argwhere(l == v)]: positions of [v]. *)
Definition positions (l : list Z) (v : Z) : list Z :=
  List.map fst (filter (fun '(_, x) => x =? v) (combine (zrange 0 (zlen l)) l)).

(** [importfrom_compressedindex], _connectivity.py:267-276.  The columns
    [_value[zind + i]], [i = 0..facesize-1], stacked side by side, are written row by row. *)
Definition ec_import_csr (c : econn) (z : csr) : res econn :=
  let nodeperface := diffs (z_index z) in
  foldM (fun c facesize =>
      typef <- dget_err Z.eqb facesize face_from_nnode ;;
      let index := positions nodeperface facesize in
      zind <- np_take (z_index z) index ;;
      nodes <- mapM (fun s => np_take (z_value z) (zrange s (s + facesize))) zind ;;
      ec_add c typef (Mat (Some (Z.to_nat facesize)) nodes) (Some (ILboxed index)))
    c (np_unique nodeperface).

(** Order of Python tuples (number, node list). *)
Definition pair_leb (a b : Z * list Z) : bool :=
  if fst a =? fst b then zlist_leb (snd a) (snd b) else fst a <? fst b.

(** True if some rows carry boxed numbers and others plain ones: comparing them raises TypeError. *)
Definition ec_mixed_boxes (c : econn) : bool :=
  let bs := flat_map (fun '(_, ed) => List.map (fun _ => il_boxed (ed_index ed)) (m_rows (ed_e2n ed)))
                     (ec_dict c) in
  existsb (fun b => b) bs && existsb negb bs.

(** [exportto_compressedindex], _connectivity.py:279-285. *)
Definition ec_export_csr (c : econn) : res csr :=
  tuples <- ec_tuples c ;;
  if ec_mixed_boxes c then Err TypeError
  else
    let concat := isort pair_leb tuples in
    let nnode_perface := List.map (fun '(_, face) => zlen face) concat in
    Ok (Csr (0 :: np_cumsum nnode_perface) (List.concat (List.map snd concat))).

(** First loop of [importfrom_merge], _connectivity.py:295-304, for one connectivity. *)
Definition merge_step (md : dict string edict) (shift_con : Z * econn) : res (dict string edict) :=
  let '(shift, con) := shift_con in
  foldM (fun md '(key, ed) =>
      match dget String.eqb key md with
      | Some ed0 =>
          (* the shift of an untyped index is None, which has no list() *)
          sh <- il_shift (ed_index ed) shift ;;
          sh <- match sh with Some i => Ok i | None => Err AttributeError end ;;
          ind <- il_add (ed_index ed0) sh ;;
          m <- np_vcat (ed_e2n ed0) (ed_e2n ed) ;;
          Ok (dset String.eqb key (ED ind m) md)
      | None =>
          sh <- il_shift (ed_index ed) shift ;;
          sh <- match sh with Some i => Ok i | None => Err AttributeError end ;;
          Ok (dset String.eqb key (ED sh (ed_e2n ed)) md)
      end) md (ec_dict con).

(** [importfrom_merge], _connectivity.py:287-307.  ([np.sum([])] is the float 0.0: an operand
    without any type makes later numbers floats of the same value; not modelled.) *)
Definition ec_merge (self : econn) (cons : list econn) : res econn :=
  sizes <- mapM (fun c => ls <- mapM (fun '(_, ed) => il_entries (ed_index ed)) (ec_dict c) ;;
                          Ok (zsum (List.map zlen ls))) cons ;;
  let shifts := 0 :: removelast sizes in
  md <- foldM merge_step [] (combine shifts cons) ;;
  foldM (fun self '(etype, ed) => ec_add self etype (ed_e2n ed) (Some (ed_index ed))) self md.

(** ** [create_faces_from_elems], _connectivity.py:310-409 *)

(** A side: its (reversed) node tuple and the number of its cell. *)
Definition side : Type := (list Z * Z)%type.

(** [d[k].extend(l)] / [d[k].append(x)] on a [defaultdict(list)]. *)
Definition dextend {K A} (eqb : K -> K -> bool) (k : K) (l : list A) (d : dict K (list A))
  : dict K (list A) :=
  match dget eqb k d with
  | Some l0 => dset eqb k (l0 ++ l) d
  | None => dset eqb k l d
  end.

(** [__build_face_and_neighbour], _connectivity.py:312-348, with the side table in force. *)
Definition build_face_and_neighbour (tbl : sidetable) (c : econn) : res (dict string (list side)) :=
  foldM (fun fn '(etype, ed) =>
      index <- il_list (ed_index ed) ;;
      faces <- dget_err String.eqb etype tbl ;;
      foldM (fun fn '(ftype, face_of_elem) =>
          foldM (fun fn eface =>
              reindex_f <- np_cols (ed_e2n ed) (rev eface) ;;
              Ok (dextend String.eqb ftype (combine reindex_f index) fn))
            fn face_of_elem)
        fn faces)
    [] (ec_dict c).

(** _connectivity.py:372-374: sides grouped by sorted node tuple. *)
Definition group_sides (l : list side) : dict (list Z) (list side) :=
  fold_left (fun d tface => dextend zlist_eqb (zsort (fst tface)) [tface] d) l [].

(** [face_from_ufacedict], _connectivity.py:362-363. *)
Definition first_nodes (flist : list side) : res (list Z) :=
  f <- py_get flist 0 ;; Ok (fst f).
Definition face_from_ufacedict (d : dict (list Z) (list side)) : res mat :=
  rows <- mapM first_nodes (dvals d) ;; mat_of_rows rows.

Record facesets : Type := FS {
  fs_int : econn; fs_int_f2c : indirection; fs_bnd : econn; fs_bnd_f2c : indirection }.

(** Body of the loop of [__find_duplicates], _connectivity.py:366-404, for one face type. *)
Definition find_duplicates_step (fs : facesets) (ft_sides : string * list side) : res facesets :=
  let '(ftype, listfaces) := ft_sides in
  let nf_all := zlen listfaces in
  let face_pairs := group_sides listfaces in
  let nf_unique := zlen face_pairs in
  _ <- assertb (nf_unique <? nf_all) ;;
  _ <- assertb (nf_all <=? 2 * nf_unique) ;;
  let uniqueface_dict := filter (fun '(_, fl) => zlen fl =? 1) face_pairs in
  bfaces <- face_from_ufacedict uniqueface_dict ;;
  bnd <- ec_add (fs_bnd fs) ftype bfaces None ;;
  bcells <- mapM (fun fl => f <- py_get fl 0 ;; Ok [snd f; -1]) (dvals uniqueface_dict) ;;
  bf2c <- ii_append (fs_bnd_f2c fs) (Mat (Some 2%nat) bcells) ;;
  let face_pairs := filter (fun '(_, fl) => negb (zlen fl =? 1)) face_pairs in
  ifaces <- face_from_ufacedict face_pairs ;;
  int <- ec_add (fs_int fs) ftype ifaces None ;;
  icells <- mapM (fun fl => f0 <- py_get fl 0 ;; f1 <- py_get fl 1 ;; Ok [snd f0; snd f1])
                 (dvals face_pairs) ;;
  icells <- mat_of_rows icells ;;
  if2c <- ii_append (fs_int_f2c fs) icells ;;
  Ok (FS int if2c bnd bf2c).

(** [create_faces_from_elems], _connectivity.py:310-409. *)
Definition ec_create_faces (tbl : sidetable) (c : econn) : res facesets :=
  fn <- build_face_and_neighbour tbl c ;;
  foldM find_duplicates_step (FS ec_empty None ec_empty None) fn.
