(** * Sharing: [indexlist] and [elem_connectivity.add_elems] (cfdtools/meshbase/_connectivity.py:13-102, 174-189)
    with references.

    [IndexList] and [Conn] model these classes by values.  Here lists, index lists and connectivities are objects
    that live in a memory, and the variables of a program refer to them: the list given to an index list is kept,
    not copied, and so is the index list given to a connectivity.  Every command of a program makes one new
    variable (None for commands that return nothing or raise; the program goes on).  Lists hold integers.  Not
    modelled: numpy arrays as arguments of [indexlist] (they are converted, hence copied), sharing of the
    arrays of nodes (no function of the class changes one in place), and a variable used as something it
    is not (NameError, as an undefined variable). *)
From Verif Require Export Py IndexList Conn.

(** ** Programs *)
Definition var : Type := nat.
Bind Scope nat_scope with var.
Inductive cmd : Type :=
| CNew (v : list Z)                (* x = [...] *)
| CMut (x : var) (v : list Z)      (* x[:] = [...], by the user *)
| CMake                            (* indexlist() *)
| CMakeRange (x : var)             (* indexlist(irange=x) *)
| CMakeList (x : var)              (* indexlist(ilist=x) *)
| CSetRange (y x : var)            (* y.set_range(x) *)
| CSetList (y x : var)             (* y.set_list(x) *)
| CList (y : var)                  (* y.list() *)
| CRange (y : var)                 (* y.range() *)
| CAppend (y x : var)              (* y.append(x) *)
| CShift (y : var) (i : Z)         (* y.shift(i) *)
| CAdd (y z : var)                 (* y + z *)
| CCompress (y : var)              (* y.compress() *)
| CConn                            (* elem_connectivity() *)
| CAddElems (c : var) (etype : string) (m : mat) (index : option var).  (* c.add_elems(etype, m, index) *)

(** ** Memory *)
Definition loc : Type := nat.
Bind Scope nat_scope with loc.
(** An index list: [_type], and the list [_range] or [_list] refers to. *)
Inductive rep : Type := RNone | RRange (l : loc) | RList (l : loc).
(** A connectivity: [_nelem], and for each type the index list and the array. *)
Definition hconn : Type := (Z * dict string (loc * mat))%type.
Inductive hval : Type := VNone | VList (l : loc) | VObj (o : loc) | VConn (c : loc).
Record mem : Type := Mem { lists : list (list Z); objs : list rep; conns : list hconn; vars : list hval }.
Definition mem0 : mem := Mem [] [] [] [].

Definition find {A} (l : list A) (n : nat) : res A := match nth_error l n with Some a => Ok a | None => Err NameError end.
Definition var_list (s : mem) (x : var) : res loc := v <- find (vars s) x ;; match v with VList l => Ok l | _ => Err NameError end.
Definition var_obj (s : mem) (x : var) : res loc := v <- find (vars s) x ;; match v with VObj o => Ok o | _ => Err NameError end.
Definition var_conn (s : mem) (x : var) : res loc := v <- find (vars s) x ;; match v with VConn c => Ok c | _ => Err NameError end.

Definition set_lists (s : mem) (v : list (list Z)) : mem := Mem v (objs s) (conns s) (vars s).
Definition set_objs (s : mem) (v : list rep) : mem := Mem (lists s) v (conns s) (vars s).
Definition set_conns (s : mem) (v : list hconn) : mem := Mem (lists s) (objs s) v (vars s).
(** A new list, a new object, and a change of an object. *)
Definition new_list (s : mem) (v : list Z) : mem * loc := (set_lists s (lists s ++ [v]), List.length (lists s)).
Definition new_obj (s : mem) (r : rep) : mem * loc := (set_objs s (objs s ++ [r]), List.length (objs s)).
Definition put_obj (s : mem) (o : loc) (r : rep) : mem := set_objs s (upd_nat (objs s) o r).

(** [list()], _connectivity.py:56-62: the integers of the list it makes. *)
Definition obj_list (s : mem) (o : loc) : res (list Z) :=
  r <- find (objs s) o ;;
  match r with
  | RRange l => v <- find (lists s) l ;; a <- py_get v 0 ;; b <- py_get v 1 ;; Ok (zrange a (b + 1))
  | RList l => find (lists s) l
  | RNone => Err RuntimeError
  end.
(** [[*irange]], _connectivity.py:54, a copy.  Simplification: anything but two entries is refused at once
    (IndexError); the code raises when it is used, and ignores further entries. *)
Definition range_of (v : list Z) : res (list Z) := match v with [_; _] => Ok v | _ => Err IndexError end.

(** A command that returns a new index list holding the list [v]: as a range, or as a list. *)
Definition ret_range (s : mem) (v : list Z) : mem * res hval :=
  let '(s1, l) := new_list s v in let '(s2, o) := new_obj s1 (RRange l) in (s2, Ok (VObj o)).
Definition ret_list (s : mem) (v : list Z) : mem * res hval :=
  let '(s1, l) := new_list s v in let '(s2, o) := new_obj s1 (RList l) in (s2, Ok (VObj o)).
Definition try {A} (s : mem) (r : res A) (k : A -> mem * res hval) : mem * res hval :=
  match r with Ok a => k a | Err e => (s, Err e) end.

(** [add_elems], _connectivity.py:179-189: [_nelem] is increased first; the index list of a type that is there is
    changed before the arrays are concatenated. *)
Definition hadd (s : mem) (c : loc) (etype : string) (m : mat) (index : option loc) : mem * res hval :=
  try s (find (conns s) c) (fun '(n, d) =>
    let dim := m_nrow m in
    let '(s1, ind) := match index with
                      | None => let '(s', l) := new_list s [n; n + dim - 1] in new_obj s' (RRange l)
                      | Some o => (s, o)
                      end in
    let s2 := set_conns s1 (upd_nat (conns s1) c (n + dim, d)) in
    match dget String.eqb etype d with
    | Some (o, m0) =>
        try s2 (obj_list s2 ind) (fun l' =>
          try s2 (obj_list s2 o) (fun l0 =>
            let '(s3, l) := new_list s2 (l0 ++ l') in
            let s4 := put_obj s3 o (RList l) in
            try s4 (np_vcat m0 m) (fun m' =>
              (set_conns s4 (upd_nat (conns s4) c (n + dim, dset String.eqb etype (o, m') d)), Ok VNone))))
    | None => (set_conns s2 (upd_nat (conns s2) c (n + dim, dset String.eqb etype (ind, m) d)), Ok VNone)
    end).

(** One command: the memory after it and what it returns, before it is put in a variable. *)
Definition step (s : mem) (k : cmd) : mem * res hval :=
  match k with
  | CNew v => let '(s', l) := new_list s v in (s', Ok (VList l))
  | CMut x v => try s (var_list s x) (fun l => (set_lists s (upd_nat (lists s) l v), Ok VNone))
  | CMake => let '(s', o) := new_obj s RNone in (s', Ok (VObj o))
  | CMakeRange x => try s (l <- var_list s x ;; v <- find (lists s) l ;; range_of v) (ret_range s)
  | CMakeList x => try s (var_list s x) (fun l => let '(s', o) := new_obj s (RList l) in (s', Ok (VObj o)))
  | CSetRange y x =>
      try s (o <- var_obj s y ;; l <- var_list s x ;; v <- find (lists s) l ;; v <- range_of v ;; Ok (o, v)) (fun '(o, v) =>
        let '(s', l') := new_list s v in (put_obj s' o (RRange l'), Ok VNone))
  | CSetList y x => try s (o <- var_obj s y ;; l <- var_list s x ;; Ok (o, l)) (fun '(o, l) => (put_obj s o (RList l), Ok VNone))
  | CList y => try s (o <- var_obj s y ;; obj_list s o) (fun v => let '(s', l) := new_list s v in (s', Ok (VList l)))
  | CRange y =>
      try s (o <- var_obj s y ;; r <- find (objs s) o ;; match r with RRange l => Ok l | _ => Err RuntimeError end)
        (fun l => (s, Ok (VList l)))
  | CAppend y x =>
      try s (o <- var_obj s y ;; l <- var_list s x ;; v <- obj_list s o ;; w <- find (lists s) l ;; Ok (o, v ++ w)) (fun '(o, v) =>
        let '(s', l') := new_list s v in (put_obj s' o (RList l'), Ok VNone))
  | CShift y i =>
      try s (o <- var_obj s y ;; find (objs s) o) (fun r =>
        match r with
        | RRange l => try s (v <- find (lists s) l ;; a <- py_get v 0 ;; b <- py_get v 1 ;; Ok [a + i; b + i]) (ret_range s)
        | RList l => try s (v <- find (lists s) l ;; Ok (List.map (fun j => j + i) v)) (ret_list s)
        | RNone => (s, Ok VNone)
        end)
  | CAdd y z => try s (o <- var_obj s y ;; o' <- var_obj s z ;; v <- obj_list s o ;; w <- obj_list s o' ;; Ok (v ++ w)) (ret_list s)
  | CCompress y =>
      try s (o <- var_obj s y ;; r <- find (objs s) o ;; Ok (o, r)) (fun '(o, r) =>
        match r with
        | RList l =>
            try s (v <- find (lists s) l ;; first <- py_get v 0 ;; last <- py_get v (-1) ;; Ok (v, first, last)) (fun '(v, first, last) =>
              if zlist_eqb v (zrange first (first + zlen v)) then
                let '(s', l') := new_list s [first; last] in (put_obj s' o (RRange l'), Ok VNone)
              else (s, Ok VNone))
        | _ => (s, Ok VNone)
        end)
  | CConn => (set_conns s (conns s ++ [(0, [])]), Ok (VConn (List.length (conns s))))
  | CAddElems c etype m index =>
      try s (lc <- var_conn s c ;;
             oi <- match index with None => Ok None | Some y => o <- var_obj s y ;; Ok (Some o) end ;;
             Ok (lc, oi)) (fun '(lc, oi) => hadd s lc etype m oi)
  end.
(** The command and its variable. *)
Definition exec (s : mem) (k : cmd) : mem * res hval :=
  let '(s', r) := step s k in
  (Mem (lists s') (objs s') (conns s') (vars s' ++ [match r with Ok v => v | Err _ => VNone end]), r).
Fixpoint run (s : mem) (p : list cmd) : mem * list (res hval) :=
  match p with
  | [] => (s, [])
  | k :: p' => let '(s1, r) := exec s k in let '(s2, rs) := run s1 p' in (s2, r :: rs)
  end.

(** ** The same programs with values: a variable holds a list, an index list or a connectivity of its own *)
Inductive pval : Type := PNone | PList (v : list Z) | PIdx (il : indexlist) | PConn (c : econn).
Definition pvar_list (s : list pval) (x : var) : res (list Z) := v <- find s x ;; match v with PList l => Ok l | _ => Err NameError end.
Definition pvar_idx (s : list pval) (x : var) : res indexlist := v <- find s x ;; match v with PIdx o => Ok o | _ => Err NameError end.
Definition pvar_conn (s : list pval) (x : var) : res econn := v <- find s x ;; match v with PConn c => Ok c | _ => Err NameError end.
Definition prange (v : list Z) : res indexlist := match v with [lo; hi] => Ok (ILrange lo hi) | _ => Err IndexError end.
(** A command that changes the variable [y], and one that returns a value. *)
Definition pset (s : list pval) (y : var) (r : res pval) : list pval * res pval :=
  match r with Ok v => (upd_nat s y v, Ok PNone) | Err e => (s, Err e) end.
Definition pret (s : list pval) (r : res pval) : list pval * res pval := (s, r).
Definition pstep (s : list pval) (k : cmd) : list pval * res pval :=
  match k with
  | CNew v => pret s (Ok (PList v))
  | CMut x v => pset s x (_ <- pvar_list s x ;; Ok (PList v))
  | CMake => pret s (Ok (PIdx ILnone))
  | CMakeRange x => pret s (v <- pvar_list s x ;; il <- prange v ;; Ok (PIdx il))
  | CMakeList x => pret s (v <- pvar_list s x ;; Ok (PIdx (ILlist v)))
  | CSetRange y x => pset s y (_ <- pvar_idx s y ;; v <- pvar_list s x ;; il <- prange v ;; Ok (PIdx il))
  | CSetList y x => pset s y (_ <- pvar_idx s y ;; v <- pvar_list s x ;; Ok (PIdx (ILlist v)))
  | CList y => pret s (il <- pvar_idx s y ;; v <- il_list il ;; Ok (PList v))
  | CRange y => pret s (il <- pvar_idx s y ;; '(lo, hi) <- il_range il ;; Ok (PList [lo; hi]))
  | CAppend y x => pset s y (il <- pvar_idx s y ;; v <- pvar_list s x ;; il' <- il_append il v ;; Ok (PIdx il'))
  | CShift y i => pret s (il <- pvar_idx s y ;; r <- il_shift il i ;; Ok (match r with Some il' => PIdx il' | None => PNone end))
  | CAdd y z => pret s (a <- pvar_idx s y ;; b <- pvar_idx s z ;; il <- il_add a b ;; Ok (PIdx il))
  | CCompress y => pset s y (il <- pvar_idx s y ;; il' <- il_compress il ;; Ok (PIdx il'))
  | CConn => pret s (Ok (PConn ec_empty))
  | CAddElems c etype m index =>
      pset s c (ec <- pvar_conn s c ;;
                i <- match index with None => Ok None | Some y => il <- pvar_idx s y ;; Ok (Some il) end ;;
                ec' <- ec_add ec etype m i ;; Ok (PConn ec'))
  end.
Definition pexec (s : list pval) (k : cmd) : list pval * res pval :=
  let '(s', r) := pstep s k in (s' ++ [match r with Ok v => v | Err _ => PNone end], r).
Fixpoint prun (s : list pval) (p : list cmd) : list pval * list (res pval) :=
  match p with
  | [] => (s, [])
  | k :: p' => let '(s1, r) := pexec s k in let '(s2, rs) := prun s1 p' in (s2, r :: rs)
  end.
