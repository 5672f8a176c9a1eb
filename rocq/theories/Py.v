(** * Python and numpy primitives used by the model of cfdtools.

    Nothing here is specific to the repository: these are the builtins and numpy
    functions the modelled code calls.  Integers are [Z]; exceptions are values. *)
From Coq Require Export ZArith List String Bool.
Export ListNotations.
Open Scope string_scope.
Open Scope Z_scope.
Open Scope list_scope.

(** Python exception classes that the modelled code can raise.  [RuntimeError] is what
    [api.error_stop] raises (cfdtools/api.py:63-64).  [OutOfFuel] is not a Python
    exception: it is the value of a loop whose model ran out of fuel. *)
Inductive exn : Type :=
| AssertionError | IndexError | KeyError | TypeError | ValueError | RuntimeError
| AttributeError | StructError | NameError | UnicodeError | TimerError
| ZeroDivisionError | FileNotFoundError | FileExistsError | OverflowError | OutOfFuel.

Definition exn_eq_dec (a b : exn) : {a = b} + {a <> b}.
Proof. decide equality. Defined.

Inductive res (A : Type) : Type := Ok (a : A) | Err (e : exn).
Arguments Ok {A} _. Arguments Err {A} _.

Definition bind {A B} (x : res A) (k : A -> res B) : res B :=
  match x with Ok a => k a | Err e => Err e end.

Notation "x <- e ;; k" := (bind e (fun x => k)) (at level 100, e at next level, right associativity).
Notation "' p <- e ;; k" := (bind e (fun p => k)) (at level 100, p pattern, e at next level, right associativity).

(** [assert b]. *)
Definition assertb (b : bool) : res unit := if b then Ok tt else Err AssertionError.

Definition is_ok {A} (r : res A) : bool := match r with Ok _ => true | Err _ => false end.

Fixpoint mapM {A B} (f : A -> res B) (l : list A) : res (list B) :=
  match l with
  | [] => Ok []
  | a :: l' => b <- f a ;; bs <- mapM f l' ;; Ok (b :: bs)
  end.

Fixpoint foldM {A S} (f : S -> A -> res S) (s : S) (l : list A) : res S :=
  match l with
  | [] => Ok s
  | a :: l' => s' <- f s a ;; foldM f s' l'
  end.

(** ** Sequences *)

Definition zlen {A} (l : list A) : Z := Z.of_nat (List.length l).

(** [range(lo, hi)] and [np.arange(lo, hi)]: the integers lo, ..., hi-1. *)
Definition zrange (lo hi : Z) : list Z :=
  List.map (fun k => lo + Z.of_nat k) (List.seq 0 (Z.to_nat (hi - lo))).

(** [l[i]] for a list or 1-D array: negative indices count from the end. *)
Definition py_get {A} (l : list A) (i : Z) : res A :=
  let j := if i <? 0 then i + zlen l else i in
  if (j <? 0) then Err IndexError
  else match nth_error l (Z.to_nat j) with Some a => Ok a | None => Err IndexError end.

(** [l[i] = v] for a 1-D array. *)
Fixpoint upd_nat {A} (l : list A) (n : nat) (v : A) : list A :=
  match l, n with
  | [], _ => []
  | _ :: l', O => v :: l'
  | a :: l', S n' => a :: upd_nat l' n' v
  end.

Definition py_set {A} (l : list A) (i : Z) (v : A) : res (list A) :=
  let j := if i <? 0 then i + zlen l else i in
  if (j <? 0) || (zlen l <=? j) then Err IndexError
  else Ok (upd_nat l (Z.to_nat j) v).

(** [a[idx]] with an integer list: fancy indexing. *)
Definition np_take {A} (l : list A) (idx : list Z) : res (list A) := mapM (py_get l) idx.

(** [a[idx] = vals] with integer lists of the same length: assignments in order. *)
Fixpoint np_put {A} (l : list A) (idx : list Z) (vals : list A) : res (list A) :=
  match idx, vals with
  | i :: idx', v :: vals' => l' <- py_set l i v ;; np_put l' idx' vals'
  | [], [] => Ok l
  | _, _ => Err ValueError
  end.

(** [l[a:b]] with Python slice semantics (negative bounds wrap, then are clipped). *)
Definition slice_bound (n i : Z) : Z :=
  let j := if i <? 0 then i + n else i in Z.max 0 (Z.min n j).
Definition py_slice {A} (l : list A) (a b : Z) : list A :=
  let n := zlen l in
  let a' := slice_bound n a in
  let b' := slice_bound n b in
  List.firstn (Z.to_nat (b' - a')) (List.skipn (Z.to_nat a') l).

Definition zsum (l : list Z) : Z := List.fold_right Z.add 0 l.

(** [np.cumsum]. *)
Fixpoint cumsum_from (acc : Z) (l : list Z) : list Z :=
  match l with [] => [] | x :: l' => (acc + x) :: cumsum_from (acc + x) l' end.
Definition np_cumsum (l : list Z) : list Z := cumsum_from 0 l.

(** [min(l)] / [max(l)]: ValueError on an empty sequence. *)
Definition py_min (l : list Z) : res Z :=
  match l with [] => Err ValueError | x :: l' => Ok (List.fold_left Z.min l' x) end.
Definition py_max (l : list Z) : res Z :=
  match l with [] => Err ValueError | x :: l' => Ok (List.fold_left Z.max l' x) end.

(** Stable sort with a total boolean order (Python's [sorted]). *)
Section Sort.
  Context {A : Type} (leb : A -> A -> bool).
  Fixpoint insert (a : A) (l : list A) : list A :=
    match l with
    | [] => [a]
    | b :: l' => if leb a b then a :: l else b :: insert a l'
    end.
  Fixpoint isort (l : list A) : list A :=
    match l with [] => [] | a :: l' => insert a (isort l') end.
End Sort.

(** [sorted] on integers. *)
Definition zsort (l : list Z) : list Z := isort Z.leb l.

(** Removes equal neighbours; [np.unique] is this after sorting. *)
Fixpoint dedup_adj (l : list Z) : list Z :=
  match l with
  | [] => []
  | a :: l' => match l' with
               | [] => [a]
               | b :: _ => if a =? b then dedup_adj l' else a :: dedup_adj l'
               end
  end.
Definition np_unique (l : list Z) : list Z := dedup_adj (zsort l).

Definition zmem (x : Z) (l : list Z) : bool := existsb (Z.eqb x) l.

(** Equality of integer lists, element by element ([tuple == tuple]). *)
Fixpoint zlist_eqb (a b : list Z) : bool :=
  match a, b with
  | [], [] => true
  | x :: a', y :: b' => (x =? y) && zlist_eqb a' b'
  | _, _ => false
  end.

(** Lexicographic order of integer lists (comparison of Python lists/tuples). *)
Fixpoint zlist_leb (a b : list Z) : bool :=
  match a, b with
  | [], _ => true
  | _ :: _, [] => false
  | x :: a', y :: b' => if x =? y then zlist_leb a' b' else x <? y
  end.

(** ** Dictionaries: insertion ordered association lists. *)
Section Dict.
  Context {K V : Type} (eqb : K -> K -> bool).
  Definition dict := list (K * V).
  Fixpoint dget (k : K) (d : dict) : option V :=
    match d with
    | [] => None
    | (k', v) :: d' => if eqb k k' then Some v else dget k d'
    end.
  Definition dmem (k : K) (d : dict) : bool :=
    match dget k d with Some _ => true | None => false end.
  (** [d[k]]: KeyError if absent. *)
  Definition dget_err (k : K) (d : dict) : res V :=
    match dget k d with Some v => Ok v | None => Err KeyError end.
  (** [d[k] = v]: keeps the position of an existing key, appends a new one. *)
  Fixpoint dset (k : K) (v : V) (d : dict) : dict :=
    match d with
    | [] => [(k, v)]
    | (k', v') :: d' => if eqb k k' then (k', v) :: d' else (k', v') :: dset k v d'
    end.
  (** [d.pop(k)] / [del d[k]] on a present key; identity on an absent one. *)
  Fixpoint dpop (k : K) (d : dict) : dict :=
    match d with
    | [] => []
    | (k', v') :: d' => if eqb k k' then d' else (k', v') :: dpop k d'
    end.
  Definition dkeys (d : dict) : list K := List.map fst d.
  Definition dvals (d : dict) : list V := List.map snd d.
End Dict.
Arguments dict : clear implicits.

(** ** 2-D integer arrays.
    [m_cols = None] is the 1-D array of shape (0,) that [np.array([])] gives;
    [m_cols = Some c] is an array of shape (len rows, c). *)
Record mat : Type := Mat { m_cols : option nat; m_rows : list (list Z) }.

(** [np.array(rows)] for a list of equally long rows (ragged rows: ValueError). *)
Definition mat_of_rows (rows : list (list Z)) : res mat :=
  match rows with
  | [] => Ok (Mat None [])
  | r :: _ =>
      if forallb (fun r' => Nat.eqb (List.length r') (List.length r)) rows
      then Ok (Mat (Some (List.length r)) rows)
      else Err ValueError
  end.

(** [a.shape[0]]. *)
Definition m_nrow (m : mat) : Z := zlen (m_rows m).

(** [np.concatenate((a, b), axis=0)]: dimensions and numbers of columns must agree. *)
Definition np_vcat (a b : mat) : res mat :=
  match m_cols a, m_cols b with
  | None, None => Ok (Mat None (m_rows a ++ m_rows b))
  | Some c, Some c' => if Nat.eqb c c' then Ok (Mat (Some c) (m_rows a ++ m_rows b)) else Err ValueError
  | _, _ => Err ValueError
  end.

(** [a[:, cols].tolist()]: IndexError on a 1-D array or a column out of range. *)
Definition np_cols (m : mat) (cols : list Z) : res (list (list Z)) :=
  match m_cols m with
  | None => Err IndexError
  | Some c =>
      if forallb (fun j => (- Z.of_nat c <=? j) && (j <? Z.of_nat c)) cols
      then mapM (fun row => np_take row cols) (m_rows m)
      else Err IndexError
  end.

(** A matrix as numpy can build it: all rows have the declared number of columns. *)
Definition mat_wf (m : mat) : Prop :=
  match m_cols m with
  | None => m_rows m = []
  | Some c => Forall (fun r => List.length r = c) (m_rows m)
  end.

(** [np.all(a == b)] for 1-D arrays: element-wise with broadcasting of length 1.  Different
    lengths: ValueError (numpy >= 1.25; earlier versions give [False]).  *)
Definition np_all_eq (a b : list Z) : res bool :=
  if Nat.eqb (List.length a) (List.length b) then Ok (zlist_eqb a b)
  else match a, b with
       | [x], _ => Ok (forallb (Z.eqb x) b)
       | _, [y] => Ok (forallb (Z.eqb y) a)
       | _, _ => Err ValueError
       end.
