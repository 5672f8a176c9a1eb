(** * Statements about programs with shared index lists. *)
From Verif Require Import Py IndexList Conn IndexHeap.

(** What an index list of the memory is, as a value. *)
Definition view_rep (ls : list (list Z)) (r : rep) : option indexlist :=
  match r with
  | RNone => Some ILnone
  | RRange l => match nth_error ls l with Some [lo; hi] => Some (ILrange lo hi) | _ => None end
  | RList l => match nth_error ls l with Some v => Some (ILlist v) | None => None end
  end.
Definition view (s : mem) (o : loc) : option indexlist := match nth_error (objs s) o with Some r => view_rep (lists s) r | None => None end.
(** An entry of a connectivity of the memory, as a value. *)
Definition entry_ok (s : mem) (a : string * (loc * mat)) (b : string * edict) : Prop :=
  fst b = fst a /\ ed_e2n (snd b) = snd (snd a) /\ view s (fst (snd a)) = Some (ed_index (snd b)).
(** What a variable refers to is this value. *)
Definition seen (s : mem) (x : var) (v : pval) : Prop :=
  match nth_error (vars s) x, v with
  | Some VNone, PNone => True
  | Some (VList l), PList w => nth_error (lists s) l = Some w
  | Some (VObj o), PIdx il => view s o = Some il
  | Some (VConn c), PConn ec => exists d, nth_error (conns s) c = Some (ec_nelem ec, d) /\ Forall2 (entry_ok s) d (ec_dict ec)
  | _, _ => False
  end.
(** Same outcome: success, or the same exception. *)
Definition same_outcome {A B} (a : res A) (b : res B) : Prop :=
  match a, b with Ok _, Ok _ => True | Err e, Err e' => e = e' | _, _ => False end.

(** The variables a command uses as an index list or a list. *)
Definition uses (k : cmd) : list var :=
  match k with
  | CNew _ | CMake | CConn => []
  | CMut x _ | CMakeRange x | CMakeList x => [x]
  | CSetRange y x | CSetList y x | CAppend y x => [y; x]
  | CList y | CRange y | CShift y _ | CCompress y => [y]
  | CAdd y z => [y; z]
  | CAddElems c _ _ (Some y) => [c; y]
  | CAddElems c _ _ None => [c]
  end.
(** The command makes the list [x] part of an index list, or the index list [x] part of a connectivity. *)
Definition keeps_list (k : cmd) (x : var) : Prop := k = CMakeList x \/ exists y, k = CSetList y x.
Definition gives (k : cmd) (x : var) : Prop := exists c t m, k = CAddElems c t m (Some x).
(** A program in which a list that is part of an index list (kept by it, or its own range) is not changed any more,
    and an index list given to a connectivity is not used any more. *)
Definition disciplined (p : list cmd) : Prop :=
  forall i k, nth_error p i = Some k ->
    (forall x v, k = CMut x v -> (forall j k', (j < i)%nat -> nth_error p j = Some k' -> ~ keeps_list k' x) /\ forall y, nth_error p x <> Some (CRange y)) /\
    (forall x, In x (uses k) -> forall j k', (j < i)%nat -> nth_error p j = Some k' -> ~ gives k' x).

(** The command changes the index list that variable [y] refers to, or hands it over. *)
Definition changes (k : cmd) (y : var) : Prop :=
  (exists x, k = CSetRange y x) \/ (exists x, k = CSetList y x) \/ (exists x, k = CAppend y x) \/ k = CCompress y \/ gives k y.
(** The index list at [o] is the one this command works on: the receiver of a method that changes it, or the index
    list a connectivity holds for the type that elements are added to. *)
Definition receiver (s : mem) (k : cmd) (o : loc) : Prop :=
  (exists y, nth_error (vars s) y = Some (VObj o) /\ ((exists x, k = CSetRange y x) \/ (exists x, k = CSetList y x) \/ (exists x, k = CAppend y x) \/ k = CCompress y)) \/
  (exists c t m i lc n d m0, k = CAddElems c t m i /\ nth_error (vars s) c = Some (VConn lc) /\ nth_error (conns s) lc = Some (n, d) /\ In (t, (o, m0)) d).
(** The memory after a program. *)
Definition after (p : list cmd) : mem := fst (run mem0 p).
