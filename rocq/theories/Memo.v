(** * Model of [api.memoize] (cfdtools/api.py:190-213).

    The arguments (a tuple) are an abstract type with the equality of Python, which is not identity:
    1, 1.0 and True are equal keys.  The memoized function may have effects on a state [S] and may raise;
    it does not call its own memoized version. *)
From Verif Require Export Py.

Section Memo.
  Context {S A B : Type} (eqb : A -> A -> bool) (hashable : A -> bool) (f : S -> A -> S * res B).

  (** [cache], [hits], [misses], the state of the function, and, to be able to speak about them, the
      arguments with which the function was called. *)
  Record memo : Type := Memo_ { mm_cache : dict A B; mm_hits : Z; mm_misses : Z; mm_state : S; mm_calls : list A }.
  Definition new_memo (s : S) : memo := Memo_ [] 0 0 s [].
  (** [cache_info()], api.py:198-199 (maxsize is always None). *)
  Definition cache_info (m : memo) : Z * Z * Z := (mm_hits m, mm_misses m, zlen (mm_cache m)).

  (** [wrapper], api.py:201-210. *)
  Definition call (m : memo) (a : A) : res B * memo :=
    if negb (hashable a) then (Err TypeError, m)
    else match dget eqb a (mm_cache m) with
         | Some b => (Ok b, Memo_ (mm_cache m) (mm_hits m + 1) (mm_misses m) (mm_state m) (mm_calls m))
         | None =>
             let '(s, r) := f (mm_state m) a in
             let m' := Memo_ (mm_cache m) (mm_hits m) (mm_misses m + 1) s (mm_calls m ++ [a]) in
             match r with
             | Err e => (Err e, m')
             | Ok b => (Ok b, Memo_ (dset eqb a b (mm_cache m)) (mm_hits m) (mm_misses m + 1) s (mm_calls m ++ [a]))
             end
         end.
  (** The outcomes of a sequence of calls (the user catches the exceptions). *)
  Fixpoint call_all (m : memo) (l : list A) : list (res B) * memo :=
    match l with
    | [] => ([], m)
    | a :: l => let '(r, m) := call m a in let '(rs, m) := call_all m l in (r :: rs, m)
    end.
End Memo.
