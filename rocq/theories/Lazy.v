(** * Model of [utils._dev.lazyprop] (cfdtools/utils/_dev.py:4-14) and of its use in [poly1d]
    (cfdtools/utils/polybase.py:14-41).

    An object is its attributes [s : S] other than the caches, and the caches: the attribute
    [_cache_<name>] of each property that has one.  The function of a property may read the attributes and
    other properties; it is given by what it asks and what it does with the answers, and it does not
    change the attributes.  [fuel] is the depth of the Python stack: going deeper is a RecursionError,
    here OutOfFuel.  Every computation of a property that returns is recorded in a list of calls. *)
From Verif Require Export Py.

Section Lazy.
  Context {S V : Type}.

  (** What a function does: it returns or raises, or reads a property and goes on with the outcome. *)
  Inductive body : Type := Ret (r : res V) | Ask (name : string) (k : res V -> body).
  Context (fns : string -> option (S -> body)).
  Definition caches : Type := dict string V.

  (** Reading the property [name], _dev.py:9-12: the outcome, the caches, and the names of the properties
      whose function returned a value, in order. *)
  Fixpoint get (fuel : nat) (name : string) (s : S) (c : caches) : res V * caches * list string :=
    match fuel with
    | O => (Err OutOfFuel, c, [])
    | Datatypes.S n =>
        match dget String.eqb name c with
        | Some v => (Ok v, c, [])
        | None =>
            match fns name with
            | None => (Err AttributeError, c, [])
            | Some f =>
                let '(r, c, l) := (fix run (b : body) (c : caches) : res V * caches * list string :=
                    match b with
                    | Ret r => (r, c, [])
                    | Ask m k => let '(r, c, l) := get n m s c in
                                 let '(r', c, l') := run (k r) c in (r', c, l ++ l')
                    end) (f s) c in
                match r with
                | Ok v => (Ok v, dset String.eqb name v c, l ++ [name])
                | Err e => (Err e, c, l)
                end
            end
        end
    end.

  (** What the user does with an object: read a property, or change the attributes. *)
  Inductive act : Type := Read (name : string) | Change (f : S -> S).
  Definition do_act (fuel : nat) (a : act) (s : S) (c : caches) : S * caches * list string :=
    match a with
    | Read n => let '(_, c, l) := get fuel n s c in (s, c, l)
    | Change f => (f s, c, [])
    end.
  Fixpoint do_acts (fuel : nat) (l : list act) (s : S) (c : caches) : S * caches * list string :=
    match l with
    | [] => (s, c, [])
    | a :: l' => let '(s, c, k) := do_act fuel a s c in let '(s, c, k') := do_acts fuel l' s c in (s, c, k ++ k')
    end.
End Lazy.
Arguments body : clear implicits.
Arguments caches : clear implicits.
Arguments act : clear implicits.

(** ** [poly1d], with the roots as attributes, the matrices [M] and the inverse [inv] (LinAlgError is
    given as ValueError). *)
Section Poly1d.
  Context {R M W X : Type} (vdm_of : R -> M) (inv : M -> option M) (mul : M -> X -> W).
  (** [vdm], [invvdm], polybase.py:23-30. *)
  Definition poly_fns (name : string) : option (R -> body M) :=
    if String.eqb name "vdm" then Some (fun r => Ret (Ok (vdm_of r)))
    else if String.eqb name "invvdm" then
      Some (fun _ => Ask "vdm" (fun v => match v with
                                          | Ok v => match inv v with Some m => Ret (Ok m) | None => Ret (Err ValueError) end
                                          | Err e => Ret (Err e)
                                          end))
    else None.
  (** [interp_weights], [diff_weights], polybase.py:32-41, where [x] stands for the values of the basis (or of
      its derivatives): the weights and the caches. *)
  Definition weights (fuel : nat) (x : X) (r : R) (c : caches M) : res W * caches M :=
    let '(m, c, _) := get poly_fns fuel "invvdm" r c in (m <- m ;; Ok (mul m x), c).
End Poly1d.
