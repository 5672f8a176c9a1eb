(** * Model of class [indexlist] (cfdtools/meshbase/_connectivity.py:13-109). *)
From Verif Require Export Py.

(** The attributes [_type], [_list], [_range] of an [indexlist].
    - [ILnone]: [_type = None] (built with no argument), _connectivity.py:22-28.
    - [ILrange lo hi]: [_type = 'range'], [_range = [lo, hi]], both included, :50-54.
    - [ILlist l]: [_type = 'list'] holding integers, :74-77.
    - [ILboxed l]: [_type = 'list'] holding one-element lists [[i]].  Only
      [importfrom_compressedindex] builds it (:273-276: [np.argwhere] gives a column, and
      [_listof] calls [tolist()] on it).
    Simplifications: [_range] is a pair (the code takes any sequence and only uses its first
    two entries); sharing of the Python list between the caller and the object is not
    modelled, values are copied. *)
Inductive indexlist : Type :=
| ILnone
| ILrange (lo hi : Z)
| ILlist (l : list Z)
| ILboxed (l : list Z).

(** [indexlist.__init__], _connectivity.py:22-28. *)
Definition il_make (irange : option (Z * Z)) (ilist : option (list Z)) : res indexlist :=
  match irange, ilist with
  | None, None => Ok ILnone
  | Some (lo, hi), None => Ok (ILrange lo hi)
  | None, Some l => Ok (ILlist l)
  | Some _, Some _ => Err AssertionError
  end.

(** The integers carried by [indexlist.list()], _connectivity.py:56-62, whether or not each is
    boxed in a one-element list. *)
Definition il_entries (il : indexlist) : res (list Z) :=
  match il with
  | ILrange lo hi => Ok (zrange lo (hi + 1))
  | ILlist l => Ok l
  | ILboxed l => Ok l
  | ILnone => Err RuntimeError
  end.

(** [indexlist.list()] where the caller goes on with integers (arithmetic, hashing): with boxed
    entries Python raises TypeError ("can only concatenate list", "unhashable type"). *)
Definition il_list (il : indexlist) : res (list Z) :=
  match il with
  | ILboxed _ => Err TypeError
  | _ => il_entries il
  end.

Definition il_boxed (il : indexlist) : bool :=
  match il with ILboxed _ => true | _ => false end.

(** [indexlist.size], _connectivity.py:34-36. *)
Definition il_size (il : indexlist) : res Z :=
  match il with
  | ILlist l | ILboxed l => Ok (zlen l)
  | ILrange lo hi => Ok (hi - lo + 1)
  | ILnone => Err AttributeError
  end.

(** [indexlist.range()], _connectivity.py:44-48. *)
Definition il_range (il : indexlist) : res (Z * Z) :=
  match il with
  | ILrange lo hi => Ok (lo, hi)
  | _ => Err RuntimeError
  end.

(** [indexlist.append(ilist)], _connectivity.py:79-82, with a list of integers.
    Simplification: appending integers to boxed entries is the error TypeError here; Python
    builds a mixed list and raises TypeError at its first sort or set operation. *)
Definition il_append (il : indexlist) (l' : list Z) : res indexlist :=
  match il with
  | ILboxed _ => Err TypeError
  | _ => l <- il_entries il ;; Ok (ILlist (l ++ l'))
  end.

(** [indexlist.append(other.list())] as [add_elems] calls it (_connectivity.py:184): like
    [il_append], but two boxed lists can be concatenated. *)
Definition il_append_il (il other : indexlist) : res indexlist :=
  l' <- il_entries other ;;
  l <- il_entries il ;;
  match il_boxed il, il_boxed other with
  | false, false => Ok (ILlist (l ++ l'))
  | true, true => Ok (ILboxed (l ++ l'))
  | _, _ => Err TypeError
  end.

(** [indexlist.shift(i)], _connectivity.py:84-88: the result is [None] on an untyped object. *)
Definition il_shift (il : indexlist) (i : Z) : res (option indexlist) :=
  match il with
  | ILrange lo hi => Ok (Some (ILrange (lo + i) (hi + i)))
  | ILlist l => Ok (Some (ILlist (List.map (fun j => j + i) l)))
  | ILboxed [] => Ok (Some (ILboxed []))
  | ILboxed _ => Err TypeError
  | ILnone => Ok None
  end.

(** [indexlist.compress()], _connectivity.py:90-95.  [self._list[0]] on an empty list raises
    IndexError; on boxed entries [[i] + n] raises TypeError. *)
Definition il_compress (il : indexlist) : res indexlist :=
  match il with
  | ILlist l =>
      first <- py_get l 0 ;;
      if zlist_eqb l (zrange first (first + zlen l))
      then last <- py_get l (-1) ;; Ok (ILrange first last)
      else Ok il
  | ILboxed [] => Err IndexError
  | ILboxed _ => Err TypeError
  | _ => Ok il
  end.

(** [indexlist.__getitem__], _connectivity.py:97-98, with an integer. *)
Definition il_getitem (il : indexlist) (k : Z) : res Z :=
  l <- il_list il ;; py_get l k.

(** [indexlist.__add__], _connectivity.py:100-102. *)
Definition il_add (a b : indexlist) : res indexlist :=
  la <- il_list a ;; lb <- il_list b ;; Ok (ILlist (la ++ lb)).
