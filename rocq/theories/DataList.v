(** * Model of [DataSetList] (cfdtools/data.py:165-189).

    The dictionaries given to [add_datalist] are objects of the caller; the list keeps references to them.
    An object is a number, [heap] gives its present content.  Values are of type [V]; [truth] is the truth
    value of a time. *)
From Verif Require Export Data.

Section DataList.
  Context {V : Type} (truth : V -> bool).
  Definition heap : Type := Z -> dict string V.
  (** [d[k] = v] on the object [i]. *)
  Definition put (i : Z) (k : string) (v : V) (h : heap) : heap :=
    fun j => if j =? i then dset String.eqb k v (h j) else h j.
  Record dlist : Type := DList { dl_ndataset : Z; dl_xrep : string; dl_trep : string; dl_ndof : Z; dl_entries : list Z }.

  (** [__init__], data.py:172-175, with the checks of [DataSetBase.__init__], data.py:18-24, and the two
      tuples of names of data.py:167-168. *)
  Definition dl_xreps : list string := ["nodal"; "cellaverage"; "spectralcell"]%string.
  Definition dl_treps : list string := ["instant"; "timeevol"; "pod"]%string.
  Definition new_dlist (n : Z) (xrep : string) (ndof : Z) (trep : string) : res dlist :=
    if negb (smem trep dl_treps) then Err AssertionError
    else if negb (smem xrep dl_xreps) then Err AssertionError
    else if negb ((ndof =? 1) || String.eqb xrep "spectralcell") then Err AssertionError
    else Ok (DList n xrep trep ndof []).

  (** [add_datalist], data.py:177-180: the number of entries is not compared with [ndataset]. *)
  Definition add_datalist (i : Z) (time : option V) (hd : heap * dlist) : heap * dlist :=
    let '(h, d) := hd in
    let h := match time with Some t => if truth t then put i "time" t h else h | None => h end in
    (h, DList (dl_ndataset d) (dl_xrep d) (dl_trep d) (dl_ndof d) (dl_entries d ++ [i])).

  (** [dataSet], data.py:182-189: the outcome and the content of the list given as filter.  There is no
      method [keys] nor [dtstats] in this class or the classes above it. *)
  Fixpoint sremove (k : string) (l : list string) : option (list string) :=
    match l with
    | [] => None
    | x :: l' => if String.eqb x k then Some l' else match sremove k l' with Some r => Some (x :: r) | None => None end
    end.
  Definition dl_dataset (filter : option (list string)) : res unit * option (list string) :=
    match filter with
    | None => (Err AttributeError, filter)
    | Some [] => (Err AttributeError, filter)
    | Some l => match sremove "time" l with
                | None => (Err ValueError, filter)
                | Some l' => (Err AttributeError, Some l')
                end
    end.
End DataList.
Arguments heap : clear implicits.
