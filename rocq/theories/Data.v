(** * Model of [DataSet] (cfdtools/data.py:14-106) and of the arrays it stores.

    An array is its shape, its kind (int64, or float64 given by 64-bit patterns) and its values in C
    order. *)
From Verif Require Export Py.

Record array : Type := Arr { a_shape : list Z; a_int : bool; a_val : list Z }.
(** [a.size]. *)
Definition a_size (a : array) : Z := zlen (a_val a).
(** The values fill the shape. *)
Definition a_wf (a : array) : Prop := zlen (a_val a) = fold_right Z.mul 1 (a_shape a).

(** Numbers stored next to the data: Python ints and floats (by their pattern). *)
Inductive num : Type := NInt (n : Z) | NFlt (p : Z).
(** [bool(x)]: zero is false, and both float zeros are. *)
Definition num_true (x : num) : bool :=
  match x with NInt n => negb (n =? 0) | NFlt p => negb ((p =? 0) || (p =? 2 ^ 63)) end.

(** [DataSet.__init__], data.py:18-24 and 82-84, without the geometric properties. *)
Record dataset : Type := DS {
  ds_trep : string; ds_xrep : string; ds_ndof : Z; ds_props : dict string num; ds_data : dict string array }.

(** [_available_Xrep], [_available_Trep] of [DataSet], data.py:79-80. *)
Definition ds_xreps : list string := ["nodal"; "cellaverage"; "spectralcell"].
Definition ds_treps : list string := ["instant"; "timeevol"; "spectrum"; "spectrogram"].
Definition smem (s : string) (l : list string) : bool := existsb (String.eqb s) l.

(** Setters, data.py:30-52: the object next to the result, unchanged when the assertion fails. *)
Definition set_xrep (x : string) (d : dataset) : res unit * dataset :=
  if smem x ds_xreps then (Ok tt, DS (ds_trep d) x (ds_ndof d) (ds_props d) (ds_data d)) else (Err AssertionError, d).
Definition set_trep (t : string) (d : dataset) : res unit * dataset :=
  if smem t ds_treps then (Ok tt, DS t (ds_xrep d) (ds_ndof d) (ds_props d) (ds_data d)) else (Err AssertionError, d).
Definition set_ndof (n : Z) (d : dataset) : res unit * dataset :=
  if (n =? 1) || String.eqb (ds_xrep d) "spectralcell"
  then (Ok tt, DS (ds_trep d) (ds_xrep d) n (ds_props d) (ds_data d)) else (Err AssertionError, d).

(** The constructor. *)
Definition new_dataset (xrep : string) (ndof : Z) (trep : string) : res dataset :=
  let d := DS "" "" 0 [] [] in
  let '(r, d) := set_trep trep d in _ <- r ;;
  let '(r, d) := set_xrep xrep d in _ <- r ;;
  let '(r, d) := set_ndof ndof d in _ <- r ;;
  Ok d.

(** [add_data], data.py:86-89. *)
Definition add_data (name : string) (a : array) (time : option num) (d : dataset) : dataset :=
  let props := match time with
               | Some t => if num_true t then dset String.eqb "time" t (ds_props d) else ds_props d
               | None => ds_props d
               end in
  DS (ds_trep d) (ds_xrep d) (ds_ndof d) props (dset String.eqb name a (ds_data d)).
