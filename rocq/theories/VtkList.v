(** * Model of [vtkList] (cfdtools/vtk/_vtkList.py:24-111; [dumphdf] is in [Hdf5], [allexist] in [VtkPack]).

    A VTK file is what pyvista reads from it: cell centres, points, cell data and the field
    "TimeValue".  Positions and distances are abstract: [mdist] is [maths.distance] on one row
    (cfdtools/utils/maths.py:8-10), [kdist] the distance computed by [scipy.spatial.KDTree] and
    [nearest ref p] the index its [query] returns.  Not modelled: messages, timers;
    comparisons with NaN. *)
From Verif Require Export Py Mesh.

Section VtkList.
  Context {P D V T : Type} (mdist kdist : P -> P -> D) (dle : D -> D -> bool)
          (nearest : list P -> P -> Z) (truth : T -> bool).

  (** What [pv.read] gives. *)
  Record vfile : Type := VFile {
    v_centers : list P; v_points : list P; v_data : dict string (list V); v_time : option T }.

  (** [maths.distance(a, b)], maths.py:8-10: rows are subtracted with broadcasting. *)
  Definition distances (a b : list P) : res (list D) :=
    if zlen a =? zlen b then Ok (List.map (fun pq => mdist (fst pq) (snd pq)) (combine a b))
    else match a, b with
         | [x], _ => Ok (List.map (mdist x) b)
         | _, [y] => Ok (List.map (fun x => mdist x y) a)
         | _, _ => Err ValueError
         end.

  (** [np.max]. *)
  Definition dmax2 (x y : D) : D := if dle x y then y else x.
  Definition np_max (l : list D) : res D :=
    match l with [] => Err ValueError | x :: r => Ok (fold_left dmax2 r x) end.
  Definition dgt (x y : D) : bool := negb (dle x y).

  (** [check_order], _vtkList.py:36-53; [pos] selects cell centres or points. *)
  Definition check_order (pos : vfile -> list P) (tol : D) (files : list vfile) : res bool :=
    match files with
    | [] => Err AssertionError
    | f0 :: _ =>
        ds <- mapM (fun f => l <- distances (pos f0) (pos f) ;; np_max l) files ;;
        let count := zlen (filter (fun d => dgt d tol) ds) in
        Ok (count =? 0)
    end.

  (** An entry of a data set. *)
  Inductive dval : Type := DArr (l : list V) | DTime (t : T).

  (** The body of the loop of [read], _vtkList.py:77-111, with the centres of the first file. *)
  Definition pick (names : list string) (data : dict string (list V)) (f : list V -> res (list V))
    : res (dict string dval) :=
    foldM (fun d name => v <- dget_err String.eqb name data ;; w <- f v ;; Ok (dset String.eqb name (DArr w) d))
          [] names.
  Definition read_file (ref : list P) (filterdata : list string) (tol : D) (f : vfile) : res (dict string dval) :=
    let names := match filterdata with [] => dkeys (v_data f) | _ => filterdata end in
    let ctr := v_centers f in
    l <- distances ref ctr ;;
    d <- np_max l ;;
    datalist <-
      (if dgt d tol then
         let index := List.map (nearest ref) ctr in
         rindex <- np_put index index (zrange 0 (zlen index)) ;;
         dfinal <- mapM (fun p => q <- py_get ref (nearest ref p) ;; Ok (kdist q p)) ctr ;;
         dm <- np_max dfinal ;;
         if dgt dm tol then Err ValueError
         else pick names (v_data f) (fun v => np_take v rindex)
       else pick names (v_data f) Ok) ;;
    (* DataSetList.add_datalist, data.py:177-180 *)
    Ok (match v_time f with
        | Some t => if truth t then dset String.eqb "time" (DTime t) datalist else datalist
        | None => datalist
        end).

  (** [read], _vtkList.py:55-117: the data sets of all files. *)
  Definition read_list (filterdata : list string) (tol : D) (files : list vfile) : res (list (dict string dval)) :=
    match files with
    | [] => Err AssertionError
    | f0 :: _ => mapM (read_file (v_centers f0) filterdata tol) files
    end.
End VtkList.
Arguments vfile : clear implicits.
Arguments dval : clear implicits.
