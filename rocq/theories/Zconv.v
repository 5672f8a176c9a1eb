(** * Model of [vtkMesh.vtk_zconvolution] (cfdtools/vtk/_vtk.py:235-354).

    Floating-point arithmetic is abstract.  [xypos] and [zpos] are what the function [splitcoords] gives
    for the cell centres; [gap a b] is [abs(b - a) > tol]; [argsort] is [np.argsort];
    [uneven planes] is [np.std] of the distances between the mean positions of the planes [> tol];
    [nearest] and [kdist] are the index and the distance given by [scipy.spatial.KDTree];
    [dle d tol] compares distances; [spread col] is [np.std(..., axis=0) > tol] on the positions of one
    column.  [avg], [rms], [mode i] and [phase i] are [np.average], [np.std], and the modulus and the
    argument of coefficient [i] of [np.fft.fft], on the values of one column.  Not modelled: messages,
    timers, [splitcoords] that is not callable, options that are neither boolean nor integer. *)
From Coq Require Import Ascii.
From Verif Require Export Py Mesh Vtk Files.
From Verif Require Import VtkList.

Section Zconv.
  Context {P S D V Q : Type}.
  Context (gap : S -> S -> bool) (argsort : list S -> list Z) (uneven : list (list S) -> bool)
          (nearest : list P -> P -> Z) (kdist : P -> P -> D) (dle : D -> D -> bool) (tol : D)
          (spread : list P -> bool)
          (avg rms : list V -> V) (mode phase : Z -> list V -> V).

  (** ** Options, _vtk.py:252-277 *)
  Inductive oval : Type := OB (b : bool) | OI (n : Z).
  Inductive sitem : Type := IStr (s : string) | IDict (d : dict string oval).
  Inductive sval : Type := SStr (s : string) | SList (l : list sitem).

  Definition options0 (rms_ phase_ snapshot : bool) (nmode : Z) : dict string oval :=
    [ ("avg", OB true); ("rms", OB rms_); ("phase", OB phase_); ("nmode", OI nmode); ("snapshot", OB snapshot) ]%string.
  Definition apply_item (o : dict string oval) (i : sitem) : dict string oval :=
    match i with
    | IStr s => if String.eqb s "no_avg" then dset String.eqb "avg"%string (OB false) o else dset String.eqb s (OB true) o
    | IDict d => fold_left (fun o kv => dset String.eqb (fst kv) (snd kv) o) d o
    end.
  Definition items_of (v : sval) : list sitem := match v with SStr s => [IStr s] | SList l => l end.
  Definition directives (cur : dict string oval) (select : option (dict string sval)) (names : list string)
    : res (dict string (dict string oval)) :=
    match select with
    | None => Ok (List.map (fun n => (n, cur)) names)
    | Some sel =>
        foldM (fun d '(key, value) =>
          if existsb (String.eqb key) names
          then Ok (dset String.eqb key (fold_left apply_item (items_of value) cur) d)
          else Err ValueError) [] sel
    end.

  (** ** Planes, _vtk.py:279-311 *)

  (** [np.abs(np.diff(z)) > tol]. *)
  Fixpoint gaps (zs : list S) : list bool :=
    match zs with a :: ((b :: _) as r) => gap a b :: gaps r | _ => [] end.
  (** [np.where(b)[0]]. *)
  Fixpoint where_from (k : Z) (bs : list bool) : list Z :=
    match bs with [] => [] | b :: r => (if b then [k] else []) ++ where_from (k + 1) r end.
  (** [np.split(l, cuts)]. *)
  Fixpoint split_from {A} (l : list A) (prev : Z) (cuts : list Z) : list (list A) :=
    match cuts with
    | [] => [py_slice l prev (zlen l)]
    | c :: r => py_slice l prev c :: split_from l c r
    end.

  Definition planes (zpos : list S) : res (list (list Z)) :=
    let isort := argsort zpos in
    zs <- np_take zpos isort ;;
    let ichunk := List.map (fun k => k + 1) (where_from 0 (gaps zs)) in
    let nchunk := zlen ichunk + 1 in
    if nchunk <=? 1 then Err ValueError
    else
      let chunks := split_from isort 0 ichunk in
      match chunks with
      | [] => Err ValueError
      | c0 :: r =>
          if negb (forallb (fun c => zlen c =? zlen c0) r) then Err ValueError
          else
            zp <- mapM (np_take zpos) chunks ;;
            if uneven zp then Err ValueError else Ok chunks
      end.

  (** ** Matching of the planes, _vtk.py:312-333 *)
  Definition match_plane (xypos : list P) (ref : list P) (n : Z) (chunk : list Z) : res (list Z) :=
    pos <- np_take xypos chunk ;;
    dfinal <- mapM (fun p => q <- py_get ref (nearest ref p) ;; Ok (kdist q p)) pos ;;
    dm <- np_max dle dfinal ;;
    if dgt dle dm tol then Err ValueError
    else np_put (List.map (fun _ => 0) (zrange 0 n)) (List.map (nearest ref) pos) chunk.
  (** Column [j] of a table. *)
  Definition column {A} (rows : list (list A)) (j : Z) : res (list A) := mapM (fun r => py_get r j) rows.
  Definition ikplanes (xypos : list P) (chunks : list (list Z)) : res (list (list Z)) :=
    match chunks with
    | [] => Err IndexError
    | c0 :: r =>
        ref <- np_take xypos c0 ;;
        rows <- mapM (match_plane xypos ref (zlen c0)) r ;;
        let ik := c0 :: rows in
        cols <- mapM (fun j => ids <- column ik j ;; np_take xypos ids) (zrange 0 (zlen c0)) ;;
        if existsb spread cols then Err ValueError else Ok ik
    end.

  (** ** Data, _vtk.py:334-354 *)
  Definition opt (o : dict string oval) (k : string) : res oval := dget_err String.eqb k o.
  Definition otruth (v : oval) : bool := match v with OB b => b | OI n => negb (n =? 0) end.
  Definition oint (v : oval) : Z := match v with OB b => if b then 1 else 0 | OI n => n end.
  Definition kname (name : string) (i : Z) : string := (name ++ "_k" ++ dec (Z.to_nat i))%string.

  Definition data_of (ik : list (list Z)) (cell_data : dict string (list V)) (out : dict string (list V))
    (no : string * dict string oval) : res (dict string (list V)) :=
    let '(name, o) := no in
    vals <- dget_err String.eqb name cell_data ;;
    data <- mapM (np_take vals) ik ;;
    data0 <- py_get data 0 ;;
    cols <- mapM (column data) (zrange 0 (zlen data0)) ;;
    var_nmode <- opt o "nmode" ;;
    snap <- opt o "snapshot" ;;
    let out := if otruth snap then dset String.eqb name data0 out else out in
    av <- opt o "avg" ;;
    let out := if otruth av then dset String.eqb (name ++ "_avg")%string (List.map avg cols) out else out in
    out <- (if oint var_nmode >? 0 then
      foldM (fun out i =>
        if i <? zlen data then
          let out := dset String.eqb (kname name i) (List.map (mode i) cols) out in
          ph <- opt o "phase" ;;
          Ok (if otruth ph then dset String.eqb (kname name i ++ "_phase")%string (List.map (phase i) cols) out else out)
        else Err IndexError) out (zrange 1 (oint var_nmode + 1))
      else Ok out) ;;
    rm <- opt o "rms" ;;
    Ok (if otruth rm then dset String.eqb (name ++ "_rms")%string (List.map rms cols) out else out).

  Definition zconvolution (enum : list Z -> list Z) (junk : Z -> Z) (g : grid Q) (xypos : list P) (zpos : list S)
    (cell_data : dict string (list V)) (rms_ phase_ snapshot : bool) (nmode : Z) (select : option (dict string sval))
    : res (grid Q * dict string (list V)) :=
    ds <- directives (options0 rms_ phase_ snapshot nmode) select (dkeys cell_data) ;;
    chunks <- planes zpos ;;
    ik <- ikplanes xypos chunks ;;
    c0 <- py_get chunks 0 ;;
    new <- extract_cells enum junk g c0 ;;
    out <- foldM (data_of ik cell_data) [] ds ;;
    Ok (new, out).
End Zconv.
