(** * Model of the spectra of a data set (cfdtools/data.py:108-156).

    Signals are 1-D arrays, given by lists over an abstract type of numbers.  The transforms of numpy are
    parameters; of them only the lengths and the errors are fixed here: [fft] and [rfft] raise ValueError
    on an empty array, [fftfreq] on a negative size, and a product of arrays of different lengths raises
    ValueError unless one of them has length 1.  The quotients [int(ntot / 100)], [int(2 * ntot / nwind)]
    and [int(nwind / 2)] go through a float, which is exact below 2**52: they are integer quotients here.
    The mean step and the logged warning are left out: [fftfreq] takes the times of which it is the
    mean. *)
From Verif Require Export Py.

Section Spectrum.
  Context {F : Type}.
  (** [fftfreq(n, mean(dt))]: n values. [np.abs(fft(x))]: as many values as x. [np.log(np.abs(rfft(x)))]:
      len(x) // 2 + 1 values. *)
  Context (freqs : Z -> list F -> list F) (absfft : list F -> list F) (logrfft : list F -> list F).
  (** [x * y] element by element, and [np.hanning(n)]. *)
  Context (fmul : F -> F -> F) (hanning : Z -> list F).

  (** An array of dimension 1 or 2. *)
  Inductive arr : Type := A1 (v : list F) | A2 (rows : list (list F)).
  (** A data set whose arrays are signals; [Trep]. *)
  Record signals : Type := Sig { sg_trep : string; sg_data : dict string (list F) }.

  (** [l[a:b]] where a bound may be None. *)
  Definition slice_opt (l : list F) (a b : option Z) : list F :=
    py_slice l (match a with Some a => a | None => 0 end) (match b with Some b => b | None => zlen l end).
  (** [l[k::k]] for k > 0: the elements at k, 2k, ... *)
  Definition every (k : Z) (l : list F) : res (list F) :=
    if k =? 0 then Err ValueError else np_take l (List.map (fun i => k * i) (zrange 1 ((zlen l - 1) / k + 1))).
  (** [l[:-1]]. *)
  Definition but_last (l : list F) : list F := py_slice l 0 (-1).
  (** [fftfreq]. *)
  Definition np_fftfreq (n : Z) (t : list F) : res (list F) := if n <? 0 then Err ValueError else Ok (freqs n t).
  Definition np_fft (x : list F) : res (list F) := match x with [] => Err ValueError | _ => Ok (absfft x) end.
  Definition np_rfft (x : list F) : res (list F) := match x with [] => Err ValueError | _ => Ok (logrfft x) end.
  (** Product with broadcasting. *)
  Definition np_mul (x y : list F) : res (list F) :=
    match x, y with
    | [a], _ => Ok (List.map (fmul a) y)
    | _, [b] => Ok (List.map (fun a => fmul a b) x)
    | _, _ => if zlen x =? zlen y then Ok (List.map (fun '(a, b) => fmul a b) (combine x y)) else Err ValueError
    end.
  (** [l.remove(x)]. *)
  Fixpoint py_remove (x : string) (l : list string) : res (list string) :=
    match l with
    | [] => Err ValueError
    | y :: l => if String.eqb x y then Ok l else l <- py_remove x l ;; Ok (y :: l)
    end.

  (** [dtstats], data.py:108-112: the selected times; their number is [t.shape[0]]. *)
  Definition dtstats (s : signals) (imin imax : option Z) : res (list F) :=
    match dget String.eqb "time"%string (sg_data s) with
    | Some t => if String.eqb (sg_trep s) "timeevol" then Ok (slice_opt t imin imax) else Err AssertionError
    | None => Err AssertionError
    end.

  (** [datafilter if datafilter else list(self.keys())]. *)
  Definition datalist (s : signals) (datafilter : option (list string)) : list string :=
    match datafilter with Some (n :: l) => n :: l | _ => dkeys (sg_data s) end.

  (** [dataSet_spectrum], data.py:120-131: the data of the new data set.  The list given by the caller
      loses its entry 'time' ([datafilter] is used in place): see [spectrum_filter]. *)
  Definition spectrum (s : signals) (datafilter : option (list string)) (imin imax : option Z) : res (dict string arr) :=
    t <- dtstats s imin imax ;;
    f <- np_fftfreq (zlen t) t ;;
    names <- py_remove "time"%string (datalist s datafilter) ;;
    foldM (fun d name => x <- dget_err String.eqb name (sg_data s) ;; v <- np_fft x ;; Ok (dset String.eqb name (A1 v) d))
      [("freq"%string, A1 f)] names.
  (** The list of the caller afterwards. *)
  Definition spectrum_filter (s : signals) (datafilter : list string) (imin imax : option Z) : list string :=
    match datafilter, dtstats s imin imax with
    | _ :: _, Ok _ => match py_remove "time"%string datafilter with Ok l => l | Err _ => datafilter end
    | _, _ => datafilter
    end.

  (** [v[i, :] = ...], data.py:150-153: one row; a row of another length is broadcast if it has one
      element, otherwise an error. *)
  Definition gram_row (hwin : Z) (x : list F) (i : Z) : res (list F) :=
    p <- np_mul (py_slice x (hwin * i) (hwin * (i + 2) + 1)) (hanning (2 * hwin + 1)) ;;
    r <- np_rfft p ;;
    let r := py_slice r 2 (zlen r) in
    if zlen r =? hwin - 1 then Ok r
    else match r with [a] => Ok (repeat a (Z.to_nat (hwin - 1))) | _ => Err ValueError end.
  (** [dataSet_spectrogram], data.py:133-156; [np.zeros((nit, hwin - 1))] refuses negative sizes. *)
  Definition spectrogram (s : signals) (datafilter : option (list string)) (window : option Z) : res (dict string arr) :=
    names <- py_remove "time"%string (datalist s datafilter) ;;
    t <- dtstats s None None ;;
    let ntot := zlen t in
    let nwind := match window with Some w => if w =? 0 then ntot / 100 else w | None => ntot / 100 end in
    let hwin := Z.quot nwind 2 in
    f <- np_fftfreq nwind t ;;
    let d := [("freq"%string, A1 (py_slice f 2 (hwin + 1)))] in
    if nwind =? 0 then Err ZeroDivisionError else
    let nit := Z.quot (2 * ntot) nwind - 1 in
    tt <- every hwin t ;;
    let d := dset String.eqb "time"%string (A1 (but_last tt)) d in
    foldM (fun d name =>
        rows <- (if (nit <? 0) || (hwin - 1 <? 0) then Err ValueError
                 else mapM (fun i => x <- dget_err String.eqb name (sg_data s) ;; gram_row hwin x i) (zrange 0 nit)) ;;
        Ok (dset String.eqb name (A2 rows) d))
      d names.
End Spectrum.
