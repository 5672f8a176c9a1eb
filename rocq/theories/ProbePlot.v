(** * Model of the maps of probe lines: [ic3probe_plotline] (cfdtools/_cli.py:328-418) and
    cfdtools/probes/plot.py.

    What is drawn is modelled, not how: colours, labels and messages are left out (in particular
    plot.py:87, whose badly formatted message only prints a complaint on the terminal).
    [plt.contourf] is modelled by the shapes it accepts.  The transforms and the averages are
    parameters. *)
From Coq Require Import Ascii.
From Verif Require Export Py Probes.

Inductive map_kind : Type := TimeMap | FreqMap.

Section Plot.
  Context {F : Type}.
  Notation values := (values (F := F)).
  Notation data := (data (F := F)).
  (** np.average(t[1:] - t[:-1]) ... *)
  Context (dtavg : values -> F).
  (** ... [fftm.fftfreq(n, dt)] ... *)
  Context (fftfreq : Z -> F -> list F).
  (** ... and [np.abs(fftm.fft(x - np.average(x), axis=0))]. *)
  Context (psd : list (list F) -> list (list F)).

  (** A figure: the file it is saved to, the abscissae, the ordinates and the values. *)
  Record figure : Type := Figure { fg_file : string; fg_x : list F; fg_y : list F; fg_z : list (list F) }.

  (** [plt.contourf(x, y, z)] followed by [fig.savefig(name)]: TypeError for shapes that do not fit. *)
  Definition ncols (z : list (list F)) : Z := match z with [] => 0 | r :: _ => zlen r end.
  Definition contourf (name : string) (x y z : values) : res figure :=
    match z with
    | V1 _ => Err TypeError
    | V2 zr =>
        if (zlen zr <? 2) || (ncols zr <? 2) then Err TypeError
        else match x, y with
             | V1 xr, V1 yr => if (zlen xr =? ncols zr) && (zlen yr =? zlen zr) then Ok (Figure name xr yr zr) else Err TypeError
             | _, _ => Err TypeError
             end
    end.

  (** [check_axis], plot.py:13-26: with several lines [list] is given three arguments. *)
  Definition check_axis (a : values) : res values :=
    match a with
    | V1 _ => Ok a
    | V2 _ => if size a =? 0 then Err ValueError else Err TypeError
    end.

  (** [kwargs.get('datalist')[0]]: the option is a string. *)
  Definition first_letter (v : string) : res string :=
    match v with EmptyString => Err IndexError | String c _ => Ok (String c EmptyString) end.

  (** [plot_timemap], plot.py:29-60. *)
  Definition plot_timemap (verbose : bool) (prefix axis datalist : string) (d : data) : res figure :=
    var <- first_letter datalist ;;
    let figname := (prefix ++ "." ++ var ++ ".time.png")%string in
    _ <- (if verbose then _ <- get d axis ;; _ <- get d "time"%string ;; _ <- get d var ;; Ok tt else Ok tt) ;;
    a <- get d axis ;;
    a <- check_axis a ;;
    t <- get d "time"%string ;;
    z <- get d var ;;
    contourf figname a t z.

  (** The steps of a time array: [t[1:] - t[:-1]] is empty. *)
  Definition no_steps (t : values) : bool :=
    match t with V1 r => zlen r <? 2 | V2 rows => (zlen rows <? 2) || (ncols rows =? 0) end.

  (** [plot_freqmap], plot.py:63-104. *)
  Definition plot_freqmap (prefix axis datalist : string) (d : data) : res figure :=
    var <- first_letter datalist ;;
    let figname := (prefix ++ "." ++ var ++ ".freq.png")%string in
    t <- get d "time"%string ;;
    _ <- (if no_steps t then Err ValueError else Ok tt) ;;
    x <- get d var ;;
    let n := match x with V1 r => zlen r | V2 rows => zlen rows end in
    let f := fftfreq n (dtavg t) in
    _ <- (if n =? 0 then Err ValueError else Ok tt) ;;
    a <- get d axis ;;
    a <- check_axis a ;;
    match x with
    | V1 _ => Err IndexError
    | V2 rows => contourf figname a (V1 (py_slice f 1 (n / 200))) (V2 (py_slice (psd rows) 1 (n / 200)))
    end.

  (** [ic3probe_plotline], _cli.py:396-418: the data is checked, then drawn. *)
  Context (check : string -> string -> data -> res bool * data).
  Definition plotline (verbose : bool) (kind : map_kind) (prefix var axis : string) : res figure :=
    match check var prefix [] with
    | (Err e, _) => Err e
    | (Ok _, d) =>
        match check axis prefix d with
        | (Err e, _) => Err e
        | (Ok _, d) =>
            match kind with
            | TimeMap => plot_timemap verbose prefix axis var d
            | FreqMap => plot_freqmap prefix axis var d
            end
        end
    end.
End Plot.
Arguments figure : clear implicits.
