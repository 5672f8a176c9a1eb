(** * Model of the probe data (cfdtools/probes/data.py:23-138).

    The numbers and the arithmetic of the derived quantities are parameters.  Log messages are left out,
    but the minimum that is logged is not: on an empty array it raises ValueError. *)
From Verif Require Export Py.

(** [dependency_vars], data.py:24-31. *)
Definition dependency_vars : dict string (list string) :=
  [("Asound", ["P"; "RHO"]); ("S", ["P"; "RHO"]); ("Mach", ["U"; "Asound"]); ("U", ["U-X"; "U-Y"; "U-Z"]);
   ("INVX+", ["U-X"; "Asound"]); ("INVX-", ["U-X"; "Asound"])]%string.

Section Probes.
  Context {F : Type}.
  (** A row of numbers, or several rows. *)
  Inductive values : Type := V1 (row : list F) | V2 (rows : list (list F)).
  (** What [np.genfromtxt] gives: a single number, one line (or one column), or a table. *)
  Inductive rdata : Type := R0 (x : F) | R1 (row : list F) | R2 (rows : list (list F)).

  (** Parameters: the formulas of data.py:48-67 (ValueError for shapes that do not fit) ... *)
  Context (mag : values -> values -> values -> res values)   (* sqrt(x**2 + y**2 + z**2) *)
          (quot : values -> values -> res values)            (* u / a *)
          (sound : values -> values -> res values)           (* sqrt(1.4 * p / rho) *)
          (invp invm : values -> values -> res values)       (* 5 * a + u, 5 * a - u, arguments u, a *)
          (entropy : values -> values -> res values).        (* 1 / 0.4 * log(p / rho**1.4) *)
  (** ... the test [np.allclose(first, np.average(rows, axis=0))] ... *)
  Context (steady : list F -> list (list F) -> bool).
  (** ... and the files: None if there is no such file. *)
  Context (files : string -> option rdata).

  Definition data : Type := dict string values.
  Definition get (d : data) (k : string) : res values := dget_err String.eqb k d.
  Definition put (k : string) (v : values) (d : data) : data := dset String.eqb k v d.

  (** [compute_varname[varname]()], data.py:48-67. *)
  Definition compute (v : string) (d : data) : res values :=
    if String.eqb v "U" then x <- get d "U-X"%string ;; y <- get d "U-Y"%string ;; z <- get d "U-Z"%string ;; mag x y z
    else if String.eqb v "Mach" then u <- get d "U"%string ;; a <- get d "Asound"%string ;; quot u a
    else if String.eqb v "Asound" then p <- get d "P"%string ;; r <- get d "RHO"%string ;; sound p r
    else if String.eqb v "INVX+" then a <- get d "Asound"%string ;; u <- get d "U-X"%string ;; invp u a
    else if String.eqb v "INVX-" then a <- get d "Asound"%string ;; u <- get d "U-X"%string ;; invm u a
    else if String.eqb v "S" then p <- get d "P"%string ;; r <- get d "RHO"%string ;; entropy p r
    else Err KeyError.

  (** [np.min] of an empty array. *)
  Definition size (v : values) : Z := match v with V1 row => zlen row | V2 rows => zsum (List.map zlen rows) end.
  Definition log_stats (v : values) : res unit := if size v =? 0 then Err ValueError else Ok tt.

  (** [row[3:]]. *)
  Definition after3 (row : list F) : list F := skipn 3 row.
  Definition coordinates : list string := ["X"; "Y"; "Z"]%string.

  (** [read_data], data.py:95-136.  The data next to the outcome: it may have changed before an error. *)
  Definition read_data (v prefix : string) (coord : bool) (d : data) : res bool * data :=
    match files (prefix ++ "." ++ v)%string with
    | None => (Ok false, d)
    | Some (R0 _) => (Err RuntimeError, d)   (* shutil.Error *)
    | Some (R1 row) => (Ok true, put v (V1 (after3 row)) d)
    | Some (R2 rows) =>
        if coord then
          match rows with
          | [] => (Err IndexError, d)
          | first :: _ =>
              let d := put v (V1 (after3 first)) d in
              if steady (after3 first) (List.map after3 rows) then (Ok true, d) else (Err AssertionError, d)
          end
        else
          let d := put v (V2 (List.map after3 rows)) d in
          if dmem String.eqb "time"%string d then (Ok true, d)
          else match mapM (fun row => py_get row 1) rows with
               | Ok t => (Ok true, put "time"%string (V1 t) d)
               | Err e => (Err e, d)
               end
    end.

  (** [check_data], data.py:69-93; [fuel] bounds the depth of the recursion. *)
  Fixpoint check_data (fuel : nat) (v prefix : string) (d : data) : res bool * data :=
    let finish (d : data) := match (x <- get d v ;; log_stats x) with Ok _ => (Ok true, d) | Err e => (Err e, d) end in
    if dmem String.eqb v d then finish d
    else
      match read_data v prefix (existsb (String.eqb v) coordinates) d with
      | (Err e, d) => (Err e, d)
      | (Ok true, d) => finish d
      | (Ok false, d) =>
          match dget String.eqb v dependency_vars with
          | None => (Err NameError, d)
          | Some deps =>
              match fuel with
              | O => (Err OutOfFuel, d)
              | S fuel =>
                  let '(r, d) := (fix all (deps : list string) (d : data) : res bool * data :=
                     match deps with
                     | [] => (Ok true, d)
                     | dep :: deps =>
                         match check_data fuel dep prefix d with
                         | (Err e, d) => (Err e, d)
                         | (Ok b, d) => match all deps d with (Ok b', d) => (Ok (b && b'), d) | (Err e, d) => (Err e, d) end
                         end
                     end) deps d in
                  match r with
                  | Err e => (Err e, d)
                  | Ok false => (Err NameError, d)
                  | Ok true => match compute v d with Ok x => finish (put v x d) | Err e => (Err e, d) end
                  end
              end
          end
      end.
End Probes.
