(** * Model of the command lines: the parsers built by [cli_argparser] (cfdtools/_cli.py:54-113, 203-208) and what
    [argparse.ArgumentParser.parse_args] does with them.

    [argparse] belongs to Python; the model follows the version 3.11 (the same in 3.12.0): classification of the
    words, abbreviations, '--', options and one positional.  The words are ASCII; a newline at the end of a negative
    number is not considered.  An error prints a message and exits with status 2, the help exits with status 0. *)
From Verif Require Export Py Cli.
From Coq Require Import Ascii.
Local Open Scope string_scope.

Inductive outcome (A : Type) : Type := Done (a : A) | Exit (status : Z) | Stuck.
Arguments Done {A} _. Arguments Exit {A} _. Arguments Stuck {A}.
Definition obind {A B} (x : outcome A) (k : A -> outcome B) : outcome B :=
  match x with Done a => k a | Exit c => Exit c | Stuck => Stuck end.
Notation "x <<- e ;; k" := (obind e (fun x => k)) (at level 100, e at next level, right associativity).
Notation "' p <<- e ;; k" := (obind e (fun p => k)) (at level 100, p pattern, e at next level, right associativity).

(** ** Words *)
Definition dash : ascii := "-"%char.
Definition is_digit (c : ascii) : bool := let n := nat_of_ascii c in Nat.leb 48 n && Nat.leb n 57.
Fixpoint all_digits (s : string) : bool := match s with EmptyString => true | String c r => is_digit c && all_digits r end.
Fixpoint drop_digits (s : string) : string := match s with EmptyString => s | String c r => if is_digit c then drop_digits r else s end.
Definition nonempty (s : string) : bool := match s with EmptyString => false | _ => true end.
(** [_negative_number_matcher]: '^-\d+$|^-\d*\.\d+$'. *)
Definition negative_number (s : string) : bool :=
  match s with
  | String c r => Ascii.eqb c dash &&
      (nonempty r && all_digits r ||
       match drop_digits r with String d q => Ascii.eqb d "."%char && (nonempty q && all_digits q) | EmptyString => false end)
  | EmptyString => false
  end.
Fixpoint has_space (s : string) : bool := match s with EmptyString => false | String c r => Ascii.eqb c " "%char || has_space r end.
(** [s.partition('=')]: what precedes the first '=', and what follows it if there is one. *)
Fixpoint partition_eq (s : string) : string * option string :=
  match s with
  | EmptyString => (EmptyString, None)
  | String c r => if Ascii.eqb c "="%char then (EmptyString, Some r) else let '(a, b) := partition_eq r in (String c a, b)
  end.

(** ** Actions: what [add_argument] makes *)
Inductive nargs : Type := N0 | N1 | N3 | Nplus.
Inductive akind : Type := Store | StoreTrue | Help.
Inductive atype : Type := Tstr | Tint | Tfloat.
Inductive value : Type := VNone | VBool (b : bool) | VStr (s : string) | VInt (n : Z) | VFloat (bits : Z) | VList (l : list value).
Record action : Type := Action {
  ac_opts : list string; ac_dest : string; ac_nargs : nargs; ac_kind : akind; ac_type : atype; ac_choices : option (list string);
  ac_default : value }.
Definition namespace : Type := dict string value.

Section Parser.
  (** [int] and [float] of Python on words. *)
  Context (int_of float_of : string -> option Z).
  (** The options, and the only positional argument (all the parsers of _cli.py have one). *)
  Context (options : list action) (positional : action).

  (** [_option_string_actions]. *)
  Definition omap : list (string * action) := flat_map (fun a => List.map (fun o => (o, a)) (ac_opts a)) options.
  Definition find_option (s : string) : option action := dget String.eqb s omap.

  (** A word that is an option: the option, the name it is registered under, and the argument given in the same word
      (after '=' if the flag is true). *)
  Inductive otuple : Type := Unknown (s : string) | Found (a : action) (name : string) (explicit : option (bool * string)).
  Inductive tok : Type := TO (o : otuple) | TA (s : string) | TD.
  (** The word of an argument (options are never taken as arguments). *)
  Definition word (t : tok) : string := match t with TO _ => "" | TA s => s | TD => "--" end.

  (** [_get_option_tuples], for a word of at least two characters beginning with '-'. *)
  Definition second_dash (s : string) : bool := match s with String _ (String c _) => Ascii.eqb c dash | _ => false end.
  Definition option_tuples (s : string) : list otuple :=
    if second_dash s then
      let '(p, e) := partition_eq s in
      List.map (fun '(o, a) => Found a o (option_map (fun x => (true, x)) e)) (filter (fun '(o, _) => String.prefix p o) omap)
    else
      flat_map (fun '(o, a) => if String.eqb o (String.substring 0 2 s) then [Found a o (Some (false, String.substring 2 (String.length s - 2) s))]
                               else if String.prefix s o then [Found a o None] else []) omap.
  (** [_parse_optional]. *)
  Definition parse_optional (s : string) : outcome (option otuple) :=
    match s with
    | EmptyString => Done None
    | String c r =>
        if negb (Ascii.eqb c dash) then Done None
        else match find_option s with
             | Some a => Done (Some (Found a s None))
             | None =>
                 if negb (nonempty r) then Done None
                 else match (match partition_eq s with (o, Some e) => option_map (fun a => Found a o (Some (true, e))) (find_option o) | (_, None) => None end) with
                      | Some t => Done (Some t)
                      | None =>
                          match option_tuples s with
                          | _ :: _ :: _ => Exit 2
                          | [t] => Done (Some t)
                          | [] => if negative_number s then Done None else if has_space s then Done None else Done (Some (Unknown s))
                          end
                      end
             end
    end.
  (** The pattern of the words, [_parse_known_args]. *)
  Fixpoint classify (argv : list string) : outcome (list tok) :=
    match argv with
    | [] => Done []
    | s :: l =>
        if String.eqb s "--" then Done (TD :: List.map TA l)
        else o <<- parse_optional s ;; t <<- classify l ;; Done ((match o with Some o => TO o | None => TA s end) :: t)
    end.

  (** ** Values *)
  (** [_get_value] and [_check_value]. *)
  Definition get_value (a : action) (s : string) : outcome value :=
    match ac_type a with
    | Tstr => match ac_choices a with
              | Some l => if existsb (String.eqb s) l then Done (VStr s) else Exit 2
              | None => Done (VStr s)
              end
    | Tint => match int_of s with Some n => Done (VInt n) | None => Exit 2 end
    | Tfloat => match float_of s with Some n => Done (VFloat n) | None => Exit 2 end
    end.
  Fixpoint get_list (a : action) (l : list string) : outcome (list value) :=
    match l with
    | [] => Done []
    | s :: l => v <<- get_value a s ;; vs <<- get_list a l ;; Done (v :: vs)
    end.
  Fixpoint remove_first (l : list string) : list string :=
    match l with [] => [] | s :: l => if String.eqb s "--" then l else s :: remove_first l end.
  (** [take_action]: [_get_values], then the action itself. *)
  Definition take_action (a : action) (l : list string) (ns : namespace) : outcome namespace :=
    let l := match ac_opts a with [] => remove_first l | _ => l end in
    match ac_kind a with
    | Help => Exit 0
    | StoreTrue => Done (dset String.eqb (ac_dest a) (VBool true) ns)
    | Store =>
        match ac_nargs a, l with
        | N1, [s] => v <<- get_value a s ;; Done (dset String.eqb (ac_dest a) v ns)
        | _, _ => vs <<- get_list a l ;; Done (dset String.eqb (ac_dest a) (VList vs) ns)
        end
    end.
  Fixpoint take_all (l : list (action * list string)) (ns : namespace) : outcome namespace :=
    match l with [] => Done ns | (a, args) :: l => ns <<- take_action a args ns ;; take_all l ns end.

  (** ** Options *)
  Fixpoint leading_args (l : list tok) : nat := match l with TA _ :: l => S (leading_args l) | _ => O end.
  (** [_match_argument] of an option: how many of the next words it takes. *)
  Definition match_argument (a : action) (l : list tok) : outcome nat :=
    match ac_nargs a with
    | N0 => Done O
    | N1 => if Nat.leb 1 (leading_args l) then Done 1%nat else Exit 2
    | N3 => if Nat.leb 3 (leading_args l) then Done 3%nat else Exit 2
    | Nplus => if Nat.leb 1 (leading_args l) then Done (leading_args l) else Exit 2
    end.
  Definition take_words (a : action) (l : list tok) : outcome (list (action * list string) * list tok * list string) :=
    n <<- match_argument a l ;; Done ([(a, List.map word (firstn n l))], skipn n l, []).
  (** The loop of [consume_optional] when an argument is in the word: the actions, the words left, the words that
      were not recognised. *)
  Fixpoint explicit (a : action) (double : bool) (sep : bool) (e : string) (l : list tok) {struct e} : outcome (list (action * list string) * list tok * list string) :=
    match ac_nargs a with
    | N3 => Exit 2
    | N1 | Nplus => Done ([(a, [e])], l, [])
    | N0 =>
        match e with
        | EmptyString => Exit 2
        | String c e' =>
            if double then Exit 2
            else if sep || Ascii.eqb c dash then Exit 2
            else match find_option (String dash (String c EmptyString)) with
                 | None => Done ([(a, [])], l, [String dash e])
                 | Some b =>
                     '(acts, l', x) <<- match e' with
                                        | EmptyString => take_words b l
                                        | String c' e'' => if Ascii.eqb c' "="%char then explicit b false true e'' l else explicit b false false e' l
                                        end ;;
                     Done ((a, []) :: acts, l', x)
                 end
        end
    end.
  (** [consume_optional]: the namespace, the words left, the words not recognised. *)
  Definition consume_optional (o : otuple) (l : list tok) (ns : namespace) : outcome (namespace * list tok * list string) :=
    match o with
    | Unknown s => Done (ns, l, [s])
    | Found a name ex =>
        '(acts, l', x) <<- match ex with None => take_words a l | Some (sep, e) => explicit a (second_dash name) sep e l end ;;
        ns <<- take_all acts ns ;; Done (ns, l', x)
    end.

  (** ** The positional *)
  Fixpoint leading (p : tok -> bool) (l : list tok) : nat := match l with t :: l' => if p t then S (leading p l') else O | [] => O end.
  Definition is_dd (t : tok) : bool := match t with TD => true | _ => false end.
  Definition is_opt (t : tok) : bool := match t with TO _ => true | _ => false end.
  (** [_get_nargs_pattern]: any '--', one word, any '--', and with nargs '+' any words and '--' after the first word. *)
  Definition match_positional (l : list tok) : option nat :=
    let d := leading is_dd l in
    match skipn d l with
    | TA _ :: r => Some (d + 1 + match ac_nargs positional with N1 => leading is_dd r | _ => leading (fun t => negb (is_opt t)) r end)%nat
    | _ => None
    end.
  (** [consume_positionals]: [wanted] tells whether the positional is still to be found. *)
  Definition consume_positionals (wanted : bool) (l : list tok) (ns : namespace) : outcome (nat * bool * namespace) :=
    if wanted then
      match match_positional l with
      | None => Done (O, true, ns)
      | Some n => ns <<- take_action positional (List.map word (firstn n l)) ns ;; Done (n, false, ns)
      end
    else Done (O, false, ns).

  (** ** The main loop; at the end the positional is required and nothing may be left. *)
  Fixpoint loop (fuel : nat) (wanted : bool) (extras : list string) (ns : namespace) (l : list tok) : outcome namespace :=
    match fuel with
    | O => Stuck
    | S fuel =>
        if existsb is_opt l then
          match l with
          | TO o :: r => '(ns, l', x) <<- consume_optional o r ns ;; loop fuel wanted (extras ++ x)%list ns l'
          | _ =>
              '(n, wanted, ns) <<- consume_positionals wanted l ns ;;
              match n with
              | O => let k := leading (fun t => negb (is_opt t)) l in
                     loop fuel wanted (extras ++ List.map word (firstn k l))%list ns (skipn k l)
              | _ => loop fuel wanted extras ns (skipn n l)
              end
          end
        else
          '(n, wanted, ns) <<- consume_positionals wanted l ns ;;
          if wanted then Exit 2
          else match (extras ++ List.map word (skipn n l))%list with [] => Done ns | _ => Exit 2 end
    end.
  (** The defaults, then the words. *)
  Definition defaults : namespace :=
    fold_left (fun ns a => dset String.eqb (ac_dest a) (ac_default a) ns)
              (filter (fun a => match ac_kind a with Help => false | _ => true end) (positional :: options)) [].
  Definition parse_args (argv : list string) : outcome namespace :=
    l <<- classify argv ;; loop (S (List.length l)) true [] defaults l.
End Parser.

(** ** The parsers of _cli.py *)
Definition opt_store (name dest : string) (n : nargs) (t : atype) : action := Action [name] dest n Store t None VNone.
Definition opt_flag (name dest : string) : action := Action [name] dest N0 StoreTrue Tstr None (VBool false).
Definition opt_help : action := Action ["-h"; "--help"] "help" N0 Help Tstr None VNone.
Definition pos_filename : action := Action [] "filename" N1 Store Tstr None VNone.
(** [addarg_filenameformat], _cli.py:64-72. *)
Definition filenameformat (readers : list string) (format : option string) : list action :=
  [Action ["--fmt"] "fmt" N1 Store Tstr (Some readers) (match format with Some f => VStr f | None => VNone end);
   opt_store "--outpath" "outpath" N1 Tstr; opt_flag "--check" "check"; opt_flag "--info" "info";
   Action ["--log"] "log" N1 Store Tstr None (VStr "info")].
(** [addarg_removedata], _cli.py:80-100. *)
Definition removedata : list action :=
  [opt_store "--remove-node-data" "remove_node_data" Nplus Tstr; opt_store "--remove-face-data" "remove_face_data" Nplus Tstr;
   opt_store "--remove-cell-data" "remove_cell_data" Nplus Tstr; opt_store "--" "" N1 Tstr].
(** [addarg_transform], _cli.py:102-104. *)
Definition transform : list action := [opt_store "--extrude" "extrude" N1 Tint; opt_store "--scale" "scale" N3 Tfloat].
(** The parser of [write_generic], _cli.py:204-207. *)
Definition generic_options (readers : list string) : list action := (opt_help :: filenameformat readers None ++ removedata ++ transform)%list.
(** [cfdinfo], [ic3brief] and [vtkbrief], _cli.py:137-138, 156-157, 170-171. *)
Definition info_options (readers : list string) (format : option string) : list action := opt_help :: filenameformat readers format.
(** [cfdwritecube], _cli.py:286-313. *)
Definition cube_options (readers : list string) : list action :=
  (opt_help :: filenameformat readers None ++
   List.map (fun n => Action [("--" ++ n)%string] n N1 Store Tint None (VInt 10)) ["nx"; "ny"; "nz"])%list.
(** [vtkpack], _cli.py:77-78, 187-189. *)
Definition pos_filelist : action := Action [] "filelist" Nplus Store Tstr None VNone.

(** What [write_generic] uses of the namespace. *)
Definition as_str (v : value) : option string := match v with VStr s => Some s | _ => None end.
Definition ns_get (k : string) (ns : namespace) : value := match dget String.eqb k ns with Some v => v | None => VNone end.
Definition str_list (v : value) : list string := match v with VList l => flat_map (fun v => match v with VStr s => [s] | _ => [] end) l | _ => [] end.
Definition args_of (ns : namespace) : args :=
  Args (match ns_get "filename" ns with VStr s => s | _ => "" end) (as_str (ns_get "fmt" ns)) (as_str (ns_get "outpath" ns))
       (str_list (ns_get "remove_cell_data" ns))
       (match ns_get "extrude" ns with VInt n => n | _ => 0 end)
       (match ns_get "scale" ns with VList [VFloat x; VFloat y; VFloat z] => Some (x, y, z) | _ => None end)
       (match ns_get "info" ns with VBool b => b | _ => false end).

(** The files of [vtkpack]. *)
Definition pack_files (int_of float_of : string -> option Z) (argv : list string) : outcome (list string) :=
  ns <<- parse_args int_of float_of [opt_help] pos_filelist argv ;; Done (str_list (ns_get "filelist" ns)).

(** ** The commands cfdwrite_*: the words, then [write_generic] (_cli.py:203-208). *)
Section Command.
  Context (int_of float_of : string -> option Z) {C W : Type}.
  Context (extruded : Z -> fmesh -> res fmesh) (scaled : Z * Z * Z -> fmesh -> res fmesh) (shown : fmesh -> res unit) (write : W -> fmesh -> option C * res unit).
  Definition cfdwrite (m : registry (readfun (C := C)) W) (fuel : nat) (argv : list string) (ext : string) (writer : W) (fs : files C) : outcome (res string) * files C :=
    match parse_args int_of float_of (generic_options (available_readers m)) pos_filename argv with
    | Done ns => let '(r, fs') := write_generic extruded scaled shown write m fuel (args_of ns) ext writer fs in (Done r, fs')
    | Exit c => (Exit c, fs)
    | Stuck => (Stuck, fs)
    end.
  (** [cfdwritecube], _cli.py:283-324; [cube] gives the outcome of [Cube(nx, ny, nz).export_mesh()]. *)
  Definition size_of (k : string) (ns : namespace) : Z := match ns_get k ns with VInt n => n | _ => 0 end.
  Definition cube_command (cube : Z * Z * Z -> res fmesh) (m : registry (readfun (C := C)) W) (argv : list string) (fs : files C) : outcome (res string) * files C :=
    match parse_args int_of float_of (cube_options (available_readers m)) pos_filename argv with
    | Done ns => let '(r, fs') := cfdwritecube write m (args_of ns) (cube (size_of "nx" ns, size_of "ny" ns, size_of "nz" ns)) fs in (Done r, fs')
    | Exit c => (Exit c, fs)
    | Stuck => (Stuck, fs)
    end.
End Command.
