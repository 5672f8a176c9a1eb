(** * The command [ic3probe_plotline], cfdtools/_cli.py:328-418, from the words of the command line and the files of the probes to
    the figure that is saved. *)
From Verif Require Export Py Cli CmdLine Probes ProbePlot.
Local Open Scope string_scope.

(** The parser, _cli.py:341-393. *)
Definition pos_prefix : action := Action [] "prefix" N1 Store Tstr None VNone.
Definition probe_options : list action :=
  [opt_help; opt_flag "-v" "verbose";
   Action ["--data"] "datalist" N1 Store Tstr None (VStr "P");
   Action ["--axis"] "axis" N1 Store Tstr None (VStr "X");
   Action ["--map"] "map" N1 Store Tstr (Some ["time"; "freq"]) (VStr "time");
   opt_flag "--check" "check";
   Action ["--cmap"] "cmap" N1 Store Tstr None (VStr "turbo");
   Action ["--cmaplevels"] "nlevels" N1 Store Tint None (VInt 30)].

Definition ns_str (k : string) (ns : namespace) : string := match ns_get k ns with VStr s => s | _ => "" end.
Definition ns_bool (k : string) (ns : namespace) : bool := match ns_get k ns with VBool b => b | _ => false end.
Definition ns_int (k : string) (ns : namespace) : Z := match ns_get k ns with VInt n => n | _ => 0 end.

Section ProbeWhole.
  Context {F : Type}.
  Context (int_of float_of : string -> option Z).
  Notation values := (values (F := F)).
  Notation data := (data (F := F)).
  Context (dtavg : values -> F) (fftfreq : Z -> F -> list F) (psd : list (list F) -> list (list F)).
  Context (check : string -> string -> data -> res bool * data).

  (** _cli.py:394-418: [run_plot[map]] is one of two functions; the colours are those of --cmap and --cmaplevels, kept next to
      the figure (whether matplotlib knows them is not modelled). *)
  Definition probe_command (argv : list string) : outcome (res (figure F) * (string * Z)) :=
    ns <<- parse_args int_of float_of probe_options pos_prefix argv ;;
    Done (if String.eqb (ns_str "map" ns) "time" then plotline dtavg fftfreq psd check (ns_bool "verbose" ns) TimeMap (ns_str "prefix" ns) (ns_str "datalist" ns) (ns_str "axis" ns)
          else if String.eqb (ns_str "map" ns) "freq" then plotline dtavg fftfreq psd check (ns_bool "verbose" ns) FreqMap (ns_str "prefix" ns) (ns_str "datalist" ns) (ns_str "axis" ns)
          else Err KeyError, (ns_str "cmap" ns, ns_int "nlevels" ns)).
End ProbeWhole.
