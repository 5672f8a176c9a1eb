(** * The words of the command ic3probe_plotline: vocabulary for property C94. *)
From Coq Require Import List String ZArith.
From Verif Require Import CmdLineSpec.
Import ListNotations.
Local Open Scope string_scope.

(** The options. *)
Inductive pitem : Type :=
| PVerbose | PCheck | PData (j : form) (v : string) | PAxis (j : form) (v : string) | PMap (j : form) (v : string)
| PColors (j : form) (v : string) | PLevels (j : form) (v : string).
Definition prender (i : pitem) : list string :=
  match i with
  | PVerbose => ["-v"] | PCheck => ["--check"] | PData j v => pair j "--data" v | PAxis j v => pair j "--axis" v | PMap j v => pair j "--map" v
  | PColors j v => pair j "--cmap" v | PLevels j v => pair j "--cmaplevels" v
  end.
Definition pwords (l : list pitem) : list string := flat_map prender l.

(** Words that are accepted: a map of time or of frequencies, and a number of levels that is a number. *)
Definition pgood (int_of : string -> option Z) (i : pitem) : Prop :=
  match i with
  | PVerbose | PCheck => True
  | PData j v | PAxis j v | PColors j v => j = Apart -> plain v
  | PMap j v => (v = "time" \/ v = "freq")
  | PLevels j v => (j = Apart -> plain v) /\ int_of v <> None
  end.

(** The last value said for one kind of option, or the default. *)
Definition last_said {A} (said : pitem -> option A) (default : A) (l : list pitem) : A :=
  match flat_map (fun i => match said i with Some a => [a] | None => [] end) (rev l) with [] => default | a :: _ => a end.
Definition said_data (l : list pitem) : string := last_said (fun i => match i with PData _ v => Some v | _ => None end) "P" l.
Definition said_axis (l : list pitem) : string := last_said (fun i => match i with PAxis _ v => Some v | _ => None end) "X" l.
Definition said_map (l : list pitem) : string := last_said (fun i => match i with PMap _ v => Some v | _ => None end) "time" l.
Definition said_colors (l : list pitem) : string := last_said (fun i => match i with PColors _ v => Some v | _ => None end) "turbo" l.
Definition said_levels (int_of : string -> option Z) (l : list pitem) : Z := last_said (fun i => match i with PLevels _ v => int_of v | _ => None end) 30%Z l.
