(** * What the words of a command line mean, independently of [argparse] *)
From Verif Require Export CmdLine.
From Coq Require Import Ascii.
Local Open Scope string_scope.

(** ** Words that are arguments: those that do not begin with a dash, a dash alone, and negative numbers written with
    digits and possibly a dot that is followed by digits. *)
Definition digits (s : string) : Prop := s <> "" /\ forall c, In c (list_ascii_of_string s) -> (48 <= nat_of_ascii c <= 57)%nat.
Definition negative (s : string) : Prop :=
  (exists d, s = "-" ++ d /\ digits d) \/ (exists a b, s = "-" ++ a ++ "." ++ b /\ (a = "" \/ digits a) /\ digits b).
Definition dashed (s : string) : Prop := exists r, s = "-" ++ r.
Definition plain (s : string) : Prop := ~ dashed s \/ s = "-" \/ negative s.

(** ** The options of the commands cfdwrite_* *)
Inductive where_ : Type := Nodes | Faces | Cells.
Definition where_name (k : where_) : string := match k with Nodes => "node" | Faces => "face" | Cells => "cell" end.
(** An option and its argument: two words, or one with '='. *)
Inductive form : Type := Apart | Joined.
Definition pair (j : form) (name v : string) : list string := match j with Apart => [name; v] | Joined => [name ++ "=" ++ v] end.
Inductive item : Type :=
| Fmt (j : form) (f : string) | Outpath (j : form) (d : string) | Check | Info | Log (j : form) (level : string)
| Remove (k : where_) (names : list string) | RemoveOne (k : where_) (name : string)
| Extrude (j : form) (n : string) | Scale (x y z : string)
| Blank (v : string).    (* an option without name *)
Definition remove_name (k : where_) : string := "--remove-" ++ where_name k ++ "-data".
Definition render (i : item) : list string :=
  match i with
  | Fmt j f => pair j "--fmt" f | Outpath j d => pair j "--outpath" d | Check => ["--check"] | Info => ["--info"] | Log j l => pair j "--log" l
  | Remove k names => remove_name k :: names
  | RemoveOne k name => pair Joined (remove_name k) name
  | Extrude j n => pair j "--extrude" n | Scale x y z => ["--scale"; x; y; z]
  | Blank v => pair Joined "--" v
  end.
(** Lists of names go on as long as there are arguments. *)
Definition open_ended (i : item) : Prop := match i with Remove _ _ => True | _ => False end.
Definition open_end (l : list item) : Prop := exists before i, l = (before ++ [i])%list /\ open_ended i.

Section Meaning.
  Context (int_of float_of : string -> option Z) (readers : list string).
  Definition good (i : item) : Prop :=
    match i with
    | Fmt j f => In f readers /\ (j = Apart -> plain f)
    | Outpath j s | Log j s => j = Apart -> plain s
    | Check | Info | RemoveOne _ _ | Blank _ => True
    | Remove _ names => names <> [] /\ Forall plain names
    | Extrude j n => (j = Apart -> plain n) /\ int_of n <> None
    | Scale x y z => plain x /\ plain y /\ plain z /\ float_of x <> None /\ float_of y <> None /\ float_of z <> None
    end.
  (** The effect of an option: what was said before by the same option is forgotten; the options for the checks, the
      log and the data of nodes and faces have none, nor has the one without name. *)
  Definition effect (a : args) (i : item) : args :=
    let 'Args f fmt out rm ex sc info := a in
    match i with
    | Fmt _ s => Args f (Some s) out rm ex sc info
    | Outpath _ d => Args f fmt (Some d) rm ex sc info
    | Info => Args f fmt out rm ex sc true
    | Remove Cells names => Args f fmt out names ex sc info
    | RemoveOne Cells name => Args f fmt out [name] ex sc info
    | Extrude _ n => match int_of n with Some v => Args f fmt out rm v sc info | None => a end
    | Scale x y z => match float_of x, float_of y, float_of z with Some x, Some y, Some z => Args f fmt out rm ex (Some (x, y, z)) info | _, _, _ => a end
    | Check | Log _ _ | Remove _ _ | RemoveOne _ _ | Blank _ => a
    end.
  Definition meaning (filename : string) (l : list item) : args :=
    fold_left effect l (Args filename None None [] 0 None false).
End Meaning.
Definition words (l : list item) : list string := flat_map render l.

(** ** The names of the options of the commands cfdwrite_* *)
Definition long_names : list string :=
  ["--help"; "--fmt"; "--outpath"; "--check"; "--info"; "--log"; "--remove-node-data"; "--remove-face-data"; "--remove-cell-data"; "--extrude"; "--scale"].
(** [p] begins [s]. *)
Definition begins (p s : string) : Prop := exists r, s = p ++ r.
(** The words that ask for the help: the two names, or the short one with other letters behind. *)
Inductive asks_help : string -> Prop :=
| HShort : asks_help "-h"
| HLong : asks_help "--help"
| HMore c r : ~ In c ["-"; "="; "h"]%char -> asks_help ("-h" ++ String c r).
(** A word taken for an option, or the word that ends the options. *)
Definition option_like (s : string) : Prop := dashed s /\ ~ plain s /\ ~ In " "%char (list_ascii_of_string s).
(** A word taken for an option, whose part before any '=' begins none of the names, and which does not begin with the
    letter of the help. *)
Definition unknown (names : list string) (s : string) : Prop :=
  option_like s /\ ~ begins "-h" s /\
  forall p n, (s = p \/ exists e, s = p ++ "=" ++ e) -> In n names -> ~ begins p n.
(** Options that are refused whatever comes before and after: a value that is not admitted. *)
Inductive refused (int_of float_of : string -> option Z) (readers : list string) : list string -> Prop :=
| RFmt j f : (j = Apart -> plain f) -> ~ In f readers -> refused int_of float_of readers (pair j "--fmt" f)
| RExtrude j n : (j = Apart -> plain n) -> int_of n = None -> refused int_of float_of readers (pair j "--extrude" n)
| RScale x y z : plain x -> plain y -> plain z -> float_of x = None \/ float_of y = None \/ float_of z = None -> refused int_of float_of readers ["--scale"; x; y; z]
| RScaleEq v : refused int_of float_of readers (pair Joined "--scale" v)
| RFlag o v : In o ["--check"; "--info"; "--help"] -> refused int_of float_of readers (pair Joined o v).
(** Options that lack arguments. *)
Inductive short : list string -> Prop :=
| Short1 o : In o ["--fmt"; "--outpath"; "--log"; "--extrude"; "--remove-node-data"; "--remove-face-data"; "--remove-cell-data"] -> short [o]
| Short3 l : Forall plain l -> (List.length l < 3)%nat -> short ("--scale" :: l).

(** ** The command cfdwritecube *)
Inductive axis : Type := AxisX | AxisY | AxisZ.
Definition axis_name (a : axis) : string := match a with AxisX => "--nx" | AxisY => "--ny" | AxisZ => "--nz" end.
Definition cube_names : list string := ["--help"; "--fmt"; "--outpath"; "--check"; "--info"; "--log"; "--nx"; "--ny"; "--nz"].
Inductive citem : Type := CFmt (j : form) (f : string) | COutpath (j : form) (d : string) | CCheck | CInfo | CLog (j : form) (l : string) | CSize (a : axis) (j : form) (n : string).
Definition crender (i : citem) : list string :=
  match i with
  | CFmt j f => pair j "--fmt" f | COutpath j d => pair j "--outpath" d | CCheck => ["--check"] | CInfo => ["--info"] | CLog j l => pair j "--log" l
  | CSize a j n => pair j (axis_name a) n
  end.
Definition cwords (l : list citem) : list string := flat_map crender l.
Section Cube.
  Context (int_of : string -> option Z) (readers : list string).
  Definition cgood (i : citem) : Prop :=
    match i with
    | CFmt j f => In f readers /\ (j = Apart -> plain f)
    | COutpath j s | CLog j s => j = Apart -> plain s
    | CCheck | CInfo => True
    | CSize _ j n => (j = Apart -> plain n) /\ int_of n <> None
    end.
  (** The format and the three sizes. *)
  Definition ceffect (a : option string * (Z * Z * Z)) (i : citem) : option string * (Z * Z * Z) :=
    let '(fmt, (x, y, z)) := a in
    match i with
    | CFmt _ f => (Some f, (x, y, z))
    | CSize ax _ n => match int_of n with Some v => (fmt, match ax with AxisX => (v, y, z) | AxisY => (x, v, z) | AxisZ => (x, y, v) end) | None => a end
    | _ => a
    end.
  Definition cmeaning (l : list citem) : option string * (Z * Z * Z) := fold_left ceffect l (None, (10, 10, 10)).
End Cube.
