(** * The words of the commands that only read: vocabulary for property C93. *)
From Verif Require Import Py Files Cli CmdLine CmdLineSpec.

(** The options of cfdinfo and ic3brief. *)
Definition info_item (i : item) : Prop := match i with Fmt _ _ | Outpath _ _ | Check | CmdLineSpec.Info | Log _ _ => True | _ => False end.
(** Whether --check is there, and the format said last. *)
Definition says_check (l : list item) : Prop := In Check l.
Definition says_format (l : list item) (s : string) : Prop := exists before j after, l = (before ++ Fmt j s :: after)%list /\ forall k t, ~ In (Fmt k t) after.
Definition no_format (l : list item) : Prop := forall k t, ~ In (Fmt k t) l.
(** The file [f] is read as [name]: the format said last or, if none is said, the one of its suffix. *)
Definition read_as (l : list item) (f name ext : string) : Prop := says_format l name \/ no_format l /\ path_suffix (path_of f) = ext.
(** Their names; those of the converters that change the mesh (--scale, --extrude, --remove-...) are not among them. *)
Definition info_names : list string := ["--help"; "--fmt"; "--outpath"; "--check"; "--info"; "--log"]%string.
