(** * Packing files: what is expected of a command line. *)
From Coq Require Import List String.
From Verif Require Import Py CmdLineSpec GmshSpec Vtk VtkSpec.
Local Open Scope Z_scope.

(** The words name these files, in this order. *)
Definition naming (names argv : list string) : Prop :=
  names <> [] /\ (argv = names /\ Forall CmdLineSpec.plain names \/ argv = "--"%string :: names).

(** The cells [cs] are the elements [l]: for each type, the same nodes in the same order, and no other cells. *)
Definition holds_elements (cs : list (Z * list Z)) (l : list felt) : Prop :=
  zlen cs = zlen l /\
  forall t code, In (t, code) vtk_codes ->
    List.map snd (filter (fun c => fst c =? code) cs) = List.map nodes0 (filter (fun e => String.eqb (felt_name e) t) l).
