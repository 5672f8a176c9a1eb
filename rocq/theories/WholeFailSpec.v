(** * What is expected of the files that the converters read and leave: vocabulary for property C92. *)
From Verif Require Import Py Cgns Ic3 Ic3BytesProofs Ic3HeaderSpec.

(** No word of a Gmsh file has the letters DEOF after its first character (a name is between quotes). *)
Definition text_ok (t : list (list string)) : Prop := forall l w, In l t -> In w l -> String.substring 1 4 w <> "DEOF"%string.

(** Reals of a CGNS file are 64-bit patterns; neither a text nor the name of a node begins with DEOF. *)
Definition payload_ok (p : payload Z) : Prop :=
  match p with PText s => ~ deof s | PReals l => Forall pattern l | PInts _ | PTable _ => True end.
Inductive node_ok : cgnode Z -> Prop :=
| NodeOk label data kids : (forall p, data = Some p -> payload_ok p) -> (forall k n, In (k, n) kids -> ~ deof k /\ node_ok n) ->
    node_ok (CG label data kids).

Section Files.
  Context {C : Type} (bytes : C -> list Z) (text : C -> list (list string)) (tree : C -> cgnode Z).
  (** A file, read as bytes, as text and as a tree. *)
  Definition proper (c : C) : Prop := Forall is_byte (bytes c) /\ text_ok (text c) /\ node_ok (tree c).
End Files.
