(** * Names of the zones in the HDF5 files of IC3: vocabulary. *)
From Coq Require Import List String Ascii.

(** [n] characters NUL. *)
Fixpoint nuls (n : nat) : string := match n with O => EmptyString | S n' => String (Ascii.ascii_of_nat 0) (nuls n') end.
(** The string [t] does not end with NUL. *)
Definition no_final_nul (t : string) : Prop := forall s, t <> (s ++ nuls 1)%string.
(** [t] is the label stored for [s]: the first 128 characters but the NULs at their end; all are ASCII. *)
Definition label_kept (s t : string) : Prop :=
  (forall c, In c (list_ascii_of_string s) -> (nat_of_ascii c < 128)%nat) /\
  no_final_nul t /\ exists n cut, s = (t ++ nuls n ++ cut)%string /\
    (String.length (t ++ nuls n) = 128%nat \/ (cut = ""%string /\ (String.length (t ++ nuls n) <= 128)%nat)).
