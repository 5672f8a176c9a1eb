(** * Statements about file names, without the functions of the model. *)
From Coq Require Import Ascii DecimalString Lia.
From Verif Require Import Py Files.

Fixpoint chars (s : string) : list ascii := match s with EmptyString => [] | String c r => c :: chars r end.
Definition no_char (c : ascii) (s : string) : Prop := ~ In c (chars s).

(** Components as they come from a name: neither empty, nor ".", nor with a slash. *)
Definition good_part (w : string) : Prop := w <> ""%string /\ w <> "."%string /\ no_char "/" w.
Definition good_path (p : path) : Prop := In (p_root p) [""; "/"; "//"]%string /\ Forall good_part (p_parts p).

(** A suffix: a dot followed by at least one character, none of which is a dot. *)
Definition a_suffix (s : string) : Prop := exists r, s = String "." r /\ r <> ""%string /\ no_char "." r.
(** [n] is [a] followed by the suffix [b]; without suffix [b] is empty. *)
Definition split_name (n a b : string) : Prop :=
  (n = (a ++ b)%string /\ a_suffix b /\ a <> ""%string) \/
  (a = n /\ b = ""%string /\ forall a' b', n = (a' ++ b')%string -> a_suffix b' -> a' = ""%string).

(** The path [q] lies in folder [d] under the name [n]. *)
Definition in_dir (d : path) (n : string) (q : path) : Prop := p_root q = p_root d /\ p_parts q = p_parts d ++ [n].

(** Decimal numbers. *)
Definition digits (c : ascii) : Prop := In c (chars "0123456789").
