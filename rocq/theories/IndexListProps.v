(** * Properties C01 and C02: index sets. *)
From Verif Require Import Py IndexList IndexListSpec IndexListProofs.

(** C01: [list()] returns what the object denotes; both representations can be listed. *)
Theorem C01_list : forall il l, denotes il l <-> il_list il = Ok l.
Proof. exact denotes_list. Qed.
Print Assumptions C01_list.
Example C01_list_ex : denotes (ILrange 2 4) [2;3;4] /\ denotes (ILlist [4;2]) [4;2].
Proof. split; apply denotes_list; reflexivity. Qed.

(** C01: an object made from a pair is the range with both ends, one made from a list is that list; the two together are
    refused, and without any nothing can be listed. *)
Theorem C01_make : forall lo hi l,
  (exists il l', il_make (Some (lo, hi)) None = Ok il /\ denotes il l' /\ forall x, In x l' <-> lo <= x <= hi) /\
  (exists il, il_make None (Some l) = Ok il /\ denotes il l) /\
  il_make (Some (lo, hi)) (Some l) = Err AssertionError /\
  (forall il, il_make None None = Ok il -> il_list il = Err RuntimeError).
Proof.
  intros lo hi l. split; [|split; [|split]].
  - destruct (il_list (ILrange lo hi)) as [l'|x] eqn:E; [|discriminate E]. exists (ILrange lo hi), l'. split; [reflexivity|]. apply denotes_list in E. split; [exact E|]. inversion E; subst; assumption.
  - exists (ILlist l). split; [reflexivity|constructor].
  - reflexivity.
  - intros il E. injection E as <-. reflexivity.
Qed.
Print Assumptions C01_make.
Example C01_make_ex : il_make (Some (2, 4)) None = Ok (ILrange 2 4) /\ denotes (ILrange 2 4) [2;3;4].
Proof. split; [reflexivity|]. apply denotes_list; reflexivity. Qed.

(** C01: shift adds [i] to every denoted integer. *)
Theorem C01_shift : forall il l i, denotes il l ->
  exists il', il_shift il i = Ok (Some il') /\ denotes il' (List.map (fun j => j + i) l).
Proof. exact shift_denotes. Qed.
Print Assumptions C01_shift.
Example C01_shift_ex : il_shift (ILrange 2 4) 5 = Ok (Some (ILrange 7 9)).
Proof. reflexivity. Qed.

(** C01: append and [+] concatenate. *)
Theorem C01_append : forall il l l', denotes il l ->
  exists il', il_append il l' = Ok il' /\ denotes il' (l ++ l').
Proof. exact append_denotes. Qed.
Print Assumptions C01_append.
Example C01_append_ex : il_append (ILrange 0 1) [7] = Ok (ILlist [0;1;7]).
Proof. reflexivity. Qed.

Theorem C01_add : forall a b la lb, denotes a la -> denotes b lb ->
  exists c, il_add a b = Ok c /\ denotes c (la ++ lb).
Proof. exact add_denotes. Qed.
Print Assumptions C01_add.
Example C01_add_ex : il_add (ILrange 0 1) (ILlist [5;3]) = Ok (ILlist [0;1;5;3]).
Proof. reflexivity. Qed.

(** C01: [il[k]] is [list()[k]] (Python indexing, negative [k] included). *)
Theorem C01_getitem : forall il l k, denotes il l -> il_getitem il k = py_get l k.
Proof. exact getitem_denotes. Qed.
Print Assumptions C01_getitem.
Example C01_getitem_ex : il_getitem (ILrange 3 6) (-1) = Ok 6 /\ il_getitem (ILrange 3 6) 4 = Err IndexError.
Proof. split; reflexivity. Qed.

(** C01: size is the number of denoted integers, exactly when a range is not inverted. *)
Theorem C01_size : forall il l, denotes il l ->
  (il_size il = Ok (zlen l) <-> match il with ILrange lo hi => lo - 1 <= hi | _ => True end).
Proof. exact size_denotes_iff. Qed.
Print Assumptions C01_size.
Example C01_size_ex : il_size (ILrange 3 6) = Ok 4 /\ il_size (ILrange 3 2) = Ok 0 /\ il_size (ILrange 3 0) = Ok (-2).
Proof. repeat split. Qed.

(** C02: compress never changes [list()]; the result is a range exactly when it was one or the
    integers are consecutive. *)
Theorem C02_compress : forall il l, denotes il l -> il <> ILlist [] ->
  exists il', il_compress il = Ok il' /\ denotes il' l /\
              (is_range il' <-> is_range il \/ (l <> [] /\ consecutive l)).
Proof. exact compress_spec. Qed.
Print Assumptions C02_compress.
Example C02_compress_ex : il_compress (ILlist [4;5;6]) = Ok (ILrange 4 6) /\ il_compress (ILlist [4;6]) = Ok (ILlist [4;6]).
Proof. split; reflexivity. Qed.

(** C02: on the empty list compress raises IndexError. *)
Theorem C02_compress_empty : il_compress (ILlist []) = Err IndexError.
Proof. exact compress_empty. Qed.
Print Assumptions C02_compress_empty.
