(** * What [printinfo] of the IC3 readers is expected to print, line by line. *)
From Verif Require Import Py IndexList Conn Mesh Data Ic3Bytes Ic3 Ic3V4 Ic3LayoutSpec ReaderInfo.
Local Open Scope string_scope.

(** An array of [items] items: its values are printed up to ten. *)
Definition array_line (label : string) (items : Z) (shape vals : list Z) : line :=
  Lval label (Sarr shape (if (items <=? 10)%Z then Some vals else None)).
Definition count_line (label : string) (n : Z) : line := Lval label (Snum (NInt n)).

(** Faces with one cell only, and periodic faces. *)
Definition faces_where (g : Z -> bool) (rows : list (list Z)) : Z :=
  zlen (filter (fun row => match row with _ :: c :: _ => g c | _ => g 0%Z end) rows).

Definition counts_lines (no fa cv noofa nboco : Z) (rows : list (list Z)) : list line :=
  [count_line "  mesh.params.no_count" no; count_line "  mesh.params.fa_count" fa; count_line "  mesh.params.cv_count" cv;
   count_line "  mesh.params.noofa_count" noofa; count_line "  mesh.params.nboco" nboco;
   count_line "  mesh.params.nfa_b" (faces_where (fun c => c =? -1)%Z rows);
   count_line "  mesh.params.nfa_bp" (faces_where (fun c => c <? -1)%Z rows)].
(** The simulation state, among the parameters once a mesh has been exported. *)
Definition state_lines (sim : dict string sval) : list line :=
  flat_map (fun '(k, v) =>
    match v with
    | SNum n => [Lval ("  mesh.params." ++ k) (Snum n)]
    | SWgt w => List.map (fun '(j, x) => Lval ("  mesh.params." ++ k ++ "." ++ j) (Snum x)) w
    end) sim.
Definition grid_lines (no fa : Z) (rows coords : list (list Z)) : list line :=
  [Lval "  mesh.connectivity.noofa" (Stype "<class 'cfdtools.meshbase._connectivity.compressed_listofindex'>");
   array_line "  mesh.connectivity.cvofa.cvofa" (2 * fa)%Z [fa; 2%Z] (List.concat rows);
   count_line "  mesh.connectivity.nkeys" 0;
   array_line "  mesh.coordinates" (3 * no)%Z [no; 3%Z] (List.concat coords);
   Lval "  mesh.bocos" (Stype "<class 'list'>")].

Definition mesh_keys : list string := ["params"; "connectivity"; "coordinates"; "bocos"; "partition"].
Definition variable_keys : list string := ["nodes"; "cells"; "faces"].

(** The variables of a place: [n] items, or [n] vectors. *)
Definition place_lines (place : string) (n : Z) (d : dict string (list Z * list Z)) : list line :=
  List.map (fun '(k, (shape, vals)) =>
    array_line ("variables." ++ place ++ "." ++ k) (match shape with [_] => n | _ => 3 * n end)%Z shape vals) d.

(** A section of [f] at byte [q]: its name, its code, its first integer, and the numbers that follow. *)
Definition section_in (o : order) (f : list Z) (q : nat) (name : string) (code n : Z) (vals : list Z) : Prop :=
  hdr_name (firstn 256 (skipn q f)) = Ok name /\
  firstn 4 (skipn (q + 52) f) = in_bytes o 4 code /\
  firstn 8 (skipn (q + 64) f) = in_bytes o 8 n /\
  firstn (8 * List.length vals) (skipn (q + 256) f) = words8 o vals.
(** A variable shown at a place of [n] items is a section with [n] as first integer: a scalar (codes 24, 32, 34, 42
    and 45) or a vector (codes 25, 33, 43). *)
Definition shown_from (o : order) (f : list Z) (n : Z) (x : string * (list Z * list Z)) : Prop :=
  let '(k, (shape, vals)) := x in
  exists q code, section_in o f q k code n vals /\
    (In code [32; 34; 24; 42; 45]%Z /\ shape = [n] /\ zlen vals = n \/
     In code [33; 25; 43]%Z /\ shape = [n; 3%Z] /\ zlen vals = (3 * n)%Z).

(** The header at byte [q]: name, code, total size, first and second integers. *)
Definition head_at (o : order) (f : list Z) (q : nat) (name : string) (code size n m : Z) : Prop :=
  (q + 256 <= List.length f)%nat /\ hdr_name (firstn 256 (skipn q f)) = Ok name /\ String.prefix "DEOF" name = false /\
  firstn 4 (skipn (q + 52) f) = in_bytes o 4 code /\ (- 2 ^ 31 <= code < 2 ^ 31)%Z /\
  firstn 8 (skipn (q + 56) f) = in_bytes o 8 size /\ (- 2 ^ 63 <= size < 2 ^ 63)%Z /\
  firstn 8 (skipn (q + 64) f) = in_bytes o 8 n /\ (- 2 ^ 63 <= n < 2 ^ 63)%Z /\
  firstn 8 (skipn (q + 72) f) = in_bytes o 8 m /\ (- 2 ^ 63 <= m < 2 ^ 63)%Z.
(** [leads q x]: going from section to section by their sizes, before the section of code 51, one comes from [q] to [x]. *)
Inductive leads (o : order) (f : list Z) : nat -> nat -> Prop :=
  | leads_here q : leads o f q q
  | leads_next q x name code size n m : head_at o f q name code size n m -> code <> 51%Z -> (256 <= size)%Z ->
      leads o f (q + Z.to_nat size) x -> leads o f q x.
(** The numbers of a section of a variable; in version 3, those of cells have [m] numbers in each. *)
Definition numbers (version no fa n m : Z) : Z :=
  if ((n =? no) || (n =? fa))%Z then n else if ((version <? 3) || (m =? 0))%Z then n else (m * n)%Z.
(** Every scalar and every vector has the size of its numbers. *)
Definition tidy (o : order) (version no fa : Z) (f : list Z) : Prop :=
  forall q name code size n m, leads o f 8 q -> head_at o f q name code size n m ->
    (In code [32; 34; 24; 42; 45]%Z -> size = (256 + 8 * numbers version no fa n m)%Z) /\
    (In code [33; 25; 43]%Z -> size = (256 + 24 * numbers version no fa n m)%Z).
