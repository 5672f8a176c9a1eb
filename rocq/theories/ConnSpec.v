(** * Specification vocabulary for element connectivities.

    An [elem_connectivity] is observed as a collection of pairs (element number, node list),
    classified by element type. *)
From Coq Require Import Sorted Permutation.
From Verif Require Import Conn.

(** The integers an index object lists (nothing for an untyped one). *)
Definition entries (il : indexlist) : list Z :=
  match il with
  | ILnone => []
  | ILrange lo hi => zrange lo (hi + 1)
  | ILlist l => l
  | ILboxed l => l
  end.

(** Pairs held for one type: k-th number with k-th row. *)
Definition ed_pairs (ed : edict) : list (Z * list Z) :=
  combine (entries (ed_index ed)) (m_rows (ed_e2n ed)).

Definition ec_pairs (c : econn) : list (Z * list Z) :=
  flat_map (fun kv => ed_pairs (snd kv)) (ec_dict c).

Definition ec_numbers (c : econn) : list Z :=
  flat_map (fun kv => entries (ed_index (snd kv))) (ec_dict c).

Definition ec_types (c : econn) : list string := List.map fst (ec_dict c).

(** The pairs of type [t], in their order. *)
Definition pairs_of_type (c : econn) (t : string) : list (Z * list Z) :=
  flat_map (fun kv => if String.eqb t (fst kv) then ed_pairs (snd kv) else []) (ec_dict c).

(** A consistent connectivity: typed indices as long as the arrays, no repeated type, and
    the element count is the number of rows. *)
Record ed_wf (ed : edict) : Prop := {
  edwf_typed : ed_index ed <> ILnone;
  edwf_len : List.length (entries (ed_index ed)) = List.length (m_rows (ed_e2n ed));
  edwf_mat : mat_wf (ed_e2n ed) }.
Record ec_wf (c : econn) : Prop := {
  ecwf_keys : NoDup (ec_types c);
  ecwf_eds : forall t ed, In (t, ed) (ec_dict c) -> ed_wf ed;
  ecwf_nelem : ec_nelem c = zlen (ec_pairs c) }.

(** No boxed index: every number is a plain integer. *)
Definition ec_plain (c : econn) : Prop :=
  forall t ed, In (t, ed) (ec_dict c) -> il_boxed (ed_index ed) = false.

(** Every array of type [t] has [nn t] columns. *)
Definition ec_cols (nn : string -> nat) (c : econn) : Prop :=
  forall t ed, In (t, ed) (ec_dict c) -> m_cols (ed_e2n ed) = Some (nn t).

(** Rows of a sequence of additions, in order, with the type they were added under and their
    rank in the whole sequence. *)
Definition rows_of_ops (ops : list (string * mat)) : list (string * list Z) :=
  flat_map (fun '(t, m) => List.map (pair t) (m_rows m)) ops.
Definition ranked {A} (l : list A) : list (Z * A) := combine (zrange 0 (zlen l)) l.
Definition ranked_of_type (ops : list (string * mat)) (t : string) : list (Z * list Z) :=
  flat_map (fun '(i, (t', r)) => if String.eqb t t' then [(i, r)] else []) (ranked (rows_of_ops ops)).

(** The pairs with their numbers increased by [k]. *)
Definition shift_pairs (k : Z) (l : list (Z * list Z)) : list (Z * list Z) :=
  List.map (fun '(i, n) => (i + k, n)) l.

(** ** Compressed storage *)

(** [z] stores the node lists [ls] one after the other. *)
Record csr_of (z : csr) (ls : list (list Z)) : Prop := {
  csr_len : List.length (z_index z) = S (List.length ls);
  csr_first : nth_error (z_index z) 0 = Some 0;
  csr_last : nth_error (z_index z) (List.length ls) = Some (zlen (z_value z));
  csr_slices : forall k nodes, nth_error ls k = Some nodes ->
     exists a b, nth_error (z_index z) k = Some a /\ nth_error (z_index z) (S k) = Some b /\
                 0 <= a <= b /\ b <= zlen (z_value z) /\ py_slice (z_value z) a b = nodes }.

(** A CSR structure whose elements have 1 to 4 nodes: starts at 0, ends at the number of values. *)
Record csr_faces (z : csr) : Prop := {
  cf_first : nth_error (z_index z) 0 = Some 0;
  cf_last : last (z_index z) 0 = zlen (z_value z);
  cf_steps : forall k a b, nth_error (z_index z) k = Some a -> nth_error (z_index z) (S k) = Some b ->
                           1 <= b - a <= 4 }.

(** ** Sides of cells *)

(** Node tuple of a side: the tabulated local nodes, in reverse order, mapped through the cell. *)
Definition side_nodes (row : list Z) (eface : list Z) : list Z :=
  List.map (fun j => nth (Z.to_nat j) row 0) (rev eface).

(** The sides of type [ft] of the cells of type [t] in [ed]: all (node tuple, cell number). *)
Definition ed_sides (tbl : sidetable) (ft : string) (t : string) (ed : edict) : list side :=
  match dget String.eqb t tbl with
  | None => []
  | Some faces =>
      flat_map (fun '(ci, row) =>
          flat_map (fun '(ft', efs) =>
              if String.eqb ft ft' then List.map (fun ef => (side_nodes row ef, ci)) efs else [])
            faces)
        (ed_pairs ed)
  end.

Definition ec_sides (tbl : sidetable) (ft : string) (c : econn) : list side :=
  flat_map (fun kv => ed_sides tbl ft (fst kv) (snd kv)) (ec_dict c).

(** Two tuples have the same nodes, with multiplicity (in any order). *)
Definition same_nodes (a b : list Z) : bool :=
  forallb (fun x => Nat.eqb (count_occ Z.eq_dec a x) (count_occ Z.eq_dec b x)) (a ++ b).

(** The sides of [l] having exactly the nodes [nodes]. *)
Definition sharing (nodes : list Z) (l : list side) : list side :=
  filter (fun s => same_nodes nodes (fst s)) l.
