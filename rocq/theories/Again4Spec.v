(** * HDF5 files of IC3 written again from what was read: vocabulary. *)
From Coq Require Import ZArith List Bool String Permutation.
From Verif Require Import Py Conn Mesh Data Ic3 Ic3V4.

(** Two mesh files with the same contents.  The groups of periodic transformations are members of an HDF5
    group: their order of creation is not seen.  A mesh that was read has no cell connectivity, which is the
    one group that is not in the second file. *)
Record same_mesh_file (f g : mesh4) : Prop := {
  sm_no : m4_no g = m4_no f; sm_fa : m4_fa g = m4_fa f; sm_cv : m4_cv g = m4_cv f; sm_coords : m4_coords g = m4_coords f;
  sm_cells : m4_cells g = None;
  sm_cvofa : m4_cvofa g = m4_cvofa f; sm_nno : m4_noofa_i g = m4_noofa_i f; sm_noofa : m4_noofa_v g = m4_noofa_v f;
  sm_bounds : exists b c, m4_bounds f = Some b /\ m4_bounds g = Some c /\ b4_labels c = b4_labels b /\ b4_offsets c = b4_offsets b /\
     b4_kinds c = b4_kinds b /\ Permutation (b4_perio b) (b4_perio c) }.
(** Two solution files with the same attributes and datasets; the order of the statistics is not seen. *)
Definition same_sol_file (s t : sol4) : Prop :=
  s4_attrs t = s4_attrs s /\ s4_vars t = s4_vars s /\
  match s4_stats s, s4_stats t with
  | None, None => True
  | Some (w, v), Some (w', v') => w' = w /\ Permutation v v'
  | _, _ => False
  end.
Definition same_sol (s t : option sol4) : Prop :=
  match s, t with None, None => True | Some s, Some t => same_sol_file s t | _, _ => False end.

(** [n] rewritings: the files are read and the mesh is written again, each time on any machine, with any
    byte order and any table of sides. *)
Definition files4 : Type := (mesh4 * option sol4)%type.
Inductive rewritten (i2d narrow : Z -> Z) (solution : bool) : nat -> files4 -> files4 -> Prop :=
| rw_none f : rewritten i2d narrow solution 0 f f
| rw_more n f g h fm fm' tbl enum host endian : rewritten i2d narrow solution n f g -> read4 (fst g) (snd g) = Ok fm ->
    In endian ["native"; "little"; "big"]%string -> write4 i2d narrow tbl enum host endian solution fm = (Ok h, fm') ->
    rewritten i2d narrow solution (S n) f h.
