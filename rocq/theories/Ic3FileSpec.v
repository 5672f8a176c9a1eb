(** * What is expected of IC3 files: vocabulary for the properties of the reader and the writers. *)
From Verif Require Import Py Ic3 Ic3HeaderSpec.

(** Values have their types: floats are 64-bit patterns and the arrays fill their shapes. *)
Definition num_typed (x : num) : Prop := match x with NInt _ => True | NFlt p => pattern p end.
Definition sval_typed (v : sval) : Prop :=
  match v with SNum n => num_typed n | SWgt d => Forall (fun '(_, n) => num_typed n) d end.
Definition array_typed (a : array) : Prop := a_wf a /\ (a_int a = false -> Forall pattern (a_val a)).
Definition mark_typed (b : mark Z) : Prop :=
  match mk_perio b with Some (Some l) => Forall pattern l | _ => True end.
Definition data_typed (d : dict string array) : Prop := Forall (fun '(_, a) => array_typed a) d.

(** The names that the user chose and that the file contains, each in the header of a section: marks,
    statistics weights, node data and cell data. *)
Definition wgt_names (x : sval) : list string :=
  match x with SWgt d => List.map (fun kx => (upper (fst kx) ++ "_WGT")%string) d | SNum _ => [] end.
Definition user_names (w : wstate) : list string :=
  List.map fst (w_bocos w) ++ wgt_names (w_wgt w) ++ List.map fst (fd_items (w_nodes w)) ++ List.map fst (fd_items (w_cells w)).

(** A mesh whose values have their types. *)
Definition fmesh_typed (fm : fmesh) : Prop :=
  let m := fm_mesh fm in
  0 <= me_nface m /\ 0 <= me_ncell m /\
  Forall (fun '(_, c) => Forall pattern c) (me_nodes m) /\ Forall (fun '(_, b) => mark_typed b) (me_bocos m) /\
  Forall (fun '(_, v) => sval_typed v) (fm_params fm) /\
  data_typed (fd_items (fm_nodes fm)) /\ data_typed (fd_items (fm_cells fm)) /\
  match fm_cells fm with FSet d => 0 <= ds_ndof d | FDict _ => True end.

(** Marks that the writers write as zones. *)
Definition zone_marks (m : mesh Z) : dict string (mark Z) :=
  filter (fun '(_, b) => match mk_type b with Some t => negb (String.eqb t "internal") | None => true end) (me_bocos m).
(** The names of a mesh that end in a file. *)
Definition mesh_names (fm : fmesh) : list string :=
  List.map fst (zone_marks (fm_mesh fm))
  ++ wgt_names (param (fm_params fm) "wgt" (SWgt []))
  ++ List.map fst (fd_items (fm_nodes fm)) ++ List.map fst (fd_items (fm_cells fm)).
