(** * Meshes that the IC3 writers accept: numbers that fit in a file and complete information. *)
From Coq Require Import ZArith List Bool String.
From Verif Require Import Py Conn Mesh Ic3 Ic3HeaderSpec Ic3FileSpec Ic3RoundSpec.

(** Types of marks that have a code in the files. *)
Definition known_types : list string := ["boundary"; "perio_cart"; "perio_cylx"; "perio_cyly"; "perio_cylz"]%string.
(** A mark on faces, under its own name, of a known type, that is a range, with at most 16 reals. *)
Definition mark_complete (k : string) (b : mark Z) : Prop :=
  mk_name b = k /\ (mk_geodim b = Some Gbdface \/ mk_geodim b = Some Gface) /\
  (exists t, mk_type b = Some t /\ In t known_types) /\ (exists lo hi, mk_index b = Some (ILrange lo hi) /\ int64 hi) /\
  match mk_perio b with Some (Some l) => zlen l <= 16 | _ => True end.

(** Data with one value, vector or tensor for each of the [n] places. *)
Definition data_complete (n : Z) (d : dict string array) : Prop :=
  Forall (fun '(_, a) => (a_shape a = [n] \/ a_shape a = [n; 3] \/ a_shape a = [n; 3; 3]) /\ (a_int a = true -> Forall int64 (a_val a))) d.

Record storable (f2i : Z -> res Z) (v : version) (fm : fmesh) (ls rows : list (list Z)) : Prop := {
  wr_layout : file_layout v fm ls rows;
  wr_typed : fmesh_typed fm;
  wr_coords : exists x y z, nodescoord (fm_mesh fm) = Ok (x, y, z) /\
     zlen x = me_nnode (fm_mesh fm) /\ zlen y = me_nnode (fm_mesh fm) /\ zlen z = me_nnode (fm_mesh fm);
  (** counts, node numbers and cell numbers are 32-bit integers *)
  wr_counts : me_nnode (fm_mesh fm) < 2 ^ 31 /\ zlen ls < 2 ^ 31 /\ me_ncell (fm_mesh fm) < 2 ^ 31 /\ cell_total v fm < 2 ^ 55;
  wr_nodes : Forall int32 (List.concat ls);
  wr_cells : Forall int32 (List.concat rows);
  wr_marks : forall k b, In (k, b) (zone_marks (fm_mesh fm)) -> mark_complete k b;
  wr_part : match fm_part fm with
            | None => True
            | Some p => exists n l, p = Some (n, Some l) /\ int64 n /\ zlen l = me_ncell (fm_mesh fm) /\ Forall int32 l
            end;
  wr_step : exists n, as_int f2i (param (fm_params fm) "step" (SNum (NInt 0))) n /\ int64 n;
  wr_dt : exists x, param (fm_params fm) "dt" (SNum (NInt 0)) = SNum x;
  wr_time : exists x, param (fm_params fm) "time" (SNum (NInt 0)) = SNum x;
  wr_wgt : exists d, param (fm_params fm) "wgt" (SWgt []) = SWgt d;
  wr_ndata : data_complete (me_nnode (fm_mesh fm)) (fd_items (fm_nodes fm));
  wr_cdata : data_complete (cell_total v fm) (fd_items (fm_cells fm));
  (** the writer of version 3 asks for the number of degrees of freedom of the cell data *)
  wr_dataset : v = V3 -> (exists d, fm_cells fm = FSet d) \/ fd_items (fm_cells fm) = [] }.
(** The same, with the cell numbers that the reader expects. *)
Record writable (f2i : Z -> res Z) (v : version) (fm : fmesh) (ls rows : list (list Z)) : Prop := {
  wr_storable :> storable f2i v fm ls rows;
  wr_file : file_mesh v fm ls rows }.
