(** * Meshes converted to the HDF5 files of IC3: what is expected. *)
From Coq Require Import ZArith List Bool String Permutation.
From Verif Require Import Py Conn ConnSpec FaceSpec Mesh MeshSpec Ic3 Ic3HeaderSpec Ic3FileSpec Ic3RoundSpec Ic3OkSpec ConvSpec
  Simple SimpleSpec Ic3CubeSpec Ic3V4 Ic3V4Spec.

(** Marks that HDF5 files can hold: a periodic transformation has three reals at least, and the mark
    has not the name of one of the datasets beside it. *)
Definition marks_fit4 (bs : dict string (mark Z)) : Prop :=
  forall k b l, In (k, b) bs -> mk_perio b = Some (Some l) -> 3 <= zlen l /\ ~ In k ["labels"; "offsets"; "kinds"]%string.

(** The zones read from an HDF5 file of a mesh of cells: see [zones_from_marks]; the periodic
    transformations are cut, and there is none where there was none. *)
Definition zone4_of (lb : list (list Z)) (P : list Z -> Prop) (k : string) (t : option string) (perio : option (option (list Z))) (z : string * mark Z) : Prop :=
  exists lo hi, z = (k, Mark Z k (Some Gbdface) t (Some (ILrange lo hi)) perio) /\
    0 <= lo <= hi /\ hi < zlen lb /\
    forall n nodes, nth_error lb n = Some nodes -> (lo <= Z.of_nat n <= hi <-> P nodes).
Definition zones4_from_marks (m : mesh Z) (lb li : list (list Z)) (bs : dict string (mark Z)) : Prop :=
  exists zones rest,
    bs = zones ++ rest ++ [("internal-domain"%string, internal_on (zlen lb) (zlen lb + zlen li - 1))] /\
    Forall2 (fun kb z => zone4_of lb (fun nodes => spanned nodes (snd kb)) (fst kb) (mk_type (snd kb)) (perio3 (snd kb)) z) (me_bocos m) zones /\
    ((forall nodes, In nodes lb -> exists k b, In (k, b) (me_bocos m) /\ spanned nodes b) -> rest = []) /\
    ((exists nodes, In nodes lb /\ forall k b, In (k, b) (me_bocos m) -> ~ spanned nodes b) ->
      exists z, rest = [z] /\ zone4_of lb (fun nodes => forall k b, In (k, b) (me_bocos m) -> ~ spanned nodes b)
                  "unmarked" (Some "boundary"%string) None z).

(** The mesh read from the HDF5 mesh file of a mesh of cells, without a solution file. *)
Record converted4 (m : mesh Z) (lb li rb ri : list (list Z)) (fm2 : fmesh) : Prop := {
  c4_ncell : me_ncell (fm_mesh fm2) = me_ncell m; c4_nnode : me_nnode (fm_mesh fm2) = me_nnode m;
  c4_nface : me_nface (fm_mesh fm2) = zlen lb + zlen li;
  c4_coords : nodescoord (fm_mesh fm2) = nodescoord m;
  c4_faces : exists f, me_faces (fm_mesh fm2) = [("mixed"%string, f)] /\ faces_set f (lb ++ li) (rb ++ ri);
  c4_cells : me_cell2node (fm_mesh fm2) = None;
  c4_marks : zones4_from_marks m lb li (me_bocos (fm_mesh fm2));
  c4_data : fd_items (fm_cells fm2) = [] /\ fd_items (fm_nodes fm2) = [];
  c4_state : dget String.eqb "step" (fm_params fm2) = Some (SNum (NInt 0)) /\ dget String.eqb "time" (fm_params fm2) = Some (SNum (NInt 0)) }.

(** The cells in the file: one table of nodes for each type of cell, in the order of the mesh. *)
Definition cell_tables (c : econn) (f : mesh4) : Prop :=
  exists d, m4_cells f = Some d /\ Forall2 (fun te tm => fst tm = fst te /\ m_rows (snd tm) = m_rows (ed_e2n (snd te))) (ec_dict c) d.

(** ** From the other versions *)
(** A zone of a mesh that goes through a file of version 2 or 3, then through a file of version 4: on
    boundary faces, with the three first reals of the periodic transformation, completed with zeros.
    There are three zeros where there was no transformation. *)
Definition zone4_back (kb : string * mark Z) : string * mark Z :=
  (fst kb, Mark Z (fst kb) (Some Gbdface) (mk_type (snd kb)) (mk_index (snd kb))
     (Some (Some (firstn 3 (match mk_perio (snd kb) with Some (Some l) => l | _ => [] end ++ [0; 0; 0]))))).
(** Each zone begins where the one before ends, the first one at the face 0, and there is one at least. *)
Definition in_a_row (m : mesh Z) : Prop := zone_marks m <> [] /\ contiguous 0 (List.map snd (zone_marks m)).

(** The solution of [fm], as read in [fm2]: the conserved variables and the statistics, the weights when there
    are statistics, the step and the time. *)
Record solution_kept (i2d : Z -> Z) (f2i : Z -> res Z) (fm fm2 : fmesh) : Prop := {
  k4_conserved : forall name a k, In name ["RHO"; "RHOU"; "RHOE"]%string -> In (name, a) (fd_items (fm_cells fm)) ->
     per_cell (me_ncell (fm_mesh fm)) a k -> dget String.eqb name (fd_items (fm_cells fm2)) = Some (var_back i2d (me_ncell (fm_mesh fm)) k a);
  k4_stats : forall name a k, In (name, a) (fd_items (fm_cells fm)) -> stat_name name ->
     per_cell (me_ncell (fm_mesh fm)) a k -> dget String.eqb (upper name) (fd_items (fm_cells fm2)) = Some (var_back i2d (me_ncell (fm_mesh fm)) k a);
  k4_names : forall name, In name (List.map fst (fd_items (fm_cells fm2))) ->
     In name ["RHO"; "RHOU"; "RHOE"]%string \/ exists s, In s (List.map fst (fd_items (fm_cells fm))) /\ stat_name s /\ name = upper s;
  k4_step : exists n, as_int f2i (param (fm_params fm) "step" (SNum (NInt 0))) n /\ dget String.eqb "step" (fm_params fm2) = Some (SNum (NInt n));
  k4_time : exists x, as_double i2d (param (fm_params fm) "time" (SNum (NInt 0))) x /\ dget String.eqb "time" (fm_params fm2) = Some (SNum (NFlt x));
  k4_weights : forall d s k x, dget String.eqb "wgt" (fm_params fm) = Some (SWgt d) -> NoDup (List.map (fun '(k, _) => lower (upper k ++ "_WGT")%string) d) ->
     In s (List.map fst (fd_items (fm_cells fm))) -> stat_name s -> In (k, x) d ->
     exists y, as_double i2d (SNum x) y /\ dget String.eqb (lower (upper k ++ "_WGT")) (fm_params fm2) = Some (SNum (NFlt y)) }.
