(** * What HDF5 files of IC3 must keep: vocabulary. *)
From Coq Require Import ZArith List Bool String Ascii Permutation Sorted.
From Verif Require Import Py Conn ConnSpec Mesh Data Ic3 Ic3HeaderSpec Ic3FileSpec Ic3RoundSpec Ic3V4.

(** Names kept by strings of 128 bytes: ASCII characters other than NUL. *)
Definition good_label (s : string) : Prop :=
  (String.length s <= 128)%nat /\ forall c, In c (list_ascii_of_string s) -> (0 < nat_of_ascii c < 128)%nat.

(** A mesh that makes sense as a file: see [file_mesh] for the vocabulary of faces. *)
Record mesh4_ok (fm : fmesh) (ls rows : list (list Z)) : Prop := {
  v4_ncell : 1 <= me_ncell (fm_mesh fm);
  v4_nface : me_nface (fm_mesh fm) = zlen ls; v4_some : 1 <= zlen ls;
  v4_faces : faces_of (fm_mesh fm) ls rows;
  v4_sizes : Forall (fun r => 1 <= zlen r <= 4) ls;
  v4_rows : Forall (fun r => List.length r = 2%nat) rows;
  v4_nodes : Forall int32 (List.concat ls);
  (** the cell numbers reach [ncell - 1] and do not exceed it *)
  v4_reach : In (me_ncell (fm_mesh fm) - 1) (List.concat rows);
  v4_bound : Forall (fun c => c <= me_ncell (fm_mesh fm) - 1) (List.concat rows);
  v4_zones : forall k b lo hi, In (k, b) (zone_marks (fm_mesh fm)) -> mk_index b = Some (ILrange lo hi) ->
                               0 <= lo <= zlen ls /\ hi < zlen ls;
  v4_labels : Forall good_label (List.map fst (zone_marks (fm_mesh fm)));
  v4_keys : NoDup (List.map fst (zone_marks (fm_mesh fm)));
  v4_reserved : ~ In "internal-domain"%string (List.map fst (zone_marks (fm_mesh fm))) }.

(** The marks of the mesh [m] are all the marks but those of type 'internal'.  A mark that comes back:
    on boundary faces, three reals of its periodic transformation. *)
Definition zone_first (b : mark Z) : Z := match mk_index b with Some (ILrange lo _) => lo | _ => 0 end.
Definition perio3 (b : mark Z) : option (option (list Z)) :=
  match mk_perio b with Some (Some l) => Some (Some (firstn 3 l)) | _ => None end.
Definition mark_on (k : string) (b : mark Z) (lo hi : Z) : mark Z :=
  Mark Z k (Some Gbdface) (mk_type b) (Some (ILrange lo hi)) (perio3 b).
Definition internal_on (lo hi : Z) : mark Z :=
  Mark Z "internal-domain" (Some Gintface) (Some "internal"%string) (Some (ILrange lo hi)) None.
(** First faces of all the zones of a file, with the internal one. *)
Definition firsts (m : mesh Z) : list Z := List.map (fun kb => zone_first (snd kb)) (zone_marks m) ++ [marks_end m + 1].
(** [n] is the first of the starts [l] that lies after [lo], or the end [nf]. *)
Definition next_start (l : list Z) (nf lo n : Z) : Prop :=
  (In n l /\ lo < n /\ forall x, In x l -> lo < x -> n <= x) \/ ((forall x, In x l -> x <= lo) /\ n = nf).

(** Zones cut at their starts: each one ends where the next of the list begins. *)
Fixpoint cut_zones (nf : Z) (l : list (Z * (Z -> mark Z))) : list (mark Z) :=
  match l with
  | [] => []
  | (lo, z) :: l' => z (match l' with [] => nf | (lo', _) :: _ => lo' end - 1) :: cut_zones nf l'
  end.
(** The zones of a mesh, open at their end. *)
Definition open_zones (m : mesh Z) : list (Z * (Z -> mark Z)) :=
  List.map (fun '(k, b) => (zone_first b, mark_on k b (zone_first b))) (zone_marks m)
  ++ [(marks_end m + 1, internal_on (marks_end m + 1))].

(** [fm2] has the mesh of [fm], but for the marks. *)
Record mesh_as (fm fm2 : fmesh) (ls rows : list (list Z)) : Prop := {
  m4s_ncell : me_ncell (fm_mesh fm2) = me_ncell (fm_mesh fm);
  m4s_nnode : me_nnode (fm_mesh fm2) = me_nnode (fm_mesh fm);
  m4s_nface : me_nface (fm_mesh fm2) = me_nface (fm_mesh fm);
  m4s_coords : nodescoord (fm_mesh fm2) = nodescoord (fm_mesh fm);
  m4s_faces : exists f, me_faces (fm_mesh fm2) = [("mixed"%string, f)] /\ faces_set f ls rows;
  m4s_cells : me_cell2node (fm_mesh fm2) = None;
  m4s_part : fm_part fm2 = Some None;
  m4s_nodes : fd_items (fm_nodes fm2) = [] }.

(** ** Variables *)
(** Statistics variables. *)
Definition stat_name (s : string) : Prop := exists a b t, In t ["_AVG"; "_RMS"; "_REY"]%string /\ s = (a ++ t ++ b)%string.
Definition weight_name (s : string) : Prop := exists a, s = (a ++ "_wgt")%string.
(** The variable [a] as read: numbers, or rows of [k] numbers. *)
Definition var_back (i2d : Z -> Z) (cv k : Z) (a : array) : array :=
  Arr (if k =? 1 then [cv] else [cv; k]) false (array_doubles i2d a).
(** [k] numbers for each of the [cv] cells. *)
Definition per_cell (cv : Z) (a : array) (k : Z) : Prop := 1 <= k /\ zlen (a_val a) = cv * k.

Record sol_as (i2d : Z -> Z) (fm fm2 : fmesh) : Prop := {
  s4s_conserved : forall name a k, In name ["RHO"; "RHOU"; "RHOE"]%string -> dget String.eqb name (fd_items (fm_cells fm)) = Some a ->
     per_cell (me_ncell (fm_mesh fm)) a k -> dget String.eqb name (fd_items (fm_cells fm2)) = Some (var_back i2d (me_ncell (fm_mesh fm)) k a);
  s4s_stats : forall name a k, In (name, a) (fd_items (fm_cells fm)) -> stat_name name ->
     per_cell (me_ncell (fm_mesh fm)) a k -> dget String.eqb (upper name) (fd_items (fm_cells fm2)) = Some (var_back i2d (me_ncell (fm_mesh fm)) k a);
  (** nothing else *)
  s4s_names : forall name, In name (List.map fst (fd_items (fm_cells fm2))) ->
     In name ["RHO"; "RHOU"; "RHOE"]%string \/ exists s, In s (List.map fst (fd_items (fm_cells fm))) /\ stat_name s /\ name = upper s;
  s4s_step : dget String.eqb "step" (fm_params fm2) = Some (param (fm_params fm) "step" (SNum (NInt 0)));
  s4s_time : dget String.eqb "time" (fm_params fm2) = Some (param (fm_params fm) "time" (SNum (NInt 0)));
  (** weights, if there is a statistics variable *)
  s4s_weights : forall name s, weight_name name -> In s (List.map fst (fd_items (fm_cells fm))) -> stat_name s ->
     dget String.eqb name (fm_params fm2) = dget String.eqb name (fm_params fm);
  s4s_no_weight : forall name, weight_name name -> (forall s, In s (List.map fst (fd_items (fm_cells fm))) -> ~ stat_name s) ->
     dget String.eqb name (fm_params fm2) = None }.

(** ** What can be written *)
Definition types4 : list string := ["boundary"; "perio_cart"; "perio_cylx"; "perio_cyly"; "perio_cylz"]%string.
Definition mark4_ok (k : string) (b : mark Z) : Prop :=
  mk_name b = k /\ (mk_geodim b = Some Gbdface \/ mk_geodim b = Some Gface) /\
  (exists t, mk_type b = Some t /\ In t types4) /\ (exists lo hi, mk_index b = Some (ILrange lo hi)) /\
  match mk_perio b with Some (Some l) => 3 <= zlen l /\ ~ In k ["labels"; "offsets"; "kinds"]%string | _ => True end.
(** A number for an attribute: a float, or an integer of 64 bits, with or without sign. *)
Definition attr_ok (v : sval) : Prop := match v with SNum (NInt n) => - 2 ^ 63 <= n < 2 ^ 64 | SNum (NFlt _) => True | SWgt _ => False end.

Record writable4 (fm : fmesh) (ls rows : list (list Z)) : Prop := {
  w4_ok : mesh4_ok fm ls rows;
  w4_coords : exists x y z, nodescoord (fm_mesh fm) = Ok (x, y, z) /\
     zlen x = me_nnode (fm_mesh fm) /\ zlen y = me_nnode (fm_mesh fm) /\ zlen z = me_nnode (fm_mesh fm);
  w4_count : zlen ls < 2 ^ 31;
  w4_cells : Forall int32 (List.concat rows);
  w4_marks : forall k b, In (k, b) (zone_marks (fm_mesh fm)) -> mark4_ok k b }.
Record solution4 (fm : fmesh) : Prop := {
  so_step : attr_ok (param (fm_params fm) "step" (SNum (NInt 0)));
  so_time : attr_ok (param (fm_params fm) "time" (SNum (NInt 0)));
  so_weights : forall k v, In (k, v) (fm_params fm) -> weight_name k -> attr_ok v;
  (** no two statistics variables whose names differ by the case only *)
  so_names : forall s t, In s (List.map fst (fd_items (fm_cells fm))) -> In t (List.map fst (fd_items (fm_cells fm))) ->
     stat_name s -> stat_name t -> lower s = lower t -> s = t }.
(** Dictionaries have each key once. *)
Definition keyed (fm : fmesh) : Prop := NoDup (List.map fst (fm_params fm)) /\ NoDup (List.map fst (fd_items (fm_cells fm))).
(** The variables that a solution file holds. *)
Definition sol_vars (fm : fmesh) (name : string) (a : array) : Prop :=
  In (name, a) (fd_items (fm_cells fm)) /\ (In name ["RHO"; "RHOU"; "RHOE"]%string \/ stat_name name).
