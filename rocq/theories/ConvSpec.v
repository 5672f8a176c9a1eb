(** * Meshes of cells converted to IC3 files: what is expected. *)
From Coq Require Import ZArith List Bool String Permutation.
From Verif Require Import Py Conn ConnSpec FaceSpec Mesh MeshSpec Ic3 Ic3HeaderSpec Ic3FileSpec Ic3RoundSpec Ic3OkSpec.

(** A side of a single cell. *)
Definition outer (tbl : sidetable) (c : econn) (ft : string) (s : side) : Prop :=
  In s (ec_sides tbl ft c) /\ sharing (fst s) (ec_sides tbl ft c) = [s].
(** The nodes of a face are all in the mark. *)
Definition spanned (nodes : list Z) (b : mark Z) : Prop := forall n, In n nodes -> In n (mk_entries b).

(** A mark on nodes that can be written: known type, at most 16 reals, a name that fits in a file. *)
Record node_mark_ok (k : string) (b : mark Z) : Prop := {
  nm_nodes : on_nodes b = true; nm_index : mark_ok b; nm_name : mk_name b = k;
  nm_type : exists t, mk_type b = Some t /\ In t known_types;
  nm_perio : match mk_perio b with Some (Some l) => zlen l <= 16 /\ Forall pattern l | _ => True end;
  nm_key : good_name k /\ ~ deof k /\ k <> "unmarked"%string /\ k <> "internal-domain"%string }.

(** A conforming mesh of linear cells: at most two cells along a face, for each
    face type some faces on the boundary and some inside, coordinates, and marks on nodes. *)
Record cell_mesh (tbl : sidetable) (types : list (string * nat)) (m : mesh Z) (c : econn) : Prop := {
  cm_cells : me_cell2node m = Some c; cm_wf : ec_wf c; cm_plain : ec_plain c;
  cm_types : cells_of types c; cm_linear : ~ In "hexa27"%string (ec_types c);
  cm_nofaces : me_faces m = [];
  cm_ncell : me_ncell m = ec_nelem c; cm_some : 1 <= ec_nelem c;
  (** any numbers that fit in a file *)
  cm_numbers : Forall (fun i => 0 <= i < 2 ^ 31) (ec_numbers c);
  cm_nodes : forall i ns n, In (i, ns) (ec_pairs c) -> In n ns -> 0 <= n < me_nnode m;
  cm_coords : exists x y z, coords_ok m x y z;
  cm_patterns : Forall (fun '(_, v) => Forall pattern v) (me_nodes m);
  cm_manifold : no_triple tbl c;
  cm_both : forall ft, has_face_type tbl c ft ->
     (exists s, outer tbl c ft s) /\ (exists s, In s (ec_sides tbl ft c) /\ ~ outer tbl c ft s);
  cm_keys : NoDup (dkeys (me_bocos m));
  cm_marks : forall k b, In (k, b) (me_bocos m) -> node_mark_ok k b }.

(** The largest cell number. *)
Definition ends_at (c : econn) (k : Z) : Prop := In k (ec_numbers c) /\ forall i, In i (ec_numbers c) -> i <= k.

(** The number of sides of the cells, at least the number of faces. *)
Definition all_sides (tbl : sidetable) (c : econn) : Z := zlen (flat_map (fun ft => ec_sides tbl ft c) ["bar2"; "tri3"; "quad4"]%string).

(** Every mark spans a boundary face; no boundary face is spanned by two marks. *)
Definition marks_apart (tbl : sidetable) (m : mesh Z) (c : econn) : Prop :=
  (forall k b, In (k, b) (me_bocos m) -> exists ft s, outer tbl c ft s /\ spanned (fst s) b) /\
  (forall ft s k b k' b', outer tbl c ft s -> In (k, b) (me_bocos m) -> In (k', b') (me_bocos m) ->
     spanned (fst s) b -> spanned (fst s) b' -> k = k').

(** Faces: [lb] the nodes and [rb] the cells of the boundary faces, [li] and [ri] of the internal ones. *)
Record faces_from_cells (tbl : sidetable) (c : econn) (lb li rb ri : list (list Z)) : Prop := {
  fc_bnd : Forall2 (fun nodes r => exists ft ci, r = [ci; -1] /\ sharing nodes (ec_sides tbl ft c) = [(nodes, ci)]) lb rb;
  fc_int : Forall2 (fun nodes r => exists ft c1 c2 nodes2, r = [c1; c2] /\
              Permutation (sharing nodes (ec_sides tbl ft c)) [(nodes, c1); (nodes2, c2)]) li ri;
  fc_once : forall ft s, In s (ec_sides tbl ft c) -> List.length (filter (same_nodes (fst s)) (lb ++ li)) = 1%nat }.

(** The reals of a mark in a file: completed with zeros. *)
Definition perio_back (b : mark Z) : list Z :=
  let l := match mk_perio b with Some (Some l) => l | _ => [] end in l ++ repeat 0 (16 - List.length l).

(** A zone: the mark [b], under its name, holds the boundary faces satisfying [P]. *)
Definition zone_of (lb : list (list Z)) (P : list Z -> Prop) (k : string) (t : option string) (perio : list Z) (z : string * mark Z) : Prop :=
  exists lo hi, z = (k, Mark Z k (Some Gbdface) t (Some (ILrange lo hi)) (Some (Some perio))) /\
    0 <= lo <= hi /\ hi < zlen lb /\
    forall n nodes, nth_error lb n = Some nodes -> (lo <= Z.of_nat n <= hi <-> P nodes).

(** The marks read: one zone for each mark, the rest if any, and the inside. *)
Definition zones_from_marks (m : mesh Z) (lb li : list (list Z)) (bs : dict string (mark Z)) : Prop :=
  exists zones rest,
    bs = zones ++ rest ++ [("internal-domain"%string, Mark Z "internal-domain" (Some Gintface) (Some "internal"%string)
           (Some (ILrange (zlen lb) (zlen lb + zlen li - 1))) (Some (Some (repeat 0 16))))] /\
    Forall2 (fun kb z => zone_of lb (fun nodes => spanned nodes (snd kb)) (fst kb) (mk_type (snd kb)) (perio_back (snd kb)) z) (me_bocos m) zones /\
    ((forall nodes, In nodes lb -> exists k b, In (k, b) (me_bocos m) /\ spanned nodes b) -> rest = []) /\
    ((exists nodes, In nodes lb /\ forall k b, In (k, b) (me_bocos m) -> ~ spanned nodes b) ->
      exists z, rest = [z] /\ zone_of lb (fun nodes => forall k b, In (k, b) (me_bocos m) -> ~ spanned nodes b)
                  "unmarked" (Some "boundary"%string) (repeat 0 16) z).

(** The mesh read from the file of a mesh of cells. *)
Record converted (tbl : sidetable) (m : mesh Z) (c : econn) (lb li rb ri : list (list Z)) (fm2 : fmesh) : Prop := {
  cv_ncell : me_ncell (fm_mesh fm2) = me_ncell m; cv_nnode : me_nnode (fm_mesh fm2) = me_nnode m;
  cv_nface : me_nface (fm_mesh fm2) = zlen lb + zlen li;
  cv_coords : nodescoord (fm_mesh fm2) = nodescoord m;
  cv_faces : exists f, me_faces (fm_mesh fm2) = [("mixed"%string, f)] /\ faces_set f (lb ++ li) (rb ++ ri);
  cv_marks : zones_from_marks m lb li (me_bocos (fm_mesh fm2));
  cv_data : fd_items (fm_cells fm2) = [] /\ fd_items (fm_nodes fm2) = [] }.
