(** * Gmsh files converted to IC3 files: what is expected. *)
From Coq Require Import ZArith List Bool String Permutation.
From Verif Require Import Py IndexList Conn ConnSpec FaceSpec Mesh MeshSpec Gmsh GmshSpec GroupFacts Ic3 Ic3HeaderSpec Ic3FileSpec Ic3OkSpec ConvSpec.

(** The cells of the elements [l]: type after type in order of first appearance, numbered from 0. *)
Definition rows_of (l : list felt) (t : string) : list (list Z) := List.map nodes0 (filter (fun e => String.eqb (felt_name e) t) l).
Fixpoint numbered (k : Z) (l : list felt) (ts : list string) : dict string edict :=
  match ts with
  | [] => []
  | t :: ts' => let rows := rows_of l t in
      (t, ED (ILrange k (k + zlen rows - 1)) (Mat (Some (List.length (List.hd [] rows))) rows)) :: numbered (k + zlen rows) l ts'
  end.
Definition elt_cells (l : list felt) : econn := EC (zlen l) (numbered 0 l (first_seen String.eqb (List.map felt_name l))).

(** The patches of the boundary elements [bl], and their nodes (from 0). *)
Definition is_patch (names : option (list (Z * Z * string))) (bl : list felt) (k : string) : Prop :=
  ~ no_mark names k /\ exists e, In e bl /\ patch_name names bl e = Some k.
Definition patch_covers (names : option (list (Z * Z * string))) (bl : list felt) (k : string) (nodes : list Z) : Prop :=
  forall v, In v nodes -> exists e, In e bl /\ patch_name names bl e = Some k /\ In (v + 1) (fe_nodes e).

(** A conforming file: known nodes, named boundary elements, at most two cells along a face; for each
    type of face some on the boundary and some inside; names of patches that fit in an IC3 file. *)
Record gmsh_conforms (tbl : sidetable) (names : option (list (Z * Z * string))) (nnode d : Z) (elts : list felt) : Prop := {
  gc_nodes : forall e v, In e (GmshSpec.of_dim d elts) -> In v (fe_nodes e) -> 1 <= v <= nnode;
  gc_named : forall e, In e (GmshSpec.of_dim (d - 1) elts) -> patch_name names (GmshSpec.of_dim (d - 1) elts) e <> None;
  gc_manifold : no_triple tbl (elt_cells (GmshSpec.of_dim d elts));
  gc_both : forall ft, has_face_type tbl (elt_cells (GmshSpec.of_dim d elts)) ft ->
     (exists s, outer tbl (elt_cells (GmshSpec.of_dim d elts)) ft s) /\
     (exists s, In s (ec_sides tbl ft (elt_cells (GmshSpec.of_dim d elts))) /\ ~ outer tbl (elt_cells (GmshSpec.of_dim d elts)) ft s);
  gc_names : forall k, is_patch names (GmshSpec.of_dim (d - 1) elts) k ->
     good_name k /\ ~ deof k /\ k <> "unmarked"%string /\ k <> "internal-domain"%string }.
(** Each patch covers some face of the boundary and no face of the boundary is covered by two patches. *)
Record patches_apart (tbl : sidetable) (names : option (list (Z * Z * string))) (d : Z) (elts : list felt) : Prop := {
  pa_cover : forall k, is_patch names (GmshSpec.of_dim (d - 1) elts) k ->
     exists ft s, outer tbl (elt_cells (GmshSpec.of_dim d elts)) ft s /\ patch_covers names (GmshSpec.of_dim (d - 1) elts) k (fst s);
  pa_apart : forall ft s k k', outer tbl (elt_cells (GmshSpec.of_dim d elts)) ft s ->
     is_patch names (GmshSpec.of_dim (d - 1) elts) k -> is_patch names (GmshSpec.of_dim (d - 1) elts) k' ->
     patch_covers names (GmshSpec.of_dim (d - 1) elts) k (fst s) -> patch_covers names (GmshSpec.of_dim (d - 1) elts) k' (fst s) -> k = k' }.

(** A mesh whose coordinates are all defined, as one of plain reals ([None] stands for a node that was not read). *)
Definition value (o : option Z) : Z := match o with Some v => v | None => 0 end.
Definition defined (m : mesh (option Z)) : mesh Z :=
  Mesh Z (me_ncell m) (me_nnode m) (me_nface m) (me_cell2node m) (me_faces m)
    (List.map (fun '(k, v) => (k, List.map value v)) (me_nodes m))
    (List.map (fun '(k, b) => (k, Mark Z (mk_name b) (mk_geodim b) (mk_type b) (mk_index b) (option_map (option_map (List.map value)) (mk_perio b)))) (me_bocos m)).
