(** * Planar meshes that can be extruded and written: what is expected. *)
From Coq Require Import ZArith List Bool String Permutation.
From Verif Require Import Py Conn ConnSpec FaceSpec Mesh MeshSpec Extrude ExtrudeSpec Ic3 Ic3HeaderSpec Ic3FileSpec Ic3OkSpec ConvSpec.

(** A conforming planar mesh of quadrangles, numbered from 0, with marks on nodes. *)
Record flat_mesh (tbl : sidetable) (m : mesh Z) (c : econn) : Prop := {
  fl_cells : me_cell2node m = Some c; fl_wf : ec_wf c; fl_plain : ec_plain c;
  fl_quads : ec_types c = ["quad4"%string]; fl_width : cells_of base_types c;
  fl_some : 1 <= ec_nelem c; fl_numbers : Permutation (ec_numbers c) (zrange 0 (ec_nelem c));
  fl_rows : forall i row, In (i, row) (ec_pairs c) -> NoDup row /\ forall n, In n row -> 0 <= n < me_nnode m;
  fl_distinct : forall i row i' row', In (i, row) (ec_pairs c) -> In (i', row') (ec_pairs c) -> Permutation row row' -> i = i';
  fl_edges : no_triple tbl c;
  fl_coords : exists x y z, coords_ok m x y z;
  fl_keys : NoDup (dkeys (me_bocos m));
  fl_marks : forall k b, In (k, b) (me_bocos m) -> node_mark_ok k b }.

(** Marks are made of nodes of the mesh; every mark has the nodes of a boundary edge; no boundary edge
    is in two marks; no mark has all the nodes of a cell. *)
Definition flat_marks (tbl : sidetable) (m : mesh Z) (c : econn) : Prop :=
  (forall k b v, In (k, b) (me_bocos m) -> In v (mk_entries b) -> 0 <= v < me_nnode m) /\
  (forall k b, In (k, b) (me_bocos m) -> exists s, outer tbl c "bar2" s /\ spanned (fst s) b) /\
  (forall s k b k' b', outer tbl c "bar2" s -> In (k, b) (me_bocos m) -> In (k', b') (me_bocos m) ->
     spanned (fst s) b -> spanned (fst s) b' -> k = k') /\
  (forall k b i row, In (k, b) (me_bocos m) -> In (i, row) (ec_pairs c) -> ~ spanned row b).

(** The names of the marks of the end planes are new and fit in a file. *)
Definition free_name (m : mesh Z) (k : string) : Prop := good_name k /\ ~ deof k /\ ~ In k (dkeys (me_bocos m)).

(** A face lies inside: between two layers, or over an edge of two cells. *)
Definition some_inside (tbl : sidetable) (c : econn) (nplanes : Z) : Prop :=
  3 <= nplanes \/ exists s, In s (ec_sides tbl "bar2" c) /\ ~ outer tbl c "bar2" s.
