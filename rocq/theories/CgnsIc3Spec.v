(** * CGNS zones of hexahedra converted to IC3 files: what is expected. *)
From Coq Require Import ZArith List Bool String Permutation.
From Verif Require Import Py IndexList Conn ConnSpec FaceSpec Mesh MeshSpec Cgns CgnsSpec Ic3 Ic3HeaderSpec Ic3FileSpec Ic3OkSpec ConvSpec.

(** The cells and the faces listed in the file, counted from 0. *)
Definition file_cells (secs : list csec) : list (Z * list Z) := flat_map sec_elts (secs_of_dim 3 secs).
Definition file_faces (secs : list csec) : list (Z * list Z) := flat_map sec_elts (secs_of_dim 2 secs).
(** Hexahedra with given numbers and nodes. *)
Definition hexas (l : list (Z * list Z)) : econn := EC (zlen l) [("hexa8"%string, ED (ILlist (List.map fst l)) (Mat (Some 8%nat) (List.map snd l)))].

(** The nodes of a boundary condition on points or faces. *)
Definition bc_nodes (faces : list (Z * list Z)) (b : cbc) (v : Z) : Prop :=
  match cb_where b with
  | Points loc l => if String.eqb loc "FaceCenter" then exists k nodes, In k l /\ In (k - 1, nodes) faces /\ In v nodes else In (v + 1) l
  | Elts l => exists k nodes, In k l /\ In (k - 1, nodes) faces /\ In v nodes
  end.
Definition bc_covers (faces : list (Z * list Z)) (b : cbc) (nodes : list Z) : Prop := forall v, In v nodes -> bc_nodes faces b v.
Definition on_points_or_faces (faces : list (Z * list Z)) (b : cbc) : Prop :=
  match cb_where b with
  | Points loc l => loc = "Vertex"%string \/ (loc = "FaceCenter"%string /\ faces_in faces l)
  | Elts l => faces_in faces l
  end.

(** A conforming zone of hexahedra: at most two along a face, some faces inside; each boundary
    condition, of its own name, covers some boundary face, and no boundary face is covered by two. *)
Record hexa_zone (tbl : sidetable) (nnode ncell : Z) (x y w : list Z) (secs : list csec) (bcs : list cbc) : Prop := {
  hz_some : file_cells secs <> [];
  hz_nodes : forall i ns, In (i, ns) (file_cells secs) -> 0 <= i < 2 ^ 31 /\ forall n, In n ns -> 0 <= n < nnode;
  hz_reals : Forall pattern x /\ Forall pattern y /\ Forall pattern w;
  hz_faces : NoDup (List.map fst (file_faces secs));
  hz_manifold : no_triple tbl (hexas (file_cells secs));
  hz_bnd : exists s, outer tbl (hexas (file_cells secs)) "quad4" s;
  hz_inside : exists s, In s (ec_sides tbl "quad4" (hexas (file_cells secs))) /\ ~ outer tbl (hexas (file_cells secs)) "quad4" s;
  hz_names : NoDup (List.map cb_name bcs);
  hz_bcs : forall b, In b bcs -> on_points_or_faces (file_faces secs) b /\ ~ whole nnode ncell b /\
     good_name (cb_name b) /\ ~ deof (cb_name b) /\ cb_name b <> "unmarked"%string /\ cb_name b <> "internal-domain"%string;
  hz_cover : forall b, In b bcs -> exists s, outer tbl (hexas (file_cells secs)) "quad4" s /\ bc_covers (file_faces secs) b (fst s);
  hz_apart : forall s b b', outer tbl (hexas (file_cells secs)) "quad4" s -> In b bcs -> In b' bcs ->
     bc_covers (file_faces secs) b (fst s) -> bc_covers (file_faces secs) b' (fst s) -> b = b' }.

(** The largest cell number of the file (from 1) is the number of cells: the cells come first. *)
Definition cells_first (secs : list csec) : Prop :=
  let n := zlen (file_cells secs) in In (n - 1) (List.map fst (file_cells secs)) /\ forall i, In i (List.map fst (file_cells secs)) -> i <= n - 1.
