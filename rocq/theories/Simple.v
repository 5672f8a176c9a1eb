(** * Model of [Cube] (cfdtools/meshbase/simple.py:9-90). *)
From Verif Require Export Mesh.

(** [list(product(a, b, c))]: the last factor varies fastest. *)
Definition product3 (a b c : list Z) : list (Z * Z * Z) :=
  flat_map (fun i => flat_map (fun j => List.map (fun k => (i, j, k)) c) b) a.

Section Cube.
  Context (nx ny nz : Z).

  (** simple.py:14-15. *)
  Definition cube_ncell : Z := nx * ny * nz.
  Definition cube_nnode : Z := (nx + 1) * (ny + 1) * (nz + 1).

  (** [elem_ijk], simple.py:17-18, and [nodes_ijk], :20-21. *)
  Definition elem_ijk : list (Z * Z * Z) := product3 (zrange 0 nx) (zrange 0 ny) (zrange 0 nz).
  Definition nodes_ijk : list (Z * Z * Z) :=
    product3 (zrange 0 (nx + 1)) (zrange 0 (ny + 1)) (zrange 0 (nz + 1)).

  (** [nodeglobindex_ijk], simple.py:26-28, and [elemglobindex_ijk], :30-32. *)
  Definition nodeglobindex (i j k : Z) : Z := k + (nz + 1) * (j + (ny + 1) * i).
  Definition elemglobindex (i j k : Z) : Z := k + nz * (j + ny * i).

  (** [_elems], simple.py:34-57: the arrays are computed index by index. *)
  Definition hexa_nodes (i j k : Z) : list Z :=
    [ nodeglobindex i j k; nodeglobindex (i + 1) j k;
      nodeglobindex (i + 1) (j + 1) k; nodeglobindex i (j + 1) k;
      nodeglobindex i j (k + 1); nodeglobindex (i + 1) j (k + 1);
      nodeglobindex (i + 1) (j + 1) (k + 1); nodeglobindex i (j + 1) (k + 1) ].
  Definition cube_elems : list (list Z) * list Z :=
    (List.map (fun '(i, j, k) => hexa_nodes i j k) elem_ijk,
     List.map (fun '(i, j, k) => elemglobindex i j k) elem_ijk).

  (** [tasks], simple.py:72-79. *)
  Definition cube_tasks : list (string * list (Z * Z * Z)) :=
    let ri := zrange 0 (nx + 1) in
    let rj := zrange 0 (ny + 1) in
    let rk := zrange 0 (nz + 1) in
    [ ("imin", product3 [0] rj rk); ("imax", product3 [nx] rj rk);
      ("jmin", product3 ri [0] rk); ("jmax", product3 ri [ny] rk);
      ("kmin", product3 ri rj [0]); ("kmax", product3 ri rj [nz]) ].

  Context {F : Type} (fdiv : Z -> Z -> F).

  (** [nodes_xyz], simple.py:23-24; [fdiv i n] is [i / float(n)]. *)
  Definition nodes_xyz (p : Z * Z * Z) : F * F * F :=
    let '(i, j, k) := p in (fdiv i nx, fdiv j ny, fdiv k nz).

  (** Body of the loop of simple.py:80-87. *)
  Definition cube_mark (m : mesh F) (task : string * list (Z * Z * Z)) : mesh F :=
    let nodes := List.map (fun '(i, j, k) => nodeglobindex i j k) (snd task) in
    add_boco m (Mark F (fst task) (Some Gbdnode) (Some "boundary") (Some (ILlist nodes)) None).

  (** [export_mesh], simple.py:59-88.  Without any cell, unpacking [zip()] raises ValueError. *)
  Definition cube_export : res (mesh F) :=
    match elem_ijk with
    | [] => Err ValueError
    | _ =>
        let '(hexanode, ielem) := cube_elems in
        c <- ec_add ec_empty "hexa8" (Mat (Some 8%nat) hexanode) (Some (ILlist ielem)) ;;
        let m := set_cell2node (new_mesh cube_ncell cube_nnode) c in
        let xyz := List.map nodes_xyz nodes_ijk in
        let '(r, m) := set_coords_xyz m (List.map (fun p => fst (fst p)) xyz)
                         (List.map (fun p => snd (fst p)) xyz) (List.map snd xyz) in
        _ <- r ;;
        Ok (fold_left cube_mark cube_tasks m)
    end.
End Cube.
