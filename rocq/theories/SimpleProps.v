(** * Properties C24, C25 and C66: cube meshes. *)
From Coq Require Import Permutation Lia.
From Verif Require Import PyFacts Conn ConnSpec FaceSpec Mesh MeshSpec Simple SimpleSpec SimpleProofs CubeFaces CubeThm CubeMarks CubeReady.

(** C24: node and cell numbers, taken in the order of [nodes_ijk] and [elem_ijk], are 0, 1, 2, ... *)
Theorem C24_node_numbers : forall nx ny nz, 1 <= nx -> 1 <= ny -> 1 <= nz ->
  List.map (fun '(i, j, k) => nodeglobindex ny nz i j k) (nodes_ijk nx ny nz) = zrange 0 (cube_nnode nx ny nz).
Proof. exact node_numbers. Qed.
Print Assumptions C24_node_numbers.
Theorem C24_cell_numbers : forall nx ny nz, 1 <= nx -> 1 <= ny -> 1 <= nz ->
  List.map (fun '(i, j, k) => elemglobindex ny nz i j k) (elem_ijk nx ny nz) = zrange 0 (cube_ncell nx ny nz).
Proof. exact cell_numbers. Qed.
Print Assumptions C24_cell_numbers.
(** ... and distinct grid points have distinct numbers covering the whole range. *)
Theorem C24_nodes_bijective : forall nx ny nz, 1 <= nx -> 1 <= ny -> 1 <= nz ->
  (forall p q, in_box (nx + 1) (ny + 1) (nz + 1) p -> in_box (nx + 1) (ny + 1) (nz + 1) q ->
     nodeglobindex ny nz (pi p) (pj p) (pk p) = nodeglobindex ny nz (pi q) (pj q) (pk q) -> p = q) /\
  (forall n, 0 <= n < cube_nnode nx ny nz ->
     exists p, in_box (nx + 1) (ny + 1) (nz + 1) p /\ nodeglobindex ny nz (pi p) (pj p) (pk p) = n).
Proof. exact nodes_bijective. Qed.
Print Assumptions C24_nodes_bijective.

(** C24: the exported mesh. *)
Theorem C24_exported : forall F (fdiv : Z -> Z -> F) nx ny nz, 1 <= nx -> 1 <= ny -> 1 <= nz ->
  exists m c, cube_export nx ny nz fdiv = Ok m /\ is_cube nx ny nz fdiv m c.
Proof. exact cube_exported. Qed.
Print Assumptions C24_exported.
Theorem C24_hexa : forall nx ny nz p, cell_ok nx ny nz p ->
  NoDup (hexa ny nz p) /\ forall n, In n (hexa ny nz p) -> 0 <= n < (nx + 1) * (ny + 1) * (nz + 1).
Proof. exact (fun nx ny nz => hexa_valid nx ny nz (fun _ n => n)). Qed.
Print Assumptions C24_hexa.
(** No cell in some direction: the export raises ValueError. *)
Theorem C24_empty : forall F (fdiv : Z -> Z -> F) nx ny nz, nx <= 0 \/ ny <= 0 \/ nz <= 0 ->
  cube_export nx ny nz fdiv = Err ValueError.
Proof. exact @cube_empty. Qed.
Print Assumptions C24_empty.
Example C24_ex : exists m, cube_export 2 1 1 (fun i n => (i, n)) = Ok m /\ me_nnode m = 12 /\
  (exists c, me_cell2node m = Some c /\ ec_pairs c = [(0, [0;4;6;2;1;5;7;3]); (1, [4;8;10;6;5;9;11;7])]).
Proof. eexists. split; [vm_compute; reflexivity|]. split; [reflexivity|]. eexists. split; reflexivity. Qed.

(** C25: the faces of the exported mesh are the faces of the grid, each once, with their cells. *)
Theorem C25_faces : forall F (fdiv : Z -> Z -> F) nx ny nz tbl types m,
  in_force tbl types -> 1 <= nx -> 1 <= ny -> 1 <= nz -> 2 <= nx * ny * nz -> cube_export nx ny nz fdiv = Ok m ->
  exists m1 b i gb gi, make_face_connectivity tbl m = (Ok tt, m1) /\
    me_faces m1 = [("internal", i); ("boundary", b)] /\ cube_faces nx ny nz b i gb gi /\
    ec_nelem (f_f2n b) = 2 * (nx * ny + ny * nz + nx * nz) /\
    ec_nelem (f_f2n i) = (nx - 1) * ny * nz + nx * (ny - 1) * nz + nx * ny * (nz - 1) /\
    me_nface m1 = ec_nelem (f_f2n b) + ec_nelem (f_f2n i).
Proof. exact @cube_faces_thm. Qed.
Print Assumptions C25_faces.

(** C25: after conversion a boundary face is in the mark of the side it lies on, and in no other. *)
Theorem C25_marks : forall F (fdiv : Z -> Z -> F) nx ny nz tbl types m,
  in_force tbl types -> 1 <= nx -> 1 <= ny -> 1 <= nz -> 2 <= nx * ny * nz -> cube_export nx ny nz fdiv = Ok m ->
  exists m1 m2 b i gb gi, make_face_connectivity tbl m = (Ok tt, m1) /\
    me_faces m1 = [("internal", i); ("boundary", b)] /\ cube_faces nx ny nz b i gb gi /\
    bocomarks_set_node_to_face m1 = (Ok tt, m2) /\ same_but_bocos m1 m2 /\ cube_marks nx ny nz gb (me_bocos m2).
Proof. exact @cube_marks_thm. Qed.
Print Assumptions C25_marks.
Theorem C25_one_side : forall nx ny nz g, 1 <= nx -> 1 <= ny -> 1 <= nz ->
  gface_ok nx ny nz g -> on_boundary nx ny nz g ->
  exists s, In s sides /\ on_side nx ny nz s g /\ forall s', on_side nx ny nz s' g -> s' = s.
Proof. exact one_side_thm. Qed.
Print Assumptions C25_one_side.

(** C25: a single cell has no internal face, and face creation is refused. *)
Theorem C25_single_cell : forall F (fdiv : Z -> Z -> F) tbl types m, in_force tbl types ->
  cube_export 1 1 1 fdiv = Ok m -> make_face_connectivity tbl m = (Err AssertionError, m).
Proof. exact @cube_single. Qed.
Print Assumptions C25_single_cell.

(** C66: the preparation of any cube for the writers succeeds: no unmarked face, a passing check, and
    boundary faces renumbered side after side. *)
Theorem C66_cube_ready : forall F (fdiv : Z -> Z -> F) nx ny nz tbl types enum m name,
  in_force tbl types -> set_enum enum -> 1 <= nx -> 1 <= ny -> 1 <= nz -> 2 <= nx * ny * nz ->
  cube_export nx ny nz fdiv = Ok m ->
  exists m1 m2 m3 f con mc,
    make_face_connectivity tbl m = (Ok tt, m1) /\ bocomarks_set_node_to_face m1 = (Ok tt, m2) /\
    make_unmarked_BC enum name m2 = (Ok [], m2) /\ mesh_check enum m2 = (Ok true, m2) /\
    reindex_boundaryfaces m2 = (Ok tt, m3) /\ dget String.eqb "boundary" (me_faces m3) = Some f /\
    cube_sorted nx ny nz m3 f /\ export_mixedfaces m3 = Ok (con, Some mc) /\
    ec_nelem con = (nx + 1) * ny * nz + nx * (ny + 1) * nz + nx * ny * (nz + 1).
Proof. exact @cube_ready. Qed.
Print Assumptions C66_cube_ready.

(** A 2x1x1 cube: ten boundary faces, one internal face. *)
Definition ex_cube : res (mesh (Z * Z)) := cube_export 2 1 1 (fun i n => (i, n)).
Example C25_ex : match ex_cube with
  | Ok m => let m1 := snd (make_face_connectivity cgns_elem2faces m) in
            let m3 := snd (reindex_boundaryfaces (snd (bocomarks_set_node_to_face m1))) in
            List.map (fun kf => (fst kf, ec_nelem (f_f2n (snd kf)))) (me_faces m1) = [("internal", 1); ("boundary", 10)] /\
            List.map (fun kb => (fst kb, mk_index (snd kb))) (me_bocos m3) =
              [("imin", Some (ILrange 0 0)); ("imax", Some (ILrange 1 1)); ("jmin", Some (ILrange 2 3));
               ("jmax", Some (ILrange 4 5)); ("kmin", Some (ILrange 6 7)); ("kmax", Some (ILrange 8 9))]
  | Err _ => False
  end.
Proof. vm_compute. split; reflexivity. Qed.
Example C66_ex : in_force cgns_elem2faces cgns_types /\ 2 <= 2 * 1 * 1 /\ exists m, ex_cube = Ok m.
Proof. split; [left; auto|]. split; [lia|]. eexists. vm_compute. reflexivity. Qed.
