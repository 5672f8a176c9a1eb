(** * What must be read from the IC3 file of a cube. *)
From Coq Require Import ZArith List String Permutation.
From Verif Require Import Py Conn ConnSpec Mesh MeshSpec Simple SimpleSpec Ic3 Ic3RoundSpec.

Section Cube.
  Context (nx ny nz : Z) (fdiv : Z -> Z -> Z).
  Definition cube_nbound : Z := 2 * (nx * ny + ny * nz + nx * nz).
  Definition cube_nface : Z := (nx + 1) * ny * nz + nx * (ny + 1) * nz + nx * ny * (nz + 1).

  (** The counts, the coordinates, the faces of the grid with the cells next to them, boundary faces
      first, and the six sides followed by the inside. *)
  Record cube_read (fm : fmesh) : Prop := {
    cr_ncell : me_ncell (fm_mesh fm) = nx * ny * nz;
    cr_nnode : me_nnode (fm_mesh fm) = (nx + 1) * (ny + 1) * (nz + 1);
    cr_nface : me_nface (fm_mesh fm) = cube_nface;
    cr_coords : exists x y z, coords_ok (fm_mesh fm) x y z /\
      forall p, in_box (nx + 1) (ny + 1) (nz + 1) p ->
        nth_error x (Z.to_nat (node_no ny nz p)) = Some (fdiv (pi p) nx) /\
        nth_error y (Z.to_nat (node_no ny nz p)) = Some (fdiv (pj p) ny) /\
        nth_error z (Z.to_nat (node_no ny nz p)) = Some (fdiv (pk p) nz);
    cr_faces : exists f gb gi ls rb ri, me_faces (fm_mesh fm) = [("mixed"%string, f)] /\ faces_set f ls (rb ++ ri) /\
      boundary_faces nx ny nz gb /\ inner_faces nx ny nz gi /\ zlen gb = cube_nbound /\
      Forall2 (fun g r => Permutation (gface_nodes ny nz g) r) (gb ++ gi) ls /\
      Forall2 (fun g r => exists p, r = [cell_no ny nz p; -1] /\ cell_ok nx ny nz p /\ (p = cell_below g \/ p = cell_above g)) gb rb /\
      Forall2 (fun g r => Permutation r [cell_no ny nz (cell_below g); cell_no ny nz (cell_above g)]) gi ri /\
      forall s lo hi n g, In (s, Some (ILrange lo hi)) (cube_ranges nx ny nz) -> lo <= n <= hi ->
        nth_error gb (Z.to_nat n) = Some g -> on_side nx ny nz s g;
    cr_marks : List.map (fun kb => (fst kb, mk_index (snd kb))) (me_bocos (fm_mesh fm)) =
               cube_ranges nx ny nz ++ [("internal-domain"%string, Some (ILrange cube_nbound (cube_nface - 1)))];
    cr_data : fd_items (fm_cells fm) = [] /\ fd_items (fm_nodes fm) = [] }.
End Cube.
