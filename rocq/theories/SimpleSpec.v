(** * Specification of the cube meshes: the grid and its faces, independently of the code. *)
From Coq Require Import Permutation.
From Verif Require Import Conn ConnSpec FaceSpec Mesh MeshSpec.

(** A grid point or the lowest corner of a grid cell. *)
Record ijk : Type := P3 { pi : Z; pj : Z; pk : Z }.

(** Lexicographic rank of [p] in a box of [b] values of j and [c] values of k. *)
Definition rank3 (b c : Z) (p : ijk) : Z := (pi p * b + pj p) * c + pk p.
Definition in_box (a b c : Z) (p : ijk) : Prop := 0 <= pi p < a /\ 0 <= pj p < b /\ 0 <= pk p < c.

(** Faces of the grid: direction of the normal and lowest corner. *)
Inductive axis : Type := AX | AY | AZ.
Definition gface : Type := (axis * ijk)%type.

Section Grid.
  Context (nx ny nz : Z).
  (** Node and cell numbers. *)
  Definition node_no (p : ijk) : Z := rank3 (ny + 1) (nz + 1) p.
  Definition cell_no (p : ijk) : Z := rank3 ny nz p.

  Definition gface_ok (g : gface) : Prop :=
    match g with
    | (AX, p) => in_box (nx + 1) ny nz p
    | (AY, p) => in_box nx (ny + 1) nz p
    | (AZ, p) => in_box nx ny (nz + 1) p
    end.
  Definition corners (g : gface) : list ijk :=
    match g with
    | (AX, P3 i j k) => [P3 i j k; P3 i (j + 1) k; P3 i (j + 1) (k + 1); P3 i j (k + 1)]
    | (AY, P3 i j k) => [P3 i j k; P3 (i + 1) j k; P3 (i + 1) j (k + 1); P3 i j (k + 1)]
    | (AZ, P3 i j k) => [P3 i j k; P3 (i + 1) j k; P3 (i + 1) (j + 1) k; P3 i (j + 1) k]
    end.
  Definition gface_nodes (g : gface) : list Z := List.map node_no (corners g).

  (** The cells below and above a face along its normal. *)
  Definition cell_below (g : gface) : ijk :=
    match g with
    | (AX, P3 i j k) => P3 (i - 1) j k
    | (AY, P3 i j k) => P3 i (j - 1) k
    | (AZ, P3 i j k) => P3 i j (k - 1)
    end.
  Definition cell_above (g : gface) : ijk := snd g.
  Definition cell_ok (p : ijk) : Prop := in_box nx ny nz p.

  (** The side of the cube a face is on. *)
  Definition on_side (name : string) (g : gface) : Prop :=
    match g with
    | (AX, p) => (name = "imin" /\ pi p = 0) \/ (name = "imax" /\ pi p = nx)
    | (AY, p) => (name = "jmin" /\ pj p = 0) \/ (name = "jmax" /\ pj p = ny)
    | (AZ, p) => (name = "kmin" /\ pk p = 0) \/ (name = "kmax" /\ pk p = nz)
    end.
  Definition sides : list string := ["imin"; "imax"; "jmin"; "jmax"; "kmin"; "kmax"].
  Definition on_boundary (g : gface) : Prop := exists s, In s sides /\ on_side s g.

  (** [gs] are the boundary (or inner) faces of the grid, each once. *)
  Definition boundary_faces (gs : list gface) : Prop :=
    NoDup gs /\ forall g, In g gs <-> gface_ok g /\ on_boundary g.
  Definition inner_faces (gs : list gface) : Prop :=
    NoDup gs /\ forall g, In g gs <-> gface_ok g /\ ~ on_boundary g.

  (** The hexahedron of a cell in the CGNS order: counter-clockwise bottom, then top. *)
  Definition hexa (p : ijk) : list Z :=
    let '(P3 i j k) := p in
    List.map node_no [P3 i j k; P3 (i+1) j k; P3 (i+1) (j+1) k; P3 i (j+1) k;
                      P3 i j (k+1); P3 (i+1) j (k+1); P3 (i+1) (j+1) (k+1); P3 i (j+1) (k+1)].

  (** What the exported mesh must be. *)
  Record is_cube {F} (fdiv : Z -> Z -> F) (m : mesh F) (c : econn) : Prop := {
    cu_ncell : me_ncell m = nx * ny * nz;
    cu_nnode : me_nnode m = (nx + 1) * (ny + 1) * (nz + 1);
    cu_cells : me_cell2node m = Some c /\ ec_wf c /\ ec_plain c /\ ec_types c = ["hexa8"] /\
               ec_cols (fun _ => 8%nat) c /\ ec_nelem c = nx * ny * nz;
    cu_cell : forall p, cell_ok p -> nth_error (ec_pairs c) (Z.to_nat (cell_no p)) = Some (cell_no p, hexa p);
    cu_nofaces : me_faces m = [];
    cu_coords : exists x y z, coords_ok m x y z /\
      forall p, in_box (nx + 1) (ny + 1) (nz + 1) p ->
        nth_error x (Z.to_nat (node_no p)) = Some (fdiv (pi p) nx) /\
        nth_error y (Z.to_nat (node_no p)) = Some (fdiv (pj p) ny) /\
        nth_error z (Z.to_nat (node_no p)) = Some (fdiv (pk p) nz);
    cu_marks : dkeys (me_bocos m) = sides /\
      forall s b, In (s, b) (me_bocos m) -> mk_name b = s /\ mk_geodim b = Some Gbdnode /\
        mk_type b = Some "boundary" /\ mark_ok b /\ NoDup (mk_entries b) /\
        forall n, In n (mk_entries b) <-> exists p, in_box (nx + 1) (ny + 1) (nz + 1) p /\ n = node_no p /\
          In (s, true) [("imin", pi p =? 0); ("imax", pi p =? nx); ("jmin", pj p =? 0);
                        ("jmax", pj p =? ny); ("kmin", pk p =? 0); ("kmax", pk p =? nz)] }.

  (** The faces created on the cube: boundary face number f is the f-th grid face of [gb], internal
      face number f the f-th of [gi]; rows of the tables give the adjacent cells. *)
  Record cube_faces (b i : faceset) (gb gi : list gface) : Prop := {
    cf_gb : boundary_faces gb;
    cf_gi : inner_faces gi;
    cf_bwf : ec_wf (f_f2n b) /\ ec_plain (f_f2n b) /\ ec_types (f_f2n b) = ["quad4"] /\ ec_cols (fun _ => 4%nat) (f_f2n b);
    cf_iwf : ec_wf (f_f2n i) /\ ec_plain (f_f2n i) /\ ec_types (f_f2n i) = ["quad4"] /\ ec_cols (fun _ => 4%nat) (f_f2n i);
    cf_bnum : ec_numbers (f_f2n b) = zrange 0 (zlen gb);
    cf_inum : ec_numbers (f_f2n i) = zrange 0 (zlen gi);
    cf_bnodes : Forall2 (fun g p => Permutation (gface_nodes g) (snd p)) gb (ec_pairs (f_f2n b));
    cf_inodes : Forall2 (fun g p => Permutation (gface_nodes g) (snd p)) gi (ec_pairs (f_f2n i));
    cf_bcells : exists mb, f_f2c b = Some (Some mb) /\ m_cols mb = Some 2%nat /\
      Forall2 (fun g r => exists p, r = [cell_no p; -1] /\ cell_ok p /\ (p = cell_below g \/ p = cell_above g)) gb (m_rows mb);
    cf_icells : exists mi, f_f2c i = Some (Some mi) /\ m_cols mi = Some 2%nat /\
      Forall2 (fun g r => Permutation r [cell_no (cell_below g); cell_no (cell_above g)]) gi (m_rows mi) }.

  (** The six marks on faces: boundary face number f is in the mark of the side its grid face is on. *)
  Definition cube_marks {F} (gb : list gface) (bs : dict string (mark F)) : Prop :=
    dkeys bs = sides /\
    forall s b, In (s, b) bs -> mk_name b = s /\ mk_geodim b = Some Gbdface /\ mk_type b = Some "boundary" /\
      mark_ok b /\ NoDup (mk_entries b) /\
      forall f, In f (mk_entries b) <-> exists g, 0 <= f /\ nth_error gb (Z.to_nat f) = Some g /\ on_side s g.

  (** The marks of a cube ready for the writers: six ranges one after the other. *)
  Definition cube_ranges : list (string * option indexlist) :=
    let a := ny * nz in let b := nx * nz in let c := nx * ny in
    [("imin", Some (ILrange 0 (a - 1))); ("imax", Some (ILrange a (2 * a - 1)));
     ("jmin", Some (ILrange (2 * a) (2 * a + b - 1))); ("jmax", Some (ILrange (2 * a + b) (2 * a + 2 * b - 1)));
     ("kmin", Some (ILrange (2 * a + 2 * b) (2 * a + 2 * b + c - 1)));
     ("kmax", Some (ILrange (2 * a + 2 * b + c) (2 * a + 2 * b + 2 * c - 1)))].

  (** Every boundary face is a grid face on the side whose range holds its number, next to the cell
      of its row. *)
  Definition cube_sorted {F} (m : mesh F) (f : faceset) : Prop :=
    List.map (fun kb => (fst kb, mk_index (snd kb))) (me_bocos m) = cube_ranges /\
    exists mt, f_f2c f = Some (Some mt) /\ m_cols mt = Some 2%nat /\
    forall n nodes, In (n, nodes) (pairs_of_type (f_f2n f) "quad4") ->
      exists g s lo hi p, gface_ok g /\ In (s, Some (ILrange lo hi)) cube_ranges /\ lo <= n <= hi /\ on_side s g /\
        Permutation (gface_nodes g) nodes /\
        nth_error (m_rows mt) (Z.to_nat n) = Some [cell_no p; -1] /\ cell_ok p /\ (p = cell_below g \/ p = cell_above g).
End Grid.
