(** * C27-C29: extrusion of planar meshes. *)
From Coq Require Import Permutation Lia.
From Verif Require Import PyFacts Conn ConnSpec ConnProofs FaceSpec FaceTable TableSpec Mesh MeshSpec Extrude ExtrudeSpec ExtrudeProofs ExtrudeMore.

(** The types of marks. *)
Definition mark_types : list string := ["internal"; "boundary"; "perio_cart"; "perio_cylx"; "perio_cyly"; "perio_cylz"]%string.

(** C27: nodes, cells and marks of the extruded mesh. *)
Theorem C27_extruded : forall F (add mul : F -> F -> F) enum (m : mesh F) c x y z dir planes domain,
  set_enum enum -> 2 <= zlen planes -> coords_ok m x y z ->
  me_cell2node m = Some c -> ec_wf c -> ec_plain c -> cells_of base_types c ->
  (forall k b, In (k, b) (me_bocos m) -> on_nodes b = true /\ mark_ok b /\ k = mk_name b /\
     exists t, mk_type b = Some t /\ In t mark_types) ->
  NoDup (dkeys (me_bocos m)) -> ~ In (domain ++ "0")%string (dkeys (me_bocos m)) -> ~ In (domain ++ "1")%string (dkeys (me_bocos m)) ->
  exists m', export_extruded add mul enum m dir planes domain = Ok m' /\ extruded_mesh add mul m m' dir planes domain.
Proof. exact @extruded_ok. Qed.
Print Assumptions C27_extruded.

(** C27: the cells alone. *)
Theorem C27_cells : forall c n shift, 2 <= n -> ec_wf c -> ec_plain c -> cells_of base_types c ->
  exists c', ec_extrude c n shift = Ok c' /\ extruded_conn shift n c c'.
Proof. exact extrude_ok. Qed.
Print Assumptions C27_cells.

(** C27: fewer than two planes are refused. *)
Theorem C27_one_plane : forall F (add mul : F -> F -> F) enum (m : mesh F) dir planes domain, zlen planes < 2 ->
  export_extruded add mul enum m dir planes domain = Err AssertionError.
Proof. exact @extrude_one_plane. Qed.
Print Assumptions C27_one_plane.

(** C27: so is a mark that is not made of nodes. *)
Theorem C27_face_mark : forall F (add mul : F -> F -> F) enum (m : mesh F) c x y z dir planes domain,
  2 <= zlen planes -> coords_ok m x y z ->
  me_cell2node m = Some c -> ec_wf c -> ec_plain c -> cells_of base_types c ->
  (forall k b, In (k, b) (me_bocos m) -> on_nodes b = false \/ (mark_ok b /\ exists t, mk_type b = Some t /\ In t mark_types)) ->
  (exists k b, In (k, b) (me_bocos m) /\ on_nodes b = false) ->
  export_extruded add mul enum m dir planes domain = Err AssertionError.
Proof. exact @extrude_face_mark. Qed.
Print Assumptions C27_face_mark.

(** C27, why the two names must be free: whatever marks the base has, the marks of these two names are
    the end planes, and an existing mark of that name is lost. *)
Theorem C27_overwrites : forall F (add mul : F -> F -> F) enum (m m' : mesh F) dir planes domain,
  export_extruded add mul enum m dir planes domain = Ok m' ->
  exists b0 b1, dget String.eqb (domain ++ "0")%string (me_bocos m') = Some b0 /\
    dget String.eqb (domain ++ "1")%string (me_bocos m') = Some b1 /\ mk_type b0 = Some "boundary" /\ mk_type b1 = Some "boundary" /\
    forall c, me_cell2node m = Some c -> mk_entries b0 = ec_nodelist enum c /\
       mk_entries b1 = List.map (fun v => v + (zlen planes - 1) * me_nnode m) (ec_nodelist enum c).
Proof. exact @extrude_overwrites. Qed.
Print Assumptions C27_overwrites.

(** C28: the numbers of the extruded cells. *)
Theorem C28_numbers : forall shift n c c', ec_wf c -> extruded_conn shift n c c' ->
  Permutation (ec_numbers c') (all_planes shift (n - 1) (ec_numbers c)).
Proof. exact xc_numbers. Qed.
Print Assumptions C28_numbers.

(** C28: over a base numbered 0..nc-1 and with two layers or more, they are 0..(n-1)nc-1 only when
    there are as many cells as nodes. *)
Theorem C28_complete_iff : forall shift n nc c c', ec_wf c -> extruded_conn shift n c c' ->
  3 <= n -> 1 <= nc -> 0 <= shift -> Permutation (ec_numbers c) (zrange 0 nc) ->
  (Permutation (ec_numbers c') (zrange 0 ((n - 1) * nc)) <-> shift = nc).
Proof. exact numbers_complete_iff. Qed.
Print Assumptions C28_complete_iff.

(** C28: otherwise the check of the package refuses them. *)
Theorem C28_rejected : forall shift n nc c c', ec_wf c -> extruded_conn shift n c c' ->
  3 <= n -> 1 <= nc -> 0 <= shift -> Permutation (ec_numbers c) (zrange 0 nc) -> shift <> nc -> forall b, ec_check c' <> Ok b.
Proof. exact numbers_rejected. Qed.
Print Assumptions C28_rejected.

(** C28: numbers are unique exactly when no two base numbers differ by a multiple of the shift. *)
Theorem C28_unique_iff : forall shift n c c', ec_wf c -> extruded_conn shift n c c' -> NoDup (ec_numbers c) ->
  (NoDup (ec_numbers c') <->
   forall a b k, In a (ec_numbers c) -> In b (ec_numbers c) -> 1 <= k <= n - 2 -> a <> b + k * shift).
Proof. exact numbers_unique_iff. Qed.
Print Assumptions C28_unique_iff.

(** C28: unique if the base numbers are smaller than the number of nodes. *)
Theorem C28_unique : forall shift n c c', ec_wf c -> extruded_conn shift n c c' -> NoDup (ec_numbers c) ->
  (forall b, In b (ec_numbers c) -> 0 <= b < shift) -> NoDup (ec_numbers c').
Proof. exact numbers_safe. Qed.
Print Assumptions C28_unique.

(** C28: never unique with more cells than nodes. *)
Theorem C28_collide : forall shift n nc c c', ec_wf c -> extruded_conn shift n c c' -> 3 <= n ->
  Permutation (ec_numbers c) (zrange 0 nc) -> 0 <= shift < nc -> ~ NoDup (ec_numbers c').
Proof. exact numbers_collide. Qed.
Print Assumptions C28_collide.

(** C29: a swept quadrangle is a hexahedron with eight distinct nodes ... *)
Theorem C29_distinct : forall s i k row, NoDup row -> (forall v, In v row -> 0 <= v < s) ->
  NoDup (snd (layer_cell s i (k, row))).
Proof. exact layer_NoDup. Qed.
Print Assumptions C29_distinct.
(** ... whose sides are the quadrangle on both planes and its edges swept ... *)
Theorem C29_hexa_sides : forall tbl faces s i k a b c d,
  In tbl [cgns_elem2faces; gmsh_elem2faces] -> sget "hexa8" tbl = Some faces ->
  Forall2 (@Permutation Z) (cell_sides faces (snd (layer_cell s i (k, [a; b; c; d])))) (swept_sides s i [a; b; c; d]).
Proof. exact hexa_sides. Qed.
Print Assumptions C29_hexa_sides.
(** ... oriented outwards if the direction sees the quadrangle anticlockwise, ... *)
Theorem C29_outward : forall tbl faces pos s i k row u w dir t t',
  In tbl [cgns_elem2faces; gmsh_elem2faces] -> sget "hexa8" tbl = Some faces ->
  parallelogram pos row u w -> swept pos s i row dir t t' -> 0 < det u w dir -> t < t' ->
  Forall (outward pos (snd (layer_cell s i (k, row)))) (cell_sides faces (snd (layer_cell s i (k, row)))).
Proof. exact hexa_outward. Qed.
Print Assumptions C29_outward.
(** ... and inwards if it sees it clockwise. *)
Theorem C29_inward : forall tbl faces pos s i k row u w dir t t',
  In tbl [cgns_elem2faces; gmsh_elem2faces] -> sget "hexa8" tbl = Some faces ->
  parallelogram pos row u w -> swept pos s i row dir t t' -> det u w dir < 0 -> t < t' ->
  Forall (inward pos (snd (layer_cell s i (k, row)))) (cell_sides faces (snd (layer_cell s i (k, row)))).
Proof. exact hexa_inward. Qed.
Print Assumptions C29_inward.

(** C29: with a triangle in the base, the faces of the extruded mesh cannot be made. *)
Theorem C29_tri_no_faces : forall tbl types shift n c c', in_force tbl types -> ec_wf c -> extruded_conn shift n c c' ->
  (forall t, In t (ec_types c) -> t = "tri3" \/ t = "quad4") -> In "tri3" (ec_types c) ->
  ec_create_faces tbl c' = Err KeyError.
Proof. exact penta_no_faces. Qed.
Print Assumptions C29_tri_no_faces.

(** C29: a swept bar is a quadrangle with crossed sides ... *)
Theorem C29_bar_sides : forall tbl faces s i k a b,
  In tbl [cgns_elem2faces; gmsh_elem2faces] -> sget "quad4" tbl = Some faces ->
  Forall2 (@Permutation Z) (cell_sides faces (snd (layer_cell s i (k, [a; b]))))
    [[a + i * s; b + i * s]; [b + i * s; a + (i + 1) * s]; [a + (i + 1) * s; b + (i + 1) * s]; [b + (i + 1) * s; a + i * s]].
Proof. exact bar_sides_cross. Qed.
Print Assumptions C29_bar_sides.
(** ... none of which is an edge of the extrusion. *)
Theorem C29_bar_crossed : forall tbl faces s i k a b v side,
  In tbl [cgns_elem2faces; gmsh_elem2faces] -> sget "quad4" tbl = Some faces -> 0 <= a < s -> 0 <= b < s -> a <> b ->
  In v [a; b] -> In side (cell_sides faces (snd (layer_cell s i (k, [a; b])))) ->
  ~ Permutation side [v + i * s; v + (i + 1) * s].
Proof. exact bar_no_extrusion_edge. Qed.
Print Assumptions C29_bar_crossed.

(** C29: any other cell type is refused. *)
Theorem C29_other_types : forall c n shift, 2 <= n -> ec_wf c -> ec_plain c ->
  (forall t ed, In (t, ed) (ec_dict c) -> ~ In t (dkeys base_types) \/ exists w, In (t, w) base_types /\ m_cols (ed_e2n ed) = Some w) ->
  (exists t, In t (ec_types c) /\ ~ In t (dkeys base_types)) -> ec_extrude c n shift = Err KeyError.
Proof. exact extrude_unknown. Qed.
Print Assumptions C29_other_types.

(** Two squares 0 1 2 3 and 1 4 5 2, on three planes: numbers 0, 1, 6, 7. *)
Definition ex_base : econn := EC 2 [("quad4", ED (ILrange 0 1) (Mat (Some 4%nat) [[0; 1; 2; 3]; [1; 4; 5; 2]]))].
Lemma ex_base_wf : ec_wf ex_base /\ ec_plain ex_base /\ cells_of base_types ex_base.
Proof.
  split; [|split].
  - constructor; [repeat constructor; intros []| |reflexivity].
    intros t ed [E|[]]. injection E as <- <-. constructor; [discriminate|reflexivity|]. cbn. repeat constructor.
  - intros t ed [E|[]]. injection E as <- <-. reflexivity.
  - intros t ed [E|[]]. injection E as <- <-. exists 4%nat. split; [cbn; tauto|reflexivity].
Qed.
Example C28_ex : exists c', ec_extrude ex_base 3 6 = Ok c' /\ ec_numbers c' = [0; 1; 6; 7] /\ ec_check c' = Err AssertionError.
Proof. eexists. split; [vm_compute; reflexivity|]. split; reflexivity. Qed.
(** Five triangles on four nodes (a degenerate base) have colliding numbers. *)
Definition ex_base5 : econn := EC 5 [("tri3", ED (ILrange 0 4) (Mat (Some 3%nat) [[0; 1; 2]; [0; 1; 3]; [0; 2; 3]; [1; 2; 3]; [2; 1; 3]]))].
Example C28_ex_collide : exists c', ec_extrude ex_base5 3 4 = Ok c' /\ ec_numbers c' = [0; 1; 2; 3; 4; 4; 5; 6; 7; 8].
Proof. eexists. split; vm_compute; reflexivity. Qed.
Example C29_ex_tri : exists c', ec_extrude ex_base5 2 4 = Ok c' /\ ec_types c' = ["penta6"] /\ ec_create_faces cgns_elem2faces c' = Err KeyError.
Proof. eexists. split; [vm_compute; reflexivity|]. split; reflexivity. Qed.

(** A planar mesh with a node mark. *)
Definition ex_plane : mesh Z :=
  add_boco (set_cell2node (snd (set_coords_nd (new_mesh 2 6) 3
     [[0;0;0];[1;0;0];[1;1;0];[0;1;0];[2;0;0];[2;1;0]])) ex_base)
   (Mark Z "wall" (Some Gbdnode) (Some "boundary") (Some (ILlist [0; 1; 4])) None).
Example C27_ex : exists m', export_extruded Z.add Z.mul np_unique ex_plane (0, 0, 1) [0; 10; 30] "fluid" = Ok m' /\
  me_nnode m' = 18 /\ me_ncell m' = 4 /\
  List.map (fun kb => (fst kb, mk_entries (snd kb))) (me_bocos m') =
    [("wall", [0; 1; 4; 6; 7; 10; 12; 13; 16]); ("fluid0", [0; 1; 2; 3; 4; 5]); ("fluid1", [12; 13; 14; 15; 16; 17])].
Proof. eexists. split; [vm_compute; reflexivity|]. vm_compute. repeat split; reflexivity. Qed.
(** The squares seen from above: sides of the first hexahedron point outwards. *)
Definition ex_pos (v : Z) : vec := nth (Z.to_nat (v mod 6)) [V3 0 0 (v/6); V3 1 0 (v/6); V3 1 1 (v/6); V3 0 1 (v/6); V3 2 0 (v/6); V3 2 1 (v/6)] (V3 0 0 0).
Example C29_ex_outward : parallelogram ex_pos [0; 1; 2; 3] (V3 1 0 0) (V3 0 1 0) /\
  swept ex_pos 6 0 [0; 1; 2; 3] (V3 0 0 1) 0 1 /\ 0 < det (V3 1 0 0) (V3 0 1 0) (V3 0 0 1).
Proof.
  split; [vm_compute; auto|]. split; [|reflexivity].
  intros v [<-|[<-|[<-|[<-|[]]]]]; vm_compute; auto.
Qed.
