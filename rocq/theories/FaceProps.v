(** * Properties C11 - C15 and C65: faces of cells. *)
From Coq Require Import Sorted Permutation.
From Coq Require Import Lia.
From Verif Require Import PyFacts Conn ConnSpec FaceSpec TableSpec ConnProofs FaceProofs FaceThm TableProofs FaceTable.

(** Four prisms: a square column cut in two, two layers. *)
Definition ex_prisms : econn :=
  EC 4 [("prism6", ED (ILrange 0 3) (Mat (Some 6%nat)
     [[0;1;2;4;5;6];[0;2;3;4;6;7];[4;5;6;8;9;10];[4;6;7;8;10;11]]))].
Lemma ex_prisms_ok : ec_wf ex_prisms /\ ec_plain ex_prisms /\ cells_of cgns_types ex_prisms /\ no_triple cgns_elem2faces ex_prisms.
Proof.
  split; [|split; [|split]].
  - constructor; [repeat constructor; intros []| |reflexivity].
    intros t ed [H|[]]. injection H as <- <-. constructor; [discriminate|reflexivity|repeat constructor].
  - intros t ed [H|[]]. injection H as <- <-. reflexivity.
  - intros t ed [H|[]]. injection H as <- <-. exists 6%nat. split; [simpl; auto 10|reflexivity].
  - apply no_tripleb_ok; vm_compute; reflexivity.
Qed.

(** C11, C12: whenever face extraction returns, its result satisfies [faces_spec]: each side of each
    cell is exactly one face; boundary faces are the sides of one cell only, stored as that cell's
    outward side with table row (cell, -1); internal faces are shared sides, stored as the side of
    the first cell of their row, the second cell having a side with the same nodes. *)
Theorem C11_faces : forall tbl types c fs,
  in_force tbl types -> cells_of types c -> ec_wf c -> ec_plain c ->
  ec_create_faces tbl c = Ok fs -> faces_spec tbl c fs.
Proof. exact faces_sound. Qed.
Print Assumptions C11_faces.

(** C11: it returns as soon as no three sides coincide and every face type has a shared side. *)
Theorem C11_returns : forall tbl types c,
  in_force tbl types -> cells_of types c -> ec_wf c -> ec_plain c -> no_triple tbl c ->
  (forall ft, has_face_type tbl c ft -> exists nodes, (2 <= List.length (sharing nodes (ec_sides tbl ft c)))%nat) ->
  exists fs, ec_create_faces tbl c = Ok fs.
Proof. exact faces_returns. Qed.
Print Assumptions C11_returns.

(** C11: counting. *)
Theorem C11_counts : forall tbl types c fs,
  in_force tbl types -> cells_of types c -> ec_wf c -> ec_plain c -> no_triple tbl c ->
  ec_create_faces tbl c = Ok fs ->
  forall ft, zlen (ec_sides tbl ft c) =
             2 * zlen (pairs_of_type (fs_int fs) ft) + zlen (pairs_of_type (fs_bnd fs) ft).
Proof. exact faces_count. Qed.
Print Assumptions C11_counts.
Example C11_ex : in_force cgns_elem2faces cgns_types /\
  (ec_wf ex_prisms /\ ec_plain ex_prisms /\ cells_of cgns_types ex_prisms /\ no_triple cgns_elem2faces ex_prisms) /\
  exists fs, ec_create_faces cgns_elem2faces ex_prisms = Ok fs /\
    List.map (fun ft => (zlen (pairs_of_type (fs_int fs) ft), zlen (pairs_of_type (fs_bnd fs) ft))) ["tri3"; "quad4"]
      = [(2, 4); (2, 8)].
Proof.
  split; [left; auto|split; [exact ex_prisms_ok|]]. eexists; split; [vm_compute; reflexivity|vm_compute; reflexivity].
Qed.

(** C12: if the two sides of an internal face are all there is, the second cell of the row is the
    other cell. *)
Theorem C12_row : forall tbl types c fs,
  in_force tbl types -> cells_of types c -> ec_wf c -> ec_plain c ->
  ec_create_faces tbl c = Ok fs ->
  (forall ft f nodes, In (f, nodes) (pairs_of_type (fs_bnd fs) ft) ->
     exists ci, nth_error (ii_rows (fs_bnd_f2c fs)) (Z.to_nat f) = Some [ci; -1] /\
                sharing nodes (ec_sides tbl ft c) = [(nodes, ci)]) /\
  (forall ft f nodes, In (f, nodes) (pairs_of_type (fs_int fs) ft) ->
     exists c1 c2 nodes2 rest, nth_error (ii_rows (fs_int_f2c fs)) (Z.to_nat f) = Some [c1; c2] /\
       Permutation (sharing nodes (ec_sides tbl ft c)) ((nodes, c1) :: (nodes2, c2) :: rest)).
Proof. exact (fun tbl types c fs F C W P H => let S := faces_sound tbl types c fs F C W P H in
  conj (fsp_bnd_face tbl c fs S) (fsp_int_face tbl c fs S)). Qed.
Print Assumptions C12_row.

(** C12: the stored order of a side points out of its cell, for all tetrahedra of positive volume,
    pyramids on a parallelogram, straight prisms and parallelepipeds, wherever they are. *)
Theorem C12_outward_tetra4 : forall tbl faces pos row,
  In tbl [cgns_elem2faces; gmsh_elem2faces] -> dget String.eqb "tetra4" tbl = Some faces ->
  List.length row = 4%nat -> positive_tetra (fun k => pos (nth (Z.to_nat k) row 0)) ->
  Forall (outward pos row) (cell_sides faces row).
Proof. exact tetra4_outward. Qed.
Print Assumptions C12_outward_tetra4.
Theorem C12_outward_pyra5 : forall tbl faces pos row,
  In tbl [cgns_elem2faces; gmsh_elem2faces] -> dget String.eqb "pyra5" tbl = Some faces ->
  List.length row = 5%nat -> straight_pyramid (fun k => pos (nth (Z.to_nat k) row 0)) ->
  Forall (outward pos row) (cell_sides faces row).
Proof. exact pyra5_outward. Qed.
Print Assumptions C12_outward_pyra5.
Theorem C12_outward_prism6 : forall tbl faces pos row,
  In tbl [cgns_elem2faces; gmsh_elem2faces] -> dget String.eqb "prism6" tbl = Some faces ->
  List.length row = 6%nat -> straight_prism (fun k => pos (nth (Z.to_nat k) row 0)) ->
  Forall (outward pos row) (cell_sides faces row).
Proof. exact prism6_outward. Qed.
Print Assumptions C12_outward_prism6.
Theorem C12_outward_hexa8 : forall tbl faces pos row,
  In tbl [cgns_elem2faces; gmsh_elem2faces] -> dget String.eqb "hexa8" tbl = Some faces ->
  List.length row = 8%nat -> parallelepiped (fun k => pos (nth (Z.to_nat k) row 0)) ->
  Forall (outward pos row) (cell_sides faces row).
Proof. exact hexa8_outward. Qed.
Print Assumptions C12_outward_hexa8.
Example C12_ex : parallelepiped (fun k => nth (Z.to_nat k)
   [V3 0 0 0; V3 2 0 0; V3 3 5 0; V3 1 5 0; V3 1 1 7; V3 3 1 7; V3 4 6 7; V3 2 6 7] (V3 0 0 0)).
Proof. exists (V3 0 0 0), (V3 2 0 0), (V3 1 5 0), (V3 1 1 7). repeat split. Qed.

(** C13: exactly which meshes are refused, and how.  [accepted]: for every face type present, the
    number of distinct sides is less than, and at least half of, the number of sides. *)
Theorem C13_refused_iff : forall tbl types c,
  in_force tbl types -> cells_of types c -> ec_wf c -> ec_plain c ->
  (accepted tbl c -> exists fs, ec_create_faces tbl c = Ok fs) /\
  (~ accepted tbl c -> ec_create_faces tbl c = Err AssertionError).
Proof. exact faces_returns_iff. Qed.
Print Assumptions C13_refused_iff.

Theorem C13_no_shared_side : forall tbl types c ft,
  in_force tbl types -> cells_of types c -> ec_wf c -> ec_plain c -> has_face_type tbl c ft ->
  (forall nodes, (List.length (sharing nodes (ec_sides tbl ft c)) <= 1)%nat) ->
  ec_create_faces tbl c = Err AssertionError.
Proof. exact faces_refused. Qed.
Print Assumptions C13_no_shared_side.

(** C13: a mesh of a single cell, of any type, is always refused. *)
Theorem C13_single_cell : forall tbl types t n row,
  in_force tbl types -> In (t, n) types ->
  List.length row = n -> NoDup row -> ec_create_faces tbl (single t row) = Err AssertionError.
Proof. exact single_cell_refused. Qed.
Print Assumptions C13_single_cell.
Example C13_ex : In ("hexa8", 8%nat) cgns_types /\ NoDup [10;11;12;13;14;15;16;17].
Proof. split; [simpl; auto 10|]. apply (nodupb_ok Z.eqb Z.eqb_eq). reflexivity. Qed.

(** C13: three tetrahedra on a triangle are accepted and the third one is lost. *)
Theorem C13_third_cell_lost_refuted :
  exists c fs ft f nodes, in_force cgns_elem2faces cgns_types /\ cells_of cgns_types c /\ ec_wf c /\
    ec_create_faces cgns_elem2faces c = Ok fs /\ In (f, nodes) (pairs_of_type (fs_int fs) ft) /\
    List.map snd (sharing nodes (ec_sides cgns_elem2faces ft c)) = [0; 1; 2] /\
    nth_error (ii_rows (fs_int_f2c fs)) (Z.to_nat f) = Some [0; 1] /\
    forall row, In row (ii_rows (fs_int_f2c fs)) -> ~ In 2 row.
Proof.
  exists (EC 3 [("tetra4", ED (ILrange 0 2) (Mat (Some 4%nat) [[0;1;2;3];[0;2;1;4];[0;1;2;5]]))]).
  eexists. exists "tri3", 0. eexists.
  split; [left; auto|]. split.
  { intros t ed [H|[]]. injection H as <- <-. exists 4%nat. split; [simpl; auto 10|reflexivity]. }
  split.
  { constructor; [repeat constructor; intros []| |reflexivity].
    intros t ed [H|[]]. injection H as <- <-. constructor; [discriminate|reflexivity|repeat constructor]. }
  split; [vm_compute; reflexivity|]. split; [vm_compute; left; reflexivity|].
  split; [vm_compute; reflexivity|]. split; [vm_compute; reflexivity|].
  intros row [<-|[]] [H|[H|[]]]; discriminate.
Qed.
Print Assumptions C13_third_cell_lost_refuted.

(** C14: the side tables describe closed, consistently oriented surfaces. *)
Theorem C14_closed : forall tbl t n,
  In tbl [cgns_elem2faces; gmsh_elem2faces] -> In (t, n) volume_types ->
  exists faces, dget String.eqb t tbl = Some faces /\ closed_surface n faces.
Proof. exact tables_closed. Qed.
Print Assumptions C14_closed.

(** C14: so edge contributions cancel over each cell, for every cell and antisymmetric quantity. *)
Theorem C14_contributions_cancel : forall g n faces row,
  closed_surface n faces -> (forall a b, g a b = - g b a) ->
  zsum (List.map (edge_sum g) (cell_sides faces row)) = 0.
Proof. exact closed_sum. Qed.
Print Assumptions C14_contributions_cancel.

(** C14: the node orders of the two conventions are inverse permutations (1-based positions). *)
Theorem C14_orders_inverse : forall t c2g g2c i,
  In (t, c2g) [("hexa8", hexa8_cgns2gmsh); ("hexa27", hexa27_cgns2gmsh); ("prism6", prism6_cgns2gmsh);
               ("tetra4", tetra4_cgns2gmsh); ("pyra5", pyra5_cgns2gmsh)] ->
  dget String.eqb t gmsh2cgns = Some g2c -> 1 <= i <= zlen c2g ->
  zlen c2g = zlen g2c /\
  (exists j, py_get c2g (i - 1) = Ok j /\ py_get g2c (j - 1) = Ok i) /\
  (exists j, py_get g2c (i - 1) = Ok j /\ py_get c2g (j - 1) = Ok i).
Proof.
  assert (D : forall p q i, inverse_perms p q = true -> 1 <= i <= zlen p ->
            exists j, py_get p (i - 1) = Ok j /\ py_get q (j - 1) = Ok i).
  { intros p q i H Hi. unfold inverse_perms in H. apply andb_true_iff in H. destruct H as [H _].
    rewrite forallb_forall in H. specialize (H i). rewrite in_zrange in H.
    assert (X : 1 <= i < zlen p + 1) by (destruct Hi; split; [assumption|apply Z.lt_succ_r; assumption]).
    specialize (H X). destruct (py_get p (i - 1)) as [j|]; [|discriminate].
    exists j. split; auto. destruct (py_get q (j - 1)) as [k|]; [|discriminate].
    apply Z.eqb_eq in H. now subst. }
  intros t c2g g2c i Hin Hg Hi.
  assert (zlen c2g = zlen g2c /\ inverse_perms c2g g2c = true /\ inverse_perms g2c c2g = true) as (L & I1 & I2).
  { repeat (destruct Hin as [Hin|Hin]; [injection Hin as <- <-; injection Hg as <-; vm_compute; auto|]). destruct Hin. }
  split; [exact L|split; [apply D; auto|apply D; auto; rewrite <- L; auto]].
Qed.
Print Assumptions C14_orders_inverse.
(** C14: both conventions number the nodes of surface elements alike. *)
Theorem C14_orders_surface : forall t n, In (t, n) [("tri3", 3); ("quad4", 4); ("quad9", 9)] ->
  exists l, dget String.eqb t gmsh2cgns = Some l /\ zlen l = n /\ forall i, 1 <= i <= n -> py_get l (i - 1) = Ok i.
Proof.
  intros t n H. enough (X : exists l, dget String.eqb t gmsh2cgns = Some l /\ l = zrange 1 (n + 1) /\ 0 <= n).
  - destruct X as (l & E & -> & P). exists (zrange 1 (n + 1)). split; [exact E|]. split; [rewrite zlen_zrange; lia|].
    intros i Hi. rewrite py_get_zrange by lia. f_equal. lia.
  - repeat (destruct H as [H|H]; [injection H as <- <-; eexists; split; [reflexivity|]; split; [reflexivity|lia]|]). destruct H.
Qed.
Print Assumptions C14_orders_surface.
Example C14_ex : In ("hexa27", hexa27_cgns2gmsh) [("hexa27", hexa27_cgns2gmsh)] /\
  exists l, dget String.eqb "hexa27" gmsh2cgns = Some l /\ py_get l 9 = Ok 12 /\ py_get hexa27_cgns2gmsh 11 = Ok 10.
Proof. split; [simpl; auto|]. eexists; repeat split. Qed.

(** C15: the table in force is the GMSH one iff an existing GMSH file was read before. *)
Theorem C15_table_in_force : forall evs,
  elem2faces_after evs = if existsb (fun e => match e with GmshRead true => true | _ => false end) evs
                         then gmsh_elem2faces else cgns_elem2faces.
Proof. exact table_after. Qed.
Print Assumptions C15_table_in_force.

(** C15: no effect on meshes of linear quads and volumes. *)
Theorem C15_linear_types_unaffected : forall c evs1 evs2,
  (forall t, In t (ec_types c) -> In t ["quad4"; "tetra4"; "pyra5"; "prism6"; "hexa8"]) ->
  ec_create_faces (elem2faces_after evs1) c = ec_create_faces (elem2faces_after evs2) c.
Proof.
  intros c evs1 evs2 H. rewrite !table_after. assert (E := same_on_linear_types c H).
  destruct (existsb _ evs1), (existsb _ evs2); congruence.
Qed.
Print Assumptions C15_linear_types_unaffected.

(** C15: meshes with triangular cells always raise KeyError before, ... *)
Theorem C15_tri3_before : forall c, ec_wf c -> ec_plain c -> cells_of gmsh_types c -> In "tri3" (ec_types c) ->
  ec_create_faces (elem2faces_after []) c = Err KeyError.
Proof. exact tri3_before_gmsh. Qed.
Print Assumptions C15_tri3_before.
(** ... and after, C11 applies to them. *)
Theorem C15_tri3_after : forall evs c fs, In (GmshRead true) evs ->
  cells_of gmsh_types c -> ec_wf c -> ec_plain c ->
  ec_create_faces (elem2faces_after evs) c = Ok fs -> faces_spec gmsh_elem2faces c fs.
Proof.
  intros evs c fs Hin C W P H. rewrite table_after in H.
  replace (existsb _ evs) with true in H.
  - exact (faces_sound _ gmsh_types c fs (or_intror (conj eq_refl eq_refl)) C W P H).
  - symmetry. apply existsb_exists. exists (GmshRead true). auto.
Qed.
Print Assumptions C15_tri3_after.
Example C15_ex : let c := EC 2 [("tri3", ED (ILrange 0 1) (Mat (Some 3%nat) [[0;1;2];[2;1;3]]))] in
  cells_of gmsh_types c /\ ec_create_faces (elem2faces_after []) c = Err KeyError /\
  exists fs, ec_create_faces (elem2faces_after [GmshRead false; GmshRead true]) c = Ok fs /\
             pairs_of_type (fs_int fs) "bar2" = [(0, [1;2])].
Proof.
  split; [|split; [reflexivity|eexists; split; [vm_compute; reflexivity|vm_compute; reflexivity]]].
  intros t ed [H|[]]. injection H as <- <-. exists 3%nat. split; [simpl; auto 10|reflexivity].
Qed.

(** C15: for 27-node hexahedra it does: two cells whose faces are extracted before are refused after. *)
Theorem C15_hexa27_differs : exists c fs1,
  cells_of cgns_types c /\ ec_wf c /\ no_triple cgns_elem2faces c /\
  ec_create_faces (elem2faces_after []) c = Ok fs1 /\
  ec_create_faces (elem2faces_after [GmshRead true]) c = Err AssertionError.
Proof.
  exists (EC 2 [("hexa27", ED (ILrange 0 1) (Mat (Some 27%nat)
            [zrange 0 27; [0;3;2;1; 40;41;42;43; 11;10;9;8; 50;51;52;53;54;55;56;57; 20; 61;62;63;64;65;66]]))]).
  eexists. split.
  { intros t ed [H|[]]. injection H as <- <-. exists 27%nat. split; [simpl; auto 10|reflexivity]. }
  split.
  { constructor; [repeat constructor; intros []| |reflexivity].
    intros t ed [H|[]]. injection H as <- <-. constructor; [discriminate|reflexivity|repeat constructor]. }
  split; [apply no_tripleb_ok; vm_compute; reflexivity|].
  split; [vm_compute; reflexivity|]. vm_compute; reflexivity.
Qed.
Print Assumptions C15_hexa27_differs.

(** C65: 27-node hexahedra.  CGNS numbers the mid-edge nodes 9..20 on these edges (1-based). *)
Definition hexa27_edges : list (Z * Z * Z) :=
  [(9,1,2);(10,2,3);(11,3,4);(12,4,1);(13,1,5);(14,2,6);(15,3,7);(16,4,8);(17,5,6);(18,6,7);(19,7,8);(20,8,5)].
(** Node [m] is the middle of the edge between [a] and [b] (0-based, either direction). *)
Definition mid_of (m a b : Z) : Prop :=
  In (m + 1, a + 1, b + 1) hexa27_edges \/ In (m + 1, b + 1, a + 1) hexa27_edges.
(** A 9-node face in CGNS order: corners, then the middle of each edge in turn, then the centre. *)
Definition quad9_ordered (s : list Z) : Prop :=
  match s with
  | [a; b; c; d; m1; m2; m3; m4; _] => mid_of m1 a b /\ mid_of m2 b c /\ mid_of m3 c d /\ mid_of m4 d a
  | _ => False
  end.
(** What holds: the mid-edge nodes of a face are those of its four edges, in some order. *)
Theorem C65_mid_nodes : forall s, In s connectivity_hexa27 ->
  exists a b c d m1 m2 m3 m4 f, s = [a; b; c; d; m1; m2; m3; m4; f] /\
    exists n1 n2 n3 n4, Permutation [m1; m2; m3; m4] [n1; n2; n3; n4] /\
      mid_of n1 a b /\ mid_of n2 b c /\ mid_of n3 c d /\ mid_of n4 d a.
Proof.
  assert (P4 : forall a b c d : Z, Permutation [a;b;c;d] [d;c;b;a]).
  { intros. exact (Permutation_rev [a;b;c;d]). }
  assert (M : forall m a b, existsb (fun '(p,q,r) => ((p =? m + 1) && ((q =? a + 1) && (r =? b + 1) || (q =? b + 1) && (r =? a + 1)))%Z%bool)
                 hexa27_edges = true -> mid_of m a b).
  { intros m a b H. apply existsb_exists in H. destruct H as (((p & q) & r) & Hin & H).
    apply andb_true_iff in H. destruct H as [H1 H2]. apply Z.eqb_eq in H1.
    apply orb_true_iff in H2. destruct H2 as [H2|H2]; apply andb_true_iff in H2; destruct H2 as [H2 H3];
      apply Z.eqb_eq in H2, H3; subst; [left|right]; exact Hin. }
  intros s H. vm_compute in H.
  repeat (destruct H as [<-|H]; [do 9 eexists; split; [reflexivity|]|]); [..|destruct H].
  all: do 4 eexists; split; [apply P4|].
  all: repeat split; apply M; vm_compute; reflexivity.
Qed.
Print Assumptions C65_mid_nodes.
(** What fails: not one of the six faces is in CGNS order. *)
Theorem C65_quad9_order_refuted : forall s, In s connectivity_hexa27 -> ~ quad9_ordered s.
Proof.
  intros s H. vm_compute in H.
  repeat (destruct H as [<-|H]; [intros (H1 & _); unfold mid_of in H1; cbn in H1;
     destruct H1 as [H1|H1]; repeat (destruct H1 as [H1|H1]; [discriminate|]); exact H1|]).
  destruct H.
Qed.
Print Assumptions C65_quad9_order_refuted.
Example C65_ex : quad9_ordered [0;1;2;3;8;9;10;11;20].
Proof. unfold quad9_ordered, mid_of. simpl. tauto. Qed.
(** The mid-face nodes of CGNS: 21..26 on the faces with these corners; GMSH's numbers for the mid-edge and
    mid-face nodes (1-based, gmsh.info, node ordering). *)
Definition hexa27_faces : list (Z * list Z) :=
  [(21, [1;2;3;4]); (22, [1;2;6;5]); (23, [2;3;7;6]); (24, [3;4;8;7]); (25, [1;5;8;4]); (26, [5;6;7;8])].
Definition gmsh27_edges : list (Z * Z * Z) :=
  [(9,1,2);(10,1,4);(11,1,5);(12,2,3);(13,2,6);(14,3,4);(15,3,7);(16,4,8);(17,5,6);(18,5,8);(19,6,7);(20,7,8)].
Definition gmsh27_faces : list (Z * list Z) :=
  [(21, [1;4;3;2]); (22, [1;2;6;5]); (23, [1;5;8;4]); (24, [2;3;7;6]); (25, [3;4;8;7]); (26, [5;6;7;8])].
(** A face (0-based) has the corners of one of [faces], then the mid-edge nodes of the edges between its
    successive corners, in some order, then the middle of that face. *)
Definition nine_nodes (edges : list (Z * Z * Z)) (faces : list (Z * list Z)) (s : list Z) : Prop :=
  exists a b c d m1 m2 m3 m4 f corners, List.map (fun i => i + 1) s = [a; b; c; d; m1; m2; m3; m4; f] /\
    In (f, corners) faces /\ Permutation [a; b; c; d] corners /\
    exists n1 n2 n3 n4, Permutation [m1; m2; m3; m4] [n1; n2; n3; n4] /\
      (In (n1, a, b) edges \/ In (n1, b, a) edges) /\ (In (n2, b, c) edges \/ In (n2, c, b) edges) /\
      (In (n3, c, d) edges \/ In (n3, d, c) edges) /\ (In (n4, d, a) edges \/ In (n4, a, d) edges).
Definition middle (edges : list (Z * Z * Z)) (a b : Z) : Z :=
  match filter (fun e => let '(m, x, y) := e in (x =? a) && (y =? b) || (x =? b) && (y =? a)) edges with (m, _, _) :: _ => m | [] => 0 end.
Definition nine_nodesb (edges : list (Z * Z * Z)) (faces : list (Z * list Z)) (s : list Z) : bool :=
  match List.map (fun i => i + 1) s with
  | [a; b; c; d; m1; m2; m3; m4; f] =>
      let n1 := middle edges a b in let n2 := middle edges b c in let n3 := middle edges c d in let n4 := middle edges d a in
      forallb (fun '(n, x, y) => existsb (fun e => let '(m, u, v) := e in (m =? n) && ((u =? x) && (v =? y) || (u =? y) && (v =? x))) edges)
        [(n1, a, b); (n2, b, c); (n3, c, d); (n4, d, a)] &&
      zlist_eqb (zsort [m1; m2; m3; m4]) (zsort [n1; n2; n3; n4]) &&
      existsb (fun fc => (fst fc =? f) && zlist_eqb (zsort [a; b; c; d]) (zsort (snd fc))) faces
  | _ => false
  end.
Lemma zsort_eq a b : zlist_eqb (zsort a) (zsort b) = true -> Permutation a b.
Proof. intros H. apply zlist_eqb_eq in H. apply zsort_perm_iff. exact H. Qed.
Lemma nine_nodesb_ok edges faces s : nine_nodesb edges faces s = true -> nine_nodes edges faces s.
Proof.
  unfold nine_nodesb, nine_nodes. destruct (List.map (fun i => i + 1) s) as [|a [|b [|c [|d [|m1 [|m2 [|m3 [|m4 [|f [|? ?]]]]]]]]]]; try discriminate.
  intros H. apply andb_true_iff in H. destruct H as [H Hf]. apply andb_true_iff in H. destruct H as [He Hm].
  apply existsb_exists in Hf. destruct Hf as ((f', corners) & Hin & Hf). apply andb_true_iff in Hf. destruct Hf as [Ef Hc]. apply Z.eqb_eq in Ef. cbn [fst snd] in *. subst f'.
  exists a, b, c, d, m1, m2, m3, m4, f, corners. split; [reflexivity|]. split; [exact Hin|]. split; [apply zsort_eq; exact Hc|].
  do 4 eexists. split; [apply zsort_eq; exact Hm|]. rewrite forallb_forall in He.
  assert (E : forall n x y, existsb (fun e => let '(m, u, v) := e in (m =? n) && ((u =? x) && (v =? y) || (u =? y) && (v =? x))) edges = true -> In (n, x, y) edges \/ In (n, y, x) edges).
  { intros n x y HE. apply existsb_exists in HE. destruct HE as (((m & u) & v) & Hi & HE). apply andb_true_iff in HE. destruct HE as [H1 H2]. apply Z.eqb_eq in H1. subst m.
    apply orb_true_iff in H2. destruct H2 as [H2|H2]; apply andb_true_iff in H2; destruct H2 as [H2 H3]; apply Z.eqb_eq in H2, H3; subst; tauto. }
  split; [apply E, (He (middle edges a b, a, b)); cbn; tauto|]. split; [apply E, (He (middle edges b c, b, c)); cbn; tauto|].
  split; [apply E, (He (middle edges c d, c, d)); cbn; tauto|]. apply E, (He (middle edges d a, d, a)); cbn; tauto.
Qed.
(** The nine-node faces of a 27-node hexahedron: six, one on each side, with its own nodes, in the numbering
    of CGNS before a GMSH file was read and in that of GMSH afterwards. *)
Theorem C65_tables : forall tbl edges faces,
  In (tbl, edges, faces) [(cgns_elem2faces, hexa27_edges, hexa27_faces); (gmsh_elem2faces, gmsh27_edges, gmsh27_faces)] ->
  exists l, dget String.eqb "hexa27" tbl = Some [("quad9", l)] /\ Forall (nine_nodes edges faces) l /\
    Permutation (List.map (fun s => List.last s 0 + 1) l) [21; 22; 23; 24; 25; 26].
Proof.
  intros tbl edges faces [H|[H|[]]]; injection H as <- <- <-; (eexists; split; [reflexivity|]; split;
    [rewrite Forall_forall; intros s Hs; apply nine_nodesb_ok; revert s Hs; apply forallb_forall; vm_compute; reflexivity|apply zsort_eq; vm_compute; reflexivity]).
Qed.
Print Assumptions C65_tables.
