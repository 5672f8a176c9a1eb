(** * Specification vocabulary for extrusion. *)
From Coq Require Import Permutation.
From Verif Require Import Conn ConnSpec FaceSpec TableSpec Mesh MeshSpec.

(** The types that can be extruded, with their number of nodes, and what they become. *)
Definition base_types : list (string * nat) := [("node1", 1%nat); ("bar2", 2%nat); ("tri3", 3%nat); ("quad4", 4%nat)].
Definition becomes : list (string * string) := [("node1", "bar2"); ("bar2", "quad4"); ("tri3", "penta6"); ("quad4", "hexa8")].

(** Cells of [n - 1] layers: cell of layer [i] over a base cell has its nodes in planes [i] and [i+1],
    [shift] being the number of nodes of a plane. *)
Definition layer_cell (shift i : Z) (p : Z * list Z) : Z * list Z :=
  (fst p + i * shift, List.map (fun v => v + i * shift) (snd p) ++ List.map (fun v => v + (i + 1) * shift) (snd p)).
Definition layers (shift n : Z) (ps : list (Z * list Z)) : list (Z * list Z) :=
  flat_map (fun i => List.map (layer_cell shift i) ps) (zrange 0 (n - 1)).

Record extruded_conn (shift n : Z) (c c' : econn) : Prop := {
  xc_wf : ec_wf c' /\ ec_plain c';
  xc_types : Forall2 (fun t x => In (t, x) becomes) (ec_types c) (ec_types c');
  xc_pairs : forall t x, In (t, x) becomes -> pairs_of_type c' x = layers shift n (pairs_of_type c t);
  xc_width : forall x ed, In (x, ed) (ec_dict c') -> exists t w, In (t, x) becomes /\ In (t, w) base_types /\ m_cols (ed_e2n ed) = Some (2 * w)%nat;
  xc_nelem : ec_nelem c' = (n - 1) * ec_nelem c }.

(** Same numbers on every plane. *)
Definition all_planes (nnode n : Z) (l : list Z) : list Z :=
  flat_map (fun i => List.map (fun v => v + i * nnode) l) (zrange 0 n).

Section Mesh.
  Context {F : Type} (add mul : F -> F -> F).

  (** The mark of one plane: the nodes used by the base cells, each once, shifted. *)
  Definition plane_of (m : mesh F) (name : string) (shift : Z) (b : mark F) : Prop :=
    mk_name b = name /\ mk_geodim b = Some Gbdnode /\ mk_type b = Some "boundary" /\ mk_perio b = None /\ mark_ok b /\ NoDup (mk_entries b) /\
    forall c, me_cell2node m = Some c -> forall v,
      In v (mk_entries b) <-> exists n nodes, In (n, nodes) (ec_pairs c) /\ In (v - shift) nodes.

  Record extruded_mesh (m m' : mesh F) (dir : F * F * F) (planes : list F) (domain : string) : Prop := {
    xm_nnode : me_nnode m' = zlen planes * me_nnode m;
    xm_ncell : forall c, me_cell2node m = Some c -> me_ncell m' = (zlen planes - 1) * ec_nelem c;
    xm_nofaces : me_faces m' = [] /\ me_nface m' = 0;
    xm_cells : exists c c', me_cell2node m = Some c /\ me_cell2node m' = Some c' /\ extruded_conn (me_nnode m) (zlen planes) c c';
    xm_axes : dkeys (me_nodes m') = ["x"; "y"; "z"];
    xm_coords : forall x y z, coords_ok m x y z -> exists x' y' z', coords_ok m' x' y' z' /\
      forall i v s a b c, nth_error planes i = Some s ->
        nth_error x v = Some a -> nth_error y v = Some b -> nth_error z v = Some c ->
        nth_error x' (i * Z.to_nat (me_nnode m) + v)%nat = Some (add a (mul s (fst (fst dir)))) /\
        nth_error y' (i * Z.to_nat (me_nnode m) + v)%nat = Some (add b (mul s (snd (fst dir)))) /\
        nth_error z' (i * Z.to_nat (me_nnode m) + v)%nat = Some (add c (mul s (snd dir)));
    xm_marks : exists old b0 b1,
      me_bocos m' = old ++ [((domain ++ "0")%string, b0); ((domain ++ "1")%string, b1)] /\
      Forall2 (fun kb kb' => fst kb' = fst kb /\ mk_name (snd kb') = mk_name (snd kb) /\
          mk_geodim (snd kb') = mk_geodim (snd kb) /\ mk_type (snd kb') = mk_type (snd kb) /\ mk_perio (snd kb') = None /\
          mk_entries (snd kb') = all_planes (me_nnode m) (zlen planes) (mk_entries (snd kb)) /\ mark_ok (snd kb'))
        (me_bocos m) old /\
      plane_of m (domain ++ "0") 0 b0 /\ plane_of m (domain ++ "1") ((zlen planes - 1) * me_nnode m) b1 }.
End Mesh.

(** ** Geometry of extruded cells *)
(** The sides of a swept polygon between planes [i] and [i + 1], as sets of nodes: the polygon on
    both planes, and one side over each of its edges. *)
Definition swept_sides (s i : Z) (row : list Z) : list (list Z) :=
  List.map (fun v => v + i * s) row ::
  List.map (fun e => [fst e + i * s; snd e + i * s; fst e + (i + 1) * s; snd e + (i + 1) * s]) (cycle_edges row) ++
  [List.map (fun v => v + (i + 1) * s) row].

Definition vscale (t : Z) (a : vec) : vec := V3 (t * vx a) (t * vy a) (t * vz a).

(** The reverse of [outward]: all points of the cell are on the non-negative side. *)
Definition inward (pos : Z -> vec) (cell side : list Z) : Prop :=
  match side with
  | p0 :: p1 :: p2 :: _ =>
      let n := cross (vsub (pos p1) (pos p0)) (vsub (pos p2) (pos p0)) in
      (forall q, In q cell -> 0 <= dot n (vsub (pos q) (pos p0))) /\
      (exists q, In q cell /\ 0 < dot n (vsub (pos q) (pos p0)))
  | _ => False
  end.

(** The base cell [row] is a parallelogram, its edges [u] and [w] being seen from above as given. *)
Definition parallelogram (pos : Z -> vec) (row : list Z) (u w : vec) : Prop :=
  match row with
  | [a; b; c; d] => pos b = vadd (pos a) u /\ pos c = vadd (vadd (pos a) u) w /\ pos d = vadd (pos a) w
  | _ => False
  end.

(** Nodes of planes [i] and [i + 1] over the nodes of [row] are at distances [t] and [t'] from them
    along [dir]. *)
Definition swept (pos : Z -> vec) (s i : Z) (row : list Z) (dir : vec) (t t' : Z) : Prop :=
  forall v, In v row -> pos (v + i * s) = vadd (pos v) (vscale t dir) /\ pos (v + (i + 1) * s) = vadd (pos v) (vscale t' dir).
