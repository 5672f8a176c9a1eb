(** * Specification vocabulary for element side tables. *)
From Coq Require Import Permutation.
From Verif Require Import Conn ConnSpec.

(** Directed edges of a polygon. *)
Fixpoint path_edges (a : Z) (l : list Z) : list (Z * Z) :=
  match l with [] => [] | b :: l' => (a, b) :: path_edges b l' end.
Definition cycle_edges (l : list Z) : list (Z * Z) :=
  match l with [] => [] | a :: l' => path_edges a (l' ++ [a]) end.

(** All sides of an element type, with their corners. *)
Definition all_sides (faces : dict string (list (list Z))) : list (list Z) := flat_map snd faces.
Definition side_edges (faces : dict string (list (list Z))) : list (Z * Z) :=
  flat_map cycle_edges (all_sides faces).
Definition swap (e : Z * Z) : Z * Z := (snd e, fst e).

(** A closed surface, consistently oriented: every side has distinct valid nodes, every directed
    edge occurs once, and so does its opposite. *)
Record closed_surface (n : Z) (faces : dict string (list (list Z))) : Prop := {
  cs_nodes : forall s, In s (all_sides faces) -> NoDup s /\ forall j, In j s -> 0 <= j < n;
  cs_once : NoDup (side_edges faces);
  cs_opposite : Permutation (side_edges faces) (List.map swap (side_edges faces));
  cs_all_used : forall j, 0 <= j < n -> exists s, In s (all_sides faces) /\ In j s }.

(** ** Geometry: vectors of integers (any rational geometry scales to it). *)
Record vec : Type := V3 { vx : Z; vy : Z; vz : Z }.
Definition vadd (a b : vec) : vec := V3 (vx a + vx b) (vy a + vy b) (vz a + vz b).
Definition vsub (a b : vec) : vec := V3 (vx a - vx b) (vy a - vy b) (vz a - vz b).
Definition dot (a b : vec) : Z := vx a * vx b + vy a * vy b + vz a * vz b.
Definition cross (a b : vec) : vec :=
  V3 (vy a * vz b - vz a * vy b) (vz a * vx b - vx a * vz b) (vx a * vy b - vy a * vx b).
Definition det (a b c : vec) : Z := dot (cross a b) c.

(** The plane through the first three points of a side, oriented by their order, has all points of
    the cell on its non-positive side, and one strictly. *)
Definition outward (pos : Z -> vec) (cell side : list Z) : Prop :=
  match side with
  | p0 :: p1 :: p2 :: _ =>
      let n := cross (vsub (pos p1) (pos p0)) (vsub (pos p2) (pos p0)) in
      (forall q, In q cell -> dot n (vsub (pos q) (pos p0)) <= 0) /\
      (exists q, In q cell /\ dot n (vsub (pos q) (pos p0)) < 0)
  | _ => False
  end.

(** Cells with straight edges, parallel where the reference element has parallel edges: local node
    [k] of the cell is at [p k]. *)
Definition parallelepiped (p : Z -> vec) : Prop :=
  exists o a b c, 0 < det a b c /\
    p 0 = o /\ p 1 = vadd o a /\ p 2 = vadd (vadd o a) b /\ p 3 = vadd o b /\
    p 4 = vadd o c /\ p 5 = vadd (vadd o a) c /\ p 6 = vadd (vadd (vadd o a) b) c /\ p 7 = vadd (vadd o b) c.
Definition straight_prism (p : Z -> vec) : Prop :=
  exists o a b c, 0 < det a b c /\
    p 0 = o /\ p 1 = vadd o a /\ p 2 = vadd o b /\
    p 3 = vadd o c /\ p 4 = vadd (vadd o a) c /\ p 5 = vadd (vadd o b) c.
(** Any tetrahedron of positive volume. *)
Definition positive_tetra (p : Z -> vec) : Prop :=
  0 < det (vsub (p 1) (p 0)) (vsub (p 2) (p 0)) (vsub (p 3) (p 0)).
(** Pyramid on a parallelogram, apex anywhere above its plane. *)
Definition straight_pyramid (p : Z -> vec) : Prop :=
  exists o a b c, 0 < det a b c /\
    p 0 = o /\ p 1 = vadd o a /\ p 2 = vadd (vadd o a) b /\ p 3 = vadd o b /\ p 4 = vadd o c.

(** Sides of one cell [row], as face extraction orients them. *)
Definition cell_sides (faces : dict string (list (list Z))) (row : list Z) : list (list Z) :=
  List.map (side_nodes row) (all_sides faces).
