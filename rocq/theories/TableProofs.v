(** * Proofs about the element side tables. *)
From Coq Require Import Lia Sorted Permutation ZifyBool ZifyNat Arith.
From Verif Require Import PyFacts Conn ConnSpec ConnProofs FaceProofs TableSpec.

(** ** Decision procedures for the finite part *)
Definition pair_eqb (a b : Z * Z) : bool := (fst a =? fst b) && (snd a =? snd b).
Lemma pair_eqb_eq a b : pair_eqb a b = true <-> a = b.
Proof. unfold pair_eqb. destruct a, b; simpl. rewrite andb_true_iff, !Z.eqb_eq. split; [intros [-> ->]; auto|intros H; inv H; auto]. Qed.
Definition pair_dec (a b : Z * Z) : {a = b} + {a <> b}.
Proof. decide equality; apply Z.eq_dec. Defined.

Fixpoint nodupb {A} (eqb : A -> A -> bool) (l : list A) : bool :=
  match l with [] => true | a :: l' => negb (existsb (eqb a) l') && nodupb eqb l' end.
Lemma nodupb_ok {A} (eqb : A -> A -> bool) : (forall a b, eqb a b = true <-> a = b) ->
  forall l, nodupb eqb l = true -> NoDup l.
Proof.
  intros He. induction l as [|a l IH]; simpl; [constructor|]. rewrite andb_true_iff, negb_true_iff.
  intros [H1 H2]. constructor; auto. intros Hin.
  assert (existsb (eqb a) l = true) by (apply existsb_exists; exists a; split; auto; now apply He). congruence.
Qed.

Definition closed_surfaceb (n : Z) (faces : dict string (list (list Z))) : bool :=
  forallb (fun s => nodupb Z.eqb s && forallb (fun j => (0 <=? j) && (j <? n)) s) (all_sides faces) &&
  nodupb pair_eqb (side_edges faces) &&
  forallb (fun e => existsb (pair_eqb (swap e)) (side_edges faces)) (side_edges faces) &&
  forallb (fun j => existsb (zmem j) (all_sides faces)) (zrange 0 n).

Lemma swap_swap e : swap (swap e) = e. Proof. now destruct e. Qed.

Lemma closed_surfaceb_ok n faces : closed_surfaceb n faces = true -> closed_surface n faces.
Proof.
  unfold closed_surfaceb. rewrite !andb_true_iff, !forallb_forall. intros [[[H1 H2] H3] H4].
  assert (N2 : NoDup (side_edges faces)) by (apply (nodupb_ok pair_eqb pair_eqb_eq); auto).
  constructor; auto.
  - intros s Hs. apply H1 in Hs. rewrite andb_true_iff, forallb_forall in Hs. destruct Hs as [Ha Hb]. split.
    + apply (nodupb_ok Z.eqb Z.eqb_eq); auto.
    + intros j Hj. apply Hb in Hj. lia.
  - apply NoDup_Permutation; auto.
    + apply NoDup_map_inj_in; auto. intros a b _ _ E. rewrite <- (swap_swap a), E. apply swap_swap.
    + intros e. rewrite in_map_iff.
      assert (K : forall e, In e (side_edges faces) -> In (swap e) (side_edges faces)).
      { intros x Hx. apply H3 in Hx. apply existsb_exists in Hx. destruct Hx as (y & Hy & E).
        apply pair_eqb_eq in E. now subst. }
      split.
      * intros He. exists (swap e). split; [apply swap_swap|auto].
      * intros (x & <- & Hx). auto.
  - intros j Hj. assert (In j (zrange 0 n)) as X by (apply in_zrange; lia). apply H4 in X.
    apply existsb_exists in X. destruct X as (s & Hs & E). apply zmem_in in E. eauto.
Qed.

(** Volume element types with the number of their nodes. *)
Definition volume_types : list (string * Z) := [("tetra4", 4); ("pyra5", 5); ("prism6", 6); ("hexa8", 8)].

Lemma tables_closed tbl t n : In tbl [cgns_elem2faces; gmsh_elem2faces] -> In (t, n) volume_types ->
  exists faces, sget t tbl = Some faces /\ closed_surface n faces.
Proof.
  intros [<-|[<-|[]]] H; destruct H as [H|[H|[H|[H|[]]]]]; inv H;
    (eexists; split; [reflexivity|apply closed_surfaceb_ok; vm_compute; reflexivity]).
Qed.

(** Sum over the edges of the sides of a cell. *)
Definition edge_sum (g : Z -> Z -> Z) (l : list Z) : Z := zsum (List.map (fun e => g (fst e) (snd e)) (cycle_edges l)).

Lemma path_edges_map f a l : path_edges (f a) (List.map f l) = List.map (fun e => (f (fst e), f (snd e))) (path_edges a l).
Proof. revert a. induction l; intros; simpl; auto. now rewrite IHl. Qed.
Lemma cycle_edges_map f l : cycle_edges (List.map f l) = List.map (fun e => (f (fst e), f (snd e))) (cycle_edges l).
Proof.
  destruct l as [|a l]; auto. unfold cycle_edges. cbn [List.map].
  replace (List.map f l ++ [f a]) with (List.map f (l ++ [a])) by (rewrite map_app; auto).
  apply path_edges_map.
Qed.

Lemma path_edges_snoc a l b : path_edges a (l ++ [b]) = path_edges a l ++ [(last (a :: l) 0, b)].
Proof.
  revert a. induction l as [|c l IH]; intros a; auto. cbn [path_edges app]. rewrite IH. reflexivity.
Qed.
Lemma path_edges_rev l a b : path_edges a (rev l ++ [b]) = rev (List.map swap (path_edges b (l ++ [a]))).
Proof.
  revert a b. induction l as [|c l IH]; intros a b; auto.
  cbn [rev]. rewrite <- app_assoc. cbn [app path_edges List.map rev].
  replace (rev l ++ [c; b]) with ((rev l ++ [c]) ++ [b]) by (rewrite <- app_assoc; auto).
  rewrite path_edges_snoc. rewrite <- IH.
  assert (E : last (a :: rev l ++ [c]) 0 = c).
  { clear. change (a :: rev l ++ [c]) with ((a :: rev l) ++ [c]). apply last_last. }
  now rewrite E.
Qed.

Lemma rotate_edges a l : Permutation (cycle_edges (l ++ [a])) (cycle_edges (a :: l)).
Proof.
  destruct l as [|b l]; auto. cbn [app]. unfold cycle_edges.
  rewrite path_edges_snoc. cbn [app path_edges].
  rewrite Permutation_app_comm. cbn [app].
  replace (last (b :: l ++ [a]) 0) with a; [reflexivity|].
  symmetry. change (b :: l ++ [a]) with ((b :: l) ++ [a]). apply last_last.
Qed.

Lemma cycle_edges_rev l : Permutation (cycle_edges (rev l)) (List.map swap (cycle_edges l)).
Proof.
  destruct l as [|a l]; auto. cbn [rev].
  rewrite rotate_edges. unfold cycle_edges. rewrite path_edges_rev. symmetry. apply Permutation_rev.
Qed.

Lemma zsum_opp {A} (f : A -> Z) l : zsum (List.map (fun a => - f a) l) = - zsum (List.map f l).
Proof. induction l; simpl; lia. Qed.

(** Contributions of the sides of a cell cancel, for the sides of face extraction as for the
    tabulated ones. *)
Lemma closed_sum g n faces row :
  closed_surface n faces -> (forall a b, g a b = - g b a) ->
  zsum (List.map (edge_sum g) (cell_sides faces row)) = 0.
Proof.
  intros C A. set (f := fun j => nth (Z.to_nat j) row 0).
  assert (E : zsum (List.map (edge_sum g) (cell_sides faces row)) =
              zsum (List.map (fun e => g (f (fst e)) (f (snd e))) (List.map swap (side_edges faces)))).
  { unfold cell_sides, side_edges. induction (all_sides faces) as [|s ss IH]; auto.
    cbn [List.map flat_map]. rewrite map_app, map_app, zsum_app. cbn [List.map] in IH. rewrite <- IH.
    change (zsum (edge_sum g (side_nodes row s) :: ?x)) with (edge_sum g (side_nodes row s) + zsum x).
    cbn [zsum fold_right]. f_equal.
    unfold edge_sum, side_nodes. rewrite cycle_edges_map, map_map. cbn [fst snd]. fold f.
    apply zsum_perm. rewrite cycle_edges_rev. reflexivity. }
  rewrite E.
  assert (E2 : zsum (List.map (fun e => g (f (fst e)) (f (snd e))) (List.map swap (side_edges faces))) =
               - zsum (List.map (fun e => g (f (fst e)) (f (snd e))) (side_edges faces))).
  { rewrite map_map. rewrite <- zsum_opp. f_equal. apply map_ext. intros e. simpl. rewrite A. lia. }
  rewrite E2. rewrite (zsum_perm _ _ (Permutation_map _ (cs_opposite _ _ C))) in *.
  rewrite E2. lia.
Qed.

(** ** Orientation *)

Ltac expand := unfold outward; cbn [nth Z.to_nat Pos.to_nat Pos.iter_op Nat.add].

Ltac solve_dot D k :=
  match goal with
  | |- ?e <= 0 => replace e with (- k * D) by (unfold D, det, dot, cross, vsub, vadd; cbn [vx vy vz]; ring); lia
  | |- ?e < 0 => replace e with (- k * D) by (unfold D, det, dot, cross, vsub, vadd; cbn [vx vy vz]; ring); lia
  end.
Ltac try_dots D := first [solve_dot D 0 | solve_dot D 1 | solve_dot D 2].

Ltac ccell H := cbv [Z.to_nat Pos.to_nat Pos.iter_op Nat.add nth] in H.
Lemma hexa8_outward tbl faces pos row :
  In tbl [cgns_elem2faces; gmsh_elem2faces] -> sget "hexa8" tbl = Some faces ->
  List.length row = 8%nat -> parallelepiped (fun k => pos (nth (Z.to_nat k) row 0)) ->
  Forall (outward pos row) (cell_sides faces row).
Proof.
  intros Ht Hf Hl (o & a & b & c & HD & H0 & H1 & H2 & H3 & H4 & H5 & H6 & H7).
  assert (faces = [("tri3", []); ("quad4", connectivity_hexa8)]) as ->.
  { destruct Ht as [<-|[<-|[]]]; injection Hf as <-; reflexivity. }
  do 8 (destruct row as [|?x row]; [discriminate|]). destruct row; [|discriminate]. clear Hl Hf Ht tbl.
  ccell H0. ccell H1. ccell H2. ccell H3. ccell H4. ccell H5. ccell H6. ccell H7.
  set (D := det a b c) in *.
  unfold cell_sides. cbn. cbv [Pos.to_nat Pos.iter_op Nat.add].
  repeat (apply Forall_cons || apply Forall_nil); unfold outward;
    (split; [intros q Hq; repeat destruct Hq as [<-|Hq]; try destruct Hq|]);
    try (rewrite ?H0, ?H1, ?H2, ?H3, ?H4, ?H5, ?H6, ?H7; try_dots D);
    first [exists x; split; [simpl; tauto|]; rewrite ?H0, ?H1, ?H2, ?H3, ?H4, ?H5, ?H6, ?H7; solve_dot D 1
          |exists x5; split; [simpl; tauto|]; rewrite ?H0, ?H1, ?H2, ?H3, ?H4, ?H5, ?H6, ?H7; solve_dot D 1].
Qed.

Lemma prism6_outward tbl faces pos row :
  In tbl [cgns_elem2faces; gmsh_elem2faces] -> sget "prism6" tbl = Some faces ->
  List.length row = 6%nat -> straight_prism (fun k => pos (nth (Z.to_nat k) row 0)) ->
  Forall (outward pos row) (cell_sides faces row).
Proof.
  intros Ht Hf Hl (o & a & b & c & HD & H0 & H1 & H2 & H3 & H4 & H5).
  assert (faces = group_faces_by_type connectivity_prism6) as ->.
  { destruct Ht as [<-|[<-|[]]]; injection Hf as <-; reflexivity. }
  do 6 (destruct row as [|?x row]; [discriminate|]). destruct row; [|discriminate]. clear Hl Hf Ht tbl.
  ccell H0. ccell H1. ccell H2. ccell H3. ccell H4. ccell H5.
  set (D := det a b c) in *.
  unfold cell_sides. cbn. cbv [Pos.to_nat Pos.iter_op Nat.add].
  repeat (apply Forall_cons || apply Forall_nil); unfold outward;
    (split; [intros q Hq; repeat destruct Hq as [<-|Hq]; try destruct Hq|]);
    try (rewrite ?H0, ?H1, ?H2, ?H3, ?H4, ?H5; try_dots D);
    first [exists x; split; [simpl; tauto|]; rewrite ?H0, ?H1, ?H2, ?H3, ?H4, ?H5; solve_dot D 1
          |exists x0; split; [simpl; tauto|]; rewrite ?H0, ?H1, ?H2, ?H3, ?H4, ?H5; solve_dot D 1
          |exists x1; split; [simpl; tauto|]; rewrite ?H0, ?H1, ?H2, ?H3, ?H4, ?H5; solve_dot D 1
          |exists x3; split; [simpl; tauto|]; rewrite ?H0, ?H1, ?H2, ?H3, ?H4, ?H5; solve_dot D 1].
Qed.

Lemma pyra5_outward tbl faces pos row :
  In tbl [cgns_elem2faces; gmsh_elem2faces] -> sget "pyra5" tbl = Some faces ->
  List.length row = 5%nat -> straight_pyramid (fun k => pos (nth (Z.to_nat k) row 0)) ->
  Forall (outward pos row) (cell_sides faces row).
Proof.
  intros Ht Hf Hl (o & a & b & c & HD & H0 & H1 & H2 & H3 & H4).
  assert (faces = group_faces_by_type connectivity_pyra5) as ->.
  { destruct Ht as [<-|[<-|[]]]; injection Hf as <-; reflexivity. }
  do 5 (destruct row as [|?x row]; [discriminate|]). destruct row; [|discriminate]. clear Hl Hf Ht tbl.
  ccell H0. ccell H1. ccell H2. ccell H3. ccell H4.
  set (D := det a b c) in *.
  unfold cell_sides. cbn. cbv [Pos.to_nat Pos.iter_op Nat.add].
  repeat (apply Forall_cons || apply Forall_nil); unfold outward;
    (split; [intros q Hq; repeat destruct Hq as [<-|Hq]; try destruct Hq|]);
    try (rewrite ?H0, ?H1, ?H2, ?H3, ?H4; try_dots D);
    first [exists x; split; [simpl; tauto|]; rewrite ?H0, ?H1, ?H2, ?H3, ?H4; solve_dot D 1
          |exists x1; split; [simpl; tauto|]; rewrite ?H0, ?H1, ?H2, ?H3, ?H4; solve_dot D 1
          |exists x3; split; [simpl; tauto|]; rewrite ?H0, ?H1, ?H2, ?H3, ?H4; solve_dot D 1].
Qed.

Lemma tetra4_outward tbl faces pos row :
  In tbl [cgns_elem2faces; gmsh_elem2faces] -> sget "tetra4" tbl = Some faces ->
  List.length row = 4%nat -> positive_tetra (fun k => pos (nth (Z.to_nat k) row 0)) ->
  Forall (outward pos row) (cell_sides faces row).
Proof.
  unfold positive_tetra.
  intros Ht Hf Hl HD.
  assert (faces = group_faces_by_type connectivity_tetra4) as ->.
  { destruct Ht as [<-|[<-|[]]]; injection Hf as <-; reflexivity. }
  do 4 (destruct row as [|?x row]; [discriminate|]). destruct row; [|discriminate]. clear Hl Hf Ht tbl.
  ccell HD.
  set (D := det _ _ _) in HD.
  unfold cell_sides. cbn. cbv [Pos.to_nat Pos.iter_op Nat.add].
  repeat (apply Forall_cons || apply Forall_nil); unfold outward;
    (split; [intros q Hq; repeat destruct Hq as [<-|Hq]; try destruct Hq|]);
    try try_dots D;
    first [exists x; split; [simpl; tauto|]; solve_dot D 1
          |exists x0; split; [simpl; tauto|]; solve_dot D 1
          |exists x1; split; [simpl; tauto|]; solve_dot D 1
          |exists x2; split; [simpl; tauto|]; solve_dot D 1].
Qed.

(** ** Node orders *)
Definition inverse_perms (p q : list Z) : bool :=
  forallb (fun i => match py_get p (i - 1) with
                    | Ok j => match py_get q (j - 1) with Ok k => k =? i | Err _ => false end
                    | Err _ => false end) (zrange 1 (zlen p + 1)) && Nat.eqb (List.length p) (List.length q).
