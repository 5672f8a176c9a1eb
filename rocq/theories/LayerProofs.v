(** * Extruded meshes of quadrangles are conforming meshes of cells. *)
From Coq Require Import ZArith List Bool String Ascii Lia Permutation.
From Verif Require Import Py PyFacts Conn ConnSpec ConnProofs FaceSpec FaceProofs FaceTable TableSpec Mesh MeshSpec
  Extrude ExtrudeSpec ExtrudeProofs ExtrudeMore Ic3 Ic3HeaderSpec Ic3FileSpec Ic3OkSpec ConvSpec ConvProofs LayerSpec.

(** ** Counting *)
Definition cnt (N : list Z) (l : list (list Z)) : nat := List.length (filter (same_nodes N) l).
Lemma cnt_app N a b : cnt N (a ++ b) = (cnt N a + cnt N b)%nat.
Proof. unfold cnt. rewrite filter_app, app_length. reflexivity. Qed.
Lemma cnt_cons N x l : cnt N (x :: l) = ((if same_nodes N x then 1 else 0) + cnt N l)%nat.
Proof. unfold cnt. cbn [filter]. destruct (same_nodes N x); reflexivity. Qed.
Lemma cnt_flat_map {A} N (g : A -> list (list Z)) l : cnt N (flat_map g l) = list_sum (List.map (fun x => cnt N (g x)) l).
Proof. induction l as [| a l IH]; [reflexivity |]. cbn [flat_map List.map list_sum fold_right]. rewrite cnt_app, IH. reflexivity. Qed.
Lemma list_sum_app' {A} (f g : A -> nat) l : list_sum (List.map (fun x => (f x + g x)%nat) l) = (list_sum (List.map f l) + list_sum (List.map g l))%nat.
Proof. induction l as [| a l IH]; [reflexivity |]. cbn [List.map list_sum fold_right] in *. unfold list_sum in *. lia. Qed.
Lemma list_sum_zero {A} (f : A -> nat) l : (forall x, In x l -> f x = 0%nat) -> list_sum (List.map f l) = 0%nat.
Proof. induction l as [| a l IH]; intros H; [reflexivity |]. cbn [List.map list_sum fold_right]. rewrite (H a (or_introl eq_refl)). apply IH. intros x I. apply H. right. exact I. Qed.
Lemma list_sum_one {A} (f : A -> nat) l a : NoDup l -> In a l -> (forall x, In x l -> x <> a -> f x = 0%nat) -> list_sum (List.map f l) = f a.
Proof.
  induction l as [| b l IH]; intros N I H; [destruct I |]. inversion N as [| ? ? N1 N2]; subst. cbn [List.map list_sum fold_right]. destruct I as [-> | I].
  - change (fold_right Init.Nat.add 0%nat (List.map f l)) with (list_sum (List.map f l)). rewrite list_sum_zero; [lia |]. intros x J. apply H; [right; exact J |]. intros ->. contradiction.
  - change (fold_right Init.Nat.add 0%nat (List.map f l)) with (list_sum (List.map f l)). rewrite (IH N2 I) by (intros x J; apply H; right; exact J).
    rewrite (H b); [reflexivity | left; reflexivity |]. intros ->. contradiction.
Qed.
Lemma same_nodes_cong a b x : Permutation a b -> same_nodes a x = same_nodes b x.
Proof.
  intros P. destruct (same_nodes a x) eqn:E, (same_nodes b x) eqn:E'; try reflexivity.
  - apply same_nodes_perm in E. assert (Q : same_nodes b x = true) by (apply same_nodes_perm; rewrite <- P; exact E). congruence.
  - apply same_nodes_perm in E'. assert (Q : same_nodes a x = true) by (apply same_nodes_perm; rewrite P; exact E'). congruence.
Qed.
Lemma same_nodes_cong_r a x y : Permutation x y -> same_nodes a x = same_nodes a y.
Proof.
  intros P. destruct (same_nodes a x) eqn:E, (same_nodes a y) eqn:E'; try reflexivity.
  - apply same_nodes_perm in E. assert (Q : same_nodes a y = true) by (apply same_nodes_perm; rewrite <- P; exact E). congruence.
  - apply same_nodes_perm in E'. assert (Q : same_nodes a x = true) by (apply same_nodes_perm; rewrite P; exact E'). congruence.
Qed.
Lemma cnt_cong a b l : Permutation a b -> cnt a l = cnt b l.
Proof. intros P. unfold cnt. f_equal. apply filter_ext. intros x. apply same_nodes_cong. exact P. Qed.
Lemma cnt_forall2 a l l' : Forall2 (@Permutation Z) l l' -> cnt a l = cnt a l'.
Proof. induction 1 as [| x y l l' P F IH]; [reflexivity |]. rewrite !cnt_cons, IH, (same_nodes_cong_r a x y P). reflexivity. Qed.
Lemma cnt_sharing N (l : list side) : List.length (sharing N l) = cnt N (List.map fst l).
Proof. unfold sharing, cnt. induction l as [| s l IH]; [reflexivity |]. cbn [filter List.map]. destruct (same_nodes N (fst s)); cbn [List.length]; rewrite IH; reflexivity. Qed.
Lemma perm_filter {A} (f : A -> bool) l l' : Permutation l l' -> Permutation (filter f l) (filter f l').
Proof.
  induction 1 as [| x l l' P IH | x y l | l l' l'' P IH P' IH']; cbn [filter].
  - constructor.
  - destruct (f x); [constructor |]; exact IH.
  - destruct (f x), (f y); try reflexivity. constructor.
  - etransitivity; eassumption.
Qed.
Lemma outer_iff tbl c ft s : In s (ec_sides tbl ft c) -> (outer tbl c ft s <-> cnt (fst s) (List.map fst (ec_sides tbl ft c)) = 1%nat).
Proof.
  intros I. rewrite <- cnt_sharing. split.
  - intros (_ & ->). reflexivity.
  - intros L. split; [exact I |]. assert (J : In s (sharing (fst s) (ec_sides tbl ft c))) by (apply filter_In; split; [exact I | apply same_nodes_refl]).
    destruct (sharing (fst s) (ec_sides tbl ft c)) as [| x [| y l]]; try discriminate. destruct J as [-> | []]. reflexivity.
Qed.

(** ** Nodes of planes *)
Section Planes.
  Context (s : Z).
  Definition at_plane (j : Z) (row : list Z) : list Z := List.map (fun v => v + j * s) row.
  Definition lateral (i : Z) (e : Z * Z) : list Z := [fst e + i * s; snd e + i * s; fst e + (i + 1) * s; snd e + (i + 1) * s].
  Lemma plane_div v j : 0 <= v < s -> (v + j * s) / s = j.
  Proof. intros B. rewrite Z.div_add by lia. rewrite Z.div_small by exact B. lia. Qed.
  Lemma planes_of j row : (forall v, In v row -> 0 <= v < s) -> List.map (fun v => v / s) (at_plane j row) = repeat j (List.length row).
  Proof.
    induction row as [| v row IH]; intros B; [reflexivity |]. cbn [at_plane List.map List.length repeat]. f_equal; [apply plane_div, B; left; reflexivity |].
    apply IH. intros x I. apply B. right. exact I.
  Qed.
  Lemma planes_lateral i e : 0 <= fst e < s -> 0 <= snd e < s -> List.map (fun v => v / s) (lateral i e) = [i; i; i + 1; i + 1].
  Proof. intros B1 B2. cbn [lateral List.map]. rewrite !plane_div by assumption. reflexivity. Qed.
  Lemma unshift j row : List.map (fun v => v - j * s) (at_plane j row) = row.
  Proof. unfold at_plane. rewrite map_map. rewrite <- (map_id row) at 2. apply map_ext. intros. lia. Qed.

  Lemma flat_flat j row j' row' : row <> [] -> (forall v, In v row -> 0 <= v < s) -> (forall v, In v row' -> 0 <= v < s) ->
    Permutation (at_plane j row) (at_plane j' row') <-> j = j' /\ Permutation row row'.
  Proof.
    intros NE B B'. split.
    - intros P. assert (E : j = j').
      { assert (Q := Permutation_map (fun v => v / s) P). rewrite (planes_of j row B), (planes_of j' row' B') in Q. destruct row as [| v row]; [congruence |]. cbn [List.length repeat] in Q.
        assert (I : In j (repeat j' (List.length row'))) by (apply (Permutation_in _ Q); left; reflexivity). apply repeat_spec in I. exact I. }
      subst j'. split; [reflexivity |]. apply (Permutation_map (fun v => v - j * s)) in P. rewrite !unshift in P. exact P.
    - intros (-> & P). apply Permutation_map. exact P.
  Qed.
  Lemma flat_lateral j row i e : (forall v, In v row -> 0 <= v < s) -> 0 <= fst e < s -> 0 <= snd e < s -> ~ Permutation (at_plane j row) (lateral i e).
  Proof.
    intros B B1 B2 P. assert (Q := Permutation_map (fun v => v / s) P). rewrite (planes_of j row B), (planes_lateral i e B1 B2) in Q.
    assert (I1 : In i (repeat j (List.length row))) by (apply (Permutation_in _ (Permutation_sym Q)); left; reflexivity).
    assert (I2 : In (i + 1) (repeat j (List.length row))) by (apply (Permutation_in _ (Permutation_sym Q)); right; right; left; reflexivity).
    apply repeat_spec in I1. apply repeat_spec in I2. lia.
  Qed.
  Lemma lateral_low i e : 0 <= fst e < s -> 0 <= snd e < s -> filter (fun v => v / s =? i) (lateral i e) = at_plane i [fst e; snd e].
  Proof.
    intros B1 B2. cbn [lateral filter at_plane List.map]. rewrite !plane_div by assumption. rewrite Z.eqb_refl.
    replace (i + 1 =? i) with false by (symmetry; apply Z.eqb_neq; lia). reflexivity.
  Qed.
  Lemma lateral_lateral i e i' e' : 0 <= fst e < s -> 0 <= snd e < s -> 0 <= fst e' < s -> 0 <= snd e' < s ->
    Permutation (lateral i e) (lateral i' e') <-> i = i' /\ Permutation [fst e; snd e] [fst e'; snd e'].
  Proof.
    intros B1 B2 B1' B2'. split.
    - intros P. assert (E : i = i').
      { assert (Q := Permutation_map (fun v => v / s) P). rewrite (planes_lateral i e B1 B2), (planes_lateral i' e' B1' B2') in Q.
        assert (I1 : In i [i'; i'; i' + 1; i' + 1]) by (apply (Permutation_in _ Q); left; reflexivity).
        assert (I2 : In i' [i; i; i + 1; i + 1]) by (apply (Permutation_in _ (Permutation_sym Q)); left; reflexivity). cbn in I1, I2. lia. }
      subst i'. split; [reflexivity |]. apply (perm_filter (fun v => v / s =? i)) in P. rewrite !lateral_low in P by assumption.
      apply (Permutation_map (fun v => v - i * s)) in P. rewrite !unshift in P. exact P.
    - intros (-> & P). change (Permutation (at_plane i' [fst e; snd e] ++ at_plane (i' + 1) [fst e; snd e]) (at_plane i' [fst e'; snd e'] ++ at_plane (i' + 1) [fst e'; snd e'])).
      apply Permutation_app; apply Permutation_map; exact P.
  Qed.
End Planes.

(** ** The sides of the cells *)
Lemma quad_table tbl types : in_force tbl types -> sget "quad4" tbl = Some [("bar2", [[0; 1]; [1; 2]; [2; 3]; [3; 0]])]%string.
Proof. intros [(-> & _) | (-> & _)]; reflexivity. Qed.
Lemma hexa_table tbl types : in_force tbl types -> sget "hexa8" tbl = Some [("tri3", []); ("quad4", connectivity_hexa8)]%string /\ In tbl [cgns_elem2faces; gmsh_elem2faces].
Proof. intros [(-> & _) | (-> & _)]; (split; [reflexivity |]); [left | right; left]; reflexivity. Qed.
Lemma hexa_known tbl types : in_force tbl types -> In ("hexa8"%string, 8%nat) types.
Proof. intros [(_ & ->) | (_ & ->)]; cbn; tauto. Qed.

Lemma nodup_fst_inj {B} (l : list (Z * B)) : NoDup (List.map fst l) -> forall k b b', In (k, b) l -> In (k, b') l -> b = b'.
Proof.
  induction l as [| (q, r) l IH]; intros ND k b b' I I'; [destruct I |]. cbn [List.map fst] in ND. inversion ND as [| ? ? N1 N2]; subst.
  destruct I as [E | I], I' as [E' | I'].
  - congruence.
  - exfalso. apply N1. apply in_map_iff. exists (k, b'). inversion E; subst. auto.
  - exfalso. apply N1. apply in_map_iff. exists (k, b). inversion E'; subst. auto.
  - exact (IH N2 k b b' I I').
Qed.

Section Layers.
  Context (tbl : sidetable) (types : list (string * nat)).
  Hypothesis IF : in_force tbl types.
  Context (m : mesh Z) (c c' : econn) (n : Z).
  Hypothesis FL : flat_mesh tbl m c.
  Hypothesis N2 : 2 <= n.
  Let s := me_nnode m.
  Hypothesis XC : extruded_conn s n c c'.

  Lemma base_dict : exists ed, ec_dict c = [("quad4"%string, ed)] /\ m_cols (ed_e2n ed) = Some 4%nat /\ ed_wf ed.
  Proof.
    assert (T := fl_quads _ _ _ FL). unfold ec_types in T. destruct (ec_dict c) as [| (t, ed) [| x l]] eqn:D; try discriminate. cbn in T. injection T as ->.
    exists ed. split; [reflexivity |]. assert (I : In ("quad4"%string, ed) (ec_dict c)) by (rewrite D; left; reflexivity). split; [| exact (ecwf_eds _ (fl_wf _ _ _ FL) _ _ I)].
    destruct (fl_width _ _ _ FL _ _ I) as (w & J & ->). cbn in J. repeat (destruct J as [J | J]; [try discriminate J; injection J as <-; reflexivity |]). destruct J.
  Qed.
  Lemma layer_dict : exists ed, ec_dict c' = [("hexa8"%string, ed)] /\ m_cols (ed_e2n ed) = Some 8%nat /\ ed_pairs ed = layers s n (ec_pairs c).
  Proof.
    destruct base_dict as (ed0 & D0 & _ & _). assert (T := xc_types _ _ _ _ XC). rewrite (fl_quads _ _ _ FL) in T. unfold ec_types in T.
    destruct (ec_dict c') as [| (x, ed) [| y l']] eqn:D; cbn [List.map fst] in T; inversion T as [| ? ? ? ? H F]; subst; [| inversion F].
    assert (X : x = "hexa8"%string) by (cbn in H; repeat (destruct H as [H | H]; [congruence |]); destruct H). subst x.
    exists ed. split; [reflexivity |].
    assert (I : In ("hexa8"%string, ed) (ec_dict c')) by (rewrite D; left; reflexivity). split.
    - destruct (xc_width _ _ _ _ XC _ _ I) as (t & w & B & J & ->). cbn in B, J.
      assert (t = "quad4"%string) by (repeat (destruct B as [B | B]; [congruence |]); destruct B). subst t.
      repeat (destruct J as [J | J]; [try discriminate J; injection J as <-; reflexivity |]). destruct J.
    - assert (P := xc_pairs _ _ _ _ XC "quad4"%string "hexa8"%string ltac:(cbn; tauto)). unfold pairs_of_type in P. rewrite D, D0 in P. cbn [flat_map fst snd String.eqb Ascii.eqb Bool.eqb] in P.
      rewrite !app_nil_r in P. rewrite P. unfold ec_pairs. rewrite D0. cbn [flat_map snd]. rewrite app_nil_r. reflexivity.
  Qed.
  Lemma quad_row i row : In (i, row) (ec_pairs c) -> exists a b d e, row = [a; b; d; e].
  Proof.
    destruct base_dict as (ed & D & CO & W). intros I. unfold ec_pairs in I. rewrite D in I. cbn [flat_map snd] in I. rewrite app_nil_r in I. apply in_combine_r in I.
    assert (M := edwf_mat _ W). unfold mat_wf in M. rewrite CO in M. 
    assert (L : List.length row = 4%nat) by (rewrite Forall_forall in M; exact (M row I)).
    destruct row as [| a [| b [| d [| e [| ? ?]]]]]; try discriminate. eauto.
  Qed.

  (** Edges and faces as sets of nodes. *)
  Definition base_edges : list (list Z) := flat_map (fun p => List.map (fun e => [fst e; snd e]) (cycle_edges (snd p))) (ec_pairs c).
  Definition layer_faces : list (list Z) := flat_map (fun i => flat_map (fun p => swept_sides s i (snd p)) (ec_pairs c)) (zrange 0 (n - 1)).

  Lemma base_sides : Forall2 (@Permutation Z) (List.map fst (ec_sides tbl "bar2" c)) base_edges.
  Proof.
    destruct base_dict as (ed & D & _ & _). assert (QR := quad_row). unfold base_edges, ec_sides, ec_pairs in *. rewrite D in *. cbn [flat_map fst snd] in *. rewrite !app_nil_r in *.
    unfold ed_sides. rewrite (quad_table tbl types IF). induction (ed_pairs ed) as [| (k, row) l IH]; [constructor |]. cbn [flat_map String.eqb Ascii.eqb Bool.eqb].
    rewrite !map_app. apply Forall2_app; [| apply IH; intros; eapply QR; right; eassumption]. destruct (QR k row (or_introl eq_refl)) as (a & b & d & e & ->).
    rewrite app_nil_r. cbn [List.map fst snd side_nodes rev app cycle_edges path_edges nth Z.to_nat]. cbv [Pos.to_nat Pos.iter_op Nat.add]. cbn [nth].
    repeat (apply Forall2_cons; [apply perm_swap |]). apply Forall2_nil.
  Qed.
  Lemma layer_sides : Forall2 (@Permutation Z) (List.map fst (ec_sides tbl "quad4" c')) layer_faces.
  Proof.
    destruct layer_dict as (ed & D & _ & P). destruct (hexa_table tbl types IF) as (HT & TB). assert (QR := quad_row). unfold ec_sides. rewrite D. cbn [flat_map fst snd]. rewrite app_nil_r.
    unfold ed_sides. rewrite HT, P. unfold layers, layer_faces. clear D P N2. induction (zrange 0 (n - 1)) as [| i is IH]; [constructor |]. cbn [flat_map].
    rewrite flat_map_app, map_app. apply Forall2_app; [| exact IH]. clear IH. induction (ec_pairs c) as [| (k, row) l IH]; [constructor |].
    cbn [List.map flat_map]. rewrite map_app. apply Forall2_app; [| apply IH; intros; eapply QR; right; eassumption]. destruct (QR k row (or_introl eq_refl)) as (a & b & d & e & ->).
    assert (H := hexa_sides tbl _ s i k a b d e TB HT). unfold cell_sides in H. cbn [all_sides flat_map snd app] in H. unfold layer_cell. cbn [fst snd String.eqb Ascii.eqb Bool.eqb app].
    rewrite app_nil_r, map_map. cbn [fst]. exact H.
  Qed.
  Lemma other_sides ft : ft <> "quad4"%string -> ec_sides tbl ft c' = [].
  Proof.
    intros NE. destruct layer_dict as (ed & D & _ & _). destruct (hexa_table tbl types IF) as (HT & _). unfold ec_sides. rewrite D. cbn [flat_map fst snd]. rewrite app_nil_r.
    unfold ed_sides. rewrite HT. induction (ed_pairs ed) as [| (k, row) l IH]; [reflexivity |]. cbn [flat_map] in *. rewrite IH. apply String.eqb_neq in NE. rewrite NE.
    destruct (String.eqb ft "tri3"); reflexivity.
  Qed.
  Lemma base_count N : List.length (sharing N (ec_sides tbl "bar2" c)) = cnt N base_edges.
  Proof. rewrite cnt_sharing. apply cnt_forall2. exact base_sides. Qed.
  Lemma layer_count N : List.length (sharing N (ec_sides tbl "quad4" c')) = cnt N layer_faces.
  Proof. rewrite cnt_sharing. apply cnt_forall2. exact layer_sides. Qed.
  Lemma row_bound i row : In (i, row) (ec_pairs c) -> forall v, In v row -> 0 <= v < s.
  Proof. intros I. exact (proj2 (fl_rows _ _ _ FL i row I)). Qed.
  Lemma edge_bound i row e : In (i, row) (ec_pairs c) -> In e (cycle_edges row) -> 0 <= fst e < s /\ 0 <= snd e < s.
  Proof.
    intros I J. assert (B := row_bound i row I). destruct (quad_row i row I) as (a & b & d & f & ->). cbn [cycle_edges path_edges app] in J.
    destruct J as [<- | [<- | [<- | [<- | []]]]]; cbn [fst snd]; split; apply B; cbn; tauto.
  Qed.
  Lemma fst_nodup : NoDup (List.map fst (ec_pairs c)).
  Proof. rewrite (ec_numbers_pairs _ (fl_wf _ _ _ FL)). eapply Permutation_NoDup; [symmetry; apply (fl_numbers _ _ _ FL) | apply NoDup_zrange]. Qed.
  Lemma pairs_nodup : NoDup (ec_pairs c).
  Proof. exact (NoDup_map_inv _ _ fst_nodup). Qed.
  Lemma same_cell p p' : In p (ec_pairs c) -> In p' (ec_pairs c) -> Permutation (snd p) (snd p') -> p = p'.
  Proof.
    destruct p as (i, row), p' as (i', row'). intros I I' P. cbn [snd] in P. assert (E := fl_distinct _ _ _ FL _ _ _ _ I I' P). subst i'.
    f_equal. exact (nodup_fst_inj _ fst_nodup i row row' I I').
  Qed.
  Lemma flat_nonempty i row : In (i, row) (ec_pairs c) -> row <> [].
  Proof. intros I. destruct (quad_row i row I) as (a & b & d & e & ->). discriminate. Qed.

  Lemma swept_split i row : swept_sides s i row = [at_plane s i row] ++ List.map (lateral s i) (cycle_edges row) ++ [at_plane s (i + 1) row].
  Proof. reflexivity. Qed.

  (** A polygon of a plane is a side of the cells above and below it. *)
  Definition inside (j : Z) : nat := if (0 <=? j) && (j <? n - 1) then 1%nat else 0%nat.
  Lemma no_lateral j row i row' : In row (List.map snd (ec_pairs c)) -> In row' (List.map snd (ec_pairs c)) -> cnt (at_plane s j row) (List.map (lateral s i) (cycle_edges row')) = 0%nat.
  Proof.
    intros I I'. apply in_map_iff in I. destruct I as ((k, ?) & <- & I). apply in_map_iff in I'. destruct I' as ((k', ?) & <- & I'). cbn [snd].
    unfold cnt. destruct (filter _ _) as [| x l'] eqn:Q; [reflexivity |]. exfalso. assert (J : In x (x :: l')) by (left; reflexivity). rewrite <- Q in J. apply filter_In in J. destruct J as (J & SN).
    apply in_map_iff in J. destruct J as (e & <- & J). apply same_nodes_perm in SN. destruct (edge_bound _ _ e I' J) as (B1 & B2). exact (flat_lateral s j _ i e (row_bound _ _ I) B1 B2 SN).
  Qed.
  Lemma one_flat j p i p' : In p (ec_pairs c) -> In p' (ec_pairs c) -> cnt (at_plane s j (snd p)) [at_plane s i (snd p')] = if (i =? j) && (fst p' =? fst p) then 1%nat else 0%nat.
  Proof.
    intros I I'. rewrite cnt_cons. change (cnt (at_plane s j (snd p)) []) with 0%nat. rewrite Nat.add_0_r.
    assert (E : same_nodes (at_plane s j (snd p)) (at_plane s i (snd p')) = (i =? j) && (fst p' =? fst p)); [| rewrite E; reflexivity].
    destruct p as (k, row), p' as (k', row'). cbn [fst snd].
    assert (Q := flat_flat s j row i row' (flat_nonempty _ _ I) (row_bound _ _ I) (row_bound _ _ I')).
    destruct (same_nodes (at_plane s j row) (at_plane s i row')) eqn:SN.
    - apply same_nodes_perm in SN. apply Q in SN. destruct SN as (-> & P). assert (EQ := same_cell _ _ I I' P). injection EQ as -> _. rewrite !Z.eqb_refl. reflexivity.
    - destruct (Z.eqb_spec i j) as [-> | NE]; [| reflexivity]. destruct (Z.eqb_spec k' k) as [-> | NI]; [| reflexivity].
      exfalso. assert (same_nodes (at_plane s j row) (at_plane s j row') = true); [| congruence]. apply same_nodes_perm, Q. split; [reflexivity |].
      rewrite (nodup_fst_inj _ fst_nodup _ _ _ I I'). reflexivity.
  Qed.
  Lemma sum_eqb j : list_sum (List.map (fun i => if i =? j then 1%nat else 0%nat) (zrange 0 (n - 1))) = inside j.
  Proof.
    unfold inside. destruct ((0 <=? j) && (j <? n - 1)) eqn:E.
    - apply andb_true_iff in E. destruct E as (E1 & E2). apply Z.leb_le in E1. apply Z.ltb_lt in E2.
      rewrite (list_sum_one _ _ j); [rewrite Z.eqb_refl; reflexivity | apply NoDup_zrange | apply in_zrange; lia |]. intros x _ NE. apply Z.eqb_neq in NE. rewrite NE. reflexivity.
    - apply list_sum_zero. intros x I. apply in_zrange in I. destruct (Z.eqb_spec x j) as [-> | NE]; [| reflexivity]. apply andb_false_iff in E. rewrite Z.leb_gt, Z.ltb_ge in E. lia.
  Qed.
  Lemma count_flat j p : In p (ec_pairs c) -> cnt (at_plane s j (snd p)) layer_faces = (inside j + inside (j - 1))%nat.
  Proof.
    intros I. unfold layer_faces. rewrite cnt_flat_map. rewrite <- (sum_eqb j), <- (sum_eqb (j - 1)), <- list_sum_app'. f_equal. apply map_ext_in. intros i _.
    rewrite cnt_flat_map. rewrite (list_sum_one _ _ p pairs_nodup I).
    - rewrite swept_split, !cnt_app, (no_lateral j _ i _) by (apply in_map; exact I). rewrite !(one_flat j p _ p I I), Z.eqb_refl, !andb_true_r.
      replace (i + 1 =? j) with (i =? j - 1); [reflexivity |]. destruct (Z.eqb_spec i (j - 1)), (Z.eqb_spec (i + 1) j); try reflexivity; lia.
    - intros x J NE. rewrite swept_split, !cnt_app, (no_lateral j _ i _) by (apply in_map; assumption). rewrite !(one_flat j p _ x I J).
      replace (fst x =? fst p) with false; [rewrite !andb_false_r; reflexivity |]. symmetry. apply Z.eqb_neq. intros E. apply NE. destruct x as (k, r), p as (k', r'). cbn [fst] in E. subst k'.
      f_equal. exact (nodup_fst_inj _ fst_nodup k r r' J I).
  Qed.
  Lemma count_lat i0 p0 e0 : 0 <= i0 < n - 1 -> In p0 (ec_pairs c) -> In e0 (cycle_edges (snd p0)) -> cnt (lateral s i0 e0) layer_faces = cnt [fst e0; snd e0] base_edges.
  Proof.
    intros B I J. destruct p0 as (k0, row0). cbn [snd] in J. destruct (edge_bound _ _ _ I J) as (B1 & B2).
    assert (FLAT : forall i p, In p (ec_pairs c) -> cnt (lateral s i0 e0) [at_plane s i (snd p)] = 0%nat).
    { intros i (k, row) I'. rewrite cnt_cons. destruct (same_nodes _ _) eqn:SN; [| reflexivity]. exfalso. apply same_nodes_perm in SN.
      exact (flat_lateral s i row i0 e0 (row_bound _ _ I') B1 B2 (Permutation_sym SN)). }
    assert (LAT : forall i p, In p (ec_pairs c) -> cnt (lateral s i0 e0) (List.map (lateral s i) (cycle_edges (snd p))) =
        if i =? i0 then cnt [fst e0; snd e0] (List.map (fun e => [fst e; snd e]) (cycle_edges (snd p))) else 0%nat).
    { intros i (k, row) I'. cbn [snd]. assert (EB := fun e J' => edge_bound k row e I' J'). induction (cycle_edges row) as [| e l IH]; [destruct (i =? i0); reflexivity |].
      cbn [List.map]. rewrite !cnt_cons, IH by (intros; apply EB; right; assumption). destruct (EB e (or_introl eq_refl)) as (B1' & B2').
      assert (Q := lateral_lateral s i0 e0 i e B1 B2 B1' B2'). destruct (Z.eqb_spec i i0) as [-> | NE].
      - replace (same_nodes (lateral s i0 e0) (lateral s i0 e)) with (same_nodes [fst e0; snd e0] [fst e; snd e]); [reflexivity |].
        destruct (same_nodes [fst e0; snd e0] [fst e; snd e]) eqn:E1, (same_nodes (lateral s i0 e0) (lateral s i0 e)) eqn:E2; try reflexivity; exfalso.
        + apply same_nodes_perm in E1. assert (same_nodes (lateral s i0 e0) (lateral s i0 e) = true) by (apply same_nodes_perm, Q; split; [reflexivity | exact E1]). congruence.
        + apply same_nodes_perm in E2. apply Q in E2. destruct E2 as (_ & E2). apply same_nodes_perm in E2. congruence.
      - destruct (same_nodes (lateral s i0 e0) (lateral s i e)) eqn:E2; [| reflexivity]. exfalso. apply same_nodes_perm in E2. apply Q in E2. destruct E2 as (E2 & _). congruence. }
    assert (ONE : forall i, cnt (lateral s i0 e0) (flat_map (fun p => swept_sides s i (snd p)) (ec_pairs c)) = if i =? i0 then cnt [fst e0; snd e0] base_edges else 0%nat).
    { intros i. unfold base_edges. rewrite !cnt_flat_map. destruct (i =? i0) eqn:E.
      - f_equal. apply map_ext_in. intros p I'. rewrite swept_split, !cnt_app, !FLAT, LAT by exact I'. rewrite E, Nat.add_0_r. reflexivity.
      - apply list_sum_zero. intros p I'. rewrite swept_split, !cnt_app, !FLAT, LAT by exact I'. rewrite E. reflexivity. }
    unfold layer_faces. rewrite cnt_flat_map, (list_sum_one _ _ i0); [rewrite ONE, Z.eqb_refl; reflexivity | apply NoDup_zrange | apply in_zrange; exact B |].
    intros x _ NE. rewrite ONE. apply Z.eqb_neq in NE. rewrite NE. reflexivity.
  Qed.

  (** What the sides are. *)
  Lemma forall2_l (P : list Z -> list Z -> Prop) l l' x : Forall2 P l l' -> In x l -> exists y, In y l' /\ P x y.
  Proof. induction 1 as [| a b l l' H F IH]; intros I; [destruct I |]. destruct I as [-> | I]; [exists b; split; [left; reflexivity | exact H] |]. destruct (IH I) as (y & J & Q). exists y. split; [right |]; assumption. Qed.
  Lemma forall2_r (P : list Z -> list Z -> Prop) l l' y : Forall2 P l l' -> In y l' -> exists x, In x l /\ P x y.
  Proof. induction 1 as [| a b l l' H F IH]; intros I; [destruct I |]. destruct I as [-> | I]; [exists a; split; [left; reflexivity | exact H] |]. destruct (IH I) as (x & J & Q). exists x. split; [right |]; assumption. Qed.
  Definition is_flat (N : list Z) : Prop := exists j p, 0 <= j <= n - 1 /\ In p (ec_pairs c) /\ Permutation N (at_plane s j (snd p)).
  Definition is_lat (N : list Z) : Prop := exists i p e, 0 <= i < n - 1 /\ In p (ec_pairs c) /\ In e (cycle_edges (snd p)) /\ Permutation N (lateral s i e).
  Lemma face_shape x : In x layer_faces -> is_flat x \/ is_lat x.
  Proof.
    intros I. apply in_flat_map in I. destruct I as (i & R & I). apply in_zrange in R. apply in_flat_map in I. destruct I as (p & J & I). rewrite swept_split in I.
    apply in_app_or in I. destruct I as [[<- | []] | I]; [left; exists i, p; repeat split; try lia; [exact J | reflexivity] |].
    apply in_app_or in I. destruct I as [I | [<- | []]]; [| left; exists (i + 1), p; repeat split; try lia; [exact J | reflexivity]].
    right. apply in_map_iff in I. destruct I as (e & <- & I). exists i, p, e. repeat split; try lia; try assumption. reflexivity.
  Qed.
  Lemma flat_face j p : 0 <= j <= n - 1 -> In p (ec_pairs c) -> In (at_plane s j (snd p)) layer_faces.
  Proof.
    intros B I. unfold layer_faces. destruct (Z.eq_dec j (n - 1)) as [-> | NE]; apply in_flat_map.
    - exists (n - 2). split; [apply in_zrange; lia |]. apply in_flat_map. exists p. split; [exact I |]. rewrite swept_split. apply in_or_app. right. apply in_or_app. right. left. f_equal. lia.
    - exists j. split; [apply in_zrange; lia |]. apply in_flat_map. exists p. split; [exact I |]. left. reflexivity.
  Qed.
  Lemma lat_face i p e : 0 <= i < n - 1 -> In p (ec_pairs c) -> In e (cycle_edges (snd p)) -> In (lateral s i e) layer_faces.
  Proof.
    intros B I J. apply in_flat_map. exists i. split; [apply in_zrange; lia |]. apply in_flat_map. exists p. split; [exact I |]. rewrite swept_split. apply in_or_app. right. apply in_or_app. left.
    apply in_map. exact J.
  Qed.
  Lemma side_shape sd : In sd (ec_sides tbl "quad4" c') -> is_flat (fst sd) \/ is_lat (fst sd).
  Proof.
    intros I. apply (in_map fst) in I. destruct (forall2_l _ _ _ _ layer_sides I) as (y & J & P). destruct (face_shape y J) as [(j & p & B & K & Q) | (i & p & e & B & K & L & Q)].
    - left. exists j, p. repeat split; try lia; [exact K |]. rewrite P. exact Q.
    - right. exists i, p, e. repeat split; try lia; try assumption. rewrite P. exact Q.
  Qed.
  Lemma face_side x : In x layer_faces -> exists sd, In sd (ec_sides tbl "quad4" c') /\ Permutation (fst sd) x.
  Proof. intros I. destruct (forall2_r _ _ _ _ layer_sides I) as (y & J & P). apply in_map_iff in J. destruct J as (sd & <- & J). exists sd. split; assumption. Qed.
  Lemma edge_side p e : In p (ec_pairs c) -> In e (cycle_edges (snd p)) -> exists sd, In sd (ec_sides tbl "bar2" c) /\ Permutation (fst sd) [fst e; snd e].
  Proof.
    intros I J. assert (K : In [fst e; snd e] base_edges) by (apply in_flat_map; exists p; split; [exact I |]; apply in_map_iff; exists e; split; [reflexivity | exact J]).
    destruct (forall2_r _ _ _ _ base_sides K) as (y & L & P). apply in_map_iff in L. destruct L as (sd & <- & L). exists sd. split; assumption.
  Qed.
  Lemma side_edge sd : In sd (ec_sides tbl "bar2" c) -> exists p e, In p (ec_pairs c) /\ In e (cycle_edges (snd p)) /\ Permutation (fst sd) [fst e; snd e].
  Proof.
    intros I. apply (in_map fst) in I. destruct (forall2_l _ _ _ _ base_sides I) as (y & J & P). apply in_flat_map in J. destruct J as (p & K & J). apply in_map_iff in J. destruct J as (e & <- & J).
    exists p, e. repeat split; assumption.
  Qed.
  Lemma outer_count sd : In sd (ec_sides tbl "quad4" c') -> (outer tbl c' "quad4" sd <-> cnt (fst sd) layer_faces = 1%nat).
  Proof. intros I. rewrite (outer_iff tbl c' "quad4" sd I). rewrite (cnt_forall2 _ _ _ layer_sides). reflexivity. Qed.
  Lemma outer_base sd : In sd (ec_sides tbl "bar2" c) -> (outer tbl c "bar2" sd <-> cnt (fst sd) base_edges = 1%nat).
  Proof. intros I. rewrite (outer_iff tbl c "bar2" sd I). rewrite (cnt_forall2 _ _ _ base_sides). reflexivity. Qed.

  Lemma layers_manifold : no_triple tbl c'.
  Proof.
    intros ft N. destruct (string_dec ft "quad4") as [-> | NE]; [| rewrite (other_sides ft NE); cbn; lia].
    destruct (sharing N (ec_sides tbl "quad4" c')) as [| sd l] eqn:E; [cbn; lia |]. rewrite <- E. 
    assert (I : In sd (sharing N (ec_sides tbl "quad4" c'))) by (rewrite E; left; reflexivity). apply filter_In in I. destruct I as (I & SN). apply same_nodes_perm in SN.
    rewrite layer_count. rewrite (cnt_cong _ _ _ SN). destruct (side_shape sd I) as [(j & p & B & K & Q) | (i & p & e & B & K & L & Q)].
    - rewrite (cnt_cong _ _ _ Q), (count_flat j p K). unfold inside. destruct (_ && _), (_ && _); lia.
    - rewrite (cnt_cong _ _ _ Q), (count_lat i p e B K L). rewrite <- base_count. apply (fl_edges _ _ _ FL).
  Qed.

  (** The boundary: the two end planes, and the faces over the boundary edges. *)
  Lemma flat_outer sd j p : In sd (ec_sides tbl "quad4" c') -> 0 <= j <= n - 1 -> In p (ec_pairs c) -> Permutation (fst sd) (at_plane s j (snd p)) ->
    (outer tbl c' "quad4" sd <-> j = 0 \/ j = n - 1).
  Proof.
    intros I B K P. rewrite (outer_count sd I), (cnt_cong _ _ _ P), (count_flat j p K). unfold inside.
    destruct (Z.leb_spec 0 j), (Z.ltb_spec j (n - 1)), (Z.leb_spec 0 (j - 1)), (Z.ltb_spec (j - 1) (n - 1)); cbn [andb]; lia.
  Qed.
  Lemma lat_outer sd i p e sb : In sd (ec_sides tbl "quad4" c') -> 0 <= i < n - 1 -> In p (ec_pairs c) -> In e (cycle_edges (snd p)) -> Permutation (fst sd) (lateral s i e) ->
    In sb (ec_sides tbl "bar2" c) -> Permutation (fst sb) [fst e; snd e] -> (outer tbl c' "quad4" sd <-> outer tbl c "bar2" sb).
  Proof.
    intros I B K L P IB PB. rewrite (outer_count sd I), (outer_base sb IB), (cnt_cong _ _ _ P), (cnt_cong _ _ _ PB), (count_lat i p e B K L). reflexivity.
  Qed.
  Lemma some_cell : exists p, In p (ec_pairs c).
  Proof.
    assert (L : zlen (ec_numbers c) = ec_nelem c) by (rewrite (zlen_perm _ _ (fl_numbers _ _ _ FL)); rewrite zlen_zrange; [lia | assert (X := fl_some _ _ _ FL); lia]).
    assert (X := fl_some _ _ _ FL). rewrite <- (ec_numbers_pairs _ (fl_wf _ _ _ FL)) in L. destruct (ec_pairs c) as [| p l]; [cbn in L; lia |]. exists p. left. reflexivity.
  Qed.
  Lemma layers_both : some_inside tbl c n -> forall ft, has_face_type tbl c' ft ->
     (exists sd, outer tbl c' ft sd) /\ (exists sd, In sd (ec_sides tbl ft c') /\ ~ outer tbl c' ft sd).
  Proof.
    intros SI ft (t & ed & faces & efs & I & T & J & NE). destruct layer_dict as (ed' & D & _ & _). destruct (hexa_table tbl types IF) as (HT & _).
    assert (FT : ft = "quad4"%string).
    { rewrite D in I. destruct I as [I | []]. injection I as <- <-. change (sget "hexa8" tbl = Some faces) in T. rewrite HT in T. injection T as <-.
      destruct J as [J | [J | []]]; injection J as <- <-; [congruence | reflexivity]. }
    subst ft. destruct some_cell as (p & K). split.
    - destruct (face_side _ (flat_face 0 p ltac:(lia) K)) as (sd & IS & P). exists sd. apply (flat_outer sd 0 p IS ltac:(lia) K P). left. reflexivity.
    - destruct SI as [N3 | (sb & IB & NO)].
      + destruct (face_side _ (flat_face 1 p ltac:(lia) K)) as (sd & IS & P). exists sd. split; [exact IS |]. rewrite (flat_outer sd 1 p IS ltac:(lia) K P). lia.
      + destruct (side_edge sb IB) as (q & e & KQ & L & PB). destruct (face_side _ (lat_face 0 q e ltac:(lia) KQ L)) as (sd & IS & P). exists sd. split; [exact IS |].
        rewrite (lat_outer sd 0 q e sb IS ltac:(lia) KQ L P IB PB). exact NO.
  Qed.
  (** ** Numbers *)
  Lemma layer_pair i row : In (i, row) (ec_pairs c') -> exists j p, 0 <= j < n - 1 /\ In p (ec_pairs c) /\ (i, row) = layer_cell s j p.
  Proof.
    destruct layer_dict as (ed & D & _ & P). unfold ec_pairs at 1. rewrite D. cbn [flat_map snd]. rewrite app_nil_r, P. unfold layers. intros I. apply in_flat_map in I.
    destruct I as (j & R & I). apply in_zrange in R. apply in_map_iff in I. destruct I as (p & <- & I). exists j, p. repeat split; try lia. exact I.
  Qed.
  Lemma layer_nodes i row v : In (i, row) (ec_pairs c') -> In v row -> 0 <= v < n * s.
  Proof.
    intros I J. destruct (layer_pair i row I) as (j & (k, r) & B & K & E). injection E as -> ->. cbn [snd] in *.
    apply in_app_or in J. destruct J as [J | J]; apply in_map_iff in J; destruct J as (u & <- & J); assert (U := row_bound _ _ K u J); nia.
  Qed.
  Lemma layer_numbers x : In x (ec_numbers c') <-> exists j u, 0 <= j < n - 1 /\ 0 <= u < ec_nelem c /\ x = u + j * s.
  Proof.
    assert (P := xc_numbers s n c c' (fl_wf _ _ _ FL) XC). split.
    - intros I. apply (Permutation_in _ P) in I. apply in_flat_map in I. destruct I as (j & R & I). apply in_zrange in R. apply in_map_iff in I. destruct I as (u & <- & I).
      apply (Permutation_in _ (fl_numbers _ _ _ FL)) in I. apply in_zrange in I. exists j, u. repeat split; lia.
    - intros (j & u & R & U & ->). apply (Permutation_in _ (Permutation_sym P)). apply in_flat_map. exists j. split; [apply in_zrange; lia |]. apply in_map_iff. exists u. split; [reflexivity |].
      apply (Permutation_in _ (Permutation_sym (fl_numbers _ _ _ FL))). apply in_zrange. lia.
  Qed.
  Lemma shift_pos : 0 < s.
  Proof. destruct some_cell as ((k, row) & K). destruct (quad_row k row K) as (a & b & d & e & ->). assert (B := row_bound _ _ K a (or_introl eq_refl)). lia. Qed.
  Lemma layers_end : ends_at c' (ec_nelem c - 1 + (n - 2) * s).
  Proof.
    assert (X := fl_some _ _ _ FL). assert (SP := shift_pos). split.
    - apply layer_numbers. exists (n - 2), (ec_nelem c - 1). repeat split; lia.
    - intros x I. apply layer_numbers in I. destruct I as (j & u & R & U & ->). nia.
  Qed.
  Lemma layers_all : all_sides tbl c' = 6 * (n - 1) * ec_nelem c.
  Proof.
    unfold all_sides. cbn [flat_map]. rewrite !other_sides by discriminate. rewrite app_nil_r. cbn [app].
    assert (L := Forall2_length' _ _ _ layer_sides). rewrite map_length in L.
    transitivity (Z.of_nat (List.length layer_faces)); [unfold zlen; f_equal; exact L |].
    assert (X := fl_some _ _ _ FL). assert (LP : zlen (ec_pairs c) = ec_nelem c).
    { rewrite <- (zlen_map fst). rewrite (ec_numbers_pairs _ (fl_wf _ _ _ FL)), (zlen_perm _ _ (fl_numbers _ _ _ FL)). rewrite zlen_zrange; lia. }
    assert (ONE : forall i, List.length (flat_map (fun p => swept_sides s i (snd p)) (ec_pairs c)) = (6 * List.length (ec_pairs c))%nat).
    { intros i. assert (QR := quad_row). induction (ec_pairs c) as [| (k, row) l IH] in QR |- *; [reflexivity |]. cbn [flat_map]. rewrite app_length, IH by (intros; eapply QR; right; eassumption).
      destruct (QR k row (or_introl eq_refl)) as (a & b & d & e & ->). cbn [List.length snd swept_sides cycle_edges path_edges List.map app]. lia. }
    assert (ALL : forall l : list Z, List.length (flat_map (fun i => flat_map (fun p => swept_sides s i (snd p)) (ec_pairs c)) l) = (List.length l * (6 * List.length (ec_pairs c)))%nat).
    { induction l as [| i l IH]; [reflexivity |]. cbn [flat_map List.length]. rewrite app_length, IH, ONE. lia. }
    unfold layer_faces. rewrite ALL, zrange_length. rewrite <- LP. unfold zlen. lia.
  Qed.

  (** ** Marks *)
  Lemma spanned_perm N N' (b : mark Z) : Permutation N N' -> spanned N b -> spanned N' b.
  Proof. intros P H v I. apply H. apply (Permutation_in _ (Permutation_sym P)). exact I. Qed.
  Lemma carried_node (b b' : mark Z) v j : mk_entries b' = all_planes s n (mk_entries b) -> (forall u, In u (mk_entries b) -> 0 <= u < s) -> 0 <= v < s ->
    In (v + j * s) (mk_entries b') <-> 0 <= j < n /\ In v (mk_entries b).
  Proof.
    intros -> BD V. unfold all_planes. rewrite in_flat_map. split.
    - intros (i & R & I). apply in_zrange in R. apply in_map_iff in I. destruct I as (u & E & I). assert (U := BD u I).
      assert (i = j) by (assert (Q1 := plane_div s u i U); assert (Q2 := plane_div s v j V); rewrite E in Q1; lia). subst i. assert (u = v) by lia. subst u. split; [lia | exact I].
    - intros (R & I). exists j. split; [apply in_zrange; lia |]. apply in_map_iff. exists v. split; [reflexivity | exact I].
  Qed.
  Lemma plane_node (b : mark Z) name j v j' : plane_of m name (j * s) b -> 0 <= v < s -> In (v + j' * s) (mk_entries b) -> j' = j.
  Proof.
    intros (_ & _ & _ & _ & _ & _ & H) V I. apply (H c (fl_cells _ _ _ FL)) in I. destruct I as (k & row & K & I). assert (B := row_bound _ _ K _ I).
    assert (Q := plane_div s _ 0 B). replace (v + j' * s - j * s + 0 * s) with (v + (j' - j) * s) in Q by lia. rewrite plane_div in Q by exact V. lia.
  Qed.
  Lemma plane_spans (b : mark Z) name j k row : plane_of m name (j * s) b -> In (k, row) (ec_pairs c) -> spanned (at_plane s j row) b.
  Proof.
    intros (_ & _ & _ & _ & _ & _ & H) K v I. apply in_map_iff in I. destruct I as (u & <- & I). apply (H c (fl_cells _ _ _ FL)). exists k, row. split; [exact K |].
    replace (u + j * s - j * s) with u by lia. exact I.
  Qed.
End Layers.

(** ** Names *)
Fixpoint last_char (s : string) : option ascii := match s with EmptyString => None | String a EmptyString => Some a | String _ r => last_char r end.
Lemma last_app d a : last_char (d ++ String a EmptyString) = Some a.
Proof. induction d as [| x d IH]; [reflexivity |]. cbn [append last_char]. destruct (d ++ String a "")%string eqn:E; [destruct d; discriminate E | exact IH]. Qed.
Lemma end_name d a k : last_char k <> Some a -> (d ++ String a EmptyString)%string <> k.
Proof. intros H <-. apply H, last_app. Qed.

(** ** The extruded mesh *)
Section Extruded.
  Context (tbl : sidetable) (types : list (string * nat)).
  Hypothesis IF : in_force tbl types.
  Context (m m' : mesh Z) (c c' : econn) (add mul : Z -> Z -> Z) (dir : Z * Z * Z) (planes : list Z) (domain : string).
  Hypothesis FL : flat_mesh tbl m c.
  Hypothesis MK : flat_marks tbl m c.
  Hypothesis N2 : 2 <= zlen planes.
  Hypothesis PA : forall a b, pattern (add a b).
  Hypothesis FN0 : free_name m (domain ++ "0").
  Hypothesis FN1 : free_name m (domain ++ "1").
  Hypothesis XM : extruded_mesh add mul m m' dir planes domain.
  Hypothesis C' : me_cell2node m' = Some c'.
  Let n := zlen planes.
  Let s := me_nnode m.
  Lemma xconn : extruded_conn s n c c'.
  Proof. destruct (xm_cells _ _ _ _ _ _ _ XM) as (c1 & c2 & E1 & E2 & X). rewrite (fl_cells _ _ _ FL) in E1. rewrite C' in E2. injection E1 as <-. injection E2 as <-. exact X. Qed.

  Lemma ext_patterns : Forall (fun '(_, v) => Forall pattern v) (me_nodes m').
  Proof.
    destruct (fl_coords _ _ _ FL) as (x & y & z & CO). destruct (xm_coords _ _ _ _ _ _ _ XM x y z CO) as (x' & y' & z' & CO' & H).
    destruct CO as (_ & LX & LY & LZ). destruct CO' as (NC & LX' & LY' & LZ'). rewrite (xm_nnode _ _ _ _ _ _ _ XM) in LX', LY', LZ'. fold n s in LX', LY', LZ'. fold s in LX, LY, LZ, H.
    assert (SP := shift_pos tbl m c FL : 0 < s).
    assert (POS : forall k, (k < Z.to_nat (n * s))%nat -> exists i v, (k = i * Z.to_nat s + v)%nat /\ (i < List.length planes)%nat /\ (v < Z.to_nat s)%nat).
    { intros k B. exists (k / Z.to_nat s)%nat, (k mod Z.to_nat s)%nat. assert (NZ : Z.to_nat s <> 0%nat) by lia. split; [rewrite Nat.mul_comm; apply Nat.div_mod; exact NZ |].
      split; [| apply Nat.mod_upper_bound; exact NZ]. apply Nat.div_lt_upper_bound; [exact NZ |]. unfold n, zlen in B. nia. }
    assert (V : forall k, (k < Z.to_nat (n * s))%nat -> exists a1 a2 a3, nth_error x' k = Some a1 /\ nth_error y' k = Some a2 /\ nth_error z' k = Some a3 /\ pattern a1 /\ pattern a2 /\ pattern a3).
    { intros k B. destruct (POS k B) as (i & v & -> & BI & BV).
      destruct (nth_error planes i) as [t |] eqn:E1; [| apply nth_error_None in E1; lia].
      destruct (nth_error x v) as [a |] eqn:E2; [| apply nth_error_None in E2; unfold zlen in LX; lia].
      destruct (nth_error y v) as [b |] eqn:E3; [| apply nth_error_None in E3; unfold zlen in LY; lia].
      destruct (nth_error z v) as [d |] eqn:E4; [| apply nth_error_None in E4; unfold zlen in LZ; lia].
      destruct (H i v t a b d E1 E2 E3 E4) as (-> & -> & ->). do 3 eexists. repeat split; try reflexivity; apply PA. }
    assert (AX := xm_axes _ _ _ _ _ _ _ XM). unfold nodescoord in NC.
    destruct (me_nodes m') as [| (k1, v1) [| (k2, v2) [| (k3, v3) [|]]]]; try discriminate AX. cbn in AX. injection AX as -> -> ->. cbn in NC. injection NC as -> -> ->.
    repeat constructor; apply Forall_forall; intros a I; apply In_nth_error in I; destruct I as (k & I); assert (B : (k < Z.to_nat (n * s))%nat);
      try (assert (NN : nth_error x' k <> None) by congruence; apply nth_error_Some in NN; unfold zlen in LX'; lia);
      try (assert (NN : nth_error y' k <> None) by congruence; apply nth_error_Some in NN; unfold zlen in LY'; lia);
      try (assert (NN : nth_error z' k <> None) by congruence; apply nth_error_Some in NN; unfold zlen in LZ'; lia);
      destruct (V k B) as (a1 & a2 & a3 & Q1 & Q2 & Q3 & P1 & P2 & P3); congruence.
  Qed.
  (** The marks of the extruded mesh. *)
  Definition carried (b b' : mark Z) : Prop := mk_entries b' = all_planes s n (mk_entries b).
  Definition end_mark (k : string) (j : Z) (b : mark Z) : Prop := plane_of m k (j * s) b.
  Lemma ext_marks : exists old b0 b1, me_bocos m' = old ++ [((domain ++ "0")%string, b0); ((domain ++ "1")%string, b1)] /\ dkeys old = dkeys (me_bocos m) /\
    (forall k b', In (k, b') old -> node_mark_ok k b' /\ exists b, In (k, b) (me_bocos m) /\ carried b b') /\
    (forall k b, In (k, b) (me_bocos m) -> exists b', In (k, b') old /\ carried b b') /\
    end_mark (domain ++ "0") 0 b0 /\ end_mark (domain ++ "1") (n - 1) b1.
  Proof.
    destruct (xm_marks _ _ _ _ _ _ _ XM) as (old & b0 & b1 & E & F & P0 & P1). exists old, b0, b1. split; [exact E |].
    assert (KN := fl_marks _ _ _ FL). split; [| split; [| split; [| split; [exact P0 | exact P1]]]].
    - clear -F. unfold dkeys. induction F as [| (k, b) (k', b') l l' H F IH]; [reflexivity |]. cbn [List.map fst]. destruct H as (H & _). cbn [fst] in H. congruence.
    - intros k b' I. clear E. induction F as [| (k1, b) (k2, b2) l l' H F IH]; [destruct I |]. destruct I as [I | I].
      + injection I as <- <-. cbn [fst snd] in H. destruct H as (-> & HN & HG & HT & HP & HE & HO). destruct (KN k1 b (or_introl eq_refl)) as [A1 A2 A3 A4 A5 A6]. split.
        * constructor; [| exact HO | congruence | rewrite HT; exact A4 | rewrite HP; exact Logic.I | exact A6]. unfold on_nodes, nodebased in *. rewrite HG. exact A1.
        * exists b. split; [left; reflexivity | exact HE].
      + destruct (IH (fun k0 b0' I0 => KN k0 b0' (or_intror I0)) I) as (A & b3 & I3 & E3). split; [exact A |]. exists b3. split; [right |]; assumption.
    - intros k b I. clear E KN. induction F as [| (k1, b3) (k2, b2) l l' H F IH]; [destruct I |]. destruct I as [I | I].
      + injection I as -> ->. cbn [fst snd] in H. destruct H as (-> & _ & _ & _ & _ & HE & _). exists b2. split; [left; reflexivity | exact HE].
      + destruct (IH I) as (b' & I' & E'). exists b'. split; [right |]; assumption.
  Qed.
  Lemma end_ok k j b a d : k = (d ++ String a EmptyString)%string -> last_char "unmarked" <> Some a -> last_char "internal-domain" <> Some a ->
    free_name m k -> plane_of m k j b -> node_mark_ok k b.
  Proof.
    intros EK U1 U2 (G & D & _) (P1 & P2 & P3 & P4 & P5 & P6 & _). constructor.
    - unfold on_nodes, nodebased. rewrite P2. reflexivity.
    - exact P5.
    - exact P1.
    - exists "boundary"%string. split; [exact P3 | cbn; tauto].
    - rewrite P4. exact I.
    - split; [exact G |]. split; [exact D |]. subst k. split; apply end_name; assumption.
  Qed.

  Lemma ext_mesh : some_inside tbl c n -> (n - 2) * s + ec_nelem c <= 2 ^ 31 -> cell_mesh tbl types m' c'.
  Proof.
    intros SI BD. assert (X := xconn). assert (SP := shift_pos tbl m c FL : 0 < s). assert (X1 := fl_some _ _ _ FL).
    destruct (layer_dict tbl m c c' n FL X) as (ed & D & CO & _).
    destruct ext_marks as (old & b0 & b1 & EM & KO & MO & _ & P0 & P1).
    constructor.
    - exact C'.
    - apply (xc_wf _ _ _ _ X).
    - apply (xc_wf _ _ _ _ X).
    - intros t e I. rewrite D in I. destruct I as [I | []]. injection I as <- <-. exists 8%nat. split; [exact (hexa_known tbl types IF) | exact CO].
    - unfold ec_types. rewrite D. cbn. intros [H | []]. discriminate H.
    - apply (xm_nofaces _ _ _ _ _ _ _ XM).
    - rewrite (xm_ncell _ _ _ _ _ _ _ XM c (fl_cells _ _ _ FL)). symmetry. apply (xc_nelem _ _ _ _ X).
    - rewrite (xc_nelem _ _ _ _ X). nia.
    - apply Forall_forall. intros i I. apply (layer_numbers tbl m c c' n FL X) in I. destruct I as (j & u & R & U & ->). fold s. nia.
    - intros i ns v I J. rewrite (xm_nnode _ _ _ _ _ _ _ XM). exact (layer_nodes tbl m c c' n FL X i ns v I J).
    - destruct (fl_coords _ _ _ FL) as (x & y & z & CX). destruct (xm_coords _ _ _ _ _ _ _ XM x y z CX) as (x' & y' & z' & CX' & _). exists x', y', z'. exact CX'.
    - exact ext_patterns.
    - exact (layers_manifold tbl types IF m c c' n FL X).
    - exact (layers_both tbl types IF m c c' n FL N2 X SI).
    - rewrite EM. unfold dkeys in *. rewrite map_app, KO. cbn [List.map fst]. destruct FN0 as (_ & _ & F0), FN1 as (_ & _ & F1).
      apply NoDup_app. split; [apply (fl_keys _ _ _ FL) | split].
      + constructor; [| constructor; [intros [] | constructor]]. intros [E | []]. symmetry in E. revert E. apply end_name. rewrite last_app. discriminate.
      + intros k I [<- | [<- | []]]; [exact (F0 I) | exact (F1 I)].
    - intros k b I. rewrite EM in I. apply in_app_or in I. destruct I as [I | [I | [I | []]]].
      + apply MO, I.
      + injection I as <- <-. apply (end_ok _ (0 * s) b0 "0"%char domain eq_refl); [discriminate | discriminate | exact FN0 | exact P0].
      + injection I as <- <-. apply (end_ok _ ((n - 1) * s) b1 "1"%char domain eq_refl); [discriminate | discriminate | exact FN1 | exact P1].
  Qed.

  Lemma ext_apart : marks_apart tbl m' c'.
  Proof.
    assert (X := xconn). destruct ext_marks as (old & b0 & b1 & EM & KO & MO & OM & P0 & P1). destruct MK as (MB & MS & MU & MC).
    destruct (some_cell tbl m c FL) as ((k0, row0) & K0).
    assert (SH := side_shape tbl types IF m c c' n FL X). assert (OS := other_sides tbl types IF m c c' n FL X).
    split.
    - intros k b I. rewrite EM in I. apply in_app_or in I. destruct I as [I | [I | [I | []]]].
      + destruct (MO k b I) as (_ & bb & IB & CA). destruct (MS k bb IB) as (sb & OB & SB). exists "quad4"%string.
        destruct (side_edge tbl types IF m c FL sb (proj1 OB)) as (p & e & K & L & PB).
        destruct (face_side tbl types IF m c c' n FL X _ (lat_face m c n 0 p e ltac:(unfold n; lia) K L)) as (sd & IS & P). exists sd. split.
        * apply (lat_outer tbl types IF m c c' n FL X sd 0 p e sb IS ltac:(unfold n; lia) K L P (proj1 OB) PB). exact OB.
        * apply (spanned_perm _ _ b (Permutation_sym P)). destruct p as (kp, rp). destruct (edge_bound tbl m c FL _ _ _ K L) as (B1 & B2).
          assert (S2 := spanned_perm _ _ bb PB SB). assert (BB := fun u => MB k bb u IB).
          intros v [<- | [<- | [<- | [<- | []]]]]; apply (carried_node m n bb b); try assumption; (split; [unfold n; lia |]); apply S2; cbn; tauto.
      + injection I as <- <-. exists "quad4"%string. destruct (face_side tbl types IF m c c' n FL X _ (flat_face m c n N2 0 (k0, row0) ltac:(unfold n; lia) K0)) as (sd & IS & P). exists sd. split.
        * apply (flat_outer tbl types IF m c c' n FL N2 X sd 0 (k0, row0) IS ltac:(unfold n; lia) K0 P). left. reflexivity.
        * apply (spanned_perm _ _ b0 (Permutation_sym P)). exact (plane_spans tbl m c c' FL b0 _ 0 k0 row0 P0 K0).
      + injection I as <- <-. exists "quad4"%string. destruct (face_side tbl types IF m c c' n FL X _ (flat_face m c n N2 (n - 1) (k0, row0) ltac:(unfold n; lia) K0)) as (sd & IS & P). exists sd. split.
        * apply (flat_outer tbl types IF m c c' n FL N2 X sd (n - 1) (k0, row0) IS ltac:(unfold n; lia) K0 P). right. reflexivity.
        * apply (spanned_perm _ _ b1 (Permutation_sym P)). exact (plane_spans tbl m c c' FL b1 _ (n - 1) k0 row0 P1 K0).
    - intros ft sd k b k' b' O I I' S S'. destruct (string_dec ft "quad4") as [-> | NE]; [| destruct O as (O & _); rewrite (OS ft NE) in O; destruct O].
      assert (EV : forall k b, In (k, b) (me_bocos m') -> (exists bb, In (k, bb) (me_bocos m) /\ carried bb b) \/ (k = (domain ++ "0")%string /\ end_mark k 0 b) \/ (k = (domain ++ "1")%string /\ end_mark k (n - 1) b)).
      { clear -EM MO P0 P1. intros k b I. rewrite EM in I. apply in_app_or in I. destruct I as [I | [I | [I | []]]].
        - left. apply MO, I.
        - injection I as <- <-. right. left. split; [reflexivity | exact P0].
        - injection I as <- <-. right. right. split; [reflexivity | exact P1]. }
      destruct (SH sd (proj1 O)) as [(j & (kp, rp) & BJ & K & P) | (i & (kp, rp) & e & BI & K & L & P)].
      + (* a face of a plane *)
        apply (flat_outer tbl types IF m c c' n FL N2 X sd j (kp, rp) (proj1 O) BJ K P) in O. cbn [snd] in P.
        assert (RB := row_bound tbl m c FL kp rp K). assert (RN : exists v, In v rp) by (destruct (quad_row tbl m c FL kp rp K) as (a1 & a2 & a3 & a4 & ->); exists a1; left; reflexivity). destruct RN as (v & V).
        assert (NO : forall k b bb, In (k, bb) (me_bocos m) -> carried bb b -> ~ spanned (fst sd) b).
        { intros k1 bx bb IB CA SS. apply (MC k1 bb kp rp IB K). intros u U. assert (BB := fun u => MB k1 bb u IB).
          apply (carried_node m n bb bx u j CA BB (RB u U)). apply (spanned_perm _ _ bx P SS). apply in_map_iff. exists u. split; [reflexivity | exact U]. }
        assert (AT : forall k j' b, end_mark k j' b -> spanned (fst sd) b -> j = j').
        { intros k1 j' bx EN SS. apply (plane_node tbl m c c' FL bx k1 j' v j EN (RB v V)). apply (spanned_perm _ _ bx P SS). apply in_map_iff. exists v. split; [reflexivity | exact V]. }
        destruct (EV k b I) as [(bb & IB & CA) | [(-> & E) | (-> & E)]]; [destruct (NO k b bb IB CA S) | |];
        (destruct (EV k' b' I') as [(bb & IB & CA) | [(-> & E') | (-> & E')]]; [destruct (NO k' b' bb IB CA S') | |]); try reflexivity; exfalso;
        assert (Q1 := AT _ _ _ E S); assert (Q2 := AT _ _ _ E' S'); unfold n in *; lia.
      + (* a face over an edge *)
        destruct (edge_bound tbl m c FL kp rp e K L) as (B1 & B2). destruct (edge_side tbl types IF m c FL (kp, rp) e K L) as (sb & IS & PB).
        apply (lat_outer tbl types IF m c c' n FL X sd i (kp, rp) e sb (proj1 O) BI K L P IS PB) in O.
        assert (NE : forall k j b, end_mark k j b -> ~ spanned (fst sd) b).
        { intros k1 j bx EN SS. assert (SP := spanned_perm _ _ bx P SS). assert (Q1 := plane_node tbl m c c' FL bx k1 j (fst e) i EN B1 (SP _ (or_introl eq_refl))).
          assert (Q2 := plane_node tbl m c c' FL bx k1 j (fst e) (i + 1) EN B1 (SP _ (or_intror (or_intror (or_introl eq_refl))))). lia. }
        assert (EDG : forall k b bb, In (k, bb) (me_bocos m) -> carried bb b -> spanned (fst sd) b -> spanned (fst sb) bb).
        { intros k1 bx bb IB CA SS. apply (spanned_perm _ _ bb (Permutation_sym PB)). assert (SP := spanned_perm _ _ bx P SS). assert (BB := fun u => MB k1 bb u IB).
          intros v [<- | [<- | []]]; [apply (carried_node m n bb bx (fst e) i CA BB B1) | apply (carried_node m n bb bx (snd e) i CA BB B2)]; apply SP; cbn; tauto. }
        destruct (EV k b I) as [(bb & IB & CA) | [(_ & E) | (_ & E)]]; [| destruct (NE _ _ _ E S) | destruct (NE _ _ _ E S)].
        destruct (EV k' b' I') as [(bb' & IB' & CA') | [(_ & E) | (_ & E)]]; [| destruct (NE _ _ _ E S') | destruct (NE _ _ _ E S')].
        exact (MU sb k bb k' bb' O IB IB' (EDG _ _ _ IB CA S) (EDG _ _ _ IB' CA' S')).
  Qed.
End Extruded.
