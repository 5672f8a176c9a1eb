(** * The exported cube (C24). *)
From Coq Require Import Permutation Lia ZArith.
From Verif Require Import PyFacts Conn ConnSpec ConnProofs FaceSpec Mesh MeshSpec ReindexProofs Simple SimpleSpec.

Lemma pair_eq {A B} {a a' : A} {b b' : B} : (a, b) = (a', b') -> a = a' /\ b = b'.
Proof. intros H. now inv H. Qed.

Lemma nth_flat_map {A B} (f : A -> list B) (n : nat) l : forall q r,
  (forall a, In a l -> List.length (f a) = n) -> (r < n)%nat ->
  nth_error (flat_map f l) (q * n + r) = match nth_error l q with Some a => nth_error (f a) r | None => None end.
Proof.
  induction l as [|a l IH]; intros q r H Hr.
  - simpl. destruct q; [now destruct r|]. simpl. now destruct (n + q * n + r)%nat.
  - cbn [flat_map]. assert (La : List.length (f a) = n) by (apply H; simpl; auto). destruct q as [|q]; simpl.
    + apply nth_error_app1. lia.
    + rewrite nth_error_app2 by lia. rewrite La. replace (n + q * n + r - n)%nat with (q * n + r)%nat by lia.
      apply IH; auto. intros; apply H; simpl; auto.
Qed.

Lemma length_flat_map {A B} (f : A -> list B) (n : nat) l :
  (forall a, In a l -> List.length (f a) = n) -> List.length (flat_map f l) = (List.length l * n)%nat.
Proof.
  induction l as [|a l IH]; intros H; auto. cbn [flat_map]. rewrite app_length, H by (simpl; auto). simpl.
  rewrite IH; auto. intros; apply H; simpl; auto.
Qed.

Lemma product3_length a b c :
  List.length (product3 a b c) = (List.length a * (List.length b * List.length c))%nat.
Proof.
  unfold product3. apply length_flat_map. intros i _. rewrite (length_flat_map _ (List.length c)); auto.
  intros; apply map_length.
Qed.

Lemma in_product3 a b c i j k : In (i, j, k) (product3 a b c) <-> In i a /\ In j b /\ In k c.
Proof.
  unfold product3. rewrite in_flat_map. split.
  - intros (i' & Hi & H). apply in_flat_map in H. destruct H as (j' & Hj & H). apply in_map_iff in H.
    destruct H as (k' & E & Hk). inv E. auto.
  - intros (Hi & Hj & Hk). exists i. split; auto. apply in_flat_map. exists j. split; auto. apply in_map_iff. eauto.
Qed.

Lemma NoDup_flat_map {A B} (f : A -> list B) l : NoDup l -> (forall a, In a l -> NoDup (f a)) ->
  (forall a a' b, In a l -> In a' l -> In b (f a) -> In b (f a') -> a = a') -> NoDup (flat_map f l).
Proof.
  induction l as [|a l IH]; intros N H D; [constructor|]. inv N. cbn [flat_map]. apply NoDup_app. split; [apply H; simpl; auto|].
  split; [apply IH; auto; intros; [apply H|eapply D]; simpl; eauto|].
  intros b Hb Hb'. apply in_flat_map in Hb'. destruct Hb' as (a' & Ha' & Hb').
  assert (a = a') by (eapply D; simpl; eauto). congruence.
Qed.

Lemma NoDup_product3 a b c : NoDup a -> NoDup b -> NoDup c -> NoDup (product3 a b c).
Proof.
  intros Na Nb Nc. unfold product3. apply NoDup_flat_map; auto.
  - intros i _. apply NoDup_flat_map; auto.
    + intros j _. apply FinFun.Injective_map_NoDup; auto. intros k k' E. now inv E.
    + intros j j' x _ _ H H'. apply in_map_iff in H, H'. destruct H as (k & <- & _), H' as (k' & E & _). now inv E.
  - intros i i' x _ _ H H'. apply in_flat_map in H, H'. destruct H as (j & _ & H), H' as (j' & _ & H').
    apply in_map_iff in H, H'. destruct H as (k & <- & _), H' as (k' & E & _). now inv E.
Qed.

(** ** Ranks in a box *)

Lemma rank3_range a b c p : in_box a b c p -> 0 <= rank3 b c p < a * b * c.
Proof.
  destruct p as [i j k]. unfold in_box, rank3. cbn [pi pj pk]. intros (Hi & Hj & Hk). split.
  - assert (0 <= i * b) by (apply Z.mul_nonneg_nonneg; lia).
    assert (0 <= (i * b + j) * c) by (apply Z.mul_nonneg_nonneg; lia). lia.
  - assert (i * b + j + 1 <= a * b) by nia. nia.
Qed.

Lemma box_nth a b c p : in_box a b c p ->
  nth_error (product3 (zrange 0 a) (zrange 0 b) (zrange 0 c)) (Z.to_nat (rank3 b c p)) = Some (pi p, pj p, pk p).
Proof.
  destruct p as [i j k]. unfold in_box, rank3. cbn [pi pj pk]. intros (Hi & Hj & Hk).
  replace (Z.to_nat ((i * b + j) * c + k)) with
    (Z.to_nat i * (Z.to_nat b * Z.to_nat c) + (Z.to_nat j * Z.to_nat c + Z.to_nat k))%nat by nia.
  unfold product3. rewrite (nth_flat_map _ (Z.to_nat b * Z.to_nat c)).
  - rewrite nth_error_zrange by lia. rewrite (nth_flat_map _ (Z.to_nat c)).
    + rewrite nth_error_zrange by lia. rewrite nth_error_map, nth_error_zrange by lia. cbn. repeat f_equal; lia.
    + intros; now rewrite map_length, zrange_length, Z.sub_0_r.
    + lia.
  - intros x _. rewrite (length_flat_map _ (Z.to_nat c)); [now rewrite zrange_length, Z.sub_0_r|].
    intros; now rewrite map_length, zrange_length, Z.sub_0_r.
  - nia.
Qed.

Lemma box_len a b c : 0 <= a -> 0 <= b -> 0 <= c ->
  zlen (product3 (zrange 0 a) (zrange 0 b) (zrange 0 c)) = a * b * c.
Proof. intros. unfold zlen. rewrite product3_length, !zrange_length, !Z.sub_0_r. nia. Qed.

Lemma rank3_inj a b c p q : in_box a b c p -> in_box a b c q -> rank3 b c p = rank3 b c q -> p = q.
Proof.
  intros Hp Hq E. apply box_nth in Hp, Hq. rewrite E in Hp. rewrite Hp in Hq. destruct p, q. cbn in Hq. now inv Hq.
Qed.

Lemma rank3_onto a b c n : 0 <= n < a * b * c -> 0 <= b -> 0 <= c -> exists p, in_box a b c p /\ rank3 b c p = n.
Proof.
  intros Hn Hb Hc. assert (b <> 0 /\ c <> 0) as [Hb' Hc'] by nia.
  exists (P3 (n / c / b) ((n / c) mod b) (n mod c)). unfold in_box, rank3. cbn [pi pj pk].
  assert (M1 := Z.mod_pos_bound n c ltac:(lia)). assert (M2 := Z.mod_pos_bound (n / c) b ltac:(lia)).
  assert (E1 := Z.div_mod n c ltac:(lia)). assert (E2 := Z.div_mod (n / c) b ltac:(lia)).
  assert (0 <= n / c) by (apply Z.div_pos; lia). assert (0 <= n / c / b) by (apply Z.div_pos; lia).
  repeat split; try lia.
  apply Z.div_lt_upper_bound; [lia|]. apply Z.div_lt_upper_bound; [lia|]. nia.
Qed.

Lemma map_rank_box a b c : 0 <= a -> 0 <= b -> 0 <= c ->
  List.map (fun '(i, j, k) => rank3 b c (P3 i j k)) (product3 (zrange 0 a) (zrange 0 b) (zrange 0 c)) = zrange 0 (a * b * c).
Proof.
  intros Ha Hb Hc. apply nth_error_ext'. intros n.
  assert (L := box_len a b c Ha Hb Hc). set (P := product3 _ _ _) in *.
  destruct (Z_lt_dec (Z.of_nat n) (a * b * c)) as [H|H].
  - destruct (rank3_onto a b c (Z.of_nat n) ltac:(lia) Hb Hc) as (p & Hp & E).
    assert (B := box_nth a b c p Hp). rewrite E, Nat2Z.id in B. fold P in B.
    rewrite nth_error_map, B. cbn. rewrite nth_error_zrange by lia. destruct p; cbn. f_equal. rewrite <- E. cbn. lia.
  - assert (N1 : nth_error P n = None) by (apply nth_error_None; unfold zlen in L; lia).
    rewrite nth_error_map, N1. symmetry. apply nth_error_None. rewrite zrange_length. lia.
Qed.

Section Cube.
  Context (nx ny nz : Z) (Hx : 1 <= nx) (Hy : 1 <= ny) (Hz : 1 <= nz).

  Lemma nodeglob_no i j k : nodeglobindex ny nz i j k = node_no ny nz (P3 i j k).
  Proof. unfold nodeglobindex, node_no, rank3. cbn. lia. Qed.
  Lemma elemglob_no i j k : elemglobindex ny nz i j k = cell_no ny nz (P3 i j k).
  Proof. unfold elemglobindex, cell_no, rank3. cbn. lia. Qed.
  Lemma hexa_eq i j k : hexa_nodes ny nz i j k = hexa ny nz (P3 i j k).
  Proof. unfold hexa_nodes, hexa. cbn [List.map]. rewrite !nodeglob_no. reflexivity. Qed.

  Definition cube_cells : econn :=
    EC (nx * ny * nz) [("hexa8", ED (ILlist (zrange 0 (nx * ny * nz)))
      (Mat (Some 8%nat) (List.map (fun '(i, j, k) => hexa ny nz (P3 i j k)) (elem_ijk nx ny nz))))].

  Lemma cube_elems_eq : cube_elems nx ny nz =
    (List.map (fun '(i, j, k) => hexa ny nz (P3 i j k)) (elem_ijk nx ny nz), zrange 0 (nx * ny * nz)).
  Proof.
    unfold cube_elems. f_equal.
    - apply map_ext. intros ((i, j), k). apply hexa_eq.
    - rewrite <- (map_rank_box nx ny nz) by lia. apply map_ext. intros ((i, j), k). apply elemglob_no.
  Qed.

  Lemma elems_len : zlen (elem_ijk nx ny nz) = nx * ny * nz.
  Proof. apply box_len; lia. Qed.
  Lemma nodes_len : zlen (nodes_ijk nx ny nz) = (nx + 1) * (ny + 1) * (nz + 1).
  Proof. apply box_len; lia. Qed.

  Lemma cube_cells_pairs : ec_pairs cube_cells =
    combine (zrange 0 (nx * ny * nz)) (List.map (fun '(i, j, k) => hexa ny nz (P3 i j k)) (elem_ijk nx ny nz)).
  Proof. unfold ec_pairs, cube_cells. cbn. now rewrite app_nil_r. Qed.

  Lemma cube_cells_wf : ec_wf cube_cells /\ ec_plain cube_cells /\ ec_types cube_cells = ["hexa8"] /\
    ec_cols (fun _ => 8%nat) cube_cells.
  Proof.
    assert (L := elems_len). unfold zlen in L.
    split; [|split; [|split]].
    - constructor.
      + repeat constructor. intros [].
      + intros t ed [H|[]]. inv H. constructor; cbn; [discriminate| |].
        * rewrite map_length, zrange_length. lia.
        * apply Forall_forall. intros r Hr. apply in_map_iff in Hr. destruct Hr as (((i, j), k) & <- & _). reflexivity.
      + rewrite cube_cells_pairs. unfold zlen. rewrite combine_length, map_length, zrange_length. cbn. lia.
    - intros t ed [H|[]]. now inv H.
    - reflexivity.
    - intros t ed [H|[]]. now inv H.
  Qed.

  Lemma cube_cell p : cell_ok nx ny nz p ->
    nth_error (ec_pairs cube_cells) (Z.to_nat (cell_no ny nz p)) = Some (cell_no ny nz p, hexa ny nz p).
  Proof.
    intros Hp. rewrite cube_cells_pairs. assert (R := rank3_range _ _ _ _ Hp). unfold cell_no.
    assert (B := box_nth _ _ _ _ Hp). 
    assert (E : forall (A B : Type) (l : list A) (m : list B) n a b, nth_error l n = Some a -> nth_error m n = Some b ->
              nth_error (combine l m) n = Some (a, b)).
    { clear. intros A B l. induction l as [|x l IH]; intros m n a b H1 H2; destruct n, m; try discriminate; cbn in *.
      - congruence. - auto. }
    apply E.
    - rewrite nth_error_zrange by lia. f_equal. lia.
    - unfold elem_ijk. rewrite nth_error_map, B. cbn. now destruct p.
  Qed.

  (** Node marks. *)
  Lemma task_spec s l : In (s, l) (cube_tasks nx ny nz) ->
    NoDup (List.map (fun '(i, j, k) => node_no ny nz (P3 i j k)) l) /\
    forall n, In n (List.map (fun '(i, j, k) => node_no ny nz (P3 i j k)) l) <->
      exists p, in_box (nx + 1) (ny + 1) (nz + 1) p /\ n = node_no ny nz p /\
          In (s, true) [("imin", pi p =? 0); ("imax", pi p =? nx); ("jmin", pj p =? 0);
                        ("jmax", pj p =? ny); ("kmin", pk p =? 0); ("kmax", pk p =? nz)].
  Proof.
    intros H.
    assert (HB : forall i j k, In (i, j, k) l <-> in_box (nx + 1) (ny + 1) (nz + 1) (P3 i j k) /\
          In (s, true) [("imin", i =? 0); ("imax", i =? nx); ("jmin", j =? 0);
                        ("jmax", j =? ny); ("kmin", k =? 0); ("kmax", k =? nz)]).
    { intros i j k. unfold in_box. cbn [pi pj pk].
      unfold cube_tasks in H. cbn [In] in H.
      destruct H as [H|[H|[H|[H|[H|[H|[]]]]]]]; destruct (pair_eq H) as [<- <-]; rewrite in_product3; cbn [In]; rewrite ?in_zrange;
        (split; [intros Q; split; [lia|]; repeat (first [left; f_equal; apply Z.eqb_eq; lia|right])
                |intros (Q1 & Q); repeat (destruct Q as [Q|Q]; [first [discriminate Q|injection Q as Q; lia]|]); destruct Q]). }
    assert (ND : NoDup l).
    { unfold cube_tasks in H. cbn [In] in H.
      assert (forall z : Z, NoDup [z]) by (intros; constructor; [intros []|constructor]).
      repeat (destruct H as [H|H]; [destruct (pair_eq H) as [<- <-]; apply NoDup_product3; auto using NoDup_zrange|]). destruct H. }
    split.
    - apply NoDup_map_inj_in; auto. intros ((i, j), k) ((i', j'), k') H1 H2 E. apply HB in H1, H2.
      apply (rank3_inj (nx + 1)) in E; [|tauto..]. now inv E.
    - intros n. rewrite in_map_iff. split.
      + intros (((i, j), k) & <- & Hi). apply HB in Hi. exists (P3 i j k). tauto.
      + intros ([i j k] & Hp & -> & Hs). exists (i, j, k). split; auto. apply HB. auto.
  Qed.

  Context {F : Type} (fdiv : Z -> Z -> F).

  Lemma cube_export_eq : exists m, cube_export nx ny nz fdiv = Ok m /\ me_cell2node m = Some cube_cells.
  Proof.
    unfold cube_export. assert (L := elems_len). rewrite cube_elems_eq.
    destruct (elem_ijk nx ny nz) as [|e0 es] eqn:E; [rewrite zlen_nil in L; nia|]. rewrite <- E in *. clear E.
    unfold ec_add. cbn [ec_dict ec_empty dget bind].
    unfold set_coords_xyz. assert (LN := nodes_len). cbn [forallb]. rewrite !zlen_map.
    replace (me_nnode (set_cell2node _ _)) with ((nx + 1) * (ny + 1) * (nz + 1)) by reflexivity.
    rewrite LN, Z.eqb_refl. cbn [andb bind]. eexists. split; [reflexivity|].
    cbn. unfold m_nrow. cbn. unfold cube_cells. rewrite zlen_map, L. reflexivity.
  Qed.

  Lemma bocos_fold (tasks : list (string * list (Z * Z * Z))) : forall m : mesh F,
    NoDup (dkeys (me_bocos m) ++ List.map fst tasks) ->
    me_bocos (fold_left (cube_mark ny nz) tasks m) = me_bocos m ++ List.map (fun t => (fst t,
      Mark F (fst t) (Some Gbdnode) (Some "boundary")
        (Some (ILlist (List.map (fun '(i, j, k) => nodeglobindex ny nz i j k) (snd t)))) None)) tasks.
  Proof.
    induction tasks as [|t ts IH]; intros m N; cbn [fold_left List.map]; [now rewrite app_nil_r|].
    cbn [List.map] in N. apply NoDup_app in N. destruct N as (N1 & N2 & N3). inv N2.
    rewrite IH.
    - unfold cube_mark, add_boco. cbn [me_bocos with_bocos mk_name].
      rewrite (dset_notin _ seqb_eq); [now rewrite <- app_assoc|].
      intros H. apply (N3 _ H). simpl; auto.
    - unfold cube_mark, add_boco. cbn [me_bocos with_bocos mk_name].
      rewrite (dset_notin _ seqb_eq) by (intros H; apply (N3 _ H); simpl; auto).
      unfold dkeys in *. rewrite map_app. cbn [List.map fst]. rewrite <- app_assoc. cbn [app].
      apply NoDup_app. split; auto. split; [constructor; auto|auto].
  Qed.

  Lemma fold_rest tasks : forall m : mesh F, same_but_bocos m (fold_left (cube_mark ny nz) tasks m).
  Proof.
    induction tasks as [|t ts IH]; intros m; cbn [fold_left]; [constructor; reflexivity|].
    destruct (IH (cube_mark ny nz m t)). constructor; rewrite ?sb_ncell, ?sb_nnode, ?sb_nface, ?sb_cells, ?sb_faces, ?sb_nodes; reflexivity.
  Qed.

  Theorem cube_ok : exists m, cube_export nx ny nz fdiv = Ok m /\ is_cube nx ny nz fdiv m cube_cells.
  Proof.
    unfold cube_export. assert (L := elems_len). rewrite cube_elems_eq.
    destruct (elem_ijk nx ny nz) as [|e0 es] eqn:E; [rewrite zlen_nil in L; nia|]. rewrite <- E in *. clear E.
    unfold ec_add. cbn [ec_dict ec_empty dget bind].
    unfold set_coords_xyz. assert (LN := nodes_len). cbn [forallb]. rewrite !zlen_map.
    replace (me_nnode (set_cell2node _ _)) with ((nx + 1) * (ny + 1) * (nz + 1)) by reflexivity.
    rewrite LN, Z.eqb_refl. cbn [andb bind]. eexists. split; [reflexivity|].
    match goal with |- is_cube _ _ _ _ (fold_left _ _ ?m0) _ => set (m := m0) end.
    assert (R := fold_rest (cube_tasks nx ny nz) m). destruct R.
    assert (EC0 : me_cell2node m = Some cube_cells).
    { cbn. unfold m_nrow. cbn. unfold cube_cells. rewrite zlen_map, L. reflexivity. }
    assert (CW := cube_cells_wf).
    constructor.
    - rewrite sb_ncell. cbn. unfold m_nrow. cbn. rewrite zlen_map. lia.
    - now rewrite sb_nnode.
    - rewrite sb_cells. tauto.
    - intros p Hp. now apply cube_cell.
    - now rewrite sb_faces.
    - exists (List.map (fun p => fst (fst (nodes_xyz nx ny nz fdiv p))) (nodes_ijk nx ny nz)),
             (List.map (fun p => snd (fst (nodes_xyz nx ny nz fdiv p))) (nodes_ijk nx ny nz)),
             (List.map (fun p => snd (nodes_xyz nx ny nz fdiv p)) (nodes_ijk nx ny nz)).
      split.
      + unfold coords_ok, nodescoord. rewrite sb_nodes, sb_nnode. cbn. rewrite !map_map, !zlen_map. repeat split; auto.
      + intros p Hp. assert (B := box_nth _ _ _ _ Hp). unfold node_no, nodes_ijk. rewrite !nth_error_map, B. cbn. auto.
    - rewrite bocos_fold.
      2: { cbn. repeat constructor; simpl; intuition discriminate. }
      change (me_bocos m) with (@nil (string * mark F)). cbn [app]. split; [reflexivity|].
      intros s b H. apply in_map_iff in H. destruct H as ((s', l) & H & Ht). inv H. cbn [fst snd mk_name mk_geodim mk_type].
      assert (TS := task_spec _ _ Ht).
      assert (EE : List.map (fun '(i, j, k) => nodeglobindex ny nz i j k) l = List.map (fun '(i, j, k) => node_no ny nz (P3 i j k)) l).
      { apply map_ext. intros ((i, j), k). apply nodeglob_no. }
      unfold mk_entries. cbn [mk_index entries]. rewrite EE. repeat split; try tauto; try apply TS.
      eexists; repeat split; discriminate.
  Qed.

  (** Nodes of a cell are distinct nodes of the mesh. *)
  Lemma hexa_valid p : cell_ok nx ny nz p ->
    NoDup (hexa ny nz p) /\ forall n, In n (hexa ny nz p) -> 0 <= n < (nx + 1) * (ny + 1) * (nz + 1).
  Proof.
    destruct p as [i j k]. unfold cell_ok, in_box. cbn [pi pj pk]. intros (Hi & Hj & Hk). unfold hexa. split.
    - apply NoDup_map_inj_in.
      + intros a b Ha Hb Hab. apply (rank3_inj (nx + 1) (ny + 1) (nz + 1)) in Hab; auto.
        * cbn [In] in Ha. unfold in_box. repeat (destruct Ha as [<-|Ha]; [cbn [pi pj pk]; lia|]). destruct Ha.
        * cbn [In] in Hb. unfold in_box. repeat (destruct Hb as [<-|Hb]; [cbn [pi pj pk]; lia|]). destruct Hb.
      + repeat (constructor; [cbn [In]; intros Q; repeat (destruct Q as [Q|Q]; [injection Q; intros; lia|]); destruct Q|]).
        constructor.
    - intros n Hn. apply in_map_iff in Hn. destruct Hn as (q & <- & Hq). apply rank3_range.
      cbn [In] in Hq. unfold in_box. repeat (destruct Hq as [<-|Hq]; [cbn [pi pj pk]; lia|]). destruct Hq.
  Qed.
End Cube.

Lemma cube_empty {F} (fdiv : Z -> Z -> F) nx ny nz : nx <= 0 \/ ny <= 0 \/ nz <= 0 -> cube_export nx ny nz fdiv = Err ValueError.
Proof.
  intros H. unfold cube_export, elem_ijk.
  assert (product3 (zrange 0 nx) (zrange 0 ny) (zrange 0 nz) = []) as ->; auto.
  apply length_zero_iff_nil. rewrite product3_length, !zrange_length. destruct H as [H|[H|H]]; nia.
Qed.
