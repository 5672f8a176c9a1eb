(** * Faces of the exported cube (C25). *)
From Coq Require Import Permutation Lia ZArith.
From Verif Require Import PyFacts Conn ConnSpec ConnProofs FaceSpec FaceProofs FaceTable Mesh MeshSpec ReindexProofs
  Simple SimpleSpec SimpleProofs.

Definition axis_dec (a b : axis) : {a = b} + {a <> b}.
Proof. decide equality. Defined.
Definition ijk_dec (a b : ijk) : {a = b} + {a <> b}.
Proof. decide equality; apply Z.eq_dec. Defined.

(** The six sides of a cell, in the order of the table. *)
Definition dir : Type := (axis * bool)%type.
Definition dirs : list dir := [(AZ, false); (AY, false); (AX, true); (AY, true); (AX, false); (AZ, true)].
Definition step (a : axis) (p : ijk) : ijk :=
  let '(P3 i j k) := p in match a with AX => P3 (i + 1) j k | AY => P3 i (j + 1) k | AZ => P3 i j (k + 1) end.
Definition gf (pd : ijk * dir) : gface :=
  let '(p, (a, up)) := pd in (a, if up then step a p else p).

Lemma all_dirs d : In d dirs.
Proof. destruct d as [[] []]; cbn; tauto. Qed.
Lemma NoDup_dirs : NoDup dirs.
Proof. repeat (constructor; [cbn; intuition discriminate|]). constructor. Qed.

Lemma gf_eq p a up g : gf (p, (a, up)) = g <->
  a = fst g /\ p = if up then cell_below g else cell_above g.
Proof.
  destruct g as [a' [i j k]], p as [i' j' k']. unfold gf, cell_above. cbn [fst snd]. split.
  - intros H. injection H as -> H. split; auto. destruct up; [|auto].
    destruct a'; cbn in *; injection H; intros; f_equal; lia.
  - intros [-> H]. f_equal. destruct up; [|auto]. destruct a'; cbn in *; injection H; intros; subst; f_equal; lia.
Qed.

(** [filter] through an injection into candidates. *)
Lemma filter_map {A B} (h : A -> B) (f : B -> bool) l :
  filter f (List.map h l) = List.map h (filter (fun a => f (h a)) l).
Proof. induction l as [|a l IH]; auto. simpl. destruct (f (h a)); simpl; congruence. Qed.

Lemma perm4 (a b c d : Z) l :
  In l [[d;c;b;a]; [c;b;a;d]; [b;a;d;c]; [a;d;c;b]; [a;b;c;d]; [b;c;d;a]; [c;d;a;b]; [d;a;b;c]] -> Permutation [a;b;c;d] l.
Proof.
  intros H. apply (Permutation_count_occ Z.eq_dec). intros x. cbn [In] in H.
  repeat (destruct H as [<-|H]; [cbn [count_occ]; repeat destruct (Z.eq_dec _ _); lia|]). destruct H.
Qed.

Section Faces.
  Context (nx ny nz : Z) (Hx : 1 <= nx) (Hy : 1 <= ny) (Hz : 1 <= nz).
  Notation cell_ok := (cell_ok nx ny nz).
  Notation gface_ok := (gface_ok nx ny nz).
  Notation on_boundary := (on_boundary nx ny nz).
  Notation node_no := (node_no ny nz).
  Notation gnodes := (gface_nodes ny nz).
  Notation cells := (cube_cells nx ny nz).

  Lemma corners_in_box g q : gface_ok g -> In q (corners g) -> in_box (nx + 1) (ny + 1) (nz + 1) q.
  Proof.
    destruct g as [[] [i j k]]; unfold SimpleSpec.gface_ok, in_box; cbn [pi pj pk corners In]; intros H Q;
      repeat (destruct Q as [<-|Q]; [cbn [pi pj pk]; lia|]); destruct Q.
  Qed.

  Lemma in_gnodes g q : gface_ok g -> in_box (nx + 1) (ny + 1) (nz + 1) q ->
    In (node_no q) (gnodes g) -> In q (corners g).
  Proof.
    intros Hg Hq H. apply in_map_iff in H. destruct H as (q' & E & H).
    apply (rank3_inj (nx + 1)) in E; auto; [now subst|]. now apply (corners_in_box g).
  Qed.

  Lemma gnodes_inj g g' : gface_ok g -> gface_ok g' -> Permutation (gnodes g) (gnodes g') -> g = g'.
  Proof.
    intros Hg Hg' P.
    assert (A1 : forall q, In q (corners g) -> In q (corners g')).
    { intros q Hq. apply in_gnodes; auto; [now apply (corners_in_box g)|]. eapply Permutation_in; eauto.
      unfold gface_nodes. now apply in_map. }
    assert (A2 : forall q, In q (corners g') -> In q (corners g)).
    { intros q Hq. apply in_gnodes; auto; [now apply (corners_in_box g')|]. eapply Permutation_in; [symmetry|]; eauto.
      unfold gface_nodes. now apply in_map. }
    clear P Hg Hg'.
    assert (B : forall a i j k i' j' k', In (P3 i' j' k') (corners (a, P3 i j k)) ->
       i <= i' <= i + 1 /\ j <= j' <= j + 1 /\ k <= k' <= k + 1 /\
       match a with AX => i' = i | AY => j' = j | AZ => k' = k end).
    { intros a i j k i' j' k' Q. destruct a; cbn [corners In] in Q;
        repeat (destruct Q as [Q|Q]; [injection Q; intros; lia|]); destruct Q. }
    destruct g as [a [i j k]], g' as [a' [i' j' k']].
    assert (C1 : In (P3 i j k) (corners (a, P3 i j k))) by (destruct a; simpl; auto).
    assert (C2 : In (P3 i' j' k') (corners (a', P3 i' j' k'))) by (destruct a'; simpl; auto).
    apply A1, B in C1. apply A2, B in C2.
    assert (i' = i /\ j' = j /\ k' = k) as (-> & -> & ->) by lia. clear C1 C2. f_equal.
    assert (D : In (match a with AX => P3 i (j + 1) (k + 1) | AY => P3 (i + 1) j (k + 1) | AZ => P3 (i + 1) (j + 1) k end)
                   (corners (a, P3 i j k))) by (destruct a; simpl; auto).
    apply A1 in D. destruct a, a'; auto; apply B in D; lia.
  Qed.

  Lemma gf_ok p d : cell_ok p -> gface_ok (gf (p, d)).
  Proof.
    destruct p as [i j k], d as [[] []]; unfold SimpleSpec.cell_ok, SimpleSpec.gface_ok, in_box; cbn; lia.
  Qed.

  Lemma boundary_iff g : gface_ok g -> (on_boundary g <-> ~ (cell_ok (cell_below g) /\ cell_ok (cell_above g))).
  Proof.
    destruct g as [a [i j k]]. unfold SimpleSpec.on_boundary, SimpleSpec.gface_ok, SimpleSpec.cell_ok, in_box, sides. intros H. split.
    - intros (s & Hs & O). destruct a; cbn in *; lia.
    - intros N. destruct a; cbn in *.
      + destruct (Z.eq_dec i 0); [exists "imin"; tauto|exists "imax"; split; [tauto|right; split; [auto|lia]]].
      + destruct (Z.eq_dec j 0); [exists "jmin"; tauto|exists "jmax"; split; [tauto|right; split; [auto|lia]]].
      + destruct (Z.eq_dec k 0); [exists "kmin"; split; [tauto|left; auto]|exists "kmax"; split; [tauto|right; split; [auto|lia]]].
  Qed.

  Lemma one_side g : gface_ok g -> cell_ok (cell_below g) \/ cell_ok (cell_above g).
  Proof. destruct g as [[] [i j k]]; unfold SimpleSpec.gface_ok, SimpleSpec.cell_ok, in_box; cbn; lia. Qed.

  Definition cell_okb (p : ijk) : bool :=
    let '(P3 i j k) := p in (0 <=? i) && (i <? nx) && (0 <=? j) && (j <? ny) && (0 <=? k) && (k <? nz).
  Lemma cell_okb_iff p : cell_okb p = true <-> cell_ok p.
  Proof. destruct p as [i j k]; unfold cell_okb, SimpleSpec.cell_ok, in_box; cbn [pi pj pk]. lia. Qed.

  (** ** The list of all sides *)

  Definition all_cells : list ijk := List.map (fun '(i, j, k) => P3 i j k) (elem_ijk nx ny nz).
  Lemma in_all_cells p : In p all_cells <-> cell_ok p.
  Proof.
    unfold all_cells. rewrite in_map_iff. destruct p as [i j k]. split.
    - intros (((i', j'), k') & E & H). inv E. apply in_product3 in H. rewrite !in_zrange in H. exact H.
    - intros H. exists (i, j, k). split; auto. apply in_product3. rewrite !in_zrange. exact H.
  Qed.
  Lemma NoDup_all_cells : NoDup all_cells.
  Proof.
    apply NoDup_map_inj_in; [|apply NoDup_product3; apply NoDup_zrange].
    intros ((i, j), k) ((i', j'), k') _ _ E. now inv E.
  Qed.

  Definition SD : list (ijk * dir) := flat_map (fun p => List.map (pair p) dirs) all_cells.
  Lemma in_SD p d : In (p, d) SD <-> cell_ok p.
  Proof.
    unfold SD. rewrite in_flat_map. split.
    - intros (p' & Hp & H). apply in_map_iff in H. destruct H as (d' & E & _). inv E. now apply in_all_cells.
    - intros H. exists p. split; [now apply in_all_cells|]. apply in_map, all_dirs.
  Qed.
  Lemma NoDup_SD : NoDup SD.
  Proof.
    apply NoDup_flat_map; [apply NoDup_all_cells| |].
    - intros p _. apply NoDup_map_inj_in; [|apply NoDup_dirs]. intros d d' _ _ E. now inv E.
    - intros p p' x _ _ H H'. apply in_map_iff in H, H'. destruct H as (d & <- & _), H' as (d' & E & _). now inv E.
  Qed.

  (** Node tuple of a side, as the table gives it. *)
  Definition eface (d : dir) : list Z :=
    match d with
    | (AZ, false) => [0;1;2;3] | (AY, false) => [0;4;5;1] | (AX, true) => [1;5;6;2]
    | (AY, true) => [2;6;7;3] | (AX, false) => [0;3;7;4] | (AZ, true) => [4;7;6;5]
    end.
  Definition cube_side (pd : ijk * dir) : side :=
    (side_nodes (hexa ny nz (fst pd)) (eface (snd pd)), cell_no ny nz (fst pd)).

  Lemma cube_side_nodes pd : Permutation (gnodes (gf pd)) (fst (cube_side pd)).
  Proof.
    destruct pd as [[i j k] [a up]]. destruct a, up; unfold cube_side, gface_nodes, side_nodes; cbn;
      apply perm4; cbn; repeat (first [left; reflexivity|right]).
  Qed.

  Lemma ec_sides_eq tbl types : in_force tbl types -> ec_sides tbl "quad4" cells = List.map cube_side SD.
  Proof.
    intros F.
    assert (T : exists l0, dget String.eqb "hexa8" tbl = Some (("tri3", @nil (list Z)) :: ("quad4", List.map eface dirs) :: l0) /\ l0 = []).
    { exists []. split; auto. destruct F as [[-> _]|[-> _]]; reflexivity. }
    destruct T as (l0 & T & ->).
    unfold ec_sides, cube_cells. cbn [ec_dict flat_map fst snd]. rewrite app_nil_r. unfold ed_sides. rewrite T.
    unfold ed_pairs. cbn [ed_index ed_e2n entries m_rows].
    rewrite <- (map_rank_box nx ny nz) by lia. fold (elem_ijk nx ny nz). unfold SD, all_cells.
    induction (elem_ijk nx ny nz) as [|((i, j), k) l IH]; [reflexivity|].
    cbn [List.map combine flat_map]. rewrite map_app. apply f_equal2; [reflexivity|exact IH].
  Qed.

  (** ** Which cells share a face *)

  Definition owners (g : gface) : list (ijk * dir) :=
    (if cell_okb (cell_below g) then [(cell_below g, (fst g, true))] else []) ++
    (if cell_okb (cell_above g) then [(cell_above g, (fst g, false))] else []).

  Lemma in_owners g pd : In pd (owners g) <-> cell_ok (fst pd) /\ gf pd = g.
  Proof.
    destruct pd as [p [a up]]. rewrite gf_eq. unfold owners. rewrite in_app_iff. cbn [fst].
    destruct (cell_okb (cell_below g)) eqn:E1; destruct (cell_okb (cell_above g)) eqn:E2; cbn [In].
    all: rewrite <- (cell_okb_iff p).
    all: split; [intros Q; repeat (destruct Q as [Q|Q]); inv Q; auto|intros (K & -> & E); destruct up; subst p; try congruence; auto].
    all: contradiction.
  Qed.

  Lemma NoDup_owners g : NoDup (owners g).
  Proof.
    unfold owners. destruct (cell_okb (cell_below g)), (cell_okb (cell_above g)); cbn;
      repeat constructor; cbn; intuition congruence.
  Qed.

  Lemma sharing_owners tbl types g : in_force tbl types -> gface_ok g ->
    Permutation (sharing (gnodes g) (ec_sides tbl "quad4" cells)) (List.map cube_side (owners g)).
  Proof.
    intros F Hg. rewrite (ec_sides_eq tbl types F). unfold sharing. rewrite filter_map. apply Permutation_map.
    apply NoDup_Permutation.
    - apply NoDup_filter, NoDup_SD.
    - apply NoDup_owners.
    - intros (p, d). rewrite filter_In, in_SD, in_owners. cbn [fst]. split.
      + intros (Hp & E). split; auto. apply same_nodes_perm in E.
        apply gnodes_inj; auto using gf_ok. rewrite E. apply cube_side_nodes.
      + intros (Hp & E). split; auto. apply same_nodes_perm. rewrite <- E. apply cube_side_nodes.
  Qed.

  Lemma side_face tbl types s : in_force tbl types -> In s (ec_sides tbl "quad4" cells) ->
    exists pd, cell_ok (fst pd) /\ s = cube_side pd /\ gface_ok (gf pd) /\ Permutation (gnodes (gf pd)) (fst s).
  Proof.
    intros F H. rewrite (ec_sides_eq tbl types F) in H. apply in_map_iff in H. destruct H as ((p, d) & <- & H).
    apply in_SD in H. exists (p, d).
    split; [exact H|]. split; [reflexivity|]. split; [now apply gf_ok|apply cube_side_nodes].
  Qed.

  Lemma face_side tbl types g : in_force tbl types -> gface_ok g ->
    exists s, In s (ec_sides tbl "quad4" cells) /\ Permutation (gnodes g) (fst s).
  Proof.
    intros F Hg. assert (P := sharing_owners tbl types g F Hg).
    assert (exists pd, In pd (owners g)) as (pd & Hpd).
    { destruct (one_side g Hg) as [H|H].
      - exists (cell_below g, (fst g, true)). apply in_owners. split; auto. apply gf_eq. auto.
      - exists (cell_above g, (fst g, false)). apply in_owners. split; auto. apply gf_eq. auto. }
    exists (cube_side pd). assert (In (cube_side pd) (sharing (gnodes g) (ec_sides tbl "quad4" cells))) as Q.
    { eapply Permutation_in; [symmetry; exact P|]. now apply in_map. }
    apply filter_In in Q. destruct Q as [Q1 Q2]. split; auto. now apply same_nodes_perm.
  Qed.

  Lemma sharing_len tbl types nodes : in_force tbl types ->
    (List.length (sharing nodes (ec_sides tbl "quad4" cells)) <= 2)%nat.
  Proof.
    intros F. destruct (sharing nodes (ec_sides tbl "quad4" cells)) as [|s l] eqn:E; [simpl; lia|].
    assert (Hs : In s (sharing nodes (ec_sides tbl "quad4" cells))) by (rewrite E; simpl; auto).
    apply filter_In in Hs. destruct Hs as [Hs Hn]. destruct (side_face tbl types s F Hs) as (pd & Hp & -> & Hg & P).
    rewrite <- E. rewrite (sharing_perm_arg nodes (gnodes (gf pd))).
    - rewrite (Permutation_length (sharing_owners tbl types (gf pd) F Hg)), map_length. unfold owners.
      destruct (cell_okb _), (cell_okb _); simpl; lia.
    - apply same_nodes_perm. apply same_nodes_perm in Hn. rewrite Hn. now symmetry.
  Qed.

  Lemma cells_types tbl types : in_force tbl types -> cells_of types cells.
  Proof.
    intros F t ed [H|[]]. inv H. exists 8%nat. split; [|reflexivity].
    destruct F as [[_ ->]|[_ ->]]; simpl; tauto.
  Qed.

  Lemma face_types tbl types ft : in_force tbl types -> (has_face_type tbl cells ft <-> ft = "quad4").
  Proof.
    intros F.
    assert (T : dget String.eqb "hexa8" tbl = Some [("tri3", @nil (list Z)); ("quad4", List.map eface dirs)]).
    { destruct F as [[-> _]|[-> _]]; reflexivity. }
    split.
    - intros (t & ed & faces & efs & [H|[]] & Hd & Hin & Hne). inv H. rewrite T in Hd. inv Hd.
      destruct Hin as [H|[H|[]]]; inv H; congruence.
    - intros ->. eexists "hexa8", _, _, _. split; [left; reflexivity|]. split; [exact T|]. split; [right; left; reflexivity|].
      discriminate.
  Qed.

  Lemma other_sides tbl types ft : in_force tbl types -> ft <> "quad4" -> ec_sides tbl ft cells = [].
  Proof.
    intros F N.
    assert (T : dget String.eqb "hexa8" tbl = Some [("tri3", @nil (list Z)); ("quad4", List.map eface dirs)]).
    { destruct F as [[-> _]|[-> _]]; reflexivity. }
    unfold ec_sides, cube_cells. cbn [ec_dict flat_map fst snd]. rewrite app_nil_r. unfold ed_sides. rewrite T.
    destruct (String.eqb ft "quad4") eqn:E; [apply seqb_eq in E; congruence|].
    induction (ed_pairs _) as [|(ci, row) l IH]; auto. cbn [flat_map] in *. rewrite E in *. 
    destruct (String.eqb ft "tri3"); exact IH.
  Qed.

  Lemma cube_no_triple tbl types : in_force tbl types -> no_triple tbl cells.
  Proof.
    intros F ft nodes. destruct (String.eqb ft "quad4") eqn:E.
    - apply seqb_eq in E. subst. now apply (sharing_len tbl types).
    - rewrite (other_sides tbl types ft F); [cbn; lia|]. intros ->. now rewrite String.eqb_refl in E.
  Qed.

  Lemma inner_exists : 2 <= nx * ny * nz -> exists g, gface_ok g /\ ~ on_boundary g.
  Proof.
    intros H2. assert (2 <= nx \/ 2 <= ny \/ 2 <= nz) as Q.
    { destruct (Z_le_dec 2 nx), (Z_le_dec 2 ny), (Z_le_dec 2 nz); try tauto.
      assert (nx = 1) by lia. assert (ny = 1) by lia. assert (nz = 1) by lia. subst. lia. }
    destruct Q as [Q|[Q|Q]]; [exists (AX, P3 1 0 0)|exists (AY, P3 0 1 0)|exists (AZ, P3 0 0 1)];
      (split; [|rewrite boundary_iff]; unfold SimpleSpec.gface_ok, SimpleSpec.cell_ok, in_box; cbn; lia).
  Qed.

  Lemma owners_boundary g : gface_ok g -> on_boundary g -> exists pd, owners g = [pd].
  Proof.
    intros Hg Hb. apply boundary_iff in Hb; auto. assert (O := one_side g Hg). unfold owners.
    rewrite <- !cell_okb_iff in Hb, O. destruct (cell_okb (cell_below g)), (cell_okb (cell_above g)); cbn; eauto; tauto || (destruct O; discriminate).
  Qed.
  Lemma owners_inner g : gface_ok g -> ~ on_boundary g ->
    owners g = [(cell_below g, (fst g, true)); (cell_above g, (fst g, false))] /\ cell_ok (cell_below g) /\ cell_ok (cell_above g).
  Proof.
    intros Hg Hb. rewrite boundary_iff in Hb; auto. unfold owners.
    rewrite <- !cell_okb_iff in Hb |- *. destruct (cell_okb (cell_below g)), (cell_okb (cell_above g)); cbn; auto; exfalso; apply Hb; intros [? ?]; discriminate.
  Qed.

  Lemma boundary_dec g : {on_boundary g} + {~ on_boundary g}.
  Proof.
    destruct g as [[] p].
    - destruct (Z.eq_dec (pi p) 0); [left; exists "imin"; cbn; tauto|].
      destruct (Z.eq_dec (pi p) nx); [left; exists "imax"; cbn; tauto|].
      right. intros (s & _ & H). cbn in H. tauto.
    - destruct (Z.eq_dec (pj p) 0); [left; exists "jmin"; cbn; tauto|].
      destruct (Z.eq_dec (pj p) ny); [left; exists "jmax"; cbn; tauto|].
      right. intros (s & _ & H). cbn in H. tauto.
    - destruct (Z.eq_dec (pk p) 0); [left; exists "kmin"; cbn; tauto|].
      destruct (Z.eq_dec (pk p) nz); [left; exists "kmax"; cbn; tauto|].
      right. intros (s & _ & H). cbn in H. tauto.
  Qed.

  Lemma create_returns tbl types : in_force tbl types -> 2 <= nx * ny * nz ->
    exists fs, ec_create_faces tbl cells = Ok fs /\ faces_spec tbl cells fs.
  Proof.
    intros F H2. destruct (cube_cells_wf nx ny nz Hx Hy Hz) as (W & P & _).
    destruct (faces_returns tbl types cells) as (fs & E); eauto using cells_types, cube_no_triple.
    - intros ft Hft. apply (face_types tbl types) in Hft; auto. subst. destruct (inner_exists H2) as (g & Hg & Hb).
      exists (gnodes g). rewrite (Permutation_length (sharing_owners tbl types g F Hg)), map_length.
      destruct (owners_inner g Hg Hb) as (-> & _). auto.
    - exists fs. split; auto. eapply faces_sound; eauto using cells_types.
  Qed.
End Faces.
