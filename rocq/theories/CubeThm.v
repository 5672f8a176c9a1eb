(** * Faces and marks of the cube, up to the renumbering by mark (C25, C66). *)
From Coq Require Import Permutation Lia ZArith.
From Verif Require Import PyFacts Conn ConnSpec ConnProofs FaceSpec FaceProofs FaceThm FaceTable Mesh MeshSpec MeshProofs
  ReindexProofs FaceSetProofs Simple SimpleSpec SimpleProofs CubeFaces.

Lemma pick {A B} (R : A -> B -> Prop) l : (forall b, In b l -> exists a, R a b) -> exists la, Forall2 R la l.
Proof.
  induction l as [|b l IH]; intros H; [exists []; constructor|].
  destruct (H b) as (a & Ha); [simpl; auto|]. destruct IH as (la & Hl); [intros; apply H; simpl; auto|].
  exists (a :: la). now constructor.
Qed.

Lemma Forall2_of_nth {A B} (R : A -> B -> Prop) la : forall lb, List.length la = List.length lb ->
  (forall n a b, nth_error la n = Some a -> nth_error lb n = Some b -> R a b) -> Forall2 R la lb.
Proof.
  induction la as [|a la IH]; intros [|b lb] L H; try discriminate; constructor.
  - apply (H 0%nat); auto.
  - apply IH; [simpl in L; congruence|]. intros n. apply (H (S n)).
Qed.

Lemma Forall2_in_l {A B} (R : A -> B -> Prop) la lb a : Forall2 R la lb -> In a la -> exists b, In b lb /\ R a b.
Proof. induction 1; intros []; subst; simpl; eauto. destruct IHForall2 as (b & ? & ?); eauto. Qed.
Lemma Forall2_in_r {A B} (R : A -> B -> Prop) la lb b : Forall2 R la lb -> In b lb -> exists a, In a la /\ R a b.
Proof. induction 1; intros []; subst; simpl; eauto. destruct IHForall2 as (b' & ? & ?); eauto. Qed.
Lemma Forall2_impl' {A B} (R R' : A -> B -> Prop) la lb : (forall a b, R a b -> R' a b) -> Forall2 R la lb -> Forall2 R' la lb.
Proof. induction 2; constructor; auto. Qed.

Lemma Forall2_NoDup {A B} (R : A -> B -> Prop) (q : A -> B -> bool) la lb : Forall2 R la lb ->
  (forall a b, In b lb -> R a b -> q a b = true) ->
  (forall a, In a la -> (List.length (filter (q a) lb) <= 1)%nat) -> NoDup la.
Proof.
  induction 1 as [|a b la lb HR H2 IH]; intros Q C; constructor.
  - intros Hin. destruct (Forall2_in_l _ _ _ _ H2 Hin) as (b' & Hb' & HR').
    specialize (C a (or_introl eq_refl)). cbn [filter] in C.
    rewrite (Q a b) in C; simpl; auto. assert (X : In b' (filter (q a) lb)).
    { apply filter_In. split; auto. apply Q; simpl; auto. }
    destruct (filter (q a) lb); [destruct X|simpl in C; lia].
  - apply IH; [intros; apply Q; simpl; auto|]. intros a' Ha'. specialize (C a' (or_intror Ha')). cbn [filter] in C.
    destruct (q a' b); simpl in C; lia.
Qed.

Lemma single_type c t : ec_wf c -> (forall ft, In ft (ec_types c) <-> ft = t) -> exists ed, ec_dict c = [(t, ed)].
Proof.
  intros W H. assert (N := ecwf_keys _ W). unfold ec_types in *.
  destruct (ec_dict c) as [|(t1, ed) d]; [exfalso; apply (H t); auto|].
  assert (t1 = t) by (apply H; simpl; auto). subst.
  destruct d as [|(t2, ed2) d]; [eauto|]. assert (t2 = t) by (apply H; simpl; auto). subst.
  inv N. exfalso. apply H2. simpl; auto.
Qed.

Lemma single_pairs c t ed : ec_dict c = [(t, ed)] ->
  pairs_of_type c t = ec_pairs c /\ ec_pairs c = ed_pairs ed /\ ec_types c = [t].
Proof.
  intros E. unfold pairs_of_type, ec_pairs, ec_types. rewrite E. cbn. rewrite String.eqb_refl, app_nil_r. auto.
Qed.

(** A face set of one type whose pairs are numbered in order. *)
Lemma numbered_pairs c n f nodes : ec_wf c -> ec_numbers c = zrange 0 n ->
  nth_error (ec_pairs c) f = Some nodes -> fst nodes = Z.of_nat f.
Proof.
  intros W N H. rewrite <- ec_numbers_pairs in N by auto.
  assert (E : nth_error (List.map fst (ec_pairs c)) f = Some (fst nodes)) by (rewrite nth_error_map, H; reflexivity).
  rewrite N in E. assert (f < List.length (zrange 0 n))%nat by (apply nth_error_Some; congruence).
  rewrite zrange_length in H0. rewrite nth_error_zrange in E by lia. inv E. lia.
Qed.

Lemma create_ii_ok tbl c fs : ec_create_faces tbl c = Ok fs -> ii_ok (fs_bnd_f2c fs) /\ ii_ok (fs_int_f2c fs).
Proof.
  unfold ec_create_faces. intros H. apply bind_ok in H. destruct H as (fn & _ & H). revert H.
  apply (foldM_inv (fun fs => ii_ok (fs_bnd_f2c fs) /\ ii_ok (fs_int_f2c fs))); [|split; exact I].
  intros s (ft, l) s' _ _ K. apply step_ok in K. destruct K as (_ & mb & mi & K). tauto.
Qed.

Section Thm.
  Context (nx ny nz : Z) (Hx : 1 <= nx) (Hy : 1 <= ny) (Hz : 1 <= nz).
  Notation cell_ok := (cell_ok nx ny nz).
  Notation gface_ok := (gface_ok nx ny nz).
  Notation on_boundary := (on_boundary nx ny nz).
  Notation node_no := (node_no ny nz).
  Notation gnodes := (gface_nodes ny nz).
  Notation cells := (cube_cells nx ny nz).

  (** One face set: its faces are the grid faces satisfying [Q], once each. *)
  Lemma faceset_grid tbl types c c' rows (Q : gface -> Prop) (R : gface -> list Z -> Prop) :
    in_force tbl types ->
    (forall s, In s (ec_sides tbl "quad4" cells) ->
       (List.length (filter (fun p : Z * list Z => same_nodes (fst s) (snd p)) (pairs_of_type c "quad4")) +
        List.length (filter (fun p : Z * list Z => same_nodes (fst s) (snd p)) (pairs_of_type c' "quad4")) = 1)%nat) ->
    ec_wf c -> (forall ft, In ft (ec_types c) <-> has_face_type tbl cells ft) ->
    ec_numbers c = zrange 0 (ec_nelem c) -> zlen rows = ec_nelem c ->
    (forall f nodes, In (f, nodes) (pairs_of_type c "quad4") -> exists g r, gface_ok g /\ Q g /\
       Permutation (gnodes g) nodes /\ nth_error rows (Z.to_nat f) = Some r /\ R g r) ->
    (forall f nodes g, In (f, nodes) (pairs_of_type c' "quad4") -> gface_ok g -> Permutation (gnodes g) nodes -> ~ Q g) ->
    exists gs, (NoDup gs /\ forall g, In g gs <-> gface_ok g /\ Q g) /\ ec_types c = ["quad4"] /\
      zlen gs = ec_nelem c /\ (gs <> [] -> ec_cols (fun _ => 4%nat) c) /\
      Forall2 (fun g p => Permutation (gnodes g) (snd p)) gs (ec_pairs c) /\ Forall2 R gs rows.
  Proof.
    intros F S W Ty Nu Lr Hp Ho.
    destruct (single_type c "quad4" W) as (ed & Ed).
    { intros ft. rewrite Ty. now apply (face_types nx ny nz tbl types). }
    destruct (single_pairs c "quad4" ed Ed) as (E1 & E2 & E3). rewrite E1 in Hp.
    destruct (pick (fun g (p : Z * list Z) => gface_ok g /\ Q g /\ Permutation (gnodes g) (snd p) /\
       exists r, nth_error rows (Z.to_nat (fst p)) = Some r /\ R g r) (ec_pairs c)) as (gs & HG).
    { intros (f, nodes) H. destruct (Hp f nodes H) as (g & r & A & B & C & D & E). exists g. cbn. eauto 10. }
    assert (Hn := ecwf_nelem _ W).
    assert (COV : forall g, gface_ok g -> (List.length (filter (fun p : Z * list Z => same_nodes (gnodes g) (snd p)) (ec_pairs c)) <= 1)%nat /\
              (Q g -> exists p, In p (ec_pairs c) /\ Permutation (gnodes g) (snd p))).
    { intros g Hg. destruct (face_side nx ny nz Hx Hy Hz tbl types g F Hg) as (s & Hs & Hsn).
      assert (CV := S s Hs).
      assert (EQ : forall l : list (Z * list Z), filter (fun p : Z * list Z => same_nodes (gnodes g) (snd p)) l =
                    filter (fun p : Z * list Z => same_nodes (fst s) (snd p)) l).
      { intros l. apply filter_ext. intros p. rewrite !same_nodes_key. now rewrite (proj2 (zsort_perm_iff _ _) Hsn). }
      rewrite EQ. split.
      - rewrite <- E1; lia.
      - intros HQ.
        assert (X : exists p, In p (pairs_of_type c "quad4" ++ pairs_of_type c' "quad4") /\ Permutation (gnodes g) (snd p)).
        { rewrite <- app_length, <- filter_app in CV. destruct (filter _ _) as [|p l] eqn:EF; [discriminate|].
          assert (In p (p :: l)) as Q1 by (simpl; auto). rewrite <- EF in Q1. apply filter_In in Q1. exists p. split; [tauto|].
          rewrite Hsn. apply same_nodes_perm. tauto. }
        destruct X as ((f, nodes) & X1 & X2). apply in_app_iff in X1.
        exists (f, nodes). split; auto. rewrite <- E1. destruct X1 as [X1|X1]; auto. exfalso. now apply (Ho f nodes g). }
    assert (HGok : forall g, In g gs -> gface_ok g /\ Q g).
    { intros g Hg. destruct (Forall2_in_l _ _ _ _ HG Hg) as (p & _ & A). tauto. }
    exists gs. split; [split|].
    - apply (Forall2_NoDup _ (fun g p => same_nodes (gnodes g) (snd p)) gs _ HG).
      + intros a b _ (_ & _ & H & _). now apply same_nodes_perm.
      + intros g Hg. apply COV. now apply HGok.
    - intros g. split; [apply HGok|]. intros (Hg & HQ). destruct (COV g Hg) as (_ & C). destruct (C HQ) as (p & Hin & P).
      destruct (Forall2_in_r _ _ _ _ HG Hin) as (g' & Hg' & (A & _ & B & _)).
      assert (g = g') as ->; auto. apply (gnodes_inj nx ny nz); auto. rewrite P. now symmetry.
    - split; [auto|]. assert (LG := Forall2_length' _ _ _ HG). split; [unfold zlen in *; lia|]. split; [|split].
      + intros NE t ed' Hin. rewrite Ed in Hin. destruct Hin as [Hin|[]].
        assert (t = "quad4" /\ ed' = ed) as [-> ->] by (now inv Hin). clear Hin.
        assert (We : ed_wf ed) by (apply (ecwf_eds _ W "quad4"); rewrite Ed; simpl; auto).
        assert (M := edwf_mat _ We). unfold mat_wf in M.
        destruct gs as [|g gs]; [congruence|]. destruct (ec_pairs c) as [|p ps] eqn:EP; [inversion HG|].
        assert (C : Permutation (gnodes g) (snd p)) by (inversion HG; subst; tauto).
        assert (Hr : In (snd p) (m_rows (ed_e2n ed))).
        { assert (H0 : In p (ed_pairs ed)) by (rewrite <- E2; simpl; auto). destruct p as (f, nd).
          now apply in_combine_r in H0. }
        assert (L4 : List.length (snd p) = 4%nat).
        { rewrite <- (Permutation_length C). unfold gface_nodes. rewrite map_length. now destruct g as [[] []]. }
        destruct (m_cols (ed_e2n ed)) as [k|].
        * rewrite Forall_forall in M. rewrite <- (M _ Hr). congruence.
        * rewrite M in Hr. destruct Hr.
      + eapply Forall2_impl'; [|exact HG]. cbn. tauto.
      + apply Forall2_of_nth; [unfold zlen in *; lia|]. intros n g r Hg Hr.
        assert (exists p, nth_error (ec_pairs c) n = Some p) as (p & Hpn).
        { destruct (nth_error (ec_pairs c) n) eqn:EN; eauto. apply nth_error_None in EN.
          assert (n < List.length gs)%nat by (apply nth_error_Some; congruence). lia. }
        destruct (Forall2_nth_error _ _ _ _ _ _ HG Hg Hpn) as (_ & _ & _ & r' & Hr' & HR).
        assert (E := numbered_pairs c _ n p W Nu Hpn). rewrite E, Nat2Z.id in Hr'. congruence.
  Qed.

  Lemma bnd_face tbl types fs : in_force tbl types -> faces_spec tbl cells fs ->
    forall f nodes, In (f, nodes) (pairs_of_type (fs_bnd fs) "quad4") -> exists g r, gface_ok g /\ on_boundary g /\
       Permutation (gnodes g) nodes /\ nth_error (ii_rows (fs_bnd_f2c fs)) (Z.to_nat f) = Some r /\
       exists p, r = [cell_no ny nz p; -1] /\ cell_ok p /\ (p = cell_below g \/ p = cell_above g).
  Proof.
    intros F S f nodes H. destruct (fsp_bnd_face _ _ _ S _ _ _ H) as (ci & Hr & Hs).
    assert (Hin : In (nodes, ci) (ec_sides tbl "quad4" cells)).
    { assert (X : In (nodes, ci) (sharing nodes (ec_sides tbl "quad4" cells))) by (rewrite Hs; simpl; auto).
      apply filter_In in X. tauto. }
    destruct (side_face nx ny nz Hx Hy Hz tbl types _ F Hin) as (pd & Hp & E & Hg & P). cbn [fst] in P.
    exists (gf pd), [ci; -1]. split; [exact Hg|]. split; [|split; [exact P|split; [exact Hr|]]].
    - destruct (boundary_dec nx ny nz (gf pd)) as [B|B]; auto. exfalso.
      assert (Q := sharing_owners nx ny nz Hx Hy Hz tbl types (gf pd) F Hg). destruct (owners_inner nx ny nz _ Hg B) as (O & _).
      rewrite O in Q. rewrite (sharing_perm_arg _ nodes) in Q by (now apply same_nodes_perm). rewrite Hs in Q.
      apply Permutation_length in Q. discriminate.
    - exists (fst pd). split; [inv E; reflexivity|]. split; [exact Hp|]. destruct pd as [p [a up]].
      assert (G := proj1 (gf_eq p a up _) eq_refl). destruct up; tauto.
  Qed.

  Lemma int_face tbl types fs : in_force tbl types -> faces_spec tbl cells fs ->
    forall f nodes, In (f, nodes) (pairs_of_type (fs_int fs) "quad4") -> exists g r, gface_ok g /\ ~ on_boundary g /\
       Permutation (gnodes g) nodes /\ nth_error (ii_rows (fs_int_f2c fs)) (Z.to_nat f) = Some r /\
       Permutation r [cell_no ny nz (cell_below g); cell_no ny nz (cell_above g)].
  Proof.
    intros F S f nodes H. destruct (fsp_int_face _ _ _ S _ _ _ H) as (c1 & c2 & nodes2 & rest & Hr & Hs).
    assert (Hin : In (nodes, c1) (ec_sides tbl "quad4" cells)).
    { assert (X : In (nodes, c1) (sharing nodes (ec_sides tbl "quad4" cells))) by (rewrite Hs; simpl; auto).
      apply filter_In in X. tauto. }
    destruct (side_face nx ny nz Hx Hy Hz tbl types _ F Hin) as (pd & Hp & E & Hg & P). cbn [fst] in P.
    assert (Q := sharing_owners nx ny nz Hx Hy Hz tbl types (gf pd) F Hg).
    rewrite (sharing_perm_arg _ nodes) in Q by (now apply same_nodes_perm). rewrite Hs in Q.
    assert (B : ~ on_boundary (gf pd)).
    { intros B. destruct (owners_boundary nx ny nz Hx Hy Hz _ Hg B) as (pd' & O). rewrite O in Q.
      apply Permutation_length in Q. discriminate. }
    exists (gf pd), [c1; c2]. split; [exact Hg|]. split; [exact B|]. split; [exact P|]. split; [exact Hr|].
    destruct (owners_inner nx ny nz _ Hg B) as (O & _). rewrite O in Q.
    assert (L := Permutation_length Q). destruct rest; [|discriminate].
    apply (Permutation_map snd) in Q. exact Q.
  Qed.

  (** Same nodes, same face: a face cannot be in both sets. *)
  Lemma grid_unique g g' nodes : gface_ok g -> gface_ok g' -> Permutation (gnodes g) nodes -> Permutation (gnodes g') nodes -> g = g'.
  Proof. intros H H' P P'. apply (gnodes_inj nx ny nz); auto. rewrite P. now symmetry. Qed.

  Theorem cube_create tbl types : in_force tbl types -> 2 <= nx * ny * nz ->
    exists fs gb gi, ec_create_faces tbl cells = Ok fs /\
      cube_faces nx ny nz (FaceSet (fs_bnd fs) (Some (fs_bnd_f2c fs))) (FaceSet (fs_int fs) (Some (fs_int_f2c fs))) gb gi /\
      ec_nelem (fs_bnd fs) = zlen gb /\ ec_nelem (fs_int fs) = zlen gi.
  Proof.
    intros F H2. destruct (create_returns nx ny nz Hx Hy Hz tbl types F H2) as (fs & E & S).
    assert (CV : forall s, In s (ec_sides tbl "quad4" cells) ->
       (List.length (filter (fun p : Z * list Z => same_nodes (fst s) (snd p)) (pairs_of_type (fs_bnd fs) "quad4")) +
        List.length (filter (fun p : Z * list Z => same_nodes (fst s) (snd p)) (pairs_of_type (fs_int fs) "quad4")) = 1)%nat).
    { intros s Hs. rewrite <- app_length, <- filter_app. now apply (fsp_cover _ _ _ S). }
    assert (BF := bnd_face tbl types fs F S). assert (IF := int_face tbl types fs F S).
    destruct (faceset_grid tbl types (fs_bnd fs) (fs_int fs) (ii_rows (fs_bnd_f2c fs)) on_boundary
      (fun g r => exists p, r = [cell_no ny nz p; -1] /\ cell_ok p /\ (p = cell_below g \/ p = cell_above g)))
      as (gb & B1 & B2 & B3 & B4 & B5 & B6); auto; try apply S.
    { intros f nodes g H Hg P. destruct (IF f nodes H) as (g' & r & Hg' & N & P' & _).
      now rewrite (grid_unique g g' nodes). }
    destruct (faceset_grid tbl types (fs_int fs) (fs_bnd fs) (ii_rows (fs_int_f2c fs)) (fun g => ~ on_boundary g)
      (fun g r => Permutation r [cell_no ny nz (cell_below g); cell_no ny nz (cell_above g)]))
      as (gi & I1 & I2 & I3 & I4 & I5 & I6); auto; try apply S.
    { intros s Hs. rewrite Nat.add_comm. now apply CV. }
    { intros f nodes g H Hg P N. destruct (BF f nodes H) as (g' & r & Hg' & N' & P' & _).
      rewrite (grid_unique g g' nodes) in N; auto. }
    assert (NB : gb <> []).
    { assert (In (AX, P3 0 0 0) gb).
      { apply B1. split; [unfold SimpleSpec.gface_ok, in_box; cbn; lia|]. exists "imin". cbn. tauto. }
      intros ->. destruct H. }
    assert (NI : gi <> []).
    { destruct (inner_exists nx ny nz Hx Hy Hz H2) as (g & Hg & N). intros ->.
      assert (X : In g []) by (apply I1; auto). destruct X. }
    exists fs, gb, gi. split; [exact E|]. split; [|auto].
    assert (SW := fsp_bnd_wf _ _ _ S). assert (SI := fsp_int_wf _ _ _ S).
    assert (OB : exists mb, fs_bnd_f2c fs = Some mb /\ m_cols mb = Some 2%nat).
    { assert (Z := create_ii_ok tbl cells fs E). destruct gb; [congruence|]. apply Forall2_length' in B6.
      destruct (fs_bnd_f2c fs) as [mb|]; [|discriminate]. exists mb. split; auto. apply Z. }
    assert (OI : exists mi, fs_int_f2c fs = Some mi /\ m_cols mi = Some 2%nat).
    { assert (Z := create_ii_ok tbl cells fs E). destruct gi; [congruence|]. apply Forall2_length' in I6.
      destruct (fs_int_f2c fs) as [mb|]; [|discriminate]. exists mb. split; auto. apply Z. }
    destruct OB as (mb & OB1 & OB2), OI as (mi & OI1 & OI2). rewrite OB1 in B6. rewrite OI1 in I6. cbn [ii_rows] in B6, I6.
    constructor; cbn [f_f2n f_f2c]; auto.
    - tauto.
    - tauto.
    - rewrite (fsp_bnd_numbers _ _ _ S), B3. reflexivity.
    - rewrite (fsp_int_numbers _ _ _ S), I3. reflexivity.
    - exists mb. rewrite OB1. auto.
    - exists mi. rewrite OI1. auto.
  Qed.
End Thm.
