(** * The cube made ready for the writers: renumbered faces and mixed export (C66). *)
From Coq Require Import Permutation Lia ZArith.
From Verif Require Import PyFacts Conn ConnSpec ConnProofs FaceSpec FaceProofs FaceTable FaceThm Mesh MeshSpec MeshProofs
  ReindexProofs FaceSetProofs Simple SimpleSpec SimpleProofs CubeFaces CubeThm CubeMarks.

Section Ready.
  Context (nx ny nz : Z) (Hx : 1 <= nx) (Hy : 1 <= ny) (Hz : 1 <= nz) {F : Type}.
  Notation gface_ok := (gface_ok nx ny nz).
  Notation on_side := (on_side nx ny nz).
  Notation gnodes := (gface_nodes ny nz).

  Lemma nth_inj_faces (gb : list gface) f f' g : NoDup gb -> 0 <= f -> 0 <= f' ->
    nth_error gb (Z.to_nat f) = Some g -> nth_error gb (Z.to_nat f') = Some g -> f = f'.
  Proof.
    intros N H H' E E'. assert (Z.to_nat f = Z.to_nat f'); [|lia].
    apply (proj1 (NoDup_nth_error gb) N); [apply nth_error_Some; congruence|congruence].
  Qed.

  Lemma mark_size gb (bs : dict string (mark F)) s b : boundary_faces nx ny nz gb -> cube_marks nx ny nz gb bs ->
    In (s, b) bs -> zlen (mk_entries b) = side_size nx ny nz s.
  Proof.
    intros BF (K & M) Hin. destruct (M s b Hin) as (_ & _ & _ & _ & N & E).
    assert (Hs : In s sides) by (rewrite <- K; unfold dkeys; apply in_map_iff; exists (s, b); auto).
    rewrite <- (len_side_faces nx ny nz Hx Hy Hz s Hs).
    set (d := (AX, P3 0 0 0) : gface).
    rewrite <- (zlen_map (fun f => nth (Z.to_nat f) gb d) (mk_entries b)). apply zlen_perm. apply NoDup_Permutation.
    - apply NoDup_map_inj_in; auto. intros f f' H H' Q. apply E in H, H'.
      destruct H as (g & H1 & H2 & _), H' as (g' & H1' & H2' & _).
      rewrite (nth_error_nth _ _ d H2), (nth_error_nth _ _ d H2') in Q. subst g'.
      apply (nth_inj_faces gb f f' g); auto. apply BF.
    - apply NoDup_side_faces.
    - intros g. rewrite in_map_iff, (in_side_faces nx ny nz Hx Hy Hz s g Hs). split.
      + intros (f & <- & H). apply E in H. destruct H as (g & H1 & H2 & H3).
        rewrite (nth_error_nth _ _ d H2). split; auto. apply (proj2 BF). now apply nth_error_In in H2.
      + intros (Hg & O). assert (H : In g gb) by (apply (proj2 BF); split; auto; exists s; auto).
        apply In_nth_error in H. destruct H as (n & H). exists (Z.of_nat n). rewrite Nat2Z.id.
        split; [now apply nth_error_nth|]. apply E. exists g. rewrite Nat2Z.id. split; [lia|auto].
  Qed.

  Lemma all_marked_perm gb (m : mesh F) : boundary_faces nx ny nz gb -> cube_marks nx ny nz gb (me_bocos m) ->
    Permutation (all_marked m) (zrange 0 (zlen gb)).
  Proof.
    intros BF (K & M). apply NoDup_Permutation; [|apply NoDup_zrange|].
    - unfold all_marked. 
      assert (ND : NoDup (dkeys (me_bocos m))).
      { rewrite K. unfold sides. repeat constructor; cbn [In]; intuition discriminate. }
      apply NoDup_flat_map.
      + unfold dkeys in ND. now apply NoDup_map_inv in ND.
      + intros (s, b) Hin. apply (M s b Hin).
      + intros (s, b) (s', b') f Hin Hin' H H'. cbn [snd] in *.
        destruct (M s b Hin) as (_ & _ & _ & _ & _ & E), (M s' b' Hin') as (_ & _ & _ & _ & _ & E').
        apply E in H. apply E' in H'. destruct H as (g & _ & H & O), H' as (g' & _ & H' & O').
        assert (g = g') by congruence. subst g'. assert (s = s') by (eapply (one_side_only nx ny nz); eauto). subst s'.
        f_equal. assert (X := Hin). assert (X' := Hin').
        apply (in_dget String.eqb String.eqb_eq) in X; auto. apply (in_dget String.eqb String.eqb_eq) in X'; auto. congruence.
    - intros f. rewrite in_zrange. unfold all_marked. rewrite in_flat_map. split.
      + intros ((s, b) & Hin & H). destruct (M s b Hin) as (_ & _ & _ & _ & _ & E). apply E in H.
        destruct H as (g & H0 & H & _). assert (Z.to_nat f < List.length gb)%nat by (apply nth_error_Some; congruence).
        unfold zlen. lia.
      + intros Hf. destruct (nth_error gb (Z.to_nat f)) as [g|] eqn:Hg.
        2:{ apply nth_error_None in Hg. unfold zlen in Hf. lia. }
        assert (B := nth_error_In _ _ Hg). apply (proj2 BF) in B. destruct B as (Hok & s & Hs & O).
        rewrite <- K in Hs. unfold dkeys in Hs. apply in_map_iff in Hs. destruct Hs as ((s', b) & Es & Hin). cbn in Es. subst s'.
        exists (s, b). split; auto. apply (M s b Hin). exists g. split; [lia|auto].
  Qed.

  Lemma range_entries (b : mark F) lo hi : mk_index b = Some (ILrange lo hi) -> lo <= hi -> zlen (mk_entries b) = hi - lo + 1.
  Proof. intros E H. unfold mk_entries. rewrite E. cbn [entries]. rewrite zlen_zrange; lia. Qed.

  Lemma sizes_ranges (bs : dict string (mark F)) : dkeys bs = sides ->
    (forall s b, In (s, b) bs -> zlen (mk_entries b) = side_size nx ny nz s) ->
    contiguous 0 (List.map snd bs) -> List.map (fun kb => (fst kb, mk_index (snd kb))) bs = cube_ranges nx ny nz.
  Proof.
    intros K S C. unfold dkeys, sides in K.
    destruct bs as [|[k1 b1] [|[k2 b2] [|[k3 b3] [|[k4 b4] [|[k5 b5] [|[k6 b6] [|]]]]]]]; try discriminate K.
    cbn [List.map fst] in K. inversion K; subst. clear K. cbn [List.map snd] in C.
    destruct C as (h1 & I1 & L1 & h2 & I2 & L2 & h3 & I3 & L3 & h4 & I4 & L4 & h5 & I5 & L5 & h6 & I6 & L6 & _).
    assert (S1 := S "imin" b1). assert (S2 := S "imax" b2). assert (S3 := S "jmin" b3).
    assert (S4 := S "jmax" b4). assert (S5 := S "kmin" b5). assert (S6 := S "kmax" b6). clear S.
    rewrite (range_entries _ _ _ I1 L1) in S1. rewrite (range_entries _ _ _ I2 L2) in S2.
    rewrite (range_entries _ _ _ I3 L3) in S3. rewrite (range_entries _ _ _ I4 L4) in S4.
    rewrite (range_entries _ _ _ I5 L5) in S5. rewrite (range_entries _ _ _ I6 L6) in S6.
    cbn [In] in *. unfold side_size in *. cbn [dget String.eqb Ascii.eqb Bool.eqb] in *.
    specialize (S1 ltac:(tauto)). specialize (S2 ltac:(tauto)). specialize (S3 ltac:(tauto)).
    specialize (S4 ltac:(tauto)). specialize (S5 ltac:(tauto)). specialize (S6 ltac:(tauto)).
    cbn [List.map fst snd]. rewrite I1, I2, I3, I4, I5, I6. unfold cube_ranges.
    clear I1 I2 I3 I4 I5 I6. 
    repeat match goal with
      | |- _ :: _ = _ :: _ => apply f_equal2
      | |- (_, _) = (_, _) => apply f_equal2; [reflexivity|]
      | |- Some _ = Some _ => apply f_equal
      | |- ILrange _ _ = ILrange _ _ => apply f_equal2
      end; try reflexivity; lia.
  Qed.

  Lemma contiguous_range (bs : list (mark F)) : forall start b, contiguous start bs -> In b bs ->
    exists lo hi, mk_index b = Some (ILrange lo hi) /\ lo <= hi.
  Proof.
    induction bs as [|b0 bs IH]; intros start b C []; destruct C as (hi & E & L & C); [subst; eauto|eauto].
  Qed.

  Theorem cube_reindexed (m : mesh F) b i gb gi : me_faces m = [("internal", i); ("boundary", b)] ->
    cube_faces nx ny nz b i gb gi -> cube_marks nx ny nz gb (me_bocos m) ->
    exists num m' b', reindex_boundaryfaces m = (Ok tt, m') /\ renumbered num (zlen gb) m m' b b' /\
      cube_sorted nx ny nz m' b'.
  Proof.
    intros EF CF CM. destruct (cf_bwf _ _ _ _ _ _ _ CF) as (W & P & T & CC).
    destruct (cf_bcells _ _ _ _ _ _ _ CF) as (mb & E2c & Ecols & Rows).
    assert (BF := cf_gb _ _ _ _ _ _ _ CF).
    assert (LP : zlen gb = zlen (ec_pairs (f_f2n b))).
    { unfold zlen. f_equal. apply Forall2_length' with (1 := cf_bnodes _ _ _ _ _ _ _ CF). }
    assert (LN : ec_nelem (f_f2n b) = zlen gb) by (rewrite (ecwf_nelem _ W); auto).
    assert (POS : 0 < zlen gb). { rewrite (boundary_count nx ny nz Hx Hy Hz gb BF). nia. }
    destruct (reindex_ok m b mb) as (num & m' & b' & E & R); rewrite ?LN; auto.
    { constructor; auto.
      - rewrite EF. reflexivity.
      - rewrite (proj1 CM). unfold sides. repeat constructor; cbn [In]; intuition discriminate.
      - intros s k Hin. destruct (proj2 CM s k Hin) as (_ & G & _ & MO & _). split; auto. unfold on_faces, face_or_bdface. now rewrite G. }
    { unfold zlen. f_equal. symmetry. apply Forall2_length' with (1 := Rows). }
    { intros s k Hin X. assert (S := mark_size gb _ s k BF CM Hin). rewrite X, zlen_nil in S.
      assert (Hs : In s sides) by (rewrite <- (proj1 CM); unfold dkeys; apply in_map_iff; exists (s, k); auto).
      unfold sides in Hs. cbn [In] in Hs. unfold side_size in S.
      destruct Hs as [<-|[<-|[<-|[<-|[<-|[<-|[]]]]]]]; cbn [dget String.eqb Ascii.eqb Bool.eqb] in S; nia. }
    { rewrite (cf_bnum _ _ _ _ _ _ _ CF). auto. }
    { now apply all_marked_perm. }
    rewrite LN in R. exists num, m', b'. split; auto. split; auto.
    assert (KM : dkeys (me_bocos m') = sides).
    { rewrite <- (proj1 CM). assert (X := rn_marks _ _ _ _ _ _ R). clear - X. unfold dkeys.
      induction X; cbn [List.map]; auto. f_equal; auto. apply H. }
    assert (RG : List.map (fun kb => (fst kb, mk_index (snd kb))) (me_bocos m') = cube_ranges nx ny nz).
    { apply sizes_ranges; auto; [|apply (rn_contiguous _ _ _ _ _ _ R)].
      intros s k' Hin. destruct (Forall2_in_r _ _ _ _ (rn_marks _ _ _ _ _ _ R) Hin) as ((s0 & k) & Hin0 & Q).
      cbn [fst snd] in Q. destruct Q as (<- & _ & _ & _ & _ & Q). rewrite Q, zlen_map. now apply (mark_size gb (me_bocos m)). }
    split; auto. destruct (rn_f2c _ _ _ _ _ _ R) as (mt & mt' & F1 & F2 & F3 & F4 & F5).
    rewrite E2c in F1. inv F1. exists mt'. split; auto. split; [congruence|].
    intros n nodes Hin. rewrite (rn_pairs _ _ _ _ _ _ R) in Hin. apply in_map_iff in Hin. destruct Hin as ((f & ns) & Ef & Hin).
    cbn [fst snd] in Ef. inv Ef.
    assert (Hp : In (f, nodes) (ec_pairs (f_f2n b))).
    { unfold pairs_of_type in Hin. apply in_flat_map in Hin. destruct Hin as (kv & Hkv & Hin).
      unfold ec_pairs. apply in_flat_map. exists kv. split; auto. destruct (String.eqb _ _); [auto|destruct Hin]. }
    apply In_nth_error in Hp. destruct Hp as (k & Hk).
    assert (Ek := numbered_pairs _ _ _ _ W (cf_bnum _ _ _ _ _ _ _ CF) Hk). cbn [fst] in Ek.
    assert (Kb : (k < List.length gb)%nat).
    { assert (k < List.length (ec_pairs (f_f2n b)))%nat by (apply nth_error_Some; congruence). unfold zlen in LP. lia. }
    destruct (nth_error gb k) as [g|] eqn:Hg; [|apply nth_error_None in Hg; lia].
    assert (PP := Forall2_nth_error _ _ _ _ _ _ (cf_bnodes _ _ _ _ _ _ _ CF) Hg Hk). cbn [snd] in PP.
    assert (B := nth_error_In _ _ Hg). apply (proj2 BF) in B. destruct B as (Hok & s & Hs & O).
    assert (Hs0 := Hs). rewrite <- KM in Hs. unfold dkeys in Hs. apply in_map_iff in Hs. destruct Hs as ((s' & b2) & Es & Hb2). cbn in Es. subst s'.
    destruct (Forall2_in_r _ _ _ _ (rn_marks _ _ _ _ _ _ R) Hb2) as ((s1 & b1) & Hb1 & Q). cbn [fst snd] in Q.
    destruct Q as (-> & _ & _ & _ & _ & Q).
    assert (IN : In (num f) (mk_entries b2)).
    { rewrite Q. apply in_map. apply (proj2 CM s1 b1 Hb1). exists g. split; [lia|]. subst f. rewrite Nat2Z.id. auto. }
    destruct (contiguous_range _ 0 b2 (rn_contiguous _ _ _ _ _ _ R)) as (lo & hi & EI & LH).
    { apply in_map_iff. exists (s1, b2). auto. }
    assert (IR := IN). unfold mk_entries in IR. rewrite EI in IR. cbn [entries] in IR. apply in_zrange in IR.
    assert (RK : nth_error (m_rows mt') (Z.to_nat (num f)) = nth_error (m_rows mt) k).
    { rewrite F5; [|unfold zlen; lia]. subst f. now rewrite Nat2Z.id. }
    destruct (nth_error (m_rows mt) k) as [r|] eqn:Hr.
    2:{ apply nth_error_None in Hr. assert (X := Forall2_length' _ _ _ Rows). lia. }
    destruct (Forall2_nth_error _ _ _ _ _ _ Rows Hg Hr) as (p & -> & Hp & Adj).
    exists g, s1, lo, hi, p. split; auto. split; [|split; [lia|auto]].
    rewrite <- RG. apply in_map_iff. exists (s1, b2). cbn [fst snd]. rewrite EI. auto.
  Qed.

  (** Both sets are quadrangles: the mixed export works. *)
  Theorem cube_mixed (m m' : mesh F) b i gb gi num b' : me_faces m = [("internal", i); ("boundary", b)] ->
    cube_faces nx ny nz b i gb gi -> renumbered num (zlen gb) m m' b b'->
    exists con mc, export_mixedfaces m' = Ok (con, Some mc) /\ ec_nelem con = zlen gb + zlen gi.
  Proof.
    intros EF CF R. destruct (cf_bwf _ _ _ _ _ _ _ CF) as (W & P & T & CC).
    destruct (rn_wf _ _ _ _ _ _ R) as [W' P'].
    assert (C' : ec_cols (fun _ => 4%nat) (f_f2n b')).
    { intros t ed Hin. assert (X : In (t, ed_e2n ed) (List.map (fun kv => (fst kv, ed_e2n (snd kv))) (ec_dict (f_f2n b')))).
      { apply in_map_iff. exists (t, ed). auto. }
      rewrite (rn_arrays _ _ _ _ _ _ R) in X. apply in_map_iff in X. destruct X as ((t', ed') & E & X). injection E as -> <-.
      exact (CC t ed' X). }
    assert (N' : Permutation (ec_numbers (f_f2n b')) (zrange 0 (zlen gb))).
    { rewrite (rn_numbers _ _ _ _ _ _ R), (cf_bnum _ _ _ _ _ _ _ CF). apply (rn_bij _ _ _ _ _ _ R). }
    destruct (cf_iwf _ _ _ _ _ _ _ CF) as (Wi & Pi & Ti & CCi).
    destruct (cf_icells _ _ _ _ _ _ _ CF) as (mi & Ei & Eicols & Rows).
    destruct (cf_bcells _ _ _ _ _ _ _ CF) as (mb & Eb & Ebcols & Rowsb).
    assert (LP : zlen gb = ec_nelem (f_f2n b)).
    { rewrite (ecwf_nelem _ W). unfold zlen. f_equal. apply Forall2_length' with (1 := cf_bnodes _ _ _ _ _ _ _ CF). }
    assert (LI : zlen gi = ec_nelem (f_f2n i)).
    { rewrite (ecwf_nelem _ Wi). unfold zlen. f_equal. apply Forall2_length' with (1 := cf_inodes _ _ _ _ _ _ _ CF). }
    destruct (rn_f2c _ _ _ _ _ _ R) as (mt & mt' & F1 & F2 & F3 & F4 & F5). rewrite Eb in F1. inv F1.
    destruct (export_mixed_ok m' (fun _ => 4%nat) b' i mt' mi) as (con & mc & E & _ & _ & N & _); auto.
    - apply (rn_bnd _ _ _ _ _ _ R).
    - rewrite (rn_other _ _ _ _ _ _ R) by discriminate. rewrite EF. reflexivity.
    - congruence.
    - rewrite (rn_nelem _ _ _ _ _ _ R), F4. auto.
    - rewrite <- LI. unfold zlen. f_equal. symmetry. apply Forall2_length' with (1 := Rows).
    - rewrite (rn_nelem _ _ _ _ _ _ R), <- LP. auto.
    - rewrite (cf_inum _ _ _ _ _ _ _ CF), LI. auto.
    - exists con, mc. split; auto. rewrite N, (rn_nelem _ _ _ _ _ _ R). lia.
  Qed.
End Ready.

(** The whole preparation of a cube for the writers. *)
Theorem cube_ready {F} (fdiv : Z -> Z -> F) nx ny nz tbl types enum (m : mesh F) name :
  in_force tbl types -> set_enum enum -> 1 <= nx -> 1 <= ny -> 1 <= nz -> 2 <= nx * ny * nz -> cube_export nx ny nz fdiv = Ok m ->
  exists m1 m2 m3 f con mc,
    make_face_connectivity tbl m = (Ok tt, m1) /\ bocomarks_set_node_to_face m1 = (Ok tt, m2) /\
    make_unmarked_BC enum name m2 = (Ok [], m2) /\ mesh_check enum m2 = (Ok true, m2) /\
    reindex_boundaryfaces m2 = (Ok tt, m3) /\ dget String.eqb "boundary" (me_faces m3) = Some f /\
    cube_sorted nx ny nz m3 f /\ export_mixedfaces m3 = Ok (con, Some mc) /\
    ec_nelem con = (nx + 1) * ny * nz + nx * (ny + 1) * nz + nx * ny * (nz + 1).
Proof.
  intros IF SE Hx Hy Hz H2 E. destruct (cube_ok nx ny nz Hx Hy Hz fdiv) as (m0 & E0 & C). rewrite E in E0. injection E0 as <-.
  destruct (cube_faces_mesh nx ny nz Hx Hy Hz fdiv tbl types m IF H2 C)
    as (m1 & b & i & gb & gi & E1 & EF & CF & Nb & Ni & Nf & R1 & R2 & R3 & R4 & R5).
  destruct (cube_marks_mesh nx ny nz fdiv m m1 _ b i gb gi C R5 EF CF) as (m2 & E2 & S2 & CM).
  assert (EF2 : me_faces m2 = [("internal", i); ("boundary", b)]) by (rewrite (sb_faces _ _ S2); auto).
  destruct (cube_reindexed nx ny nz Hx Hy Hz m2 b i gb gi EF2 CF CM) as (num & m3 & b' & E3 & RN & CS).
  destruct (cube_mixed nx ny nz m2 m3 b i gb gi num b' EF2 CF RN) as (con & mc & E4 & N4).
  destruct (cf_bwf _ _ _ _ _ _ _ CF) as (W & P & T & CC).
  assert (FM : face_marked m2 b).
  { constructor; auto.
    - rewrite EF2. reflexivity.
    - rewrite (proj1 CM). unfold sides. repeat constructor; cbn [In]; intuition discriminate.
    - intros s k Hin. destruct (proj2 CM s k Hin) as (_ & G & _ & MO & _). split; auto. unfold on_faces, face_or_bdface. now rewrite G. }
  assert (AM : forall f, In f (ec_numbers (f_f2n b)) -> marked m2 f).
  { intros f Hf. apply all_marked_iff. rewrite (cf_bnum _ _ _ _ _ _ _ CF) in Hf.
    eapply Permutation_in; [|exact Hf]. symmetry. apply (all_marked_perm nx ny nz); auto. apply (cf_gb _ _ _ _ _ _ _ CF). }
  exists m1, m2, m3, b', con, mc. split; auto. split; auto. split.
  { rewrite (make_unmarked_eq enum _ m2 b FM). assert (Hmi := fun i => missing_iff enum m2 b i SE).
    destruct (enum _) as [|y l']; auto.
    exfalso. destruct (proj1 (Hmi y) (or_introl eq_refl)) as [Hy1 Hy2]. auto. }
  split.
  { apply (mesh_check_all_marked enum m2 b); auto. apply (counts_ok_same m1); auto. unfold counts_ok.
    rewrite R1, R2, R3. rewrite (cu_ncell _ _ _ _ _ _ C), (cu_nnode _ _ _ _ _ _ C).
    destruct (cu_cells _ _ _ _ _ _ C) as (-> & _ & _ & _ & _ & NE). split; [lia|]. split; [nia|]. intros c' Q. assert (Q' := f_equal (option_map ec_nelem) Q). cbn [option_map] in Q'. congruence. }
  split; auto. split; [apply (rn_bnd _ _ _ _ _ _ RN)|]. split; auto. split; auto.
  rewrite N4, (boundary_count nx ny nz Hx Hy Hz gb (cf_gb _ _ _ _ _ _ _ CF)),
    (inner_count nx ny nz Hx Hy Hz gi (cf_gi _ _ _ _ _ _ _ CF)). ring.
Qed.

Lemma cube_single {F} (fdiv : Z -> Z -> F) tbl types (m : mesh F) : in_force tbl types ->
  cube_export 1 1 1 fdiv = Ok m -> make_face_connectivity tbl m = (Err AssertionError, m).
Proof.
  intros IF E. assert (H1 : 1 <= 1) by lia.
  destruct (cube_ok 1 1 1 H1 H1 H1 fdiv) as (m0 & E0 & C). rewrite E in E0. injection E0 as <-.
  unfold make_face_connectivity. rewrite (proj1 (cu_cells _ _ _ _ _ _ C)).
  assert (X : ec_create_faces tbl (cube_cells 1 1 1) = Err AssertionError); [|now rewrite X].
  destruct IF as [[-> ->]|[-> ->]]; vm_compute; reflexivity.
Qed.

(** ** Statements for the whole of the parameters *)

Lemma node_numbers nx ny nz : 1 <= nx -> 1 <= ny -> 1 <= nz ->
  List.map (fun '(i, j, k) => nodeglobindex ny nz i j k) (nodes_ijk nx ny nz) = zrange 0 (cube_nnode nx ny nz).
Proof.
  intros Hx Hy Hz. unfold nodes_ijk, cube_nnode. rewrite <- (map_rank_box (nx + 1) (ny + 1) (nz + 1)) by lia.
  apply map_ext. intros ((i, j), k). apply nodeglob_no.
Qed.
Lemma cell_numbers nx ny nz : 1 <= nx -> 1 <= ny -> 1 <= nz ->
  List.map (fun '(i, j, k) => elemglobindex ny nz i j k) (elem_ijk nx ny nz) = zrange 0 (cube_ncell nx ny nz).
Proof.
  intros Hx Hy Hz. unfold elem_ijk, cube_ncell. rewrite <- (map_rank_box nx ny nz) by lia.
  apply map_ext. intros ((i, j), k). apply elemglob_no.
Qed.
Lemma nodes_bijective nx ny nz : 1 <= nx -> 1 <= ny -> 1 <= nz ->
  (forall p q, in_box (nx + 1) (ny + 1) (nz + 1) p -> in_box (nx + 1) (ny + 1) (nz + 1) q ->
     nodeglobindex ny nz (pi p) (pj p) (pk p) = nodeglobindex ny nz (pi q) (pj q) (pk q) -> p = q) /\
  (forall n, 0 <= n < cube_nnode nx ny nz ->
     exists p, in_box (nx + 1) (ny + 1) (nz + 1) p /\ nodeglobindex ny nz (pi p) (pj p) (pk p) = n).
Proof.
  intros Hx Hy Hz. split.
  - intros [i j k] [i' j' k'] H H' E. cbn [pi pj pk] in E. rewrite !nodeglob_no in E. now apply (rank3_inj (nx + 1)) in E.
  - intros n Hn. destruct (rank3_onto (nx + 1) (ny + 1) (nz + 1) n Hn ltac:(lia) ltac:(lia)) as ([i j k] & Hp & E).
    exists (P3 i j k). split; auto. cbn [pi pj pk]. now rewrite nodeglob_no.
Qed.
Lemma cube_exported F (fdiv : Z -> Z -> F) nx ny nz : 1 <= nx -> 1 <= ny -> 1 <= nz ->
  exists m c, cube_export nx ny nz fdiv = Ok m /\ is_cube nx ny nz fdiv m c.
Proof. intros Hx Hy Hz. destruct (cube_ok nx ny nz Hx Hy Hz fdiv) as (m & E & C). eauto. Qed.
Lemma cube_faces_thm F (fdiv : Z -> Z -> F) nx ny nz tbl types m :
  in_force tbl types -> 1 <= nx -> 1 <= ny -> 1 <= nz -> 2 <= nx * ny * nz -> cube_export nx ny nz fdiv = Ok m ->
  exists m1 b i gb gi, make_face_connectivity tbl m = (Ok tt, m1) /\
    me_faces m1 = [("internal", i); ("boundary", b)] /\ cube_faces nx ny nz b i gb gi /\
    ec_nelem (f_f2n b) = 2 * (nx * ny + ny * nz + nx * nz) /\
    ec_nelem (f_f2n i) = (nx - 1) * ny * nz + nx * (ny - 1) * nz + nx * ny * (nz - 1) /\
    me_nface m1 = ec_nelem (f_f2n b) + ec_nelem (f_f2n i).
Proof.
  intros IF Hx Hy Hz H2 E. destruct (cube_ok nx ny nz Hx Hy Hz fdiv) as (m0 & E0 & C). rewrite E in E0. injection E0 as <-.
  destruct (cube_faces_mesh nx ny nz Hx Hy Hz fdiv tbl types m IF H2 C)
    as (m1 & b & i & gb & gi & E1 & EF & CF & Nb & Ni & Nf & _).
  exists m1, b, i, gb, gi. split; auto. split; auto. split; auto. rewrite Nb, Ni. split; [|split; auto].
  - apply boundary_count; auto. apply CF.
  - apply inner_count; auto. apply CF.
Qed.
Lemma cube_marks_thm F (fdiv : Z -> Z -> F) nx ny nz tbl types m :
  in_force tbl types -> 1 <= nx -> 1 <= ny -> 1 <= nz -> 2 <= nx * ny * nz -> cube_export nx ny nz fdiv = Ok m ->
  exists m1 m2 b i gb gi, make_face_connectivity tbl m = (Ok tt, m1) /\
    me_faces m1 = [("internal", i); ("boundary", b)] /\ cube_faces nx ny nz b i gb gi /\
    bocomarks_set_node_to_face m1 = (Ok tt, m2) /\ same_but_bocos m1 m2 /\ cube_marks nx ny nz gb (me_bocos m2).
Proof.
  intros IF Hx Hy Hz H2 E. destruct (cube_ok nx ny nz Hx Hy Hz fdiv) as (m0 & E0 & C). rewrite E in E0. injection E0 as <-.
  destruct (cube_faces_mesh nx ny nz Hx Hy Hz fdiv tbl types m IF H2 C)
    as (m1 & b & i & gb & gi & E1 & EF & CF & _ & _ & _ & _ & _ & _ & _ & R5).
  destruct (cube_marks_mesh nx ny nz fdiv m m1 _ b i gb gi C R5 EF CF) as (m2 & E2 & S2 & CM).
  exists m1, m2, b, i, gb, gi. auto 10.
Qed.
Lemma one_side_thm nx ny nz g : 1 <= nx -> 1 <= ny -> 1 <= nz ->
  gface_ok nx ny nz g -> on_boundary nx ny nz g ->
  exists s, In s sides /\ on_side nx ny nz s g /\ forall s', on_side nx ny nz s' g -> s' = s.
Proof. intros. now apply boundary_one_side. Qed.
