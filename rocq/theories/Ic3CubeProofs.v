(** * Cubes written to IC3 files (C26). *)
From Coq Require Import ZArith List Bool String Lia Permutation.
From Verif Require Import Py PyFacts Conn ConnSpec ConnProofs CsrProofs FaceSpec FaceProofs FaceTable FaceThm Mesh MeshSpec MeshProofs ReindexProofs FaceSetProofs
  Simple SimpleSpec SimpleProofs CubeFaces CubeThm CubeMarks CubeReady
  Ic3Bytes Ic3 Ic3HeaderSpec Ic3FileSpec Ic3RoundSpec Ic3MeshProofs Ic3FileThm Ic3FileProps Ic3OkSpec Ic3OkProofs Ic3CubeSpec.

(** A table with the keys 0..n-1 in any order, sorted. *)
Lemma list_choice {A B} (P : A -> B -> Prop) l : (forall a, In a l -> exists b, P a b) -> exists bs, Forall2 P l bs.
Proof.
  induction l as [| a l IH]; intros H; [exists []; constructor |]. destruct (H a (or_introl eq_refl)) as (b & Pb).
  destruct IH as (bs & F); [intros a' I; apply H; right; exact I |]. exists (b :: bs). constructor; assumption.
Qed.
Lemma rank_table {A} (L : list (Z * A)) n : Permutation (List.map fst L) (zrange 0 n) -> exists vs, zlen vs = Z.max 0 n /\ Permutation L (ranked vs).
Proof.
  intros P. destruct (list_choice (fun k v => In (k, v) L) (zrange 0 n)) as (vs & F).
  { intros k I. apply (Permutation_in _ (Permutation_sym P)) in I. apply in_map_iff in I. destruct I as ((k', v) & <- & I). exists v. exact I. }
  assert (LV : zlen vs = Z.max 0 n).
  { apply Forall2_length' in F. unfold zlen. rewrite <- F, zrange_length. lia. }
  exists vs. split; [exact LV |]. assert (ND : NoDup (List.map fst L)) by (eapply Permutation_NoDup; [symmetry; exact P | apply NoDup_zrange]).
  symmetry. apply NoDup_Permutation_bis.
  - apply NoDup_map_inv with (f := fst). rewrite map_fst_ranked. apply NoDup_zrange.
  - apply Permutation_length in P. rewrite map_length, zrange_length in P. unfold ranked. rewrite combine_length, zrange_length. unfold zlen in LV |- *. lia.
  - intros (k, v) I. apply ranked_nth in I. destruct I as (K & I).
    assert (B : (Z.to_nat k < List.length vs)%nat) by (apply nth_error_Some; congruence).
    assert (E : nth_error (zrange 0 n) (Z.to_nat k) = Some k).
    { rewrite nth_error_zrange; [f_equal; lia |]. unfold zlen in LV. lia. }
    exact (Forall2_nth_error _ _ _ _ _ _ F E I).
Qed.

Lemma nth_combine {A B} : forall (l : list A) (l' : list B) j x, nth_error (combine l l') j = Some x -> nth_error l j = Some (fst x) /\ nth_error l' j = Some (snd x).
Proof.
  induction l as [| a l IH]; intros [| b l'] j x H; try (destruct j; discriminate H). destruct j as [| j]; [inversion H; auto | exact (IH l' j x H)].
Qed.
Lemma combine_nth_ok {A B} : forall (l : list A) (l' : list B) j a b, nth_error l j = Some a -> nth_error l' j = Some b -> nth_error (combine l l') j = Some (a, b).
Proof.
  induction l as [| x l IH]; intros [| y l'] j a b H H'; try (destruct j; discriminate). destruct j as [| j]; cbn in *; [congruence | auto].
Qed.
Lemma range_eq (s s' : string) a b lo hi : (s, Some (ILrange a b)) = (s', Some (ILrange lo hi)) -> s = s' /\ a = lo /\ b = hi.
Proof. intros H. inversion H. auto. Qed.
Lemma all_right {A B} (R : A -> B -> Prop) (P : B -> Prop) la lb : (forall a b, R a b -> P b) -> Forall2 R la lb -> Forall P lb.
Proof. intros H F. induction F; constructor; eauto. Qed.
Lemma all_concat {A} (P : A -> Prop) l : Forall (Forall P) l -> Forall P (List.concat l).
Proof. induction 1; cbn; [constructor | apply Forall_app; auto]. Qed.
Lemma one_type_pairs c t : ec_types c = [t] -> pairs_of_type c t = ec_pairs c.
Proof.
  unfold ec_types, pairs_of_type, ec_pairs. destruct (ec_dict c) as [| (k, e) [| ? ?]]; intros H; try discriminate. cbn in H |- *. inversion H; subst.
  rewrite String.eqb_refl. reflexivity.
Qed.
Lemma nth_ext_error {A} : forall (l l' : list A), List.length l = List.length l' -> (forall k a, nth_error l' k = Some a -> nth_error l k = Some a) -> l = l'.
Proof.
  induction l as [| x l IH]; intros [| y l'] L H; try discriminate; [reflexivity |].
  assert (E := H O y eq_refl). cbn in E. inversion E; subst. f_equal. apply IH; [cbn in L; lia |]. intros k a K. apply (H (S k) a K).
Qed.

Lemma marks_are_lists {F} (m m' : mesh F) b : dget String.eqb "boundary" (me_faces m) = Some b -> bocomarks_set_node_to_face m = (Ok tt, m') ->
  (forall k c, In (k, c) (me_bocos m) -> nodebased c = true /\ mk_perio c = None) ->
  forall k c, In (k, c) (me_bocos m') -> mk_perio c = None /\ exists il, mk_index c = Some il /\ list_type il = true.
Proof.
  intros B E N. unfold bocomarks_set_node_to_face in E. rewrite B in E. destruct (ec_tuples (f_f2n b)) as [t | e]; [| discriminate].
  destruct (each_mark _ (me_bocos m)) as (r, bs) eqn:EM. inversion E; subst r m'. cbn [me_bocos with_bocos]. clear E.
  revert bs EM. induction (me_bocos m) as [| (k0, c0) l IH]; intros bs EM; [inversion EM; subst; intros k c [] |].
  cbn [each_mark] in EM. destruct (N k0 c0 (or_introl eq_refl)) as (NB & NP). unfold set_node_to_face in EM at 1. rewrite NB in EM.
  destruct (mark_list c0); [| discriminate]. destruct (each_mark _ l) as (r, bs') eqn:EM'. inversion EM; subst r bs.
  intros k c [I | I].
  - inversion I; subst. cbn [mk_perio mk_index]. split; [exact NP |]. eexists. split; [reflexivity |]. destruct (existsb _ _); reflexivity.
  - apply (IH (fun k c J => N k c (or_intror J)) bs' eq_refl k c I).
Qed.
Lemma any_list_true (bs : dict string (mark Z)) : bs <> [] -> (forall k c, In (k, c) bs -> exists il, mk_index c = Some il /\ list_type il = true) -> any_list bs = Ok true.
Proof.
  intros NE H. unfold any_list. assert (Q : mapM (fun '(_, b) => il <- or_err AttributeError (mk_index b) ;; Ok (list_type il)) bs = Ok (List.map (fun _ => true) bs)).
  { clear NE. induction bs as [| (k, c) bs IH]; [reflexivity |]. cbn [mapM List.map]. destruct (H k c (or_introl eq_refl)) as (il & -> & T). cbn [or_err bind]. rewrite T. cbn [bind].
    rewrite IH; [reflexivity |]. intros k' c' I. apply (H k' c'). right. exact I. }
  rewrite Q. cbn [bind]. destruct bs; [congruence | reflexivity].
Qed.

Section Cube.
  Context (nx ny nz : Z) (Hx : 1 <= nx) (Hy : 1 <= ny) (Hz : 1 <= nz) (fdiv : Z -> Z -> Z).

  Lemma export_perio m : cube_export nx ny nz fdiv = Ok m ->
    (forall k b, In (k, b) (me_bocos m) -> mk_perio b = None) /\
    ((forall i n, pattern (fdiv i n)) -> Forall (fun '(_, c) => Forall pattern c) (me_nodes m)).
  Proof.
    unfold cube_export. destruct (elem_ijk nx ny nz) as [| e l] eqn:EE; [discriminate |].
    destruct (cube_elems nx ny nz) as (h, ie). intros H. apply bind_ok in H. destruct H as (c & _ & H).
    unfold set_coords_xyz in H. destruct (forallb _ _); cbn [bind] in H; [| discriminate]. apply Ic3WriteProofs.ok_inj in H. subst m. split.
    - assert (G : forall ts (m : mesh Z), (forall k b, In (k, b) (me_bocos m) -> mk_perio b = None) ->
                  forall k b, In (k, b) (me_bocos (fold_left (cube_mark ny nz) ts m)) -> mk_perio b = None).
      { induction ts as [| t ts IH]; intros m0 H k b I; [exact (H k b I) |]. cbn [fold_left] in I. apply (IH _) in I; [exact I |].
        clear I k b. intros k b I. unfold cube_mark, add_boco in I. cbn [with_bocos me_bocos] in I.
        apply in_dset in I. destruct I as [(_ & ->) | I]; [reflexivity | exact (H k b I)]. }
      apply G. intros k b [].
    - intros P. assert (G : forall ts (m : mesh Z), me_nodes (fold_left (cube_mark ny nz) ts m) = me_nodes m).
      { induction ts as [| t ts IH]; intros m0; [reflexivity |]. cbn [fold_left]. rewrite IH. reflexivity. }
      rewrite G. cbn [with_nodes me_nodes set_cell2node new_mesh dset String.eqb Ascii.eqb Bool.eqb].
      repeat (apply Forall_cons; [apply Forall_forall; intros v I; rewrite map_map in I; apply in_map_iff in I; destruct I as (((i, j), k) & <- & _); cbn; apply P |]).
      apply Forall_nil.
  Qed.

  (** The mesh of the cube with numbered faces. *)
  Record cube_prepared (m m3 : mesh Z) (gb gi : list gface) (lb li rb ri : list (list Z)) : Prop := {
    cp_ncell : me_ncell m3 = nx * ny * nz; cp_nnode : me_nnode m3 = (nx + 1) * (ny + 1) * (nz + 1);
    cp_nface : me_nface m3 = zlen gb + zlen gi; cp_nodes : me_nodes m3 = me_nodes m;
    cp_gb : boundary_faces nx ny nz gb; cp_gi : inner_faces nx ny nz gi;
    cp_faces : faces_of m3 (lb ++ li) (rb ++ ri);
    cp_lb : Forall2 (fun g r => Permutation (gface_nodes ny nz g) r) gb lb;
    cp_li : Forall2 (fun g r => Permutation (gface_nodes ny nz g) r) gi li;
    cp_rb : Forall2 (fun g r => exists p, r = [cell_no ny nz p; -1] /\ cell_ok nx ny nz p /\ (p = cell_below g \/ p = cell_above g)) gb rb;
    cp_ri : Forall2 (fun g r => Permutation r [cell_no ny nz (cell_below g); cell_no ny nz (cell_above g)]) gi ri;
    cp_ranges : List.map (fun kb => (fst kb, mk_index (snd kb))) (me_bocos m3) = cube_ranges nx ny nz;
    cp_marks : forall k b, In (k, b) (me_bocos m3) -> mk_name b = k /\ mk_geodim b = Some Gbdface /\ mk_type b = Some "boundary"%string /\ mk_perio b = None;
    cp_sides : forall s lo hi n g, In (s, Some (ILrange lo hi)) (cube_ranges nx ny nz) -> lo <= n <= hi ->
        nth_error gb (Z.to_nat n) = Some g -> on_side nx ny nz s g }.

  Lemma cube_prepare tbl types enum m : in_force tbl types -> set_enum enum -> 2 <= nx * ny * nz -> cube_export nx ny nz fdiv = Ok m ->
    exists m3 gb gi lb li rb ri, prepare_mesh tbl enum m = (Ok tt, m3) /\ cube_prepared m m3 gb gi lb li rb ri.
  Proof.
    intros IF SE H2 E. destruct (export_perio m E) as (PE & _).
    destruct (cube_ok nx ny nz Hx Hy Hz fdiv) as (m0 & E0 & C). rewrite E in E0. injection E0 as <-.
    destruct (cube_faces_mesh nx ny nz Hx Hy Hz fdiv tbl types m IF H2 C)
      as (m1 & b & i & gb & gi & E1 & EF & CF & Nb & Ni & Nf & R1 & R2 & R3 & R4 & R5).
    destruct (cube_marks_mesh nx ny nz fdiv m m1 _ b i gb gi C R5 EF CF) as (m2 & E2 & S2 & CM).
    assert (EF2 : me_faces m2 = [("internal", i); ("boundary", b)]%string) by (rewrite (sb_faces _ _ S2); exact EF).
    destruct (cube_reindexed nx ny nz Hx Hy Hz m2 b i gb gi EF2 CF CM) as (num & m3 & b' & E3 & RN & CS).
    destruct (cf_bwf _ _ _ _ _ _ _ CF) as (W & P & T & CC).
    destruct (cu_marks _ _ _ _ _ _ C) as (CK & CMK).
    assert (ML := marks_are_lists m1 m2 b ltac:(rewrite EF; reflexivity) E2).
    assert (NBM : forall k c, In (k, c) (me_bocos m1) -> nodebased c = true /\ mk_perio c = None).
    { intros k c I. rewrite R5 in I. split; [| exact (PE k c I)]. destruct (CMK k c I) as (_ & G & _). unfold on_nodes, nodebased. rewrite G. reflexivity. }
    specialize (ML NBM).
    assert (FM : face_marked m2 b).
    { constructor; auto.
      - rewrite EF2. reflexivity.
      - rewrite (proj1 CM). unfold sides. repeat constructor; cbn [In]; intuition discriminate.
      - intros s k Hin. destruct (proj2 CM s k Hin) as (_ & G & _ & MO & _). split; auto. unfold on_faces, face_or_bdface. now rewrite G. }
    assert (AM : forall f, In f (ec_numbers (f_f2n b)) -> marked m2 f).
    { intros f Hf. apply all_marked_iff. rewrite (cf_bnum _ _ _ _ _ _ _ CF) in Hf.
      eapply Permutation_in; [|exact Hf]. symmetry. apply (all_marked_perm nx ny nz); auto. apply (cf_gb _ _ _ _ _ _ _ CF). }
    assert (UM : make_unmarked_BC enum "unmarked" m2 = (Ok [], m2)).
    { rewrite (make_unmarked_eq enum _ m2 b FM). assert (Hmi := fun i => missing_iff enum m2 b i SE).
      destruct (enum _) as [|y l']; auto. exfalso. destruct (proj1 (Hmi y) (or_introl eq_refl)) as [Hy1 Hy2]. auto. }
    assert (PM : prepare_mesh tbl enum m = (Ok tt, m3)).
    { unfold prepare_mesh. rewrite (cu_nofaces _ _ _ _ _ _ C), E1.
      assert (X1 : existsb (fun '(_, b0) => nodebased b0) (me_bocos m1) = true).
      { rewrite R5. destruct (me_bocos m) as [| (k0, c0) l0] eqn:EB; [discriminate CK |]. cbn [existsb].
        destruct (NBM k0 c0) as (-> & _); [rewrite R5; left; reflexivity | reflexivity]. }
      rewrite X1, E2. assert (X2 : dmem String.eqb "boundary" (me_faces m2) = true) by (rewrite EF2; reflexivity). rewrite X2, UM.
      rewrite any_list_true; [exact E3 | |].
      - intros Q. assert (X := proj1 CM). rewrite Q in X. discriminate X.
      - intros k c I. apply (ML k c I). }
    (* the faces *)
    destruct (cf_bcells _ _ _ _ _ _ _ CF) as (mb & Eb & Ebc & RB). destruct (cf_icells _ _ _ _ _ _ _ CF) as (mi & Ei & Eic & RI).
    destruct (rn_f2c _ _ _ _ _ _ RN) as (mb0 & mb' & F1 & F2 & F3 & F4 & F5). rewrite Eb in F1. injection F1 as <-.
    destruct (rn_wf _ _ _ _ _ _ RN) as (W' & P').
    assert (LG : List.length gb = List.length (ec_pairs (f_f2n b))) by (apply Forall2_length' with (1 := cf_bnodes _ _ _ _ _ _ _ CF)).
    assert (LR : List.length gb = List.length (m_rows mb)) by (apply Forall2_length' with (1 := RB)).
    assert (NUMB : List.map fst (ec_pairs (f_f2n b)) = zrange 0 (zlen gb)) by (rewrite (ec_numbers_pairs _ W); apply (cf_bnum _ _ _ _ _ _ _ CF)).
    set (L := combine (List.map num (zrange 0 (zlen gb))) (combine gb (combine (List.map snd (ec_pairs (f_f2n b))) (m_rows mb)))).
    assert (LL : List.length L = List.length gb).
    { unfold L. rewrite !combine_length, !map_length, zrange_length. unfold zlen. lia. }
    destruct (rank_table L (zlen gb)) as (vs & LV & PV).
    { unfold L. rewrite map_fst_combine; [apply (rn_bij _ _ _ _ _ _ RN) |].
      rewrite !combine_length, !map_length, zrange_length. unfold zlen. lia. }
    assert (NTH : forall k v, nth_error vs k = Some v -> exists j, (j < List.length gb)%nat /\ num (Z.of_nat j) = Z.of_nat k /\
       nth_error gb j = Some (fst v) /\ nth_error (List.map snd (ec_pairs (f_f2n b))) j = Some (fst (snd v)) /\ nth_error (m_rows mb) j = Some (snd (snd v))).
    { intros k v K. assert (I : In (Z.of_nat k, v) (ranked vs)).
      { unfold ranked. apply nth_error_In with (n := k). 
        assert (B : (k < List.length vs)%nat) by (apply nth_error_Some; congruence).
        assert (Z0 : nth_error (zrange 0 (zlen vs)) k = Some (Z.of_nat k)) by (rewrite nth_error_zrange; [reflexivity | unfold zlen; lia]).
        apply combine_nth_ok; assumption. }
      apply (Permutation_in _ (Permutation_sym PV)) in I. unfold L in I. apply In_nth_error in I. destruct I as (j & J).
      apply nth_combine in J. destruct J as (J1 & J2). apply nth_combine in J2. destruct J2 as (J2 & J3). apply nth_combine in J3. destruct J3 as (J3 & J4).
      cbn [fst snd] in J1. assert (JB : (j < List.length gb)%nat) by (apply nth_error_Some; congruence).
      exists j. split; [exact JB |]. split; [| auto]. rewrite nth_error_map, nth_error_zrange in J1 by (unfold zlen; lia). cbn in J1. congruence. }
    assert (LVL : List.length vs = List.length gb) by (unfold zlen in LV; lia).
    assert (EMB : m_rows mb' = List.map (fun v => snd (snd v)) vs).
    { apply nth_ext_error; [rewrite map_length; unfold zlen in F4; lia |]. intros k a K. rewrite nth_error_map in K.
      destruct (nth_error vs k) as [v |] eqn:KV; [| discriminate]. cbn in K. inversion K; subst a. destruct (NTH k v KV) as (j & JB & JN & _ & _ & J4).
      rewrite <- J4. rewrite <- (Nat2Z.id j), <- F5 by (unfold zlen; lia). rewrite JN, Nat2Z.id. reflexivity. }
    assert (PB : ec_pairs (f_f2n b') = List.map (fun p => (num (fst p), snd p)) (ec_pairs (f_f2n b))).
    { rewrite <- (one_type_pairs _ "quad4" T), <- (one_type_pairs (f_f2n b') "quad4") by (rewrite (rn_types _ _ _ _ _ _ RN); exact T). apply (rn_pairs _ _ _ _ _ _ RN). }
    assert (C' : ec_cols (fun _ => 4%nat) (f_f2n b')).
    { intros t ed Hin. assert (X : In (t, ed_e2n ed) (List.map (fun kv => (fst kv, ed_e2n (snd kv))) (ec_dict (f_f2n b')))).
      { apply in_map_iff. exists (t, ed). auto. }
      rewrite (rn_arrays _ _ _ _ _ _ RN) in X. apply in_map_iff in X. destruct X as ((t', ed') & Q & X). injection Q as -> <-.
      exact (CC t ed' X). }
    destruct (cf_iwf _ _ _ _ _ _ _ CF) as (Wi & Pi & Ti & CCi).
    assert (FSB : faces_set b' (List.map (fun v => fst (snd v)) vs) (m_rows mb')).
    { constructor; [exact W' | | exists mb'; split; [exact F2 |]; split; [congruence |]; split; [reflexivity | rewrite zlen_map; unfold zlen in F4 |- *; lia]].
      assert (Q : List.map (fun kv : Z * (gface * (list Z * list Z)) => (fst kv, fst (snd (snd kv)))) (ranked vs) = ranked (List.map (fun v => fst (snd v)) vs)).
      { unfold ranked. rewrite zlen_map. generalize (zrange 0 (zlen vs)). clear. induction vs as [| v vs IH]; intros [| z l]; try reflexivity. cbn. f_equal. apply IH. }
      rewrite <- Q, <- PV, PB. unfold L. clear -NUMB LG LR. revert NUMB LG LR. generalize (zrange 0 (zlen gb)). generalize (ec_pairs (f_f2n b)) (m_rows mb).
      clear. induction gb as [| g gb IH]; intros [| p ps] [| r rs] zs NU LG LR; try discriminate; cbn in NU |- *; [destruct zs; [constructor | discriminate] |].
      destruct zs as [| z zs]; [discriminate |]. inversion NU; subst. cbn. apply perm_skip. apply IH; [reflexivity | cbn in LG; lia | cbn in LR; lia]. }
    assert (FSI : faces_set i (List.map snd (ec_pairs (f_f2n i))) (m_rows mi)).
    { constructor; [exact Wi | | exists mi; split; [exact Ei |]; split; [exact Eic |]; split; [reflexivity |]].
      - rewrite ranked_of_numbers; [apply Permutation_refl |]. rewrite (ec_numbers_pairs _ Wi), (cf_inum _ _ _ _ _ _ _ CF). f_equal. rewrite <- Ni. apply (ecwf_nelem _ Wi).
      - rewrite zlen_map. unfold zlen. f_equal. rewrite <- (Forall2_length' _ _ _ (cf_inodes _ _ _ _ _ _ _ CF)). symmetry. apply Forall2_length' with (1 := RI). }
    destruct (rn_rest _ _ _ _ _ _ RN) as (Q1 & Q2 & Q3 & Q4 & Q5).
    assert (PGB : Permutation gb (List.map fst vs)).
    { assert (Q : List.map (fun kv : Z * (gface * (list Z * list Z)) => fst (snd kv)) (ranked vs) = List.map fst vs).
      { rewrite <- (map_map snd fst), map_snd_ranked. reflexivity. }
      rewrite <- Q, <- PV. unfold L. rewrite <- (map_map snd fst), map_snd_combine, map_fst_combine; [apply Permutation_refl | |];
      rewrite !combine_length, ?map_length, ?zrange_length; unfold zlen; lia. }
    assert (BG : boundary_faces nx ny nz (List.map fst vs)).
    { destruct (cf_gb _ _ _ _ _ _ _ CF) as (B1 & B2). split; [exact (Permutation_NoDup PGB B1) |]. intros g. rewrite <- B2.
      split; apply Permutation_in; [symmetry |]; exact PGB. }
    assert (LBN : Forall2 (fun g r => Permutation (gface_nodes ny nz g) r) (List.map fst vs) (List.map (fun v => fst (snd v)) vs)).
    { apply Forall2_of_nth; [rewrite !map_length; reflexivity |]. intros k g r K1 K2. rewrite nth_error_map in K1, K2.
      destruct (nth_error vs k) as [v |] eqn:KV; [| discriminate]. cbn in K1, K2. inversion K1; inversion K2; subst. destruct (NTH k v KV) as (j & _ & _ & J2 & J3 & _).
      rewrite nth_error_map in J3. destruct (nth_error (ec_pairs (f_f2n b)) j) as [p |] eqn:JP; [| discriminate]. cbn in J3. inversion J3 as [J3'].
      replace (fst (snd v)) with (snd p) in * by exact J3'. exact (Forall2_nth_error _ _ _ _ _ _ (cf_bnodes _ _ _ _ _ _ _ CF) J2 JP). }
    exists m3, (List.map fst vs), gi, (List.map (fun v => fst (snd v)) vs), (List.map snd (ec_pairs (f_f2n i))), (m_rows mb'), (m_rows mi).
    split; [exact PM |]. constructor.
    - rewrite Q1, (sb_ncell _ _ S2), R1. apply (cu_ncell _ _ _ _ _ _ C).
    - rewrite Q2, (sb_nnode _ _ S2), R2. apply (cu_nnode _ _ _ _ _ _ C).
    - rewrite Q3, (sb_nface _ _ S2), Nf. unfold zlen. rewrite map_length, LVL. reflexivity.
    - rewrite Q5, (sb_nodes _ _ S2). exact R4.
    - exact BG.
    - apply (cf_gi _ _ _ _ _ _ _ CF).
    - apply (faces_split _ _ _ (fun _ => 4%nat) b' i (List.map (fun v => fst (snd v)) vs) (List.map snd (ec_pairs (f_f2n i))) (m_rows mb') (m_rows mi)); auto.
      + rewrite (rn_other _ _ _ _ _ _ RN) by discriminate. rewrite EF2. reflexivity.
      + apply (rn_bnd _ _ _ _ _ _ RN).
      + rewrite (rn_other _ _ _ _ _ _ RN) by discriminate. rewrite EF2. reflexivity.
    - exact LBN.
    - assert (X := cf_inodes _ _ _ _ _ _ _ CF). clear -X. induction X; cbn; constructor; auto.
    - rewrite EMB. apply Forall2_of_nth; [rewrite !map_length; reflexivity |]. intros k g r K1 K2. rewrite nth_error_map in K1, K2.
      destruct (nth_error vs k) as [v |] eqn:KV; [| discriminate]. cbn in K1, K2. inversion K1; inversion K2; subst. destruct (NTH k v KV) as (j & _ & _ & J2 & _ & J4).
      exact (Forall2_nth_error _ _ _ _ _ _ RB J2 J4).
    - exact RI.
    - apply CS.
    - intros k b0 I. destruct (Forall2_in_r _ _ _ _ (rn_marks _ _ _ _ _ _ RN) I) as ((k1, b1) & I1 & G1 & G2 & G3 & G4 & G5 & _). cbn [fst snd] in *. subst k1.
      destruct (proj2 CM k b1 I1) as (M1 & M2 & M3 & _). destruct (ML k b1 I1) as (M4 & _). rewrite G2, G3, G4, G5. auto.
    - intros s lo hi n g I N G. assert (N0 : 0 <= n).
      { unfold cube_ranges in I. cbn zeta in I. cbn [In] in I. assert (0 <= nx * ny /\ 0 <= ny * nz /\ 0 <= nx * nz) by nia.
        repeat (destruct I as [I | I]; [apply range_eq in I; destruct I as (_ & I1 & I2); clear -N H I1 I2; lia |]). destruct I. }
      destruct CS as (_ & mt & _ & _ & CS). 
      assert (EN : exists nodes, nth_error (List.map (fun v : gface * (list Z * list Z) => fst (snd v)) vs) (Z.to_nat n) = Some nodes).
      { rewrite nth_error_map in G |- *. destruct (nth_error vs (Z.to_nat n)); [cbn; eauto | discriminate]. }
      destruct EN as (nodes & EN). assert (PN := Forall2_nth_error _ _ _ _ _ _ LBN G EN). cbn beta in PN.
      destruct (CS n nodes) as (g' & s' & lo' & hi' & p & GO & I' & N' & OS & PN' & _).
      { rewrite (one_type_pairs (f_f2n b') "quad4") by (rewrite (rn_types _ _ _ _ _ _ RN); exact T).
        apply (Permutation_in _ (Permutation_sym (fs_pairs _ _ _ FSB))). unfold ranked. apply nth_error_In with (n := Z.to_nat n). apply combine_nth_ok; [| exact EN].
        assert (B : (Z.to_nat n < List.length (List.map (fun v : gface * (list Z * list Z) => fst (snd v)) vs))%nat) by (apply nth_error_Some; congruence).
        rewrite nth_error_zrange by (unfold zlen; lia). f_equal. lia. }
      assert (GOK : gface_ok nx ny nz g) by (apply (proj2 BG); eapply nth_error_In; exact G).
      rewrite (grid_unique nx ny nz g g' nodes GOK GO PN PN').
      assert (s' = s); [| subst; exact OS]. clear -I I' N N' Hx Hy Hz.
      assert (1 <= nx * ny /\ 1 <= ny * nz /\ 1 <= nx * nz) as (A1 & A2 & A3) by nia.
      unfold cube_ranges in I, I'. cbn zeta in I, I'. generalize dependent (nx * ny). generalize dependent (ny * nz). generalize dependent (nx * nz). intros. cbn [In] in I, I'.
      repeat (destruct I as [I | I]; [apply range_eq in I; destruct I as (I0 & I1 & I2); repeat (destruct I' as [I' | I']; [apply range_eq in I'; destruct I' as (J0 & J1 & J2); try (exact (eq_trans (eq_sym J0) I0)); exfalso; lia |]); destruct I' |]). destruct I.
  Qed.

  (** *** What the writer needs. *)
  Lemma cube_total gb gi : boundary_faces nx ny nz gb -> inner_faces nx ny nz gi -> zlen gb + zlen gi = cube_nface nx ny nz.
  Proof. intros B I. rewrite (boundary_count nx ny nz Hx Hy Hz gb B), (inner_count nx ny nz Hx Hy Hz gi I). unfold cube_nface. ring. Qed.

  Lemma corner_nodes g n : gface_ok nx ny nz g -> In n (gface_nodes ny nz g) -> 0 <= n < (nx + 1) * (ny + 1) * (nz + 1).
  Proof.
    intros G I. unfold gface_nodes in I. apply in_map_iff in I. destruct I as (q & <- & I).
    apply rank3_range. destruct g as ([| |], [i j k]); unfold gface_ok, in_box in *; cbn [pi pj pk corners In] in *;
      repeat (destruct I as [<- | I]; [cbn [pi pj pk]; lia |]); destruct I.
  Qed.
  Lemma cell_number p : cell_ok nx ny nz p -> 0 <= cell_no ny nz p < nx * ny * nz.
  Proof. intros C. apply rank3_range. exact C. Qed.

  Lemma cube_zone_marks m m3 gb gi lb li rb ri : cube_prepared m m3 gb gi lb li rb ri -> zone_marks m3 = me_bocos m3.
  Proof.
    intros C. unfold zone_marks. assert (Q := cp_marks _ _ _ _ _ _ _ _ C). clear C. induction (me_bocos m3) as [| (k, b) l IH]; [reflexivity |].
    cbn [filter]. destruct (Q k b (or_introl eq_refl)) as (_ & _ & -> & _). cbn. f_equal. apply IH. intros k' b' I. apply (Q k' b'). right. exact I.
  Qed.
  Lemma cube_keys m m3 gb gi lb li rb ri : cube_prepared m m3 gb gi lb li rb ri -> List.map fst (me_bocos m3) = sides.
  Proof.
    intros C. assert (Q := f_equal (List.map fst) (cp_ranges _ _ _ _ _ _ _ _ C)). rewrite map_map in Q. cbn [fst] in Q. exact Q.
  Qed.
  Lemma cube_mark_range m m3 gb gi lb li rb ri k b : cube_prepared m m3 gb gi lb li rb ri -> In (k, b) (me_bocos m3) ->
    exists lo hi, mk_index b = Some (ILrange lo hi) /\ 0 <= lo <= hi /\ hi < cube_nbound nx ny nz.
  Proof.
    intros C I. assert (J : In (k, mk_index b) (cube_ranges nx ny nz)).
    { rewrite <- (cp_ranges _ _ _ _ _ _ _ _ C). apply in_map_iff. exists (k, b). auto. }
    assert (1 <= nx * ny /\ 1 <= ny * nz /\ 1 <= nx * nz) as (A1 & A2 & A3) by nia. unfold cube_ranges, cube_nbound in *. cbn zeta in J.
    generalize dependent (nx * ny). generalize dependent (ny * nz). generalize dependent (nx * nz). intros. cbn [In] in J.
    clear C. repeat (destruct J as [J | J]; [apply f_equal with (f := snd) in J; cbn [snd] in J; rewrite <- J; eexists; eexists; split; [reflexivity | lia] |]). destruct J.
  Qed.

  Lemma cube_rows m m3 gb gi lb li rb ri : cube_prepared m m3 gb gi lb li rb ri ->
    Forall (fun r => List.length r = 2%nat) (rb ++ ri) /\ Forall (fun c => -1 <= c <= nx * ny * nz - 1) (List.concat (rb ++ ri)) /\
    In (nx * ny * nz - 1) (List.concat (rb ++ ri)).
  Proof.
    intros C. destruct (cp_gb _ _ _ _ _ _ _ _ C) as (_ & GB). destruct (cp_gi _ _ _ _ _ _ _ _ C) as (_ & GI). split; [| split].
    - apply Forall_app. split; [eapply all_right; [| exact (cp_rb _ _ _ _ _ _ _ _ C)] | eapply all_right; [| exact (cp_ri _ _ _ _ _ _ _ _ C)]].
      + intros g r (p & -> & _). reflexivity.
      + intros g r P. apply Permutation_length in P. exact P.
    - apply all_concat, Forall_app. assert (0 <= nx * ny * nz) by nia. split.
      + eapply all_right; [| exact (cp_rb _ _ _ _ _ _ _ _ C)]. intros g r (p & -> & O & _). apply cell_number in O.
        repeat apply Forall_cons; [lia | lia | apply Forall_nil].
      + apply Forall_forall. intros r I. destruct (Forall2_in_r _ _ _ _ (cp_ri _ _ _ _ _ _ _ _ C) I) as (g & G & P).
        apply GI in G. destruct G as (G1 & G2). destruct (inner_cells nx ny nz g G1 G2) as (O1 & O2). apply cell_number in O1, O2.
        apply Forall_forall. intros c Ic. apply (Permutation_in _ P) in Ic. destruct Ic as [<- | [<- | []]]; lia.
    - set (g := (AZ, P3 (nx - 1) (ny - 1) nz) : gface). assert (G : In g gb).
      { apply GB. split; [unfold g, gface_ok, in_box; cbn; lia |]. exists "kmax"%string. split; [cbn; tauto |]. cbn. auto. }
      destruct (Forall2_in_l _ _ _ _ (cp_rb _ _ _ _ _ _ _ _ C) G) as (r & R & p & -> & O & Q).
      rewrite concat_app. apply in_or_app. left. apply in_concat. exists [cell_no ny nz p; -1]. split; [exact R |]. left.
      destruct Q as [-> | ->]; [unfold g, cell_no, rank3; cbn; ring |]. exfalso. unfold g, cell_above, cell_ok, in_box in O. cbn in O. lia.
  Qed.

  Lemma cube_writable f2i v m m3 gb gi lb li rb ri : cube_export nx ny nz fdiv = Ok m -> cube_prepared m m3 gb gi lb li rb ri ->
    (forall i n, pattern (fdiv i n)) -> (nx + 1) * (ny + 1) * (nz + 1) < 2 ^ 31 -> cube_nface nx ny nz < 2 ^ 31 ->
    writable f2i v (FM m3 (FDict []) (FDict []) [] None) (lb ++ li) (rb ++ ri).
  Proof.
    intros E C PT BN BF. destruct (export_perio m E) as (_ & CO). specialize (CO PT).
    destruct (cube_ok nx ny nz Hx Hy Hz fdiv) as (m0 & E0 & CU). rewrite E in E0. injection E0 as <-.
    assert (LB : zlen lb = zlen gb) by (unfold zlen; f_equal; symmetry; eapply Forall2_length'; exact (cp_lb _ _ _ _ _ _ _ _ C)).
    assert (LI : zlen li = zlen gi) by (unfold zlen; f_equal; symmetry; eapply Forall2_length'; exact (cp_li _ _ _ _ _ _ _ _ C)).
    assert (TOT := cube_total gb gi (cp_gb _ _ _ _ _ _ _ _ C) (cp_gi _ _ _ _ _ _ _ _ C)).
    assert (LT : zlen (lb ++ li) = cube_nface nx ny nz) by (rewrite zlen_app; lia).
    assert (NBF := boundary_count nx ny nz Hx Hy Hz gb (cp_gb _ _ _ _ _ _ _ _ C)).
    destruct (cube_rows _ _ _ _ _ _ _ _ C) as (RR & RC & RE).
    assert (NC : 1 <= nx * ny * nz) by nia. assert (NC2 : nx * ny * nz < 2 ^ 31) by nia. assert (NN : 1 <= (nx + 1) * (ny + 1) * (nz + 1)) by nia.
    assert (NFB : cube_nbound nx ny nz <= cube_nface nx ny nz) by (unfold cube_nbound in *; unfold zlen in *; lia).
    assert (NB1 : 1 <= cube_nbound nx ny nz) by (unfold cube_nbound; nia).
    assert (NODES : Forall (fun r => zlen r = 4 /\ Forall (fun n => 0 <= n < (nx + 1) * (ny + 1) * (nz + 1)) r) (lb ++ li)).
    { apply Forall_app. split; apply Forall_forall; intros r I.
      - destruct (Forall2_in_r _ _ _ _ (cp_lb _ _ _ _ _ _ _ _ C) I) as (g & G & P). apply (cp_gb _ _ _ _ _ _ _ _ C) in G. destruct G as (G & _).
        split; [unfold zlen; rewrite <- (Permutation_length P); destruct g as ([| |], [? ? ?]); reflexivity |].
        apply Forall_forall. intros n J. apply (Permutation_in _ (Permutation_sym P)) in J. exact (corner_nodes g n G J).
      - destruct (Forall2_in_r _ _ _ _ (cp_li _ _ _ _ _ _ _ _ C) I) as (g & G & P). apply (cp_gi _ _ _ _ _ _ _ _ C) in G. destruct G as (G & _).
        split; [unfold zlen; rewrite <- (Permutation_length P); destruct g as ([| |], [? ? ?]); reflexivity |].
        apply Forall_forall. intros n J. apply (Permutation_in _ (Permutation_sym P)) in J. exact (corner_nodes g n G J). }
    assert (ZM := cube_zone_marks _ _ _ _ _ _ _ _ C). assert (KS := cube_keys _ _ _ _ _ _ _ _ C).
    assert (CT : cell_total v (FM m3 (FDict []) (FDict []) [] None) = nx * ny * nz).
    { unfold cell_total. cbn [fm_mesh fm_cells data_ndof]. rewrite (cp_ncell _ _ _ _ _ _ _ _ C). destruct v; lia. }
    apply make_writable; cbn [fm_mesh fm_cells fm_nodes fm_params fm_part fd_items param].
    - apply make_file_mesh; cbn [fm_mesh fm_cells fm_nodes fm_params fm_part fd_items]; rewrite ?(cp_ncell _ _ _ _ _ _ _ _ C), ?(cp_nnode _ _ _ _ _ _ _ _ C), ?LT; try assumption.
      + rewrite (cp_nface _ _ _ _ _ _ _ _ C). lia.
      + lia.
      + apply (cp_faces _ _ _ _ _ _ _ _ C).
      + eapply Forall_impl; [| exact NODES]. cbn beta. intros r (Q & _). lia.
      + eapply Forall_impl; [| exact RC]. cbn beta. intros r Q. lia.
      + intros k b lo hi I MI. rewrite ZM in I. destruct (cube_mark_range _ _ _ _ _ _ _ _ k b C I) as (lo' & hi' & MI' & B1 & B2).
        rewrite MI in MI'. injection MI' as <- <-. lia.
      + unfold mesh_names. cbn [fm_mesh fm_cells fm_nodes fm_params fd_items]. rewrite ZM, KS. cbn [param dget wgt_names List.map app].
        unfold sides. repeat (apply Forall_cons; [split; [split; [vm_compute; lia | intros c J; repeat (destruct J as [<- | J]; [vm_compute; lia |]); destruct J]
          | unfold deof; vm_compute; intuition discriminate] |]). apply Forall_nil.
      + rewrite ZM, KS. split; [| split; constructor]. unfold sides. repeat constructor; cbn [In]; intuition discriminate.
      + rewrite ZM, KS. cbn [sides In]. unfold sides. cbn [In]. intuition discriminate.
      + cbn. lia.
    - unfold fmesh_typed. cbn [fm_mesh fm_cells fm_nodes fm_params fd_items].
      rewrite (cp_ncell _ _ _ _ _ _ _ _ C), (cp_nface _ _ _ _ _ _ _ _ C), (cp_nodes _ _ _ _ _ _ _ _ C).
      split; [unfold zlen; lia |]. split; [lia |]. split; [exact CO |]. split; [| split; [constructor | split; [constructor | split; [constructor | exact I]]]].
      apply Forall_forall. intros (k, b) J. destruct (cp_marks _ _ _ _ _ _ _ _ C k b J) as (_ & _ & _ & P). unfold mark_typed. rewrite P. exact I.
    - destruct (cu_coords _ _ _ _ _ _ CU) as (x & y & z & (N & X & Y & ZZ) & _). exists x, y, z. unfold nodescoord in *. rewrite (cp_nodes _ _ _ _ _ _ _ _ C).
      rewrite (cp_nnode _ _ _ _ _ _ _ _ C), <- (cu_nnode _ _ _ _ _ _ CU). auto.
    - rewrite (cp_ncell _ _ _ _ _ _ _ _ C), (cp_nnode _ _ _ _ _ _ _ _ C), LT, CT. split; [exact BN |]. split; [exact BF |]. split; [exact NC2 |].
      eapply Z.lt_trans; [exact NC2 | vm_compute; reflexivity].
    - apply all_concat. eapply Forall_impl; [| exact NODES]. cbn beta. intros r (_ & Q). eapply Forall_impl; [| exact Q]. cbn beta. intros n B. unfold int32. lia.
    - eapply Forall_impl; [| exact RC]. cbn beta. intros c B. unfold int32. lia.
    - intros k b J. rewrite ZM in J. destruct (cp_marks _ _ _ _ _ _ _ _ C k b J) as (M1 & M2 & M3 & M4). destruct (cube_mark_range _ _ _ _ _ _ _ _ k b C J) as (lo & hi & MI & B1 & B2).
      split; [exact M1 |]. split; [left; exact M2 |]. split; [exists "boundary"%string; split; [exact M3 | left; reflexivity] |]. split; [exists lo, hi; split; [exact MI | unfold int64; lia] |].
      rewrite M4. exact I.
    - exact I.
    - exists 0. split; [reflexivity | split; vm_compute; congruence].
    - exists (NInt 0). reflexivity.
    - exists (NInt 0). reflexivity.
    - exists []. reflexivity.
    - constructor.
    - constructor.
    - right. reflexivity.
  Qed.

  Lemma cube_marks_end m m3 gb gi lb li rb ri : cube_prepared m m3 gb gi lb li rb ri -> marks_end m3 = cube_nbound nx ny nz - 1.
  Proof.
    intros C. unfold marks_end. rewrite (cube_zone_marks _ _ _ _ _ _ _ _ C).
    assert (Q : flat_map (fun '((_, b) : string * mark Z) => match mk_index b with Some (ILrange _ hi) => [hi] | _ => [] end) (me_bocos m3) =
                flat_map (fun p : string * option indexlist => match snd p with Some (ILrange _ hi) => [hi] | _ => [] end) (cube_ranges nx ny nz)).
    { rewrite <- (cp_ranges _ _ _ _ _ _ _ _ C), flat_map_concat_map, flat_map_concat_map, map_map. f_equal. apply map_ext. intros (k, b). reflexivity. }
    rewrite Q. assert (1 <= nx * ny /\ 1 <= ny * nz /\ 1 <= nx * nz) as (A1 & A2 & A3) by nia. unfold cube_ranges, cube_nbound. cbn zeta.
    clear C Q. generalize dependent (nx * ny). generalize dependent (ny * nz). generalize dependent (nx * nz). intros.
    cbn [flat_map snd app fold_right]. lia.
  Qed.
  Lemma zones_back_ranges l : (forall k (b : mark Z), In (k, b) l -> exists lo hi, mk_index b = Some (ILrange lo hi)) ->
    List.map (fun kb : string * mark Z => (fst kb, mk_index (snd kb))) (List.map zone_back l) = List.map (fun kb => (fst kb, mk_index (snd kb))) l.
  Proof.
    intros H. rewrite map_map. apply map_ext_in. intros (k, b) I. destruct (H k b I) as (lo & hi & E). unfold zone_back. cbn [fst snd mk_index]. reflexivity.
  Qed.

  Theorem cube_file i2d f2i tbl types enum host v endian o m : (forall n, pattern (i2d n)) -> (forall i n, pattern (fdiv i n)) ->
    in_force tbl types -> set_enum enum -> 2 <= nx * ny * nz -> order_of host endian = Ok o ->
    cube_export nx ny nz fdiv = Ok m -> (nx + 1) * (ny + 1) * (nz + 1) < 2 ^ 31 -> cube_nface nx ny nz < 2 ^ 31 ->
    exists f fm' fm2, write_mesh tbl enum i2d f2i host v endian (FM m (FDict []) (FDict []) [] None) = (Ok f, fm') /\
      (forall integrity, read_mesh integrity f = Ok fm2) /\ cube_read nx ny nz fdiv fm2.
  Proof.
    intros PI PT IF SE H2 OO E BN BF. destruct (cube_prepare tbl types enum m IF SE H2 E) as (m3 & gb & gi & lb & li & rb & ri & PM & C).
    assert (WR := cube_writable f2i v m m3 gb gi lb li rb ri E C PT BN BF).
    destruct (mesh_written i2d f2i tbl enum host v endian o (FM m (FDict []) (FDict []) [] None) m3 _ _ OO PM WR) as (f & EW).
    cbn [fm_cells fm_nodes fm_params fm_part] in EW.
    destruct (C34_round_trip i2d f2i PI tbl enum host v endian _ f _ _ _ EW (wr_typed _ _ _ _ _ WR) (wr_file _ _ _ _ _ WR)) as (fm2 & RD & RA); [left; reflexivity |].
    exists f, (FM m3 (FDict []) (FDict []) [] None), fm2. split; [exact EW |]. split; [exact RD |].
    destruct (cube_ok nx ny nz Hx Hy Hz fdiv) as (m0 & E0 & CU). rewrite E in E0. injection E0 as <-.
    assert (TOT := cube_total gb gi (cp_gb _ _ _ _ _ _ _ _ C) (cp_gi _ _ _ _ _ _ _ _ C)).
    constructor.
    - rewrite (ra_ncell _ _ _ _ _ _ _ RA). apply (cp_ncell _ _ _ _ _ _ _ _ C).
    - rewrite (ra_nnode _ _ _ _ _ _ _ RA). apply (cp_nnode _ _ _ _ _ _ _ _ C).
    - rewrite (ra_nface _ _ _ _ _ _ _ RA). cbn [fm_mesh]. rewrite (cp_nface _ _ _ _ _ _ _ _ C). exact TOT.
    - destruct (cu_coords _ _ _ _ _ _ CU) as (x & y & z & (N & X & Y & ZZ) & Q). exists x, y, z. split; [| exact Q].
      unfold coords_ok. rewrite (ra_coords _ _ _ _ _ _ _ RA), (ra_nnode _ _ _ _ _ _ _ RA). cbn [fm_mesh]. unfold nodescoord in *.
      rewrite (cp_nodes _ _ _ _ _ _ _ _ C), (cp_nnode _ _ _ _ _ _ _ _ C), <- (cu_nnode _ _ _ _ _ _ CU). auto.
    - destruct (ra_faces _ _ _ _ _ _ _ RA) as (fs & F1 & F2). exists fs, gb, gi, (lb ++ li), rb, ri.
      split; [exact F1 |]. split; [exact F2 |]. split; [apply (cp_gb _ _ _ _ _ _ _ _ C) |]. split; [apply (cp_gi _ _ _ _ _ _ _ _ C) |].
      split; [apply (boundary_count nx ny nz Hx Hy Hz gb (cp_gb _ _ _ _ _ _ _ _ C)) |].
      split; [apply Forall2_app; [apply (cp_lb _ _ _ _ _ _ _ _ C) | apply (cp_li _ _ _ _ _ _ _ _ C)] |].
      split; [apply (cp_rb _ _ _ _ _ _ _ _ C) |]. split; [apply (cp_ri _ _ _ _ _ _ _ _ C) |]. apply (cp_sides _ _ _ _ _ _ _ _ C).
    - rewrite (ra_marks _ _ _ _ _ _ _ RA). cbn [fm_mesh]. rewrite map_app. f_equal.
      + rewrite (cube_zone_marks _ _ _ _ _ _ _ _ C), zones_back_ranges, <- (cp_ranges _ _ _ _ _ _ _ _ C); [reflexivity |].
        intros k b J. destruct (cube_mark_range _ _ _ _ _ _ _ _ k b C J) as (lo & hi & MI & _). eauto.
      + cbn [List.map fst snd mk_index]. rewrite (cube_marks_end _ _ _ _ _ _ _ _ C). do 4 f_equal.
        * lia.
        * rewrite zlen_app. assert (L1 := Forall2_length' _ _ _ (cp_lb _ _ _ _ _ _ _ _ C)). assert (L2 := Forall2_length' _ _ _ (cp_li _ _ _ _ _ _ _ _ C)). unfold zlen in *. lia.
    - split.
      + destruct (fd_items (fm_cells fm2)) as [| (k, a) l] eqn:Q; [reflexivity |]. destruct (ra_cell_names _ _ _ _ _ _ _ RA k); rewrite Q; left; reflexivity.
      + destruct (fd_items (fm_nodes fm2)) as [| (k, a) l] eqn:Q; [reflexivity |]. destruct (ra_node_names _ _ _ _ _ _ _ RA k); rewrite Q; left; reflexivity.
  Qed.
End Cube.
