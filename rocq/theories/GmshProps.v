(** * C56, C57, C58: the Gmsh reader *)
From Coq Require Import Lia Permutation Ascii DecimalString.
From Verif Require Import Py PyFacts Elements IndexList Conn ConnProofs Mesh Files Gmsh GmshSpec GroupFacts GmshProofs GmshFileProofs.

(** [read_data] followed by [export_mesh], on the lines of a file. *)
Definition load {F} (fzero : F) (int_of : string -> res Z) (float_of : string -> res F) (ver_of : string -> res Z)
  (fuel : nat) (msh : list (list string)) : res (mesh (option F)) :=
  g <- read_data int_of float_of ver_of fuel msh ;; export_mesh fzero g.

(** ** Exporting *)

Lemma ed_tuples_range lo m :
  ed_tuples (ED (ILrange lo (lo + m_nrow m - 1)) m) = Ok (combine (zrange lo (lo + m_nrow m)) (m_rows m)).
Proof.
  unfold ed_tuples. cbn [ed_index ed_e2n il_entries bind]. replace (lo + m_nrow m - 1 + 1) with (lo + m_nrow m) by lia.
  unfold m_nrow. generalize (m_rows m). intros rows.
  assert (G : forall (q : list (list Z)) a n, a + zlen q <= n -> 0 <= a ->
     mapM (fun '(i, row) => n0 <- py_get (zrange lo (lo + n)) i ;; Ok (n0, row)) (combine (zrange a (a + zlen q)) q) =
     Ok (combine (zrange (lo + a) (lo + a + zlen q)) q)).
  { induction q as [|r q IH]; intros a n Hn Ha.
    - rewrite zlen_nil, (zrange_empty a), (zrange_empty (lo + a)) by lia. reflexivity.
    - pose proof (zlen_nonneg q). rewrite zlen_cons in *. rewrite (zrange_cons a), (zrange_cons (lo + a)) by lia.
      cbn [combine mapM]. rewrite py_get_zrange by lia. cbn [bind].
      replace (a + (zlen q + 1)) with (a + 1 + zlen q) by lia. rewrite IH by lia. cbn [bind].
      replace (lo + (a + 1)) with (lo + a + 1) by lia.
      replace (lo + a + 1 + zlen q) with (lo + a + (zlen q + 1)) by lia. reflexivity. }
  specialize (G rows 0 (zlen rows)). rewrite Z.add_0_l, Z.add_0_r in G. apply G; lia.
Qed.

Lemma ec_tuples_snoc n d t ed tps tp : ec_tuples (EC n d) = Ok tps -> ed_tuples ed = Ok tp ->
  forall n', ec_tuples (EC n' (d ++ [(t, ed)])) = Ok (tps ++ tp).
Proof.
  unfold ec_tuples. cbn [ec_dict]. intros H1 H2 n'. apply bind_ok in H1. destruct H1 as (ls & H1 & E). injection E as <-.
  rewrite mapM_app, H1. cbn [bind mapM]. rewrite H2. cbn [bind]. rewrite concat_app. cbn [List.concat].
  now rewrite app_nil_r.
Qed.

Lemma export_cells_fold d (ms : list (string * mat)) : forall c tps,
  (forall t m, In (t, m) ms -> dget String.eqb t dim_elem = Some d) ->
  NoDup (List.map fst ms) -> (forall t, In t (List.map fst ms) -> ~ In t (dkeys (ec_dict c))) ->
  ec_tuples c = Ok tps ->
  exists c', foldM (fun c '(t, m) => dd <- dget_err String.eqb t dim_elem ;;
                                     if dd =? d then ec_add c t m None else Ok c) c ms = Ok c' /\
    ec_nelem c' = ec_nelem c + zlen (flat_map (fun tm => m_rows (snd tm)) ms) /\
    ec_tuples c' = Ok (tps ++ combine (zrange (ec_nelem c) (ec_nelem c')) (flat_map (fun tm => m_rows (snd tm)) ms)) /\
    (forall t, dget String.eqb t (ec_dict c') = None <-> dget String.eqb t (ec_dict c) = None /\ ~ In t (List.map fst ms)) /\
    (forall t m, In (t, m) ms -> ec_getitem c' t = Ok m) /\
    (forall t, ~ In t (List.map fst ms) -> dget String.eqb t (ec_dict c') = dget String.eqb t (ec_dict c)).
Proof.
  induction ms as [|(t & m) ms IH]; intros c tps Hd Hnd Hni Ht.
  - exists c. cbn [foldM flat_map List.map]. rewrite zlen_nil. split; auto. split; [lia|].
    rewrite zrange_empty by lia. cbn [combine]. rewrite app_nil_r. split; auto. split; [intuition|]. split; [intros ? ? []|auto].
  - cbn [foldM]. unfold dget_err. rewrite (Hd t m) by (left; auto). cbn [bind]. rewrite Z.eqb_refl.
    cbn [List.map fst] in Hnd. apply NoDup_cons_iff in Hnd. destruct Hnd as [N1 N2].
    assert (Nt : ~ In t (dkeys (ec_dict c))) by (apply Hni; left; auto).
    assert (A : ec_add c t m None = Ok (EC (ec_nelem c + m_nrow m) (ec_dict c ++ [(t, ED (ILrange (ec_nelem c) (ec_nelem c + m_nrow m - 1)) m)]))).
    { unfold ec_add. rewrite (proj2 (dget_None _ seqb_eq t (ec_dict c)) Nt). now rewrite (dset_notin _ seqb_eq). }
    rewrite A. cbn [bind].
    assert (T1 : ec_tuples (EC (ec_nelem c + m_nrow m) (ec_dict c ++ [(t, ED (ILrange (ec_nelem c) (ec_nelem c + m_nrow m - 1)) m)]))
                 = Ok (tps ++ combine (zrange (ec_nelem c) (ec_nelem c + m_nrow m)) (m_rows m))).
    { apply (ec_tuples_snoc (ec_nelem c)); [now destruct c|apply ed_tuples_range]. }
    match type of T1 with ec_tuples ?c1 = Ok ?t1 => specialize (IH c1 t1 (fun t' m' H => Hd t' m' (or_intror H)) N2) end.
    destruct IH as (c' & I1 & I2 & I3 & I4 & I5 & I6).
    { intros t' Ht'. cbn [ec_dict]. unfold dkeys. rewrite map_app, in_app_iff. cbn [List.map fst]. intros [X|[X|[]]].
      - apply (Hni t'); auto. right; auto.
      - subst. tauto. }
    { exact T1. }
    exists c'. cbn [ec_nelem ec_dict] in *. split; [exact I1|]. cbn [flat_map snd]. rewrite zlen_app. fold (m_nrow m).
    split; [unfold m_nrow in *; lia|]. split.
    { rewrite I3, <- app_assoc. do 2 f_equal. rewrite <- combine_app.
      - f_equal. rewrite <- zrange_app; auto.
        + unfold m_nrow. pose proof (zlen_nonneg (m_rows m)). lia.
        + rewrite I2. pose proof (zlen_nonneg (flat_map (fun tm => m_rows (snd tm)) ms)). lia.
      - rewrite zrange_length. unfold m_nrow, zlen. lia. }
    assert (G : forall t', dget String.eqb t' (ec_dict c ++ [(t, ED (ILrange (ec_nelem c) (ec_nelem c + m_nrow m - 1)) m)]) =
                           if String.eqb t' t then Some (ED (ILrange (ec_nelem c) (ec_nelem c + m_nrow m - 1)) m) else dget String.eqb t' (ec_dict c)).
    { intros t'. rewrite <- (dset_notin _ seqb_eq) by auto. destruct (String.eqb_spec t' t) as [->|Hne].
      - apply (dget_dset_eq _ seqb_eq).
      - now apply (dget_dset_neq _ seqb_eq). }
    split; [|split].
    { intros t'. rewrite I4, G. cbn [List.map fst In]. destruct (String.eqb_spec t' t) as [->|Hne].
      - split; [intros [X _]; discriminate|intros [_ X]; tauto].
      - intuition congruence. }
    { intros t' m' [E|Hin]; [|now apply I5].
      injection E as <- <-. unfold ec_getitem, dget_err. rewrite I6 by auto. rewrite G, String.eqb_refl. reflexivity. }
    { intros t' Hn. cbn [List.map fst In] in Hn. rewrite I6 by tauto. rewrite G.
      destruct (String.eqb_spec t' t) as [->|]; tauto. }
Qed.

Lemma conn_of_keys l : List.map fst (conn_of l) = first_seen String.eqb (List.map felt_name l).
Proof. unfold conn_of. rewrite map_map. cbn [fst]. apply map_id. Qed.

Section Marks.
  Context {F : Type} (fzero : F).

  Lemma export_marks_get (bs : dict string bnd) name : forall m,
    NoDup (dkeys bs) ->
    dget String.eqb name (me_bocos (fold_left (export_mark fzero) bs m)) =
    match dget String.eqb name bs with
    | Some b => if String.eqb (b_type b) "boundary"
                then Some (Mark (option F) name (Some Gbdnode) (Some "boundary"%string) (Some (ILlist (b_slicing b)))
                             (Some (Some (repeat (Some fzero) 16))))
                else dget String.eqb name (me_bocos m)
    | None => dget String.eqb name (me_bocos m)
    end.
  Proof.
    induction bs as [|(k & b) bs IH]; intros m N; [reflexivity|].
    cbn [dkeys List.map fst] in N. apply NoDup_cons_iff in N. destruct N as [N1 N2].
    cbn [fold_left dget]. rewrite IH by auto. destruct (String.eqb_spec name k) as [->|Hne].
    - rewrite (proj2 (dget_None _ seqb_eq k bs) N1). unfold export_mark.
      destruct (String.eqb_spec (b_type b) "boundary") as [->|]; auto.
      cbn [add_boco with_bocos me_bocos mk_name]. apply (dget_dset_eq _ seqb_eq).
    - assert (E : dget String.eqb name (me_bocos (export_mark fzero m (k, b))) = dget String.eqb name (me_bocos m)).
      { unfold export_mark. destruct (String.eqb (b_type b) "boundary"); auto.
        cbn [add_boco with_bocos me_bocos mk_name]. now apply (dget_dset_neq _ seqb_eq). }
      now rewrite E.
  Qed.

  Lemma export_marks_other (bs : dict string bnd) : forall m,
    me_cell2node (fold_left (export_mark fzero) bs m) = me_cell2node m /\
    me_ncell (fold_left (export_mark fzero) bs m) = me_ncell m /\
    me_nnode (fold_left (export_mark fzero) bs m) = me_nnode m /\
    me_nodes (fold_left (export_mark fzero) bs m) = me_nodes m.
  Proof.
    induction bs as [|(k & b) bs IH]; intros m; [auto|]. cbn [fold_left].
    destruct (IH (export_mark fzero m (k, b))) as (I1 & I2 & I3 & I4). rewrite I1, I2, I3, I4.
    unfold export_mark. destruct (String.eqb (b_type b) "boundary"); auto.
  Qed.

  (** What the exported mesh is made of. *)
  Lemma export_ok (g : gmsh F) n d l :
    sized n (g_xyz g) -> g_maxdim g = d -> g_conn g = conn_of l -> Forall felt_ok l -> (forall e, In e l -> felt_dim e = d) ->
    NoDup (dkeys (g_bnds g)) ->
    exists m c, export_mesh fzero g = Ok m /\ me_cell2node m = Some c /\ me_nnode m = n /\ me_ncell m = zlen l /\
      nodescoord m = Ok (g_xyz g) /\
      ec_nelem c = zlen l /\
      ec_tuples c = Ok (combine (zrange 0 (zlen l))
         (flat_map (fun t => List.map nodes0 (having String.eqb felt_name t l)) (first_seen String.eqb (List.map felt_name l)))) /\
      (forall t, In t (List.map felt_name l) ->
         exists mt, ec_getitem c t = Ok mt /\ m_rows mt = List.map nodes0 (having String.eqb felt_name t l)) /\
      (forall name, dget String.eqb name (me_bocos m) =
         match dget String.eqb name (g_bnds g) with
         | Some b => if String.eqb (b_type b) "boundary"
                     then Some (Mark (option F) name (Some Gbdnode) (Some "boundary"%string) (Some (ILlist (b_slicing b)))
                                  (Some (Some (repeat (Some fzero) 16))))
                     else None
         | None => None
         end).
  Proof.
    intros Hs Hd Hc Hok Hdim Hnd. unfold export_mesh. destruct (g_xyz g) as ((x & y) & z) eqn:Ex.
    destruct Hs as (S1 & S2 & S3). unfold set_coords_xyz. cbn [new_mesh me_nnode forallb].
    rewrite S1, S2, S3, !Z.eqb_refl. cbn [andb].
    rewrite Hd, Hc. unfold export_cells.
    destruct (export_cells_fold d (conn_of l) ec_empty []) as (c & C1 & C2 & C3 & _ & C5 & _).
    - intros t m Hin. unfold conn_of in Hin. apply in_map_iff in Hin. destruct Hin as (t' & E & Ht). injection E as -> _.
      rewrite (first_seen_in _ seqb_eq) in Ht. apply in_map_iff in Ht. destruct Ht as (e & <- & He).
      rewrite <- (Hdim e He). rewrite Forall_forall in Hok. apply felt_shape. auto.
    - rewrite conn_of_keys. apply (first_seen_NoDup _ seqb_eq).
    - intros t _ [].
    - reflexivity.
    - rewrite C1. cbn [bind]. eexists. exists c. split; [reflexivity|].
      match goal with |- context [fold_left (export_mark fzero) ?bs ?m0] => destruct (export_marks_other bs m0) as (O1 & O2 & O3 & O4); set (m1 := m0) in * end.
      assert (FM : flat_map (fun tm => m_rows (snd tm)) (conn_of l) =
        flat_map (fun t => List.map nodes0 (having String.eqb felt_name t l)) (first_seen String.eqb (List.map felt_name l))).
      { unfold conn_of. rewrite !flat_map_concat_map, map_map. reflexivity. }
      assert (LEN : zlen (flat_map (fun t => List.map nodes0 (having String.eqb felt_name t l)) (first_seen String.eqb (List.map felt_name l))) = zlen l).
      { transitivity (zlen (flat_map (fun t => having String.eqb felt_name t l) (first_seen String.eqb (List.map felt_name l))));
          [|apply zlen_perm, (first_seen_perm _ seqb_eq)].
        generalize (first_seen String.eqb (List.map felt_name l)). intros ks. induction ks as [|k ks IH]; auto.
        cbn [flat_map]. rewrite !zlen_app, zlen_map, IH. reflexivity. }
      rewrite FM, LEN in C2. cbn [ec_empty ec_nelem] in C2, C3.
      assert (EN : ec_nelem c = zlen l) by (rewrite C2; reflexivity).
      split; [rewrite O1; reflexivity|]. split; [rewrite O3; unfold m1; cbn; lia|].
      split; [rewrite O2; unfold m1; cbn; auto|].
      split. { unfold nodescoord. rewrite O4. reflexivity. }
      split; auto. split. { rewrite C3, FM, EN. reflexivity. }
      split.
      { intros t Ht. exists (shifted l t). split; [|reflexivity]. apply C5. unfold conn_of. apply in_map_iff. exists t.
        split; auto. rewrite (first_seen_in _ seqb_eq). exact Ht. }
      intros name. rewrite export_marks_get by auto. unfold m1. cbn [set_cell2node with_nodes new_mesh me_bocos].
      destruct (dget String.eqb name (g_bnds g)) as [b|]; auto.
  Qed.
End Marks.

Section Load.
  Context {F : Type} (fzero : F) (int_of : string -> res Z) (float_of : string -> res F) (ver_of : string -> res Z).
  Notation file := (gmsh_file int_of float_of ver_of).
  Notation loaded := (load fzero int_of float_of ver_of).

  Lemma read_until_some n : forall bs cnt xyz, n <= cnt + zlen (List.concat bs) ->
    exists r, read_until (F := F) n cnt bs xyz = Some r.
  Proof.
    induction bs as [|b bs IH]; intros cnt xyz H.
    - cbn [List.concat] in H. rewrite zlen_nil in H. cbn [read_until]. replace (cnt <? n) with false by lia. eauto.
    - cbn [List.concat] in H. rewrite zlen_app in H. cbn [read_until]. destruct (cnt <? n); [|eauto]. apply IH. lia.
  Qed.
  Lemma read_until_sized n : forall bs cnt xyz r, sized n xyz -> read_until (F := F) n cnt bs xyz = Some r -> sized n r.
  Proof.
    induction bs as [|b bs IH]; intros cnt xyz r Hs; cbn [read_until]; destruct (cnt <? n); try discriminate.
    - intros E. injection E as <-. auto.
    - intros E. eapply IH; [|exact E]. now apply put_nodes_sized.
    - intros E. injection E as <-. auto.
  Qed.

  Lemma section_len (msh : list (list string)) name body : section_is msh name body -> (List.length body < List.length msh)%nat.
  Proof. intros (pre & post & -> & _). rewrite !app_length. cbn [List.length]. lia. Qed.

  Lemma blocks_len (bs : list (list (Z * (F * F * F)))) bls : Forall2 (block4_lines int_of float_of) bs bls ->
    (List.length bs <= List.length (List.concat bls))%nat.
  Proof.
    induction 1 as [|b ls bs bls (h & th & tags & cs & -> & _) _ IH]; [auto|]. cbn [List.concat List.length app].
    rewrite app_length. lia.
  Qed.

  Lemma none_sized n : 0 <= n -> sized (F := F) n (repeat None (Z.to_nat n), repeat None (Z.to_nat n), repeat None (Z.to_nat n)).
  Proof.
    intros H. assert (R : zlen (repeat (@None F) (Z.to_nat n)) = n) by (unfold zlen; rewrite repeat_length; lia).
    cbn [sized]. now rewrite R.
  Qed.

  Lemma file_read msh names nnode elts fuel :
    file msh names nnode elts -> (List.length msh <= fuel)%nat ->
    exists xyz, sized nnode xyz /\
      read_sections int_of float_of ver_of fuel msh = Ok (option_map fam_table names, xyz, List.map felt_line elts).
  Proof.
    intros H Hf. destruct H as [v names nodes elts Hv Hv2 Hn Hc He|v names maxtag blocks rest points curves lastc surfaces eblocks Hv Hv4 Hn Hc [Ht1 Ht2] Hm Hent He].
    - eexists. split; [|eapply v2_read; eauto]. cbn [sized]. now rewrite !zlen_map.
    - destruct (read_until_some maxtag blocks 1 (repeat None (Z.to_nat maxtag), repeat None (Z.to_nat maxtag), repeat None (Z.to_nat maxtag))) as (r & Hr); [lia|].
      exists r. split; [eapply read_until_sized; [|exact Hr]; apply none_sized; lia|].
      eapply (v4_read _ _ _ _ _ _ _ maxtag blocks rest); eauto; try lia.
      + intros b nd Hb Hnd. apply Ht2. apply in_concat. eauto.
      + destruct Hc as (sec & Hsec & (h & th & bls & -> & _ & _ & HF)). apply section_len in Hsec. cbn [List.length] in Hsec.
        rewrite app_length in Hsec. apply blocks_len in HF. lia.
      + intros j. eapply find_ent_ok; eauto.
  Qed.

  Lemma named_patch names l e : named (option_map fam_table names) (last_group (fe_ent e) l) = patch_name names l e.
  Proof. destruct names as [ns|]; cbn [named option_map patch_name]; auto. apply fam_table_get. Qed.

  Lemma skipped_iff (names : option (list (Z * Z * string))) name :
    skipped (option_map fam_table names) name = false <-> ~ (names <> None /\ name = "fluid"%string).
  Proof.
    destruct names as [ns|]; cbn [skipped option_map].
    - destruct (String.eqb_spec name "fluid"); split; intros H; try congruence.
      + exfalso. apply H. split; congruence.
      + intros [_ X]. congruence.
    - split; auto. intros _ [X _]. congruence.
  Qed.

  (** The mesh obtained from a file: cells and marks (all the results below are cases of this). *)
  Lemma load_all msh names nnode elts d fuel :
    file msh names nnode elts -> Forall felt_ok elts -> top_dim d elts -> 2 <= d <= 3 -> (List.length msh <= fuel)%nat ->
    ((exists e, In e (of_dim (d - 1) elts) /\ patch_name names (of_dim (d - 1) elts) e = None) /\
     loaded fuel msh = Err KeyError) \/
    ((forall e, In e (of_dim (d - 1) elts) -> patch_name names (of_dim (d - 1) elts) e <> None) /\
     exists m c, loaded fuel msh = Ok m /\ me_cell2node m = Some c /\ me_nnode m = nnode /\
      me_ncell m = zlen (of_dim d elts) /\ ec_nelem c = zlen (of_dim d elts) /\
      ec_tuples c = Ok (combine (zrange 0 (zlen (of_dim d elts)))
         (flat_map (fun t => List.map nodes0 (having String.eqb felt_name t (of_dim d elts)))
                   (first_seen String.eqb (List.map felt_name (of_dim d elts))))) /\
      (forall t, In t (List.map felt_name (of_dim d elts)) ->
         exists mt, ec_getitem c t = Ok mt /\ m_rows mt = List.map nodes0 (having String.eqb felt_name t (of_dim d elts))) /\
      (forall name, match dget String.eqb name (me_bocos m) with
         | None => no_mark names name \/ forall e, In e (of_dim (d - 1) elts) -> patch_name names (of_dim (d - 1) elts) e <> Some name
         | Some b => ~ no_mark names name /\
             (exists e, In e (of_dim (d - 1) elts) /\ patch_name names (of_dim (d - 1) elts) e = Some name) /\
             mk_name b = name /\ mk_geodim b = Some Gbdnode /\ mk_type b = Some "boundary"%string /\
             exists s, mk_index b = Some (ILlist s) /\
               forall v, In v s <-> exists e, In e (of_dim (d - 1) elts) /\
                                    patch_name names (of_dim (d - 1) elts) e = Some name /\ In v (nodes0 e)
         end)).
  Proof.
    intros Hfile Hok Ht Hd Hf. destruct (file_read _ _ _ _ fuel Hfile Hf) as (xyz & Hs & Hr).
    set (q := of_dim (d - 1) elts).
    assert (Dec : (exists e, In e q /\ patch_name names q e = None) \/ (forall e, In e q -> patch_name names q e <> None)).
    { assert (G : forall l', (exists e, In e l' /\ patch_name names q e = None) \/ (forall e, In e l' -> patch_name names q e <> None)).
      { induction l' as [|e l' [IH|IH]].
        - right. intros e [].
        - left. destruct IH as (e' & H1 & H2). exists e'. split; auto. right; auto.
        - destruct (patch_name names q e) eqn:E.
          + right. intros e' [<-|H]; [congruence|auto].
          + left. exists e. split; auto. left; auto. }
      apply G. }
    destruct Dec as [(e & He & E)|Hall].
    - left. split; [eauto|]. unfold load, read_data. rewrite Hr. cbn [bind].
      rewrite (analyze_err (option_map fam_table names) xyz d elts e); auto. fold q. now rewrite named_patch.
    - right. split; auto. unfold load, read_data. rewrite Hr. cbn [bind].
      destruct (analyze_ok (option_map fam_table names) xyz d elts) as (g & G); auto.
      { intros e He. fold q in He |- *. rewrite named_patch. auto. }
      rewrite G. cbn [bind].
      destruct (analyze_bnds _ _ _ _ _ Hok Ht Hd G) as (G1 & G2 & G3 & G4 & (si & G5) & G6).
      destruct (export_ok fzero g nnode d (of_dim d elts)) as (m & c & E1 & E2 & E3 & E4 & _ & E5 & E6 & E7 & E8); auto.
      { now rewrite G2. }
      { now apply of_dim_ok. }
      { intros e He. apply filter_In in He. lia. }
      exists m, c. do 7 (split; [assumption|]).
      intros name. rewrite E8. destruct (String.eqb_spec name "int_fluid") as [->|Hne].
      { rewrite G5. cbn [b_type String.eqb]. left. left. reflexivity. }
      destruct (G6 name Hne) as [K V]. fold q in K, V.
      destruct (dget String.eqb name (g_bnds g)) as [b|] eqn:Eb.
      + destruct (V b eq_refl) as [B1 B2]. rewrite B1. cbn [String.eqb Ascii.eqb Bool.eqb].
        assert (Kin : In name (dkeys (g_bnds g))) by (apply (dget_Some_iff _ seqb_eq); eauto).
        apply K in Kin. destruct Kin as (Sk & e & He & Hg). unfold group_name in Hg. rewrite named_patch in Hg.
        split. { intros [X|X]; [congruence|]. apply skipped_iff in Sk. tauto. }
        split; [eauto|]. split; [reflexivity|]. split; [reflexivity|]. split; [reflexivity|].
        exists (b_slicing b). split; auto. intros v. rewrite B2. unfold group_name.
        split; intros (e' & H1 & H2 & H3); exists e'; rewrite named_patch in *; auto.
      + apply (dget_None _ seqb_eq) in Eb.
        destruct (skipped (option_map fam_table names) name) eqn:Sk.
        * left. right. destruct names as [ns|]; cbn in Sk; [|discriminate]. apply seqb_eq in Sk. split; [congruence|auto].
        * right. intros e He X. apply Eb, K. split; auto. exists e. split; auto. unfold group_name. now rewrite named_patch.
  Qed.

  (** ** C57 *)

  (** A file can be loaded if and only if every boundary element is in a named group (or there are
      no names at all); otherwise reading raises KeyError. *)
  Theorem C57_loads msh names nnode elts d fuel :
    file msh names nnode elts -> Forall felt_ok elts -> top_dim d elts -> 2 <= d <= 3 -> (List.length msh <= fuel)%nat ->
    ((exists m, loaded fuel msh = Ok m) <->
     (forall e, In e (of_dim (d - 1) elts) -> patch_name names (of_dim (d - 1) elts) e <> None)) /\
    (forall x, loaded fuel msh = Err x -> x = KeyError).
  Proof.
    intros H1 H2 H3 H4 H5. destruct (load_all msh names nnode elts d fuel H1 H2 H3 H4 H5) as [[(e & He & E) L]|[A (m & c & L & _)]]; rewrite L.
    - split; [|congruence]. split; [intros (m & X); discriminate|]. intros X. exfalso. apply (X e He E).
    - split; [|congruence]. split; eauto.
  Qed.

  (** A file is refused if it has no element, if one of its elements is not of a first order type (the second order
      types 8 to 14 of Gmsh among them), or if it has no surface and no volume. *)
  Theorem C57_refused msh names nnode elts fuel :
    file msh names nnode elts -> (List.length msh <= fuel)%nat ->
    (elts = [] -> loaded fuel msh = Err ValueError) /\
    ((exists e, In e elts /\ shape_of (fe_type e) = None) -> loaded fuel msh = Err KeyError) /\
    (elts <> [] -> Forall felt_ok elts -> (forall e, In e elts -> felt_dim e < 2) -> loaded fuel msh = Err RuntimeError).
  Proof.
    intros Hfile Hf. destruct (file_read _ _ _ _ fuel Hfile Hf) as (xyz & Hs & Hr).
    unfold load, read_data. rewrite Hr. cbn [bind]. unfold analyze. split; [|split].
    - intros ->. reflexivity.
    - intros (e & He & N). enough (X : mapM elt_dim (List.map felt_line elts) = Err KeyError) by now rewrite X.
      clear - He N. induction elts as [|a l IH]; [destruct He|]. cbn [List.map mapM].
      assert (D : forall b, elt_dim (felt_line b) = Err KeyError \/ (shape_of (fe_type b) <> None /\ exists d, elt_dim (felt_line b) = Ok d)).
      { intros b. unfold elt_dim. rewrite felt_get1. cbn [bind]. destruct (shape_of (fe_type b)) as [((nm & d) & n)|] eqn:S.
        - destruct (shape_table _ _ _ _ S) as [A B]. right. split; [discriminate|]. exists d. unfold dget_err. rewrite A. cbn [bind]. now rewrite B.
        - left. unfold dget_err. destruct (dget Z.eqb (fe_type b) gmshtype_elem) as [nm|] eqn:G; [|reflexivity]. cbn [bind].
          assert (T : In (fe_type b, nm) gmshtype_elem) by now apply (PyFacts.dget_in _ Z.eqb_eq).
          repeat (destruct T as [T|T]; [injection T as T1 T2; rewrite <- T1 in S; try discriminate S; rewrite <- T2; reflexivity|]). destruct T. }
      destruct (D a) as [-> | (NN & d & ->)]; [reflexivity|]. cbn [bind]. destruct He as [->|He]; [contradiction|]. now rewrite IH.
    - intros NE Hok Hd. assert (X : mapM elt_dim (List.map felt_line elts) = Ok (List.map felt_dim elts)).
      { clear - Hok. induction Hok as [|a l Ha Hl IH]; [reflexivity|]. cbn [List.map mapM]. rewrite elt_dim_line by exact Ha. cbn [bind]. now rewrite IH. }
      rewrite X. cbn [bind]. destruct (py_max (List.map felt_dim elts)) as [d|x] eqn:M.
      + apply py_max_ok in M. destruct M as [M _]. apply in_map_iff in M. destruct M as (e & <- & He). cbn [bind]. apply Hd in He. replace (felt_dim e <? 2) with true by lia. reflexivity.
      + destruct elts; [congruence|discriminate M].
  Qed.

  (** Every element of the highest dimension becomes exactly one cell, with its nodes counted from
      0; cells are numbered 0, 1, ... type after type (types in order of first appearance), in file
      order within a type; other elements give no cell. *)
  Theorem C57_cells msh names nnode elts d fuel m :
    file msh names nnode elts -> Forall felt_ok elts -> top_dim d elts -> 2 <= d <= 3 -> (List.length msh <= fuel)%nat ->
    loaded fuel msh = Ok m ->
    exists c tuples, me_cell2node m = Some c /\ ec_tuples c = Ok tuples /\
      me_nnode m = nnode /\ me_ncell m = zlen (of_dim d elts) /\
      List.map fst tuples = zrange 0 (zlen (of_dim d elts)) /\
      Permutation (List.map snd tuples) (List.map nodes0 (of_dim d elts)) /\
      List.map snd tuples =
        flat_map (fun t => List.map nodes0 (filter (fun e => String.eqb (felt_name e) t) (of_dim d elts)))
                 (first_seen String.eqb (List.map felt_name (of_dim d elts))) /\
      forall t, In t (List.map felt_name (of_dim d elts)) -> exists mt, ec_getitem c t = Ok mt /\
        m_rows mt = List.map nodes0 (filter (fun e => String.eqb (felt_name e) t) (of_dim d elts)).
  Proof.
    intros H1 H2 H3 H4 H5 L. destruct (load_all msh names nnode elts d fuel H1 H2 H3 H4 H5) as [[_ X]|[_ (m' & c & X & A1 & A2 & A3 & A4 & A5 & A6 & _)]]; rewrite L in X; [discriminate|].
    injection X as <-. exists c. eexists. split; [exact A1|]. split; [exact A5|]. split; [exact A2|]. split; [exact A3|].
    set (q := of_dim d elts) in *.
    assert (P : Permutation (flat_map (fun t => List.map nodes0 (having String.eqb felt_name t q)) (first_seen String.eqb (List.map felt_name q))) (List.map nodes0 q)).
    { transitivity (List.map nodes0 (flat_map (fun t => having String.eqb felt_name t q) (first_seen String.eqb (List.map felt_name q))));
        [|apply Permutation_map, (first_seen_perm _ seqb_eq)].
      apply Permutation_refl'. generalize (first_seen String.eqb (List.map felt_name q)). intros ks. induction ks as [|k ks IH]; auto.
      cbn [flat_map]. now rewrite map_app, IH. }
    assert (LE : List.length (zrange 0 (zlen q)) = List.length (flat_map (fun t => List.map nodes0 (having String.eqb felt_name t q)) (first_seen String.eqb (List.map felt_name q)))).
    { rewrite zrange_length, (Permutation_length P), map_length. unfold zlen. lia. }
    rewrite map_fst_combine, map_snd_combine by (rewrite ?LE; auto).
    split; [reflexivity|]. split; [exact P|]. split; [reflexivity|]. exact A6.
  Qed.

  (** The marks: one per group name, made of exactly the nodes of the elements one dimension lower
      whose entity's (last) group has this name.  No mark for "fluid" when the file names groups,
      nor for "int_fluid". *)
  Theorem C57_marks msh names nnode elts d fuel m :
    file msh names nnode elts -> Forall felt_ok elts -> top_dim d elts -> 2 <= d <= 3 -> (List.length msh <= fuel)%nat ->
    loaded fuel msh = Ok m ->
    forall name, match dget String.eqb name (me_bocos m) with
      | None => no_mark names name \/
                forall e, In e (of_dim (d - 1) elts) -> patch_name names (of_dim (d - 1) elts) e <> Some name
      | Some b => ~ no_mark names name /\
          (exists e, In e (of_dim (d - 1) elts) /\ patch_name names (of_dim (d - 1) elts) e = Some name) /\
          mk_name b = name /\ mk_geodim b = Some Gbdnode /\ mk_type b = Some "boundary"%string /\
          exists s, mk_index b = Some (ILlist s) /\
            forall v, In v s <-> exists e, In e (of_dim (d - 1) elts) /\
                                 patch_name names (of_dim (d - 1) elts) e = Some name /\ In (v + 1) (fe_nodes e)
      end.
  Proof.
    intros H1 H2 H3 H4 H5 L name. destruct (load_all msh names nnode elts d fuel H1 H2 H3 H4 H5) as [[_ X]|[_ (m' & c & X & _ & _ & _ & _ & _ & _ & A)]]; rewrite L in X; [discriminate|].
    injection X as <-. specialize (A name). destruct (dget String.eqb name (me_bocos m)) as [b|]; auto.
    destruct A as (A1 & A2 & A3 & A4 & A5 & s & A6 & A7). do 5 (split; [assumption|]). exists s. split; auto.
    intros v. rewrite A7. assert (N : forall e, In v (nodes0 e) <-> In (v + 1) (fe_nodes e)).
    { intros e. unfold nodes0. rewrite in_map_iff. split.
      - intros (w & <- & Hw). now replace (w - 1 + 1) with w by lia.
      - intros Hw. exists (v + 1). split; auto. lia. }
    split; intros (e & B1 & B2 & B3); exists e; (split; [auto|split; [auto|]]); now apply N.
  Qed.

  (** When the elements of an entity are all in one group, the patch of an element is its own group;
      this is always so in version 4, where groups belong to entities. *)
  Theorem C57_own_group ns l e : one_group l -> In e l ->
    patch_name (Some ns) l e = phys_name ns (fe_phys e).
  Proof.
    intros H He. cbn [patch_name]. f_equal. unfold last_group.
    assert (G : forall q, (forall e', In e' q -> fe_phys e' = fe_phys e) -> q <> [] -> List.last (List.map fe_phys q) 0 = fe_phys e).
    { clear. induction q as [|a q IH]; intros H N; [congruence|]. destruct q as [|b q].
      - cbn. apply H. left; auto.
      - change (List.last (List.map fe_phys (a :: b :: q)) 0) with (List.last (List.map fe_phys (b :: q)) 0). apply IH; [|discriminate].
        intros e' He'. apply H. right; auto. }
    apply G.
    - intros e' He'. apply filter_In in He'. destruct He' as [A B]. apply H; auto. lia.
    - intros X. assert (I : In e (filter (fun e' => fe_ent e' =? fe_ent e) l)) by (apply filter_In; split; auto; lia).
      rewrite X in I. destruct I.
  Qed.
  Theorem C57_own_group_v4 (group : Z -> Z) blocks d : one_group (of_dim d (flat_map (block_elts group) blocks)).
  Proof.
    assert (G : forall e, In e (of_dim d (flat_map (block_elts group) blocks)) -> fe_phys e = group (fe_ent e)).
    { intros e He. apply filter_In in He. destruct He as [He _]. apply in_flat_map in He. destruct He as (b & _ & He).
      apply in_map_iff in He. destruct He as (x & <- & _). reflexivity. }
    intros e e' H H' E. rewrite (G e H), (G e' H'), E. reflexivity.
  Qed.

  Lemma bnd_steps_nodup fam b2f : forall tds st st',
    (forall td, In td tds -> NoDup (conn_nodes (snd td))) ->
    (forall name b, dget String.eqb name (fst st) = Some b -> NoDup (b_slicing b)) ->
    foldM (bnd_step fam b2f) st tds = Ok st' ->
    forall name b, dget String.eqb name (fst st') = Some b -> NoDup (b_slicing b).
  Proof.
    assert (C : forall st name td st', NoDup (conn_nodes td) ->
      (forall n b, dget String.eqb n (fst st) = Some b -> NoDup (b_slicing b)) -> create_bnd st name td = Ok st' ->
      forall n b, dget String.eqb n (fst st') = Some b -> NoDup (b_slicing b)).
    { intros (bnds & famm) name td st' N I H n b. unfold create_bnd in H. cbn [fst] in I.
      destruct (str_in name famm).
      - apply bind_ok in H. destruct H as (b0 & _ & H). injection H as <-. cbn [fst]. destruct (String.eqb_spec n name) as [->|Hne].
        + rewrite (dget_dset_eq _ seqb_eq). intros E. injection E as <-. cbn [b_slicing]. apply np_unique_NoDup.
        + rewrite (dget_dset_neq _ seqb_eq) by auto. apply I.
      - injection H as <-. cbn [fst]. destruct (String.eqb_spec n name) as [->|Hne].
        + rewrite (dget_dset_eq _ seqb_eq). intros E. injection E as <-. auto.
        + rewrite (dget_dset_neq _ seqb_eq) by auto. apply I. }
    induction tds as [|td tds IH]; intros st st' N I H; cbn [foldM] in H.
    - injection H as <-. exact I.
    - apply bind_ok in H. destruct H as (st1 & H1 & H). apply (IH st1); auto.
      { intros; apply N; right; auto. }
      unfold bnd_step in H1. destruct fam as [fam|].
      + apply bind_ok in H1. destruct H1 as (p & _ & H1). apply bind_ok in H1. destruct H1 as (fm & _ & H1).
        destruct (String.eqb fm "fluid"); [injection H1 as <-; exact I|].
        eapply C; eauto. apply N. left; auto.
      + eapply C; eauto. apply N. left; auto.
  Qed.

  Lemma first_seen_const {A} (f : A -> string) l c : (forall a, In a l -> f a = c) -> l <> [] ->
    first_seen String.eqb (List.map f l) = [c].
  Proof.
    intros H Hne. assert (N := first_seen_NoDup _ seqb_eq (List.map f l)).
    assert (I : forall x, In x (first_seen String.eqb (List.map f l)) <-> x = c).
    { intros x. rewrite (first_seen_in _ seqb_eq), in_map_iff. split.
      - intros (a & <- & Ha). auto.
      - intros ->. destruct l as [|a q]; [congruence|]. exists a. split; [apply H|]; left; auto. }
    destruct (first_seen String.eqb (List.map f l)) as [|x [|y q]].
    - destruct (proj2 (I c) eq_refl).
    - f_equal. apply I. left; auto.
    - exfalso. apply NoDup_cons_iff in N. destruct N as [N _]. apply N. left.
      rewrite (proj1 (I x)), (proj1 (I y)); auto; [right; left|left]; auto.
  Qed.

  (** No node is repeated in a mark when each entity has elements of one type only, which is always
      so in two dimensions (see [ex_repeated] for a mixed entity). *)
  Theorem C57_no_repeats msh names nnode elts d fuel m :
    file msh names nnode elts -> Forall felt_ok elts -> top_dim d elts -> 2 <= d <= 3 -> (List.length msh <= fuel)%nat ->
    (forall e e', In e (of_dim (d - 1) elts) -> In e' (of_dim (d - 1) elts) -> fe_ent e = fe_ent e' -> felt_name e = felt_name e') ->
    loaded fuel msh = Ok m ->
    forall name b s, dget String.eqb name (me_bocos m) = Some b -> mk_index b = Some (ILlist s) -> NoDup s.
  Proof.
    intros Hfile Hok Ht Hd Hf Hty. destruct (file_read _ _ _ _ fuel Hfile Hf) as (xyz & Hs & Hr).
    unfold load, read_data. rewrite Hr. cbn [bind]. intros L. apply bind_ok in L. destruct L as (g & G & L).
    destruct (analyze_bnds _ _ _ _ _ Hok Ht Hd G) as (G1 & G2 & G3 & G4 & _).
    destruct (export_ok fzero g nnode d (of_dim d elts)) as (m' & c & E1 & _ & _ & _ & _ & _ & _ & _ & E8); auto.
    { now rewrite G2. }
    { now apply of_dim_ok. }
    { intros e He. apply filter_In in He. lia. }
    rewrite L in E1. injection E1 as <-.
    intros name b s. rewrite E8. rewrite (analyze_eq _ xyz d) in G by auto. apply bind_ok in G. destruct G as (st & S & G).
    injection G as <-. cbn [g_bnds].
    destruct (String.eqb_spec name "int_fluid") as [->|Hne].
    { rewrite (dget_dset_eq _ seqb_eq). cbn [b_type]. discriminate. }
    rewrite (dget_dset_neq _ seqb_eq) by auto.
    destruct (dget String.eqb name (fst st)) as [b0|] eqn:Eb; [|discriminate].
    destruct (String.eqb (b_type b0) "boundary"); [|discriminate]. intros E. injection E as <-. cbn [mk_index].
    intros E. injection E as <-. eapply bnd_steps_nodup; [| |exact S|exact Eb].
    - intros td Htd. apply in_map_iff in Htd. destruct Htd as (k & <- & Hk). cbn [snd].
      rewrite (first_seen_in _ Z.eqb_eq) in Hk. apply in_map_iff in Hk. destruct Hk as (e & <- & He).
      unfold conn_of. rewrite (first_seen_const _ _ (felt_name e)).
      + cbn [List.map]. unfold conn_nodes. cbn [flat_map]. rewrite app_nil_r. apply np_unique_NoDup.
      + intros a Ha. apply having_in in Ha; [|exact Z.eqb_eq]. apply Hty; tauto.
      + intros X. assert (Y : In e (having Z.eqb fe_ent (fe_ent e) (of_dim (d - 1) elts))) by (apply having_in; [exact Z.eqb_eq|auto]).
        rewrite X in Y. destruct Y.
    - intros n b X. discriminate X.
  Qed.
  Theorem C57_one_type_2d elts : Forall felt_ok elts ->
    forall e e', In e (of_dim 1 elts) -> In e' (of_dim 1 elts) -> felt_name e = felt_name e'.
  Proof.
    intros H. assert (G : forall e, In e (of_dim 1 elts) -> felt_name e = "bar2"%string).
    { intros e He. apply filter_In in He. destruct He as [He D]. rewrite Forall_forall in H. destruct (H e He) as (n & dd & k & S & _).
      unfold felt_dim in D. unfold felt_name. rewrite S in *. unfold shape_of in S.
      destruct (fe_type e) as [|q|q]; try discriminate; repeat (destruct q as [q|q|]; try discriminate; try (injection S as <- <- <-; try reflexivity; discriminate)). }
    intros e e' He He'. now rewrite (G e He), (G e' He').
  Qed.

  (** ** C56: nodes *)

  (** Version 2: the k-th node line gives the k-th node, whatever number is written on it. *)
  Theorem C56_v2 msh v names nodes elts fuel :
    format_is int_of ver_of msh v -> v <= 2 -> names_are int_of msh names ->
    nodes2_are int_of float_of msh nodes -> elts2_are int_of msh elts ->
    exists xyz, read_sections int_of float_of ver_of fuel msh = Ok (option_map fam_table names, xyz, List.map felt_line elts) /\
      sized (zlen nodes) xyz /\
      forall k p, nth_error nodes k = Some p -> node_at xyz (Z.of_nat k + 1) (Some p).
  Proof.
    intros H1 H2 H3 H4 H5. eexists. split; [eapply v2_read; eauto|]. split.
    { cbn [sized]. now rewrite !zlen_map. }
    intros k ((x & y) & z) Hk. cbn [node_at option_map]. replace (Z.to_nat (Z.of_nat k + 1 - 1)) with k by lia.
    rewrite !nth_error_map, Hk. cbn [option_map fst snd]. auto.
  Qed.

  (** Version 4: when the last non-empty block has at least two nodes, every node gets its
      coordinates, whatever the order of the blocks and of the numbers. *)
  Theorem C56_all sec n pre b empties rest fuel :
    nodes4_sec int_of float_of sec n (pre ++ [b] ++ empties) rest ->
    tags_ok n (pre ++ [b] ++ empties) -> n = zlen (List.concat (pre ++ [b])) ->
    (forall e, In e empties -> e = []) -> 2 <= zlen b -> (List.length sec <= fuel)%nat ->
    exists xyz, nodes_v4 int_of float_of fuel sec = Ok xyz /\ sized n xyz /\
      forall tag p, In (tag, p) (List.concat (pre ++ [b])) -> node_at xyz tag (Some p).
  Proof.
    intros Hsec [T1 T2] Hn Hempty Hb Hf. pose proof (zlen_nonneg (List.concat (pre ++ [b]))) as Hn0.
    assert (CE : List.concat (pre ++ [b] ++ empties) = List.concat (pre ++ [b])).
    { rewrite app_assoc, concat_app. assert (X : List.concat empties = []).
      { clear - Hempty. induction empties as [|e q IH]; auto. cbn [List.concat]. rewrite (Hempty e) by (left; auto). cbn [app].
        apply IH. intros; apply Hempty; right; auto. }
      now rewrite X, app_nil_r. }
    rewrite CE in T1, T2.
    assert (LB : (List.length (pre ++ [b] ++ empties) < fuel)%nat).
    { destruct Hsec as (h & th & bls & -> & _ & _ & HF). apply blocks_len in HF. cbn [List.length] in Hf. rewrite app_length in Hf. lia. }
    pose proof (nodes4_read int_of float_of ver_of sec n (pre ++ [b] ++ empties) rest fuel Hsec) as R.
    assert (E : read_until n 1 (pre ++ [b] ++ empties) (repeat None (Z.to_nat n), repeat None (Z.to_nat n), repeat None (Z.to_nat n)) =
      Some (fold_left put_node (List.concat (pre ++ [b])) (repeat None (Z.to_nat n), repeat None (Z.to_nat n), repeat None (Z.to_nat n)))).
    { assert (Ln : n = zlen (List.concat pre) + zlen b) by (rewrite Hn, concat_app, zlen_app; cbn [List.concat]; now rewrite app_nil_r).
      rewrite read_until_pre by lia. cbn [app read_until]. replace (1 + zlen (List.concat pre) <? n) with true by lia.
      rewrite concat_app, fold_left_app. cbn [List.concat]. rewrite app_nil_r.
      destruct empties; cbn [read_until]; now replace (1 + zlen (List.concat pre) + zlen b <? n) with false by lia. }
    rewrite E in R. eexists. split; [apply R; auto; try lia|].
    - intros b' nd H1 H2. apply T2. rewrite <- CE. apply in_concat. eauto.
    - split; [apply put_nodes_sized, none_sized; lia|]. intros tag p Hin. apply (put_nodes_in n); auto. apply none_sized; lia.
  Qed.

  (** Version 4: when the last non-empty block has one node, this node is skipped: it keeps no
      coordinates, without an error; all others are read. *)
  Theorem C56_last_skipped sec n pre tag p empties rest fuel :
    nodes4_sec int_of float_of sec n (pre ++ [[(tag, p)]] ++ empties) rest ->
    tags_ok n (pre ++ [[(tag, p)]] ++ empties) -> n = zlen (List.concat (pre ++ [[(tag, p)]])) ->
    (List.length sec <= fuel)%nat ->
    exists xyz, nodes_v4 int_of float_of fuel sec = Ok xyz /\ sized n xyz /\ node_at xyz tag None /\
      forall tag' p', In (tag', p') (List.concat pre) -> node_at xyz tag' (Some p').
  Proof.
    intros Hsec [T1 T2] Hn Hf.
    assert (LB : (List.length (pre ++ [[(tag, p)]] ++ empties) < fuel)%nat).
    { destruct Hsec as (h & th & bls & -> & _ & _ & HF). apply blocks_len in HF. cbn [List.length] in Hf. rewrite app_length in Hf. lia. }
    rewrite concat_app in Hn. cbn [List.concat app] in Hn. rewrite zlen_app, zlen_cons, zlen_nil in Hn.
    pose proof (zlen_nonneg (List.concat pre)) as Hn0.
    pose proof (nodes4_read int_of float_of ver_of sec n _ rest fuel Hsec) as R.
    rewrite read_until_stop in R by lia.
    rewrite concat_app in T1, T2. cbn [List.concat app] in T1, T2.
    rewrite map_app in T1. apply NoDup_app in T1. destruct T1 as (T1a & _ & T1b).
    eexists. split; [apply R; auto; try lia|].
    - intros b' nd H1 H2. assert (X : In nd (List.concat (pre ++ [[(tag, p)]] ++ empties))) by (apply in_concat; eauto).
      rewrite concat_app in X. cbn [List.concat app] in X. apply T2. exact X.
    - assert (Htag : 1 <= tag <= n) by (apply (T2 (tag, p)); apply in_app_iff; right; left; auto).
      assert (S0 := none_sized n ltac:(lia)).
      split; [now apply put_nodes_sized|]. split.
      + apply (put_nodes_other n); auto.
        * intros X. apply (T1b tag X). cbn [List.map fst]. left; auto.
        * intros nd H. apply T2. apply in_app_iff. auto.
        * now apply node_at_none.
      + intros tag' p' Hin. apply (put_nodes_in n); auto. intros nd H. apply T2. apply in_app_iff. auto.
  Qed.

  (** Version 4: a section whose largest node number exceeds the number of nodes by two or more
      (holes in the numbering) cannot be read: IndexError. *)
  Theorem C56_holes sec n blocks fuel :
    nodes4_sec int_of float_of sec n blocks [] -> tags_ok n blocks ->
    1 + zlen (List.concat blocks) < n -> (List.length sec <= fuel)%nat ->
    nodes_v4 int_of float_of fuel sec = Err IndexError.
  Proof.
    intros Hsec [T1 T2] Hn Hf. pose proof (zlen_nonneg (List.concat blocks)) as Hn0.
    assert (LB : (List.length blocks < fuel)%nat).
    { destruct Hsec as (h & th & bls & -> & _ & _ & HF). apply blocks_len in HF. cbn [List.length] in Hf. rewrite app_length in Hf. lia. }
    pose proof (nodes4_read int_of float_of ver_of sec n blocks [] fuel Hsec) as R.
    rewrite read_until_all in R; auto; try lia.
    - apply R; auto; try lia. intros b' nd H1 H2. apply T2. apply in_concat. eauto.
    - rewrite zsum_lens. lia.
  Qed.


  (** The coordinates of the mesh are those read from the section. *)
  Theorem C56_exported msh fuel m fam xyz lines :
    read_sections int_of float_of ver_of fuel msh = Ok (fam, xyz, lines) -> loaded fuel msh = Ok m ->
    nodescoord m = Ok xyz.
  Proof.
    intros Hr. unfold load, read_data. rewrite Hr. cbn [bind]. intros H. apply bind_ok in H. destruct H as (g & Hg & H).
    assert (Gx : g_xyz g = xyz).
    { unfold analyze in Hg. repeat (let r := fresh "r" in let Hx := fresh "Hx" in apply bind_ok in Hg; destruct Hg as (r & Hx & Hg)).
      repeat match type of Hg with (if ?b then _ else _) = _ => destruct b; try discriminate
             | (let '(_, _) := ?p in _) = _ => destruct p
             | bind _ _ = Ok _ => let r := fresh "r" in let Hx := fresh "Hx" in apply bind_ok in Hg; destruct Hg as (r & Hx & Hg) end.
      now injection Hg as <-. }
    unfold export_mesh in H. rewrite Gx in H. destruct xyz as ((x & y) & z).
    destruct (set_coords_xyz (new_mesh 0 (zlen x)) x y z) as (r & m0) eqn:Em. destruct r; [|discriminate].
    apply bind_ok in H. destruct H as (c & Hc & H).
    injection H as <-. destruct (export_marks_other fzero (g_bnds g) (set_cell2node m0 c)) as (_ & _ & _ & O4).
    unfold nodescoord. rewrite O4. unfold set_coords_xyz in Em.
    destruct (forallb _ _) in Em; [|discriminate]. injection Em as <- <-. reflexivity.
  Qed.

  (** ** C58: physical groups of version 4 files *)

  (** A surface with a physical group gets it, when no other surface nor the last curve has its tag. *)
  Theorem C58_surface msh points curves lastc surfaces s p ps :
    entities_are int_of msh points (curves ++ [lastc]) surfaces ->
    In s surfaces -> NoDup (List.map en_tag surfaces) -> en_tag lastc <> en_tag s -> en_phys s = p :: ps ->
    find_ent int_of msh (en_tag s) = Ok p.
  Proof.
    intros H Hin Hnd Hl Hp. rewrite (find_ent_ok _ float_of ver_of _ _ _ _ _ _ H). unfold found_group. cbn [find].
    replace (en_tag lastc =? en_tag s) with false by lia.
    assert (G : find (fun e => en_tag e =? en_tag s) surfaces = Some s).
    { clear - Hin Hnd. induction surfaces as [|a q IH]; [destruct Hin|]. cbn [List.map] in Hnd.
      apply NoDup_cons_iff in Hnd. destruct Hnd as [N1 N2]. cbn [find]. destruct Hin as [->|Hin].
      - now rewrite Z.eqb_refl.
      - replace (en_tag a =? en_tag s) with false; [auto|]. symmetry. apply Z.eqb_neq. intros E. apply N1. rewrite E.
        now apply in_map. }
    rewrite G. unfold first_group. now rewrite Hp.
  Qed.

  (** A curve other than the last gets group 0 when no surface has its tag ... *)
  Theorem C58_curve_lost msh points curves lastc surfaces c :
    entities_are int_of msh points (curves ++ [lastc]) surfaces ->
    In c curves -> en_tag lastc <> en_tag c -> (forall s, In s surfaces -> en_tag s <> en_tag c) ->
    find_ent int_of msh (en_tag c) = Ok 0.
  Proof.
    intros H Hin Hl Hs. rewrite (find_ent_ok _ float_of ver_of _ _ _ _ _ _ H). unfold found_group. cbn [find].
    replace (en_tag lastc =? en_tag c) with false by lia.
    assert (G : find (fun e => en_tag e =? en_tag c) surfaces = None).
    { clear - Hs. induction surfaces as [|a q IH]; auto. cbn [find]. replace (en_tag a =? en_tag c) with false.
      - apply IH. intros; apply Hs; right; auto.
      - symmetry. apply Z.eqb_neq. apply Hs. left; auto. }
    now rewrite G.
  Qed.

  (** ... and the group of the surface which has its tag, when there is one. *)
  Theorem C58_curve_wrong msh points curves lastc surfaces c s p ps :
    entities_are int_of msh points (curves ++ [lastc]) surfaces ->
    In c curves -> en_tag lastc <> en_tag c ->
    In s surfaces -> NoDup (List.map en_tag surfaces) -> en_tag s = en_tag c -> en_phys s = p :: ps ->
    find_ent int_of msh (en_tag c) = Ok p.
  Proof. intros H Hin Hl Hs Hnd E Hp. rewrite <- E in *. eapply C58_surface; eauto. Qed.

  (** A surface without physical group is given the number of its bounding curves as group. *)
  Theorem C58_no_group msh points curves lastc surfaces s :
    entities_are int_of msh points (curves ++ [lastc]) surfaces ->
    In s surfaces -> NoDup (List.map en_tag surfaces) -> en_tag lastc <> en_tag s -> en_phys s = [] ->
    find_ent int_of msh (en_tag s) = Ok (zlen (en_bound s)).
  Proof.
    intros H Hin Hnd Hl Hp. rewrite (find_ent_ok _ float_of ver_of _ _ _ _ _ _ H). unfold found_group. cbn [find].
    replace (en_tag lastc =? en_tag s) with false by lia.
    assert (G : find (fun e => en_tag e =? en_tag s) surfaces = Some s).
    { clear - Hin Hnd. induction surfaces as [|a q IH]; [destruct Hin|]. cbn [List.map] in Hnd.
      apply NoDup_cons_iff in Hnd. destruct Hnd as [N1 N2]. cbn [find]. destruct Hin as [->|Hin].
      - now rewrite Z.eqb_refl.
      - replace (en_tag a =? en_tag s) with false; [auto|]. symmetry. apply Z.eqb_neq. intros E. apply N1. rewrite E.
        now apply in_map. }
    rewrite G. unfold first_group. now rewrite Hp.
  Qed.

  (** So a two-dimensional version 4 file with a boundary curve whose tag is neither that of the
      last curve nor of a surface cannot be loaded, unless a group is numbered 0. *)
  Theorem C58_2d_unreadable msh v ns maxtag blocks rest points curves lastc surfaces eblocks fuel b x :
    format_is int_of ver_of msh v -> 4 <= v -> names_are int_of msh (Some ns) ->
    nodes4_are int_of float_of msh maxtag blocks rest -> tags_ok maxtag blocks ->
    0 <= maxtag <= 1 + zlen (List.concat blocks) ->
    entities_are int_of msh points (curves ++ [lastc]) surfaces -> elts4_are int_of msh eblocks ->
    let elts := flat_map (block_elts (found_group (lastc :: surfaces))) eblocks in
    Forall felt_ok elts -> top_dim 2 elts -> (List.length msh <= fuel)%nat ->
    In b eblocks -> eb_type b = 1 -> In x (eb_elts b) ->
    (forall e, In e (lastc :: surfaces) -> en_tag e <> eb_ent b) -> phys_name ns 0 = None ->
    loaded fuel msh = Err KeyError.
  Proof.
    intros H1 H2 H3 H4 H5 H6 H7 H8 elts Hok Ht Hf Hb Hty Hx Hl Hp.
    assert (FL : file msh (Some ns) maxtag elts) by (eapply File4; eauto).
    destruct (C57_loads _ _ _ _ 2 fuel FL Hok Ht ltac:(lia) Hf) as [I E].
    destruct (loaded fuel msh) as [m|y] eqn:L; [|now rewrite (E y eq_refl)].
    exfalso. set (g := found_group (lastc :: surfaces)) in *.
    set (e := FElt (fst x) (eb_type b) (g (eb_ent b)) (eb_ent b) [] (snd x)).
    assert (He : In e (of_dim (2 - 1) elts)).
    { apply filter_In. split.
      - apply in_flat_map. exists b. split; auto. apply in_map_iff. exists x. split; auto.
      - unfold felt_dim, e. cbn [fe_type]. rewrite Hty. reflexivity. }
    assert (N : patch_name (Some ns) (of_dim (2 - 1) elts) e <> None) by (apply I; eauto). apply N.
    rewrite C57_own_group; [|apply C57_own_group_v4|auto]. cbn [fe_phys e]. 
    assert (G : g (eb_ent b) = 0).
    { unfold g, found_group. replace (find (fun e => en_tag e =? eb_ent b) (lastc :: surfaces)) with (@None entity); auto.
      clear - Hl. induction (lastc :: surfaces) as [|a q IH]; auto. cbn [find]. replace (en_tag a =? eb_ent b) with false.
      - apply IH. intros; apply Hl; right; auto.
      - symmetry. apply Z.eqb_neq. apply Hl. left; auto. }
    now rewrite G.
  Qed.
End Load.


(** ** Examples *)

Definition int10 (s : string) : res Z :=
  match NilZero.int_of_string s with Some i => Ok (Z.of_int i) | None => Err ValueError end.
Definition qt (s : string) : string := (quote ++ s ++ quote)%string.

Open Scope string_scope.
(** Two triangles and a square, three boundary segments in two groups. *)
Definition ex_v2 : list (list string) :=
  [ ["$MeshFormat"]; ["2"; "0"; "8"]; ["$EndMeshFormat"];
    ["$PhysicalNames"]; ["3"]; ["1"; "7"; qt "wall"]; ["1"; "8"; qt "inlet"]; ["2"; "9"; qt "body"]; ["$EndPhysicalNames"];
    ["$Nodes"]; ["5"]; ["1"; "0"; "0"; "0"]; ["2"; "1"; "0"; "0"]; ["3"; "1"; "1"; "0"]; ["4"; "0"; "1"; "0"]; ["5"; "2"; "0"; "0"]; ["$EndNodes"];
    ["$Elements"]; ["6"];
    ["1"; "1"; "2"; "7"; "1"; "1"; "2"]; ["2"; "1"; "2"; "8"; "2"; "4"; "1"]; ["3"; "1"; "2"; "7"; "3"; "2"; "5"];
    ["4"; "2"; "2"; "9"; "1"; "2"; "5"; "3"]; ["5"; "3"; "2"; "9"; "1"; "1"; "2"; "3"; "4"]; ["6"; "2"; "2"; "9"; "1"; "5"; "3"; "2"];
    ["$EndElements"] ].
Close Scope string_scope.

Definition ex_elts : list felt :=
  [ FElt 1 1 7 1 [] [1; 2]; FElt 2 1 8 2 [] [4; 1]; FElt 3 1 7 3 [] [2; 5];
    FElt 4 2 9 1 [] [2; 5; 3]; FElt 5 3 9 1 [] [1; 2; 3; 4]; FElt 6 2 9 1 [] [5; 3; 2] ].
Definition ex_names : list (Z * Z * string) := [ (1, 7, "wall"%string); (1, 8, "inlet"%string); (2, 9, "body"%string) ].

Ltac sec k n :=
  exists (firstn k ex_v2), (skipn n ex_v2); split; [reflexivity|]; split;
  (intros X; repeat (destruct X as [X|X]; [discriminate X|]); destruct X).

Example ex_v2_is_a_file : gmsh_file int10 int10 int10 ex_v2 (Some ex_names) 5 ex_elts.
Proof.
  change 5 with (zlen [(0, 0, 0); (1, 0, 0); (1, 1, 0); (0, 1, 0); (2, 0, 0)]).
  apply (File2 _ _ _ _ 2).
  - exists "2"%string, "0"%string, "8"%string, [], []. split; [sec 0%nat 3%nat|auto].
  - lia.
  - cbn [names_are]. exists "3"%string, [], (firstn 3 (skipn 5 ex_v2)), []. split; [sec 3%nat 9%nat|]. split; [reflexivity|].
    repeat constructor; repeat eexists.
  - exists "5"%string, [], (firstn 5 (skipn 11 ex_v2)), []. split; [sec 9%nat 17%nat|]. split; [reflexivity|].
    repeat constructor; repeat eexists.
  - exists "6"%string, [], (firstn 6 (skipn 19 ex_v2)), []. split; [sec 17%nat 26%nat|]. split; [reflexivity|].
    repeat constructor.
Qed.
Example ex_elts_ok : Forall felt_ok ex_elts /\ top_dim 2 ex_elts /\ one_group (of_dim 1 ex_elts).
Proof.
  split; [|split].
  - repeat constructor; repeat eexists.
  - split; [exists (FElt 4 2 9 1 [] [2; 5; 3]); split; [cbn; tauto|reflexivity]|].
    intros e He. repeat (destruct He as [<-|He]; [cbn; lia|]). destruct He.
  - intros e e' He He'. repeat (destruct He as [<-|He]; [|]); try destruct He;
    repeat (destruct He' as [<-|He']; [|]); try destruct He'; cbn; intros; auto; discriminate.
Qed.

(** The mesh: triangles first (cells 0 and 1), then the square; two marks. *)
Example ex_v2_loaded : match load 0 int10 int10 int10 30 ex_v2 with
  | Ok m => me_ncell m = 3 /\ me_nnode m = 5 /\
      option_map (fun c => ec_tuples c) (me_cell2node m) = Some (Ok [(0, [1; 4; 2]); (1, [4; 2; 1]); (2, [0; 1; 2; 3])]) /\
      List.map (fun nb => (fst nb, mk_index (snd nb))) (me_bocos m) =
        [("wall"%string, Some (ILlist [0; 1; 4])); ("inlet"%string, Some (ILlist [0; 3]))]
  | Err _ => False
  end.
Proof. vm_compute. auto. Qed.

(** A three-dimensional file: one surface made of a triangle and a square sharing two nodes. *)
Open Scope string_scope.
Definition ex_v2_3d : list (list string) :=
  [ ["$MeshFormat"]; ["2"; "0"; "8"]; ["$EndMeshFormat"];
    ["$PhysicalNames"]; ["1"]; ["2"; "7"; qt "wall"]; ["$EndPhysicalNames"];
    ["$Nodes"]; ["5"]; ["1"; "0"; "0"; "0"]; ["2"; "1"; "0"; "0"]; ["3"; "1"; "1"; "0"]; ["4"; "0"; "1"; "0"]; ["5"; "0"; "0"; "1"]; ["$EndNodes"];
    ["$Elements"]; ["3"];
    ["1"; "2"; "2"; "7"; "1"; "1"; "2"; "5"]; ["2"; "3"; "2"; "7"; "1"; "1"; "4"; "3"; "2"];
    ["3"; "7"; "2"; "9"; "1"; "1"; "2"; "3"; "4"; "5"];
    ["$EndElements"] ].
Close Scope string_scope.
Example ex_repeated : match load 0 int10 int10 int10 30 ex_v2_3d with
  | Ok m => List.map (fun nb => (fst nb, mk_index (snd nb))) (me_bocos m) = [("wall"%string, Some (ILlist [0; 1; 4; 0; 1; 2; 3]))]
  | Err _ => False
  end.
Proof. vm_compute. auto. Qed.

(** A triangle of second order (type 9), and a file with segments only. *)
Definition ex_v2_with (elts : list (list string)) : list (list string) := (firstn 17 ex_v2 ++ ["$Elements"%string] :: elts ++ [["$EndElements"%string]])%list.
Example ex_refused :
  load 0 int10 int10 int10 40 (ex_v2_with [["1"]; ["1"; "9"; "2"; "7"; "1"; "1"; "2"; "3"; "4"; "5"; "1"]]%string) = Err KeyError /\
  load 0 int10 int10 int10 40 (ex_v2_with [["1"]; ["1"; "1"; "2"; "7"; "1"; "1"; "2"]]%string) = Err RuntimeError /\
  load 0 int10 int10 int10 40 (ex_v2_with [["0"]]%string) = Err ValueError.
Proof. vm_compute. auto. Qed.
Ltac sec_in m k n :=
  exists (firstn k m), (skipn n m); split; [reflexivity|]; split;
  (intros X; repeat (destruct X as [X|X]; [discriminate X|]); destruct X).
Example ex_refused_case : let msh := ex_v2_with [["1"]; ["1"; "9"; "2"; "7"; "1"; "1"; "2"; "3"; "4"; "5"; "1"]]%string in
  gmsh_file int10 int10 int10 msh (Some ex_names) 5 [FElt 1 9 7 1 [] [1; 2; 3; 4; 5; 1]] /\ load 0 int10 int10 int10 30 msh = Err KeyError.
Proof.
  intros msh. assert (FL : gmsh_file int10 int10 int10 msh (Some ex_names) 5 [FElt 1 9 7 1 [] [1; 2; 3; 4; 5; 1]]).
  { change 5 with (zlen [(0, 0, 0); (1, 0, 0); (1, 1, 0); (0, 1, 0); (2, 0, 0)]). apply (File2 _ _ _ _ 2).
    - exists "2"%string, "0"%string, "8"%string, [], []. split; [sec_in msh 0%nat 3%nat|auto].
    - lia.
    - cbn [names_are]. exists "3"%string, [], (firstn 3 (skipn 5 ex_v2)), []. split; [sec_in msh 3%nat 9%nat|]. split; [reflexivity|].
      repeat constructor; repeat eexists.
    - exists "5"%string, [], (firstn 5 (skipn 11 ex_v2)), []. split; [sec_in msh 9%nat 17%nat|]. split; [reflexivity|].
      repeat constructor; repeat eexists.
    - exists "1"%string, [], (firstn 1 (skipn 19 msh)), []. split; [sec_in msh 17%nat 21%nat|]. split; [reflexivity|].
      repeat constructor. }
  split; [exact FL|]. destruct (C57_refused 0 int10 int10 int10 msh _ _ _ 30 FL) as (_ & X & _); [vm_compute; lia|].
  apply X. eexists. split; [left; reflexivity|reflexivity].
Qed.

(** A version 4 file in two dimensions, one square with its four sides.  Side 4 is the last curve,
    side 1 has the tag of the surface, sides 2 and 3 are not found. *)
Open Scope string_scope.
Definition ex_v4_with (sides : list (list string)) (nb : string) : list (list string) :=
  [ ["$MeshFormat"]; ["4"; "0"; "8"]; ["$EndMeshFormat"];
    ["$PhysicalNames"]; ["3"]; ["1"; "7"; qt "wall"]; ["1"; "8"; qt "inlet"]; ["2"; "9"; qt "body"]; ["$EndPhysicalNames"];
    ["$Entities"]; ["0"; "4"; "1"; "0"];
    ["1"; "0"; "0"; "0"; "0"; "0"; "0"; "1"; "7"; "2"; "1"; "2"];
    ["2"; "0"; "0"; "0"; "0"; "0"; "0"; "1"; "7"; "2"; "2"; "3"];
    ["3"; "0"; "0"; "0"; "0"; "0"; "0"; "1"; "7"; "2"; "3"; "4"];
    ["4"; "0"; "0"; "0"; "0"; "0"; "0"; "1"; "8"; "2"; "4"; "1"];
    ["1"; "0"; "0"; "0"; "0"; "0"; "0"; "1"; "9"; "4"; "1"; "2"; "3"; "4"];
    ["$EndEntities"];
    ["$Nodes"]; ["2"; "4"; "1"; "4"];
    ["2"; "1"; "0"; "2"]; ["4"]; ["1"]; ["0"; "1"; "0"]; ["0"; "0"; "0"];
    ["2"; "1"; "0"; "2"]; ["2"]; ["3"]; ["1"; "0"; "0"]; ["1"; "1"; "0"]; ["$EndNodes"];
    ["$Elements"]; [nb; "5"; "1"; "5"] ] ++ sides ++
  [ ["2"; "1"; "3"; "1"]; ["5"; "1"; "2"; "3"; "4"]; ["$EndElements"] ].
Close Scope string_scope.
(** With sides 1 and 4 only: the file loads, but side 1 is in group "body" of the surface. *)
Example ex_v4_loaded :
  match load 0 int10 int10 int10 50 (ex_v4_with [["1"; "1"; "1"; "1"]; ["1"; "1"; "2"]; ["1"; "4"; "1"; "1"]; ["4"; "4"; "1"]]%string "3"%string) with
  | Ok m => nodescoord m = Ok ([Some 0; Some 1; Some 1; Some 0], [Some 0; Some 0; Some 1; Some 1], [Some 0; Some 0; Some 0; Some 0]) /\
      List.map (fun nb => (fst nb, mk_index (snd nb))) (me_bocos m) =
        [("body"%string, Some (ILlist [0; 1])); ("inlet"%string, Some (ILlist [0; 3]))]
  | Err _ => False
  end.
Proof. vm_compute. auto. Qed.
(** With side 2: its group is not found. *)
Example ex_v4_keyerror :
  load 0 int10 int10 int10 50 (ex_v4_with [["1"; "2"; "1"; "1"]; ["1"; "2"; "3"]]%string "2"%string) = Err KeyError.
Proof. vm_compute. auto. Qed.
Lemma ent_line (e : entity) l tt box tn tps tb tbs : l = tt :: box ++ tn :: tps ++ tb :: tbs ->
  List.length box = 6%nat -> int10 tt = Ok (en_tag e) -> int10 tn = Ok (zlen (en_phys e)) ->
  Forall2 (fun t z => int10 t = Ok z) tps (en_phys e) -> int10 tb = Ok (zlen (en_bound e)) ->
  Forall2 (fun t z => int10 t = Ok z) tbs (en_bound e) -> entity_line int10 e l.
Proof. intros. exists tt, box, tn, tps, tb, tbs. auto 10. Qed.
Ltac ent l := apply (ent_line _ _ (nth 0 l ""%string) (firstn 6 (skipn 1 l)) (nth 7 l ""%string) (firstn 1 (skipn 8 l)) (nth 9 l ""%string) (skipn 10 l));
  [reflexivity|reflexivity|reflexivity|reflexivity|repeat constructor|reflexivity|repeat constructor].
Example ex_v4_entities :
  entities_are int10 (ex_v4_with [["1"; "2"; "1"; "1"]; ["1"; "2"; "3"]]%string "2"%string) []
    ([Entity 1 [7] [1; 2]; Entity 2 [7] [2; 3]; Entity 3 [7] [3; 4]] ++ [Entity 4 [8] [4; 1]]) [Entity 1 [9] [1; 2; 3; 4]].
Proof.
  set (msh := ex_v4_with _ _).
  exists "0"%string, "4"%string, "1"%string, ["0"%string], (firstn 4 (skipn 11 msh)), (firstn 1 (skipn 15 msh)), []. split.
  - exists (firstn 9 msh), (skipn 17 msh). split; [reflexivity|].
    split; (intros X; repeat (destruct X as [X|X]; [discriminate X|]); destruct X).
  - do 3 (split; [reflexivity|]).
    split; repeat apply Forall2_cons; try apply Forall2_nil;
    match goal with |- entity_line _ _ ?l => ent l end.
Qed.

(** Three nodes in two blocks, numbers not in order; then the last block has one node only; then a hole. *)
Open Scope string_scope.
Definition ex_nodes (maxtag : string) : list (list string) :=
  [ ["2"; "3"; "1"; maxtag]; ["0"; "1"; "0"; "2"]; ["3"]; ["1"]; ["5"; "6"; "7"]; ["8"; "9"; "10"];
    ["0"; "2"; "0"; "1"]; ["2"]; ["11"; "12"; "13"] ].
Definition ex_nodes2 : list (list string) :=
  [ ["2"; "3"; "1"; "3"]; ["0"; "2"; "0"; "1"]; ["2"]; ["11"; "12"; "13"];
    ["0"; "1"; "0"; "2"]; ["3"]; ["1"]; ["5"; "6"; "7"]; ["8"; "9"; "10"] ].
Close Scope string_scope.
Example ex_nodes_sec : nodes4_sec int10 int10 (ex_nodes "3"%string) 3 ([[(3, (5, 6, 7)); (1, (8, 9, 10))]] ++ [[(2, (11, 12, 13))]] ++ []) [] /\
  tags_ok 3 [[(3, (5, 6, 7)); (1, (8, 9, 10))]; [(2, (11, 12, 13))]].
Proof.
  split.
  - exists (nth 0 (ex_nodes "3"%string) []), "3"%string, [firstn 5 (skipn 1 (ex_nodes "3"%string)); skipn 6 (ex_nodes "3"%string)].
    do 3 (split; [reflexivity|]). repeat constructor.
    + exists (nth 1 (ex_nodes "3"%string) []), "2"%string, (firstn 2 (skipn 2 (ex_nodes "3"%string))), (firstn 2 (skipn 4 (ex_nodes "3"%string))).
      do 3 (split; [reflexivity|]). split; repeat constructor; cbn [fst snd]; repeat eexists.
    + exists (nth 6 (ex_nodes "3"%string) []), "1"%string, (firstn 1 (skipn 7 (ex_nodes "3"%string))), (skipn 8 (ex_nodes "3"%string)).
      do 3 (split; [reflexivity|]). split; repeat constructor; cbn [fst snd]; repeat eexists.
  - split.
    + cbn. repeat constructor; cbn; intuition lia.
    + intros n H. cbn in H. intuition subst; cbn; lia.
Qed.
Example ex_nodes_skipped : nodes_v4 int10 int10 9 (ex_nodes "3"%string) =
  Ok ([Some 8; None; Some 5], [Some 9; None; Some 6], [Some 10; None; Some 7]).
Proof. reflexivity. Qed.
Example ex_nodes_all : nodes_v4 int10 int10 9 ex_nodes2 =
  Ok ([Some 8; Some 11; Some 5], [Some 9; Some 12; Some 6], [Some 10; Some 13; Some 7]).
Proof. reflexivity. Qed.
Example ex_nodes_hole : nodes_v4 int10 int10 9 (ex_nodes "7"%string) = Err IndexError.
Proof. reflexivity. Qed.

Print Assumptions C56_all.
Print Assumptions C56_last_skipped.
Print Assumptions C56_holes.
Print Assumptions C56_v2.
Print Assumptions C56_exported.
Print Assumptions C57_loads.
Print Assumptions C57_refused.
Print Assumptions C57_cells.
Print Assumptions C57_marks.
Print Assumptions C57_own_group.
Print Assumptions C57_own_group_v4.
Print Assumptions C57_no_repeats.
Print Assumptions C57_one_type_2d.
Print Assumptions C58_surface.
Print Assumptions C58_curve_lost.
Print Assumptions C58_curve_wrong.
Print Assumptions C58_no_group.
Print Assumptions C58_2d_unreadable.
