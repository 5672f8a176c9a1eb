(** * What a file does not keep: locations, vectors on nodes, weights; ranges of the numbers. *)
From Coq Require Import ZArith List Bool String Lia Permutation.
From Verif Require Import Py PyFacts Conn ConnSpec CsrProofs Data Mesh MeshProofs Ic3Bytes Ic3BytesProofs Ic3 Ic3HeaderSpec Ic3HeaderProofs Ic3FuelProofs Ic3FileSpec Ic3FileProofs Ic3WriteProofs Ic3PartsProofs Ic3CutProofs Ic3BodyProofs Ic3ReadProofs Ic3VarProofs Ic3RoundProofs Ic3RoundSpec Ic3MeshProofs Ic3FileThm Ic3IntegrityProofs.

Section Loss.
  Context (i2d : Z -> Z) (f2i : Z -> res Z).
  Hypothesis patterns : forall n, pattern (i2d n).

  Lemma good_parts v fm ls rows : file_mesh v fm ls rows ->
    Forall good_name (List.map fst (zone_marks (fm_mesh fm))) /\ Forall good_name (wgt_names (param (fm_params fm) "wgt" (SWgt []))) /\
    Forall good_name (List.map fst (fd_items (fm_nodes fm))) /\ Forall good_name (List.map fst (fd_items (fm_cells fm))).
  Proof.
    intros M. assert (FN := fi_names _ _ _ _ M). unfold mesh_names in FN. rewrite !Forall_app in FN. destruct FN as (G1 & G2 & G3 & G4).
    assert (GG : forall l, Forall (fun k => good_name k /\ ~ deof k) l -> Forall good_name l).
    { intros l. apply Forall_impl. intros k (G & _). exact G. }
    auto.
  Qed.

  (** The data read, whatever the counts. *)
  Lemma data_read v o fm ls rows w f : fmesh_typed fm -> file_mesh v fm ls rows ->
    located fm ls \/ cell_total v fm = me_ncell (fm_mesh fm) ->
    writer_state fm = Ok w -> write_data i2d f2i v o w = Ok f ->
    exists fm2, (forall integrity, read_mesh integrity f = Ok fm2) /\
      fd_items (fm_cells fm2) = dset_all [] ((if (me_ncell (fm_mesh fm) =? me_nnode (fm_mesh fm)) || (me_ncell (fm_mesh fm) =? zlen ls) then []
         else scals i2d v (fd_items (fm_cells fm)) ++ vecs i2d v w (fd_items (fm_cells fm))) ++ tenss i2d v w (fd_items (fm_cells fm))) /\
      fd_items (fm_nodes fm2) = dset_all [] (scals i2d v (fd_items (fm_nodes fm)) ++
         (if me_ncell (fm_mesh fm) =? me_nnode (fm_mesh fm) then scals i2d v (fd_items (fm_cells fm)) else [])).
  Proof using patterns.
    intros T M LOC W WD.
    destruct (writer_state_ok fm w W) as (_ & _ & _ & _ & _ & _ & _ & _ & _ & E1 & E2 & E3 & _ & _ & _ & _ & _ & _ & _ & _ & _ & E13 & E14).
    destruct (read_mesh_back i2d f2i v o fm ls rows w f patterns T M) as (x & y & z & con & mt & c & _ & _ & _ & _ & _ & _ & _ & _ & _ & RM); try assumption.
    { rewrite E14, E3, E1, E2, (fi_nface _ _ _ _ M). destruct LOC as [[A | A] | A]; [auto | auto |]. right. right.
      unfold w_tot, w_ndof. unfold cell_total, data_ndof in A. rewrite E14, E3. exact A. }
    eexists. split; [exact RM |]. unfold mesh_back. cbn [fm_cells fm_nodes].
    rewrite exp_vars_eq.
    2: { unfold w_ndof. rewrite E14. apply (fi_ndof _ _ _ _ M). }
    cbn [fst snd fd_items]. rewrite !adds_data. rewrite E14, E13, E1, E2, E3, (fi_nface _ _ _ _ M). split; reflexivity.
  Qed.

  Lemma tens_key v w d k : NoDup (List.map fst d) -> Forall good_name (List.map fst d) ->
    forall a, In (k, a) d -> List.length (a_shape a) <> 3%nat -> ~ In k (List.map fst (tenss i2d v w d)).
  Proof.
    intros ND GN a I NS J. apply in_map_iff in J. destruct J as ((k', x) & E & J). cbn in E. subst k'.
    apply (in_tenss i2d v w d GN) in J. destruct J as (a' & I' & S & _). rewrite (fst_unique d k a a' ND I I') in NS.
    unfold is_dim in S. apply Nat.eqb_eq in S. exact (NS S).
  Qed.

  Lemma vec_key v w d k : NoDup (List.map fst d) -> Forall good_name (List.map fst d) ->
    forall a, In (k, a) d -> is_dim 2 a = false -> ~ In k (List.map fst (vecs i2d v w d)).
  Proof.
    intros ND GN a I NS J. apply in_map_iff in J. destruct J as ((k', x) & E & J). cbn in E. subst k'.
    apply (in_vecs i2d v w d GN) in J. destruct J as (a' & I' & S & _). rewrite (fst_unique d k a a' ND I I') in NS. congruence.
  Qed.
  Lemma scal_key v d k : NoDup (List.map fst d) -> Forall good_name (List.map fst d) ->
    forall a, In (k, a) d -> is_scalar a = false -> ~ In k (List.map fst (scals i2d v d)).
  Proof.
    intros ND GN a I NS J. apply in_map_iff in J. destruct J as ((k', x) & E & J). cbn in E. subst k'.
    apply (in_scals i2d v d GN) in J. destruct J as (a' & I' & S & _). rewrite (fst_unique d k a a' ND I I') in NS. congruence.
  Qed.
  Lemma vector_not_scalar a n : array_typed a -> a_shape a = [n; 3] -> 1 <= n -> is_scalar a = false.
  Proof.
    intros T E N. unfold is_scalar. rewrite E. apply Z.eqb_neq. destruct (array_sizes i2d f2i a T) as (_ & S & _). rewrite (S n E). lia.
  Qed.

  (** Numbers fit. *)
  Lemma pack_fits o c n vals bs : c <> Cd -> binary_write o c n vals = Ok bs -> Forall (fun x => fits (code_size c) x = true) vals.
  Proof.
    intros C H. unfold binary_write in H. destruct (zlen vals =? Z.max 0 n); [| discriminate].
    apply bind_ok in H; destruct H as (ps & HP & _). apply mapM_ok_Forall2 in HP. induction HP as [| x p l l' X _ IH]; constructor; [| exact IH].
    destruct c; [| | congruence]; cbn [pack_item code_size] in *; unfold pack_int in X; [destruct (fits 4 x) | destruct (fits 8 x)]; congruence.
  Qed.
  Lemma pack_int32 o n vals bs : binary_write o Ci n vals = Ok bs -> Forall int32 vals.
  Proof.
    intros H. apply pack_fits in H; [| discriminate]. eapply Forall_impl; [| exact H]. intros x X. apply fits4. exact X.
  Qed.
  Lemma pack_all_fits o c n vals : c <> Cd -> zlen vals = Z.max 0 n ->
    (exists bs, binary_write o c n vals = Ok bs) <-> Forall (fun x => fits (code_size c) x = true) vals.
  Proof.
    intros C L. split; [intros (bs & H); eapply pack_fits; eassumption |]. intros F. unfold binary_write. rewrite L, Z.eqb_refl.
    assert (Q : exists ps, mapM (pack_item o c) vals = Ok ps).
    { clear L. induction F as [| x l X _ (ps & IH)]; [eexists; reflexivity |]. cbn [mapM].
      assert (P : exists p, pack_item o c x = Ok p).
      { destruct c; [| | congruence]; cbn [pack_item code_size] in *; unfold pack_int; rewrite X; eexists; reflexivity. }
      destruct P as (p & ->). cbn [bind]. rewrite IH. eexists; reflexivity. }
    destruct Q as (ps & ->). eexists; reflexivity.
  Qed.
  Lemma pack_refused o c n vals : zlen vals = Z.max 0 n -> c <> Cd -> Exists (fun x => fits (code_size c) x = false) vals -> binary_write o c n vals = Err StructError.
  Proof.
    intros L C X. unfold binary_write. rewrite L, Z.eqb_refl.
    assert (Q : mapM (pack_item o c) vals = Err StructError); [| rewrite Q; reflexivity].
    clear L. induction X as [x l X | x l X IH]; cbn [mapM].
    - destruct c; [| | congruence]; cbn [pack_item code_size] in *; unfold pack_int; rewrite X; reflexivity.
    - rewrite IH. destruct c; [| | congruence]; cbn [pack_item]; unfold pack_int; [destruct (fits 4 x) | destruct (fits 8 x)]; reflexivity.
  Qed.
  Lemma header_ints name id skip l r h : mk_hdr name id skip l r = Ok h -> Forall int64 l.
  Proof. intros H. apply mk_hdr_ok in H. apply H. Qed.
  Lemma header_refused name id skip l r : Exists (fun x => ~ int64 x) l -> mk_hdr name id skip l r = Err OverflowError.
  Proof.
    intros X. unfold mk_hdr. assert (Q : mapM i64 l = Err OverflowError); [| rewrite Q; reflexivity].
    induction X as [x l X | x l X IH]; cbn [mapM]; unfold i64 at 1.
    - destruct (fits 8 x) eqn:E; [apply fits8 in E; tauto | reflexivity].
    - rewrite IH. destruct (fits 8 x); reflexivity.
  Qed.

  Lemma wrote_in o : forall ss fs, Forall2 (wrote o) ss fs -> forall s, In s ss -> exists sf, wrote o s sf.
  Proof. induction 1 as [| a b l l' W _ IH]; intros s []; [subst; eauto | auto]. Qed.
  Lemma written_ints o s sf c n vals : wrote o s sf -> In (c, n, vals) (snd s) -> exists bs, binary_write o c n vals = Ok bs.
  Proof.
    intros (_ & _ & _ & ps & MP & _) I. revert ps MP I. generalize (snd s).
    induction l as [| ((c', n'), vals') l IH]; intros ps MP I; [destruct I |]. cbn [mapM] in MP.
    apply bind_ok in MP; destruct MP as (p & W & MP). apply bind_ok in MP; destruct MP as (ps' & MP & _).
    destruct I as [I | I]; [inversion I; subst; eauto | eapply IH; eassumption].
  Qed.
  Lemma written_range v o w f : w_typed i2d w -> write_data i2d f2i v o w = Ok f ->
    Forall int32 (w_nno w) /\ Forall int32 (w_noofa w) /\ (forall m, w_f2e w = Some m -> Forall int32 (List.concat (m_rows m))) /\
    (forall n l, w_part w = Some (n, Some l) -> Forall int32 l /\ int64 n) /\ int64 (w_no w) /\ int64 (w_fa w) /\ int64 (w_cv w) /\ int64 (zlen (w_noofa w)).
  Proof.
    intros T H. destruct (write_chain i2d f2i v o w f T H) as (c & m & fs & e & M & RH & F & We & EF).
    assert (WI := wrote_in _ _ _ F).
    assert (B1 : In (counts_sec w) (body_secs i2d f2i v c)) by (left; reflexivity).
    assert (B2 : In (noofa_sec w) (body_secs i2d f2i v c)) by (unfold body_secs; right; apply in_or_app; right; left; reflexivity).
    assert (B3 : In (cvofa_sec w (c_f2e c)) (body_secs i2d f2i v c)) by (unfold body_secs; right; apply in_or_app; right; right; left; reflexivity).
    assert (B4 : In (part_sec w (c_npart c) (c_icv c)) (body_secs i2d f2i v c)).
    { unfold body_secs. right. apply in_or_app. right. apply in_or_app. right. apply in_or_app. right. right. left. reflexivity. }
    destruct (WI _ B1) as (s1 & W1). destruct (WI _ B2) as (s2 & W2). destruct (WI _ B3) as (s3 & W3). destruct (WI _ B4) as (s4 & W4).
    assert (P1 := proj1 (proj2 (proj2 W1))). destruct P1 as (_ & _ & _ & P1). cbn in P1.
    assert (P4 := proj1 (proj2 (proj2 W4))). destruct P4 as (_ & _ & _ & P4). cbn in P4.
    inversion P1 as [| ? ? N1 P1']; subst. inversion P1' as [| ? ? N2 R1]; subst. inversion R1 as [| ? ? N3 Q1]; subst. inversion Q1 as [| ? ? N4 _]; subst.
    inversion P4 as [| ? ? _ P4']; subst. inversion P4' as [| ? ? N5 _]; subst.
    split; [| split; [| split; [| split; [| split; [exact N1 | split; [exact N2 | split; [exact N3 | exact N4]]]]]]].
    - destruct (written_ints o _ s2 Ci (w_fa w) (w_nno w) W2 ltac:(left; reflexivity)) as (bs & Q). eapply pack_int32; exact Q.
    - destruct (written_ints o _ s2 Ci (zlen (w_noofa w)) (w_noofa w) W2 ltac:(right; left; reflexivity)) as (bs & Q). eapply pack_int32; exact Q.
    - intros mt E. rewrite (c_f2e_ok _ _ _ c) in E. inversion E; subst mt.
      destruct (written_ints o _ s3 Ci (w_fa w * 2) _ W3 ltac:(left; reflexivity)) as (bs & Q). eapply pack_int32; exact Q.
    - intros n l E. rewrite (c_part_ok _ _ _ c) in E. inversion E; subst n l. split; [| exact N5].
      destruct (written_ints o _ s4 Ci (w_cv w) _ W4 ltac:(left; reflexivity)) as (bs & Q). eapply pack_int32; exact Q.
  Qed.

  (** ** Data on faces *)
  Lemma face_section_ok w d : 0 <= w_fa w -> Forall (fun '((name, _), vals) => ~ deof name /\ Forall pattern vals) d ->
    Forall (face_sec w) (List.map (face_section (w_fa w)) d).
  Proof.
    intros N. induction 1 as [| ((name, b), vals) l (D & P) _ IH]; cbn [List.map]; constructor; [| exact IH].
    destruct b; cbn [face_section].
    - split; [exact D |]. split; [apply (sec1_wf name FA_D3 [w_fa w; 3] Cd (w_fa w * 3) vals); [cbn; lia | lia | intros _; exact P] |].
      split; [reflexivity |]. right. split; reflexivity.
    - split; [exact D |]. split; [apply (sec1_wf name FA_D1 [w_fa w] Cd (w_fa w) vals); [cbn; lia | lia | intros _; exact P] |].
      split; [reflexivity |]. left. split; reflexivity.
  Qed.
  Lemma sections_wrote o : forall xs bs, Forall sec_wf xs -> mapM (write_section o) xs = Ok bs ->
    exists fx, Forall2 (wrote o) xs fx /\ List.concat bs = secs_bytes fx.
  Proof.
    induction xs as [| s xs IH]; intros bs W H; cbn [mapM] in H.
    - apply ok_inj in H. subst bs. exists []. split; [constructor | reflexivity].
    - inversion W as [| ? ? W1 W2]; subst. apply bind_ok in H; destruct H as (b & HB & H). apply bind_ok in H; destruct H as (bs' & HS & H).
      apply ok_inj in H. subst bs. destruct (IH bs' W2 HS) as (fx & F & E). destruct (write_section_wrote o s b W1 HB) as (sf & WS & ->).
      exists (sf :: fx). split; [constructor; assumption |]. rewrite secs_cons. cbn [List.concat]. rewrite E. reflexivity.
  Qed.
  Lemma face_data v o w ls f d bs g e : w_typed i2d w -> readable v w ls -> write_data i2d f2i v o w = Ok f ->
    Forall (fun '((name, _), vals) => ~ deof name /\ Forall pattern vals) d -> w_fa w <> w_no w ->
    mapM (write_section o) (List.map (face_section (w_fa w)) d) = Ok bs -> f = g ++ e -> zlen e = 256 ->
    forall integrity, read_data integrity (g ++ List.concat bs ++ e) = read_data integrity f.
  Proof.
    intros T R H DP NF HB E LE integrity. destruct (write_data_chain i2d f2i v o w f T H) as (m & ss & fs0 & M & RH & ES & F & EF).
    assert (WF : Forall sec_wf ss).
    { apply Forall_forall. intros x I. apply (sections_wf i2d f2i v w x T). rewrite ES. apply in_map. exact I. }
    apply (sections_parts i2d f2i v w ss T) in ES. destruct ES as (c & ->). rewrite all_body in F, WF.
    apply Forall_app in WF. destruct WF as (WF & _).
    apply Forall2_app_inv_l in F. destruct F as (fs1 & fs2 & F1 & F2 & ->).
    inversion F2 as [| ? es ? ? W N]; subst fs2. inversion N; subst l'. clear N.
    destruct (eof_stops o es W) as (OE & SE & LD).
    assert (LES : zlen (fsec_all es) = 256). { unfold fsec_all. rewrite LD, app_nil_r. apply OE. }
    rewrite secs_app, secs_cons in EF. change (secs_bytes []) with (@nil Z) in EF. rewrite app_nil_r in EF.
    assert (GE : g = m ++ secs_bytes fs1 /\ e = fsec_all es).
    { rewrite E in EF. rewrite (app_assoc m) in EF. assert (L : List.length g = List.length (m ++ secs_bytes fs1)).
      { apply (f_equal (@List.length Z)) in EF. rewrite (app_length g), (app_length (m ++ secs_bytes fs1)) in EF. unfold zlen in *. lia. }
      revert L EF. generalize (m ++ secs_bytes fs1). clear. intros h. revert h. induction g as [| x g IH]; intros [| y h] L EF; cbn in L; try discriminate.
      - split; [reflexivity | exact EF].
      - cbn in EF. inversion EF; subst. destruct (IH h ltac:(lia) H1) as (-> & ->). split; reflexivity. }
    destruct GE as (EG & EE).
    assert (FA : 0 <= w_fa w) by apply T.
    assert (FS := face_section_ok w d FA DP).
    destruct (sections_wrote o _ bs ltac:(eapply Forall_impl; [| exact FS]; intros s Q; apply Q) HB) as (fx & FX & EB).
    transitivity (Ok (expected i2d f2i o v ls c)).
    - apply (read_file i2d f2i v o w ls _ c m fs1 (List.map (face_section (w_fa w)) d) fx es [] (secs_bytes fx ++ fsec_all es ++ []) R M); try assumption.
      + revert RH. rewrite EF, EG. unfold read_restart_header, binary_read, rd.
        change ((2 <? 0) || (2 ^ 63 <=? Z.of_nat (code_size Ci) * 2)) with false. cbv iota. change (Z.to_nat (Z.of_nat (code_size Ci) * 2)) with 8%nat.
        cbn [Z.to_nat skipn]. assert (L8 : List.length m = 8%nat) by (unfold zlen in M; lia).
        rewrite <- !app_assoc. rewrite !firstn_app, L8. cbn [Nat.sub firstn]. rewrite !app_nil_r. auto.
      + right. exact NF.
      + reflexivity.
      + rewrite EG, EE, EB, app_nil_r, <- !app_assoc. reflexivity.
      + apply R.
    - symmetry. apply (read_file i2d f2i v o w ls f c m fs1 [] [] es [] (fsec_all es ++ []) R M RH F1 (Forall2_nil _) (Forall_nil _) (or_introl eq_refl) OE SE eq_refl); [| exact WF | apply R].
      rewrite app_nil_r. exact EF.
  Qed.

  (** ** Weights *)
  Lemma weight_get w (c : converted i2d f2i w) d0 d k x : w_wgt w = SWgt d -> In (k, x) d ->
    Forall good_name (wgt_names (w_wgt w)) -> NoDup (List.map (fun '(k, _) => wgt_key k) d) ->
    exists y, to_double i2d (SNum x) = Ok y /\ dget String.eqb (wgt_key k) (dupdate d0 (exp_sim i2d f2i c)) = Some (SNum (NFlt y)).
  Proof.
    intros E I G ND. destruct (c_wgt_ok _ _ _ c) as (d' & E' & F2). rewrite E in E'. inversion E'; subst d'. clear E'.
    assert (Q : exists y, In (k, y) (c_wgt c) /\ to_double i2d (SNum x) = Ok y).
    { clear G ND E. induction F2 as [| (k1, x1) (k2, y2) l l' (-> & H) _ IH]; [destruct I |]. destruct I as [I | I].
      - inversion I; subst. exists y2. split; [left; reflexivity | exact H].
      - destruct (IH I) as (y & J & HY). exists y. split; [right; exact J | exact HY]. }
    assert (KE : List.map (fun '((k, _) : string * Z) => wgt_key k) (c_wgt c) = List.map (fun '((k, _) : string * num) => wgt_key k) d).
    { clear - F2. induction F2 as [| (k1, x1) (k2, y2) l l' (-> & _) _ IH]; [reflexivity |]. cbn [List.map]. rewrite IH. reflexivity. }
    destruct Q as (y & J & HY). exists y. split; [exact HY |].
    apply dupdate_get; [| rewrite exp_sim_eq; apply dset_all_nodup; cbn [List.map fst]; repeat constructor; cbn; intuition discriminate].
    rewrite exp_sim_eq. apply dset_all_in.
    - apply in_map_iff. exists (k, y). split; [reflexivity | exact J].
    - intros z ZI. apply in_map_iff in ZI. destruct ZI as ((k', y') & EZ & ZI). inversion EZ as [[EK EY]]. rewrite <- KE in ND.
      f_equal. f_equal. clear - J ZI EK ND. induction (c_wgt c) as [| (k0, y0) l IH]; [destruct J |]. cbn [List.map] in ND. inversion ND as [| ? ? N1 N2]; subst.
      assert (IM : forall k y, In (k, y) l -> In (wgt_key k) (List.map (fun '((k, _) : string * Z) => wgt_key k) l)).
      { intros kk yy Y. apply in_map_iff. exists (kk, yy). split; [reflexivity | exact Y]. }
      destruct J as [J | J], ZI as [ZI | ZI].
      + congruence.
      + inversion J; subst. exfalso. apply N1. rewrite <- EK. eapply IM; exact ZI.
      + inversion ZI; subst. exfalso. apply N1. rewrite EK. eapply IM; exact J.
      + exact (IH N2 J ZI).
  Qed.
End Loss.
