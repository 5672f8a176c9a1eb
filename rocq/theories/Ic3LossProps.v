(** * Properties of IC3 files, C38, C39, C41, C42: what is lost, ranges of numbers, integrity lists. *)
From Coq Require Import ZArith List Bool String Lia Permutation.
From Verif Require Import Py PyFacts Data Elements Conn ConnSpec CsrProofs Mesh MeshSpec Ic3Bytes Ic3BytesProofs Ic3 Ic3HeaderSpec Ic3HeaderProofs Ic3FileSpec Ic3FileProofs Ic3WriteProofs Ic3PartsProofs Ic3BodyProofs Ic3VarProofs Ic3RoundProofs Ic3RoundSpec Ic3MeshProofs Ic3FileThm Ic3StopProofs Ic3IntegrityProofs Ic3LossProofs Ic3FileProps.

Lemma allclose_from : forall vals a b, zlen vals = Z.max 0 (b - a) ->
  (forall k x, nth_error vals k = Some x -> np_close x (a + Z.of_nat k) = true) -> np_allclose vals (zrange a b) = true.
Proof.
  induction vals as [| v vals IH]; intros a b L C.
  - rewrite zrange_empty; [reflexivity |]. cbn in L. lia.
  - assert (a < b) by (cbn [zlen List.length] in L; unfold zlen in L; cbn [List.length] in L; lia).
    rewrite (zrange_cons a b) by lia. cbn [np_allclose]. apply andb_true_iff. split.
    + replace a with (a + Z.of_nat 0) by lia. apply C. reflexivity.
    + apply IH.
      * unfold zlen in *. cbn [List.length] in L. lia.
      * intros k x X. replace (a + 1 + Z.of_nat k) with (a + Z.of_nat (S k)) by lia. apply C. exact X.
Qed.
Lemma allclose_within vals n : zlen vals = Z.max 0 n ->
  (forall k x, nth_error vals k = Some x -> 10 ^ 8 * Z.abs (x - Z.of_nat k) <= 1 + 10 ^ 3 * Z.of_nat k) -> np_allclose vals (zrange 0 n) = true.
Proof.
  intros L C. apply allclose_from; [rewrite L; lia |]. intros k x X. unfold np_close. apply Z.leb_le. rewrite Z.add_0_l.
  rewrite (Z.abs_eq (Z.of_nat k)) by lia. apply C. exact X.
Qed.

Section Props.
  Context (i2d : Z -> Z) (f2i : Z -> res Z).
  Hypothesis patterns : forall n, pattern (i2d n).

  (** C38: cell data is read as cell data, and only there, if the number of cells is neither that of
      nodes nor that of faces. *)
  Theorem C38_located tbl enum host v endian fm f fm' ls rows :
    write_mesh tbl enum i2d f2i host v endian fm = (Ok f, fm') -> fmesh_typed fm' -> file_mesh v fm' ls rows ->
    me_ncell (fm_mesh fm') <> me_nnode (fm_mesh fm') -> me_ncell (fm_mesh fm') <> me_nface (fm_mesh fm') ->
    exists fm2, (forall integrity, read_mesh integrity f = Ok fm2) /\
      (forall name a n, In (name, a) (fd_items (fm_cells fm')) -> a_shape a = [n] -> dget String.eqb name (fd_items (fm_cells fm2)) = Some (scalar_back i2d v n a)) /\
      (forall name a n, In (name, a) (fd_items (fm_cells fm')) -> a_shape a = [n; 3] -> dget String.eqb name (fd_items (fm_cells fm2)) = Some (Arr [n; 3] false (array_doubles i2d a))) /\
      (forall name, In name (List.map fst (fd_items (fm_nodes fm2))) -> In name (List.map fst (fd_items (fm_nodes fm')))).
  Proof using patterns.
    intros H T M N1 N2. destruct (C34_round_trip i2d f2i patterns _ _ _ _ _ _ _ _ _ _ H T M) as (fm2 & RD & RA).
    { right. split; [exact N1 | rewrite <- (fi_nface _ _ _ _ M); exact N2]. }
    exists fm2. split; [exact RD |]. split; [| split].
    - intros name a n I E. apply (ra_cells _ _ _ _ _ _ _ RA name a n I E).
    - intros name a n I E. apply (ra_vectors _ _ _ _ _ _ _ RA name a n I E).
    - apply (ra_node_names _ _ _ _ _ _ _ RA).
  Qed.
  (** With as many cells as nodes, cell scalars become node data and cell vectors vanish. *)
  Theorem C38_as_many_nodes tbl enum host v endian fm f fm' ls rows :
    write_mesh tbl enum i2d f2i host v endian fm = (Ok f, fm') -> fmesh_typed fm' -> file_mesh v fm' ls rows ->
    me_ncell (fm_mesh fm') = me_nnode (fm_mesh fm') -> cell_total v fm' = me_ncell (fm_mesh fm') ->
    exists fm2, (forall integrity, read_mesh integrity f = Ok fm2) /\
      (forall name a n, In (name, a) (fd_items (fm_cells fm')) -> a_shape a = [n] ->
         dget String.eqb name (fd_items (fm_nodes fm2)) = Some (scalar_back i2d v n a) /\ ~ In name (List.map fst (fd_items (fm_cells fm2)))) /\
      (forall name a n, In (name, a) (fd_items (fm_cells fm')) -> a_shape a = [n; 3] -> 1 <= n ->
         ~ In name (List.map fst (fd_items (fm_cells fm2))) /\
         (~ In name (List.map fst (fd_items (fm_nodes fm'))) -> ~ In name (List.map fst (fd_items (fm_nodes fm2))))).
  Proof using patterns.
    intros H T M N1 TO. destruct (write_mesh_data _ _ _ _ _ _ _ _ _ _ H) as (o & w & _ & W & WD).
    destruct (data_read i2d f2i patterns v o fm' ls rows w f T M (or_intror TO) W WD) as (fm2 & RD & EC & EN).
    destruct (good_parts v fm' ls rows M) as (_ & _ & GN & GC). destruct (fi_keys _ _ _ _ M) as (_ & KN & KC).
    assert (TN : data_typed (fd_items (fm_nodes fm'))) by apply T. assert (TC : data_typed (fd_items (fm_cells fm'))) by apply T.
    rewrite N1, Z.eqb_refl in EC, EN. cbn [orb app] in EC.
    exists fm2. split; [exact RD |]. rewrite EC, EN. split.
    - intros name a n I E. split.
      + rewrite dset_all_app. eapply look_scalar; eassumption.
      + intros J. apply dset_all_keys in J. destruct J as [[] | J]. revert J. eapply tens_key; [exact KC | exact GC | exact I |]. rewrite E. discriminate.
    - intros name a n I E NN. split.
      + intros J. apply dset_all_keys in J. destruct J as [[] | J]. revert J. eapply tens_key; [exact KC | exact GC | exact I |]. rewrite E. discriminate.
      + intros NI J. apply dset_all_keys in J. destruct J as [[] | J]. rewrite map_app in J. apply in_app_or in J. destruct J as [J | J].
        * apply NI. eapply scals_keys; eassumption.
        * revert J. eapply scal_key; [exact KC | exact GC | exact I |]. eapply vector_not_scalar; [exact f2i | exact patterns | exact (d_typed _ TC name a I) | exact E | exact NN].
  Qed.
  (** With as many cells as faces, and not as many as nodes, both vanish. *)
  Theorem C38_as_many_faces tbl enum host v endian fm f fm' ls rows :
    write_mesh tbl enum i2d f2i host v endian fm = (Ok f, fm') -> fmesh_typed fm' -> file_mesh v fm' ls rows ->
    me_ncell (fm_mesh fm') = me_nface (fm_mesh fm') -> me_ncell (fm_mesh fm') <> me_nnode (fm_mesh fm') -> cell_total v fm' = me_ncell (fm_mesh fm') ->
    exists fm2, (forall integrity, read_mesh integrity f = Ok fm2) /\
      (forall name a n, In (name, a) (fd_items (fm_cells fm')) -> a_shape a = [n] \/ a_shape a = [n; 3] -> ~ In name (List.map fst (fd_items (fm_cells fm2)))) /\
      (forall name, In name (List.map fst (fd_items (fm_nodes fm2))) -> In name (List.map fst (fd_items (fm_nodes fm')))).
  Proof using patterns.
    intros H T M N1 N2 TO. destruct (write_mesh_data _ _ _ _ _ _ _ _ _ _ H) as (o & w & _ & W & WD).
    destruct (data_read i2d f2i patterns v o fm' ls rows w f T M (or_intror TO) W WD) as (fm2 & RD & EC & EN).
    destruct (good_parts v fm' ls rows M) as (_ & _ & GN & GC). destruct (fi_keys _ _ _ _ M) as (_ & KN & KC).
    replace (me_ncell (fm_mesh fm') =? me_nnode (fm_mesh fm')) with false in EC, EN by (symmetry; apply Z.eqb_neq; exact N2).
    rewrite N1, (fi_nface _ _ _ _ M), Z.eqb_refl in EC. cbn [orb app] in EC. rewrite app_nil_r in EN.
    exists fm2. split; [exact RD |]. rewrite EC, EN. split.
    - intros name a n I E J. apply dset_all_keys in J. destruct J as [[] | J]. revert J. eapply tens_key; [exact KC | exact GC | exact I |].
      destruct E as [-> | ->]; discriminate.
    - intros name J. apply dset_all_keys in J. destruct J as [[] | J]. eapply scals_keys; eassumption.
  Qed.

  (** C39: vectors on nodes are in the file, not in the mesh read. *)
  Theorem C39_node_vectors tbl enum host v endian fm f fm' ls rows :
    write_mesh tbl enum i2d f2i host v endian fm = (Ok f, fm') -> fmesh_typed fm' -> file_mesh v fm' ls rows -> located fm' ls ->
    exists fm2, (forall integrity, read_mesh integrity f = Ok fm2) /\
      forall name a n, In (name, a) (fd_items (fm_nodes fm')) -> a_shape a = [n; 3] -> 1 <= n ->
        ~ In name (List.map fst (fd_items (fm_nodes fm2))) /\
        (~ In name (List.map fst (fd_items (fm_cells fm'))) -> ~ In name (List.map fst (fd_items (fm_cells fm2)))).
  Proof using patterns.
    intros H T M L. destruct (write_mesh_data _ _ _ _ _ _ _ _ _ _ H) as (o & w & _ & W & WD).
    destruct (data_read i2d f2i patterns v o fm' ls rows w f T M (or_introl L) W WD) as (fm2 & RD & EC & EN).
    destruct (good_parts v fm' ls rows M) as (_ & _ & GN & GC). destruct (fi_keys _ _ _ _ M) as (_ & KN & KC).
    assert (TN : data_typed (fd_items (fm_nodes fm'))) by apply T.
    exists fm2. split; [exact RD |]. intros name a n I E NN. rewrite EC, EN. split.
    - intros J. apply dset_all_keys in J. destruct J as [[] | J]. rewrite map_app in J. apply in_app_or in J. destruct J as [J | J].
      + revert J. eapply scal_key; [exact KN | exact GN | exact I |]. eapply vector_not_scalar; [exact f2i | exact patterns | exact (d_typed _ TN name a I) | exact E | exact NN].
      + destruct L as [L | (L & _)].
        * rewrite L in J. destruct (me_ncell (fm_mesh fm') =? me_nnode (fm_mesh fm')); destruct J.
        * replace (me_ncell (fm_mesh fm') =? me_nnode (fm_mesh fm')) with false in J by (symmetry; apply Z.eqb_neq; exact L). destruct J.
    - intros NI J. apply dset_all_keys in J. destruct J as [[] | J]. apply NI. apply (cell_list_keys i2d v w _ GC).
      unfold cell_list. rewrite map_app in J |- *. apply in_app_or in J. apply in_or_app. destruct J as [J | J]; [left | right; exact J].
      destruct ((me_ncell (fm_mesh fm') =? me_nnode (fm_mesh fm')) || (me_ncell (fm_mesh fm') =? zlen ls)); [destruct J | exact J].
  Qed.
  (** Weights come back under names that the writers ignore: a second file has none. *)
  Theorem C39_weights tbl enum host v endian fm f fm' ls rows d :
    write_mesh tbl enum i2d f2i host v endian fm = (Ok f, fm') -> fmesh_typed fm' -> file_mesh v fm' ls rows -> located fm' ls ->
    dget String.eqb "wgt" (fm_params fm') = Some (SWgt d) -> NoDup (List.map (fun '(k, _) => lower (upper k ++ "_WGT")%string) d) ->
    exists fm2, (forall integrity, read_mesh integrity f = Ok fm2) /\
      (forall k x, In (k, x) d -> exists y, as_double i2d (SNum x) y /\ dget String.eqb (lower (upper k ++ "_WGT")) (fm_params fm2) = Some (SNum (NFlt y))) /\
      dget String.eqb "wgt" (fm_params fm2) = Some (SWgt []) /\ wgt_names (param (fm_params fm2) "wgt" (SWgt [])) = [].
  Proof using patterns.
    intros H T M L DW ND. destruct (write_mesh_data _ _ _ _ _ _ _ _ _ _ H) as (o & w & _ & W & WD).
    destruct (writer_state_ok fm' w W) as (_ & _ & _ & _ & _ & _ & _ & _ & _ & E1 & E2 & E3 & _ & _ & _ & _ & _ & _ & _ & _ & E12 & E13 & E14).
    destruct (read_mesh_back i2d f2i v o fm' ls rows w f patterns T M) as (x & y & z & con & mt & c & _ & _ & _ & _ & _ & _ & _ & _ & _ & RM); try assumption.
    { rewrite E14, E3, E1, E2, (fi_nface _ _ _ _ M). destruct L as [A | A]; auto. }
    destruct (good_parts v fm' ls rows M) as (_ & GW & _).
    assert (EW : w_wgt w = SWgt d) by (rewrite E12; unfold param; rewrite DW; reflexivity). rewrite <- E12 in GW.
    assert (KE : forall k x, In (k, x) d -> wgt_key k = lower (upper k ++ "_WGT")%string).
    { intros k0 x0 I. unfold wgt_key. rewrite good_cut; [reflexivity |]. rewrite EW in GW. cbn [wgt_names] in GW. rewrite Forall_forall in GW. apply GW.
      apply in_map_iff. exists (k0, x0). split; [reflexivity | exact I]. }
    assert (Q4 : forall d0, dget String.eqb "wgt" (dupdate d0 (exp_sim i2d f2i c)) = Some (SWgt [])).
    { intros d0. apply (sim_get i2d f2i w c d0 GW). }
    eexists. split; [exact RM |]. unfold mesh_back. cbn [fm_params]. split; [| split; [apply Q4 | unfold param; rewrite Q4; reflexivity]].
    intros k0 x0 I. destruct (weight_get i2d f2i w c (params_of (expected i2d f2i Little v ls c)) d k0 x0 EW I GW) as (y0 & Y & G).
    - erewrite map_ext_in; [exact ND |]. intros (k1, x1) I1. apply (KE k1 x1 I1).
    - exists y0. split; [apply as_double_ok; exact Y |]. rewrite <- (KE k0 x0 I). exact G.
  Qed.
  (** Data on faces added to a written file changes nothing to what is read. *)
  Theorem C39_face_data tbl enum host v endian o fm f fm' ls rows d bs g e :
    order_of host endian = Ok o ->
    write_mesh tbl enum i2d f2i host v endian fm = (Ok f, fm') -> fmesh_typed fm' -> file_mesh v fm' ls rows -> located fm' ls ->
    me_nface (fm_mesh fm') <> me_nnode (fm_mesh fm') ->
    Forall (fun '((name, _), vals) => ~ deof name /\ Forall pattern vals) d ->
    mapM (write_section o) (List.map (face_section (me_nface (fm_mesh fm'))) d) = Ok bs -> f = g ++ e -> zlen e = 256 ->
    forall integrity, read_mesh integrity (g ++ List.concat bs ++ e) = read_mesh integrity f.
  Proof using patterns.
    intros OO H T M L NF DP HB E LE integrity. destruct (write_mesh_data _ _ _ _ _ _ _ _ _ _ H) as (o' & w & OO' & W & WD).
    assert (o' = o) by congruence. subst o'. destruct (writer_state_typed i2d fm' w patterns T W) as (TW & UN).
    destruct (writer_state_ok fm' w W) as (_ & _ & _ & _ & _ & _ & _ & _ & _ & E1 & E2 & E3 & _ & _ & _ & _ & _ & _ & _ & _ & _ & _ & E14).
    unfold read_mesh. rewrite (face_data i2d f2i v o w ls f d bs g e TW); try assumption; try reflexivity.
    - apply (mesh_readable i2d f2i v fm' ls rows w M W UN). rewrite E14, E3, E1, E2, (fi_nface _ _ _ _ M). destruct L as [L | L]; auto.
    - rewrite E1, E2. exact NF.
    - rewrite E2. exact HB.
  Qed.

  (** C41: what is written fits; nothing is reduced to 32 or 64 bits. *)
  Theorem C41_written_fits tbl enum host v endian fm f fm' ls rows :
    write_mesh tbl enum i2d f2i host v endian fm = (Ok f, fm') -> fmesh_typed fm' -> faces_of (fm_mesh fm') ls rows ->
    Forall int32 (List.concat ls) /\ Forall int32 (List.map zlen ls) /\ Forall int32 (List.concat rows) /\
    (forall n l, fm_part fm' = Some (Some (n, Some l)) -> Forall int32 l /\ int64 n) /\
    int64 (me_nnode (fm_mesh fm')) /\ int64 (me_nface (fm_mesh fm')) /\ int64 (me_ncell (fm_mesh fm')) /\ int64 (zlen (List.concat ls)).
  Proof using patterns.
    intros H T FO. destruct (write_mesh_data _ _ _ _ _ _ _ _ _ _ H) as (o & w & _ & W & WD).
    destruct (writer_state_typed i2d fm' w patterns T W) as (TW & _).
    destruct (writer_state_ok fm' w W) as (x & y & z & zf & f2e & _ & _ & _ & WF & E1 & E2 & E3 & E4 & E5 & E6 & _ & E8 & _).
    destruct (writer_faces_of _ _ _ FO) as (mt & WF' & MR). rewrite WF in WF'. inversion WF' as [[Q1 Q2]]. rewrite Q1 in E4, E5. rewrite Q2 in E6. clear WF'.
    rewrite csr_make_diffs in E4. cbn [csr_make z_value] in E5.
    destruct (written_range i2d f2i v o w f TW WD) as (A1 & A2 & A3 & A4 & A5 & A6 & A7 & A8).
    rewrite E4 in A1. rewrite E5 in A2, A8. rewrite E1 in A5. rewrite E2 in A6. rewrite E3 in A7.
    split; [exact A2 |]. split; [exact A1 |]. split; [rewrite <- MR; apply A3; exact E6 |]. split; [| auto].
    intros n l EP. apply A4. rewrite E8, EP. reflexivity.
  Qed.
  (** C42: on written files the option changes nothing. *)
  Theorem C42_written tbl enum host v endian fm f fm' :
    write_mesh tbl enum i2d f2i host v endian fm = (Ok f, fm') -> fmesh_typed fm' -> read_mesh true f = read_mesh false f.
  Proof using patterns.
    intros H T. destruct (write_mesh_data _ _ _ _ _ _ _ _ _ _ H) as (o & w & _ & W & WD).
    destruct (writer_state_typed i2d fm' w patterns T W) as (TW & _).
    unfold read_mesh. rewrite (integrity_changes_nothing i2d f2i v o w f TW WD). reflexivity.
  Qed.
  (** In a file of version 2, putting another list of integers in the place of one of the three lists
      is refused if one of the first 100000 entries differs. *)
  Theorem C42_altered tbl enum host endian o fm f fm' id n :
    order_of host endian = Ok o -> write_mesh tbl enum i2d f2i host V2 endian fm = (Ok f, fm') -> fmesh_typed fm' ->
    In (id, n) [(NO_CHECK, me_nnode (fm_mesh fm')); (FA_CHECK, me_nface (fm_mesh fm')); (CV_CHECK, me_ncell (fm_mesh fm'))] ->
    exists h p, find_var f o [id] = Ok (Some h, p) /\
      forall vals b k x, binary_write o Ci n vals = Ok b -> nth_error vals k = Some x -> Z.of_nat k < 100000 -> x <> Z.of_nat k ->
        read_mesh true (patch f p b) = Err AssertionError.
  Proof using patterns.
    intros OO H T IN. destruct (write_mesh_data _ _ _ _ _ _ _ _ _ _ H) as (o' & w & OO' & W & WD). assert (o' = o) by congruence. subst o'.
    destruct (writer_state_typed i2d fm' w patterns T W) as (TW & _).
    destruct (writer_state_ok fm' w W) as (_ & _ & _ & _ & _ & _ & _ & _ & _ & E1 & E2 & E3 & _). rewrite <- E1, <- E2, <- E3 in IN.
    destruct (list_found i2d f2i o w f id n TW WD IN) as (h & p & FV). exists h, p. split; [exact FV |].
    intros vals b k x B X K NE. unfold read_mesh. rewrite (altered_checked i2d f2i o w f id n vals b h p TW WD IN FV B).
    rewrite (altered_far vals n k x X); [reflexivity | | exact K | exact NE].
    apply binary_write_ok in B. destruct B as (LV & _). assert (KL : (k < List.length vals)%nat) by (apply nth_error_Some; congruence). unfold zlen in LV. lia.
  Qed.
  (** The comparison is that of np.allclose, |x - k| <= 1e-8 + 1e-5 k at position k: what is within is not noticed. *)
  Theorem C42_tolerance tbl enum host endian o fm f fm' id n :
    order_of host endian = Ok o -> write_mesh tbl enum i2d f2i host V2 endian fm = (Ok f, fm') -> fmesh_typed fm' ->
    In (id, n) [(NO_CHECK, me_nnode (fm_mesh fm')); (FA_CHECK, me_nface (fm_mesh fm')); (CV_CHECK, me_ncell (fm_mesh fm'))] ->
    exists h p, find_var f o [id] = Ok (Some h, p) /\
      forall vals b, binary_write o Ci n vals = Ok b ->
        (forall k x, nth_error vals k = Some x -> 10 ^ 8 * Z.abs (x - Z.of_nat k) <= 1 + 10 ^ 3 * Z.of_nat k) ->
        read_mesh true (patch f p b) = read_mesh false (patch f p b).
  Proof using patterns.
    intros OO H T IN. destruct (write_mesh_data _ _ _ _ _ _ _ _ _ _ H) as (o' & w & OO' & W & WD). assert (o' = o) by congruence. subst o'.
    destruct (writer_state_typed i2d fm' w patterns T W) as (TW & _).
    destruct (writer_state_ok fm' w W) as (_ & _ & _ & _ & _ & _ & _ & _ & _ & E1 & E2 & E3 & _). rewrite <- E1, <- E2, <- E3 in IN.
    destruct (list_found i2d f2i o w f id n TW WD IN) as (h & p & FV). exists h, p. split; [exact FV |].
    intros vals b B C. unfold read_mesh. rewrite (altered_checked i2d f2i o w f id n vals b h p TW WD IN FV B).
    rewrite allclose_within; [reflexivity | | exact C].
    apply binary_write_ok in B. apply B.
  Qed.
End Props.

(** Arrays of integers with an item out of range are refused, the others are written. *)
Theorem C41_refused o c n vals : c <> Cd -> zlen vals = Z.max 0 n ->
  ((exists bs, binary_write o c n vals = Ok bs) <-> Forall (match c with Ci => int32 | _ => int64 end) vals) /\
  (Exists (fun x => ~ match c with Ci => int32 | _ => int64 end x) vals -> binary_write o c n vals = Err StructError).
Proof.
  intros C L. assert (Q : forall x, fits (code_size c) x = true <-> match c with Ci => int32 | _ => int64 end x).
  { intros x. destruct c; [apply fits4 | apply fits8 | congruence]. }
  split.
  - rewrite pack_all_fits by assumption. split; intros F; (eapply Forall_impl; [| exact F]); intros x X; apply Q; exact X.
  - intros X. apply pack_refused; [exact L | exact C |]. eapply Exists_impl; [| exact X]. intros x NX. destruct (fits (code_size c) x) eqn:E; [| reflexivity].
    exfalso. apply NX. apply Q. exact E.
Qed.
(** Integers of headers out of range raise OverflowError. *)
Theorem C41_header_refused name id skip l r : Exists (fun x => ~ int64 x) l -> mk_hdr name id skip l r = Err OverflowError.
Proof. exact (header_refused ex_f2i name id skip l r). Qed.


(** ** Concrete cases *)
(** Four nodes, five faces, and numbers of cells that differ: two, as many as nodes, as many as faces. *)
Definition loss_rows (nc : Z) : list (list Z) := [[0; -1]; [nc - 1; -1]; [1; -1]; [1; -1]; [0; 1]].
Definition loss_fm (nc : Z) (p : dict string sval) : fmesh :=
  FM (Mesh Z nc 4 5 None
    [("mixed"%string, FaceSet (EC 5 [("bar2"%string, ED (ILrange 0 4) (Mat (Some 2%nat) ex_ls))]) (Some (Some (Mat (Some 2%nat) (loss_rows nc)))))]
    [("x"%string, [1; 2; 3; 4]); ("y"%string, [5; 6; 7; 8]); ("z"%string, [0; 0; 0; 2 ^ 63])] ex_marks)
    (FSet (DS "instant" "cellaverage" 1 [] [("P"%string, Arr [nc] false (zrange 10 (10 + nc))); ("U"%string, Arr [nc; 3] false (zrange 50 (50 + 3 * nc)))]))
    (FDict [("T"%string, Arr [4] false [20; 21; 22; 23]); ("V"%string, Arr [4; 3] false (zrange 0 12))]) p None.
Definition loss_params : dict string sval := [("wgt"%string, SWgt [("rho"%string, NFlt 77); ("P"%string, NInt 3)])].
Lemma loss_typed nc p : In nc [2; 4; 5] -> Forall (fun '(_, s) => sval_typed s) p -> fmesh_typed (loss_fm nc p).
Proof.
  intros N TP. unfold fmesh_typed, loss_fm. cbn [fm_mesh fm_params fm_nodes fm_cells fd_items me_nface me_ncell me_nodes me_bocos].
  split; [lia |]. split; [cbn in N; lia |]. split; [repeat (apply Forall_cons; [pats |]); apply Forall_nil |]. split; [exact ex_marks_typed |].
  split; [exact TP |].
  destruct N as [<- | [<- | [<- | []]]];
  (split; [| split; [| cbn; lia]]; (repeat (apply Forall_cons; [split; [reflexivity | intros; pats] |]); apply Forall_nil)).
Qed.
Lemma loss_file v nc p : In nc [2; 4; 5] -> Forall (fun k => good_name k /\ ~ deof k) (wgt_names (param p "wgt" (SWgt []))) -> file_mesh v (loss_fm nc p) ex_ls (loss_rows nc).
Proof.
  intros N NW. apply make_file_mesh; try (cbn in N |- *; lia).
  - eapply faces_mixed; [reflexivity | | left; intros t ed [E | []]; inversion E; reflexivity].
    constructor.
    + constructor; [repeat constructor; intros [] | | reflexivity].
      intros t ed [E | []]. inversion E; subst. constructor; [discriminate | reflexivity |]. repeat constructor.
    + reflexivity.
    + eexists. split; [reflexivity |]. split; [reflexivity |]. split; reflexivity.
  - repeat (apply Forall_cons; [cbn; lia |]); apply Forall_nil.
  - repeat (apply Forall_cons; [reflexivity |]); apply Forall_nil.
  - cbn in N |- *. repeat (apply Forall_cons; [lia |]). apply Forall_nil.
  - exact ex_bounds.
  - unfold mesh_names. cbn [fm_mesh fm_params fm_nodes fm_cells]. repeat rewrite Forall_app. repeat split; try exact NW; names.
  - split; [nodups | split; nodups].
  - cbn. intuition discriminate.
Qed.
Example c38_case : forall v nc, In nc [2; 4; 5] ->
  let fm := loss_fm nc [] in
  ex_write v fm = (Ok (bytes_of (ex_write v fm)), fm) /\ fmesh_typed fm /\ file_mesh v fm ex_ls (loss_rows nc) /\
  cell_total v fm = me_ncell (fm_mesh fm).
Proof.
  intros v nc N fm. split; [| split; [| split]].
  - destruct N as [<- | [<- | [<- | []]]], v; vm_compute; reflexivity.
  - apply loss_typed; [exact N | constructor].
  - apply loss_file; [exact N |]. constructor.
  - destruct N as [<- | [<- | [<- | []]]], v; reflexivity.
Qed.
(** What is read then: the names of cell data, then of node data. *)
Example c38_read : forall v,
  let names nc := match read_mesh false (bytes_of (ex_write v (loss_fm nc []))) with
                  | Ok fm => (List.map fst (fd_items (fm_cells fm)), List.map fst (fd_items (fm_nodes fm)))
                  | Err _ => ([], []) end in
  names 2 = (["P"; "U"], ["T"])%string /\ names 4 = ([], ["T"; "P"])%string /\ names 5 = ([], ["T"])%string.
Proof. intros v. destruct v; vm_compute; auto. Qed.
(** C39: weights. *)
Example c39_weights_case : forall v,
  let fm := loss_fm 2 loss_params in
  ex_write v fm = (Ok (bytes_of (ex_write v fm)), fm) /\ fmesh_typed fm /\ file_mesh v fm ex_ls (loss_rows 2) /\ located fm ex_ls /\
  NoDup (List.map (fun '(k, _) => lower (upper k ++ "_WGT")%string) [("rho"%string, NFlt 77); ("P"%string, NInt 3)]) /\
  match read_mesh false (bytes_of (ex_write v fm)) with
  | Ok fm2 => dget String.eqb "rho_wgt" (fm_params fm2) = Some (SNum (NFlt 77)) | Err _ => False end.
Proof.
  intros v fm. split; [destruct v; vm_compute; reflexivity |]. split; [apply loss_typed; [left; reflexivity |] |].
  { repeat (apply Forall_cons; [cbn; repeat (apply Forall_cons; [cbn; unfold pattern; auto; lia |]); apply Forall_nil |]); apply Forall_nil. }
  split; [apply loss_file; [left; reflexivity | cbn; names] |]. split; [right; split; discriminate |].
  split; [cbn; nodups | destruct v; vm_compute; reflexivity].
Qed.
(** Data on faces: a scalar and a vector put before the end of the file. *)
Definition face_d : list (string * bool * list Z) := [("FLUX"%string, false, [1; 2; 3; 4; 5]); ("NORMAL"%string, true, zrange 0 15)].
Example c39_face_case : forall v,
  let f := bytes_of (ex_write v (loss_fm 2 [])) in
  let g := firstn (List.length f - 256) f in let e := skipn (List.length f - 256) f in
  f = g ++ e /\ zlen e = 256 /\ Forall (fun '((name, _), vals) => ~ deof name /\ Forall pattern vals) face_d /\
  exists bs, mapM (write_section Big) (List.map (face_section 5) face_d) = Ok bs /\ zlen (List.concat bs) = 672.
Proof.
  intros v f g e. split; [symmetry; apply firstn_skipn |]. split; [destruct v; vm_compute; reflexivity |].
  split; [repeat (apply Forall_cons; [split; [discriminate | pats] |]); apply Forall_nil |].
  clear. eexists. split; [vm_compute; reflexivity | vm_compute; reflexivity].
Qed.
(** C41: a mesh whose faces have a node out of range is refused. *)
Example c41_case : binary_write Big Ci 3 [1; 2 ^ 31 - 1; - 2 ^ 31] = Ok [0; 0; 0; 1; 127; 255; 255; 255; 128; 0; 0; 0] /\
  binary_write Big Ci 3 [1; 2 ^ 31; 0] = Err StructError /\ mk_hdr "N" 0 0 [2 ^ 63] [] = Err OverflowError.
Proof. vm_compute. auto. Qed.
(** C42: the list of faces with its last two entries exchanged. *)
Example c42_case :
  let f := bytes_of (ex_write V2 (loss_fm 2 [])) in
  exists h p b, find_var f Big [FA_CHECK] = Ok (Some h, p) /\ binary_write Big Ci 5 [0; 1; 2; 4; 3] = Ok b /\
    read_mesh true (patch f p b) = Err AssertionError /\ read_mesh false (patch f p b) = read_mesh false f.
Proof.
  cbv zeta. eexists. eexists. eexists. split; [vm_compute; reflexivity |]. split; [vm_compute; reflexivity |].
  split; vm_compute; reflexivity.
Qed.
(** A list of 100001 entries whose last one is wrong meets the condition of C42_tolerance. *)
Example c42_tolerance_case : forall k x, nth_error (zrange 0 100000 ++ [100001]) k = Some x -> 10 ^ 8 * Z.abs (x - Z.of_nat k) <= 1 + 10 ^ 3 * Z.of_nat k.
Proof.
  intros k x H. change (10 ^ 8) with 100000000. change (10 ^ 3) with 1000. destruct (Z_lt_le_dec (Z.of_nat k) 100000) as [K | K].
  - rewrite nth_error_app1 in H by (rewrite zrange_length; lia). rewrite nth_error_zrange in H by lia. inversion H. lia.
  - rewrite nth_error_app2 in H by (rewrite zrange_length; lia). rewrite zrange_length in H.
    destruct (k - Z.to_nat (100000 - 0))%nat as [| j] eqn:J; [| destruct j; discriminate]. inversion H. lia.
Qed.

Print Assumptions C38_located.
Print Assumptions C38_as_many_nodes.
Print Assumptions C38_as_many_faces.
Print Assumptions C39_node_vectors.
Print Assumptions C39_weights.
Print Assumptions C39_face_data.
Print Assumptions C41_written_fits.
Print Assumptions C41_refused.
Print Assumptions C41_header_refused.
Print Assumptions C42_written.
Print Assumptions C42_altered.
Print Assumptions C42_tolerance.
