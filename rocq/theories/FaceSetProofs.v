(** * Proofs about face sets and coordinates of meshes. *)
From Coq Require Import Sorted Permutation Lia.
From Verif Require Import PyFacts Conn ConnSpec ConnProofs MergeProofs IndexListSpec IndexListProofs CsrProofs Mesh MeshSpec MeshProofs.

(** ** C21 *)
Lemma export_mixed_ok {F} (m : mesh F) nn b i mb mi :
  dget String.eqb "boundary" (me_faces m) = Some b -> dget String.eqb "internal" (me_faces m) = Some i ->
  ec_wf (f_f2n b) -> ec_plain (f_f2n b) -> ec_cols nn (f_f2n b) ->
  ec_wf (f_f2n i) -> ec_plain (f_f2n i) -> ec_cols nn (f_f2n i) ->
  f_f2c b = Some (Some mb) -> f_f2c i = Some (Some mi) -> m_cols mb = Some 2%nat -> m_cols mi = Some 2%nat ->
  zlen (m_rows mb) = ec_nelem (f_f2n b) -> zlen (m_rows mi) = ec_nelem (f_f2n i) ->
  Permutation (ec_numbers (f_f2n b)) (zrange 0 (ec_nelem (f_f2n b))) ->
  Permutation (ec_numbers (f_f2n i)) (zrange 0 (ec_nelem (f_f2n i))) ->
  exists con mc, export_mixedfaces m = Ok (con, Some mc) /\ ec_wf con /\ m_cols mc = Some 2%nat /\
    ec_nelem con = ec_nelem (f_f2n b) + ec_nelem (f_f2n i) /\
    zlen (m_rows mc) = ec_nelem con /\
    Permutation (ec_numbers con) (zrange 0 (ec_nelem con)) /\
    (forall t f nodes, In (f, nodes) (pairs_of_type (f_f2n b) t) ->
       In (f, nodes) (pairs_of_type con t) /\
       nth_error (m_rows mc) (Z.to_nat f) = nth_error (m_rows mb) (Z.to_nat f)) /\
    (forall t f nodes, In (f, nodes) (pairs_of_type (f_f2n i) t) ->
       In (ec_nelem (f_f2n b) + f, nodes) (pairs_of_type con t) /\
       nth_error (m_rows mc) (Z.to_nat (ec_nelem (f_f2n b) + f)) = nth_error (m_rows mi) (Z.to_nat f)).
Proof.
  intros Hb Hi Wb Pb Cb Wi Pi Ci Fb Fi Mb Mi Lb Li Nb Ni.
  destruct (merge_two nn _ _ Wb Pb Cb Wi Pi Ci) as (con & E & W & P & HN & HT & HP).
  unfold export_mixedfaces, dget_err. rewrite Hb, Hi. cbn [bind]. rewrite E. cbn [bind].
  unfold f2c_conn. rewrite Fb, Fi. cbn [bind]. unfold np_vcat. rewrite Mb, Mi, Nat.eqb_refl. cbn [bind].
  unfold ii_set. cbn [m_cols bind].
  exists con. eexists. split; [reflexivity|]. split; auto. split; auto. split; auto. cbn [m_rows].
  split; [rewrite zlen_app; lia|].
  split; [rewrite HN; eapply merge_two_numbers; eauto|].
  assert (Hnum : forall c t f nodes, ec_wf c -> In (f, nodes) (pairs_of_type c t) -> In f (ec_numbers c)).
  { intros c t f nodes Wc Hin. rewrite <- ec_numbers_pairs by auto. apply in_map_iff. exists (f, nodes). split; auto.
    unfold pairs_of_type in Hin. apply in_flat_map in Hin. destruct Hin as (kv & Hkv & Hin).
    unfold ec_pairs. apply in_flat_map. exists kv. split; auto. destruct (String.eqb t (fst kv)); [auto|destruct Hin]. }
  split; intros t f nodes Hin; rewrite HT.
  - split; [apply in_or_app; auto|].
    assert (0 <= f < ec_nelem (f_f2n b)) by (eapply perm_zrange_bound; [exact Nb|]; eapply Hnum; eauto).
    apply nth_error_app1. unfold zlen in *. lia.
  - split.
    + apply in_or_app. right. unfold shift_pairs. apply in_map_iff. exists (f, nodes). split; auto. f_equal. lia.
    + assert (0 <= f < ec_nelem (f_f2n i)) by (eapply perm_zrange_bound; [exact Ni|]; eapply Hnum; eauto).
      assert (0 <= ec_nelem (f_f2n b)) by (rewrite (ecwf_nelem _ Wb); apply zlen_nonneg).
      rewrite nth_error_app2 by (unfold zlen in *; lia). f_equal. unfold zlen in *. lia.
Qed.

(** A face type without any row in one of the sets (numpy gives it the shape (0,)) cannot be merged
    with its rows in the other set. *)
Lemma merge_step_fail k t ed0 ed : forall d md,
  NoDup (dkeys md) -> NoDup (dkeys d) ->
  (forall t ed, In (t, ed) md -> ed_wf ed /\ il_boxed (ed_index ed) = false) ->
  (forall t ed, In (t, ed) d -> ed_wf ed /\ il_boxed (ed_index ed) = false) ->
  In (t, ed0) md -> In (t, ed) d -> m_cols (ed_e2n ed0) <> m_cols (ed_e2n ed) ->
  merge_step md (k, EC 0 d) = Err ValueError.
Proof.
  unfold merge_step. cbn [ec_dict]. induction d as [|[key e] d IH]; intros md Nm Nd Hm Hd H0 H1 Hc; [destruct H1|].
  cbn [foldM]. destruct (Hd key e (or_introl eq_refl)) as [We Be].
  destruct (shift_ok e k We Be) as (il & Es & Nil & Bil & Eil). rewrite Es. cbn [bind].
  destruct (sget key md) as [e0|] eqn:Ek.
  - destruct (Hm key e0 (dget_in _ seqb_eq _ _ _ Ek)) as [W0 B0].
    unfold il_add. rewrite (il_list_entries (ed_index e0)) by (auto; apply W0).
    rewrite (il_list_entries il) by auto. cbn [bind].
    destruct (np_vcat (ed_e2n e0) (ed_e2n e)) as [mm|er] eqn:Ev; cbn [bind].
    + inv Nd. destruct H1 as [H1|H1].
      { injection H1 as -> ->. assert (e0 = ed0) by (apply (in_dget _ seqb_eq) in H0; auto; congruence). subst.
        apply np_vcat_rows in Ev. destruct Ev as (_ & E1 & E2). congruence. }
      apply IH; auto.
      * now apply (dset_NoDup _ seqb_eq).
      * intros t' ed' Hin. apply in_dset in Hin. destruct Hin as [[-> ->]|Hin]; eauto. split; auto.
        split; cbn [ed_index ed_e2n]; [discriminate| |eapply np_vcat_wf; [apply W0|apply We|exact Ev]].
        cbn [entries]. rewrite app_length, Eil, map_length. destruct (np_vcat_rows _ _ _ Ev) as (-> & _).
        rewrite app_length. rewrite (edwf_len _ W0), (edwf_len _ We). reflexivity.
      * intros t' ed' Hin. apply (Hd t' ed'). simpl; auto.
      * apply in_dset_iff; auto. right. split; auto.
        intros ->. apply H3. apply in_map_iff. exists (key, ed). auto.
    + unfold np_vcat in Ev. destruct (m_cols (ed_e2n e0)), (m_cols (ed_e2n e)); try discriminate; try congruence.
      destruct (Nat.eqb n n0); congruence.
  - inv Nd. destruct H1 as [H1|H1].
    { injection H1 as -> ->. apply (in_dget _ seqb_eq) in H0; auto. congruence. }
    apply IH; auto.
    + now apply (dset_NoDup _ seqb_eq).
    + intros t' ed' Hin. apply in_dset in Hin. destruct Hin as [[-> ->]|Hin]; eauto. split; auto.
      split; cbn [ed_index ed_e2n]; auto; [|apply We]. rewrite Eil, map_length. apply We.
    + intros t' ed' Hin. apply (Hd t' ed'). simpl; auto.
    + apply in_dset_iff; auto. right. split; auto. intros ->. apply H3. apply in_map_iff. exists (key, ed). auto.
Qed.

Lemma merge_step_first k : forall d md, NoDup (dkeys d) -> (forall t, In t (dkeys d) -> ~ In t (dkeys md)) ->
  (forall t ed, In (t, ed) d -> ed_wf ed /\ il_boxed (ed_index ed) = false) ->
  exists d', merge_step md (k, EC 0 d) = Ok (md ++ d') /\ dkeys d' = dkeys d /\
    (forall t ed, In (t, ed) d' -> ed_wf ed /\ il_boxed (ed_index ed) = false) /\
    (forall t ed, In (t, ed) d -> exists ed', In (t, ed') d' /\ m_cols (ed_e2n ed') = m_cols (ed_e2n ed)).
Proof.
  unfold merge_step. cbn [ec_dict]. induction d as [|[key e] d IH]; intros md Nd Hno Hd; cbn [foldM].
  - exists []. rewrite app_nil_r. split; auto. split; auto. split; intros t ed [].
  - destruct (Hd key e (or_introl eq_refl)) as [We Be].
    destruct (shift_ok e k We Be) as (il & Es & Nil & Bil & Eil). rewrite Es. cbn [bind].
    replace (sget key md) with (@None edict).
    2:{ symmetry. apply (dget_None _ seqb_eq). apply Hno. simpl; auto. }
    cbn [bind]. rewrite (dset_notin _ seqb_eq) by (apply Hno; simpl; auto). inv Nd.
    destruct (IH (md ++ [(key, ED il (ed_e2n e))])) as (d' & E & K & Q & R); auto.
    { intros t Ht X. unfold dkeys in X. rewrite map_app in X. apply in_app_or in X. destruct X as [X|[X|[]]].
      - eapply Hno; [|exact X]. simpl; auto.
      - cbn in X. subst. contradiction. }
    { intros t' ed' Hin. apply (Hd t' ed'). simpl; auto. }
    exists ((key, ED il (ed_e2n e)) :: d'). rewrite E, <- app_assoc. split; auto. split; [unfold dkeys in *; cbn [List.map fst]; now f_equal|]. split.
    + intros t ed [Hin|Hin]; [|eauto]. injection Hin as <- <-. split; auto.
      split; cbn [ed_index ed_e2n]; auto; [|apply We]. rewrite Eil, map_length. apply We.
    + intros t ed [Hin|Hin].
      * injection Hin as <- <-. eexists. split; [left; reflexivity|reflexivity].
      * destruct (R t ed Hin) as (ed' & A & B). exists ed'. simpl; auto.
Qed.

Lemma merge_fails a b t eda edb :
  ec_wf a -> ec_plain a -> ec_wf b -> ec_plain b -> In (t, eda) (ec_dict a) -> In (t, edb) (ec_dict b) ->
  m_cols (ed_e2n eda) <> m_cols (ed_e2n edb) -> ec_merge ec_empty [a; b] = Err ValueError.
Proof.
  intros Wa Pa Wb Pb Ha Hb Hc. unfold ec_merge.
  assert (S := sizes_ok [a; b]). rewrite S by (intros c [<-|[<-|[]]]; auto). cbn [bind List.map removelast combine].
  clear S. cbn [foldM].
  destruct (merge_step_first 0 (ec_dict a) []) as (d' & E & K & Q & R).
  - apply Wa.
  - intros t' _ [].
  - intros t' ed' Hin. split; [apply (ecwf_eds _ Wa t' ed' Hin)|apply (Pa t' ed' Hin)].
  - change (merge_step [] (0, a)) with (merge_step [] (0, EC 0 (ec_dict a))). rewrite E. cbn [bind app].
    destruct (R t eda Ha) as (ed' & Hin' & Hc').
    match goal with |- context [merge_step d' (?k, b)] =>
      change (merge_step d' (k, b)) with (merge_step d' (k, EC 0 (ec_dict b))) end.
    rewrite (merge_step_fail _ t ed' edb); auto.
    + rewrite K. apply Wa.
    + apply Wb.
    + intros t' e' Hin. split; [apply (ecwf_eds _ Wb t' e' Hin)|apply (Pb t' e' Hin)].
    + congruence.
Qed.

(** ** C22 *)
Lemma total_held {F} (m : mesh F) : sets_wf m -> total_faces (me_faces m) = faces_held m.
Proof.
  unfold sets_wf, total_faces, faces_held. induction (me_faces m) as [|[k f] fs IH]; intros H; cbn [List.map flat_map zsum fold_right]; auto.
  rewrite zlen_app. fold (zsum (List.map (fun '(_, f0) => ec_nelem (f_f2n f0)) fs)). rewrite IH.
  - cbn [snd]. rewrite (ecwf_nelem _ (H k f (or_introl eq_refl))). reflexivity.
  - intros k' f' Hin. apply (H k' f'). simpl; auto.
Qed.

Lemma sets_wf_op {F} (m : mesh F) op : sets_wf m -> match op with AddF _ c _ => ec_wf c | _ => True end -> sets_wf (do_face_op m op).
Proof.
  intros H Hop. destruct op as [t c ii|t]; cbn [do_face_op].
  - unfold add_faces. destruct (existsb _ facetypes); auto. intros k f Hin. cbn in Hin. apply in_dset in Hin.
    destruct Hin as [[-> ->]|Hin]; eauto.
  - unfold pop_faces. destruct (existsb _ facetypes); auto. intros k f Hin. cbn in Hin. apply (H k f).
    clear - Hin. induction (me_faces m) as [|[k' f'] fs IH]; [destruct Hin|]. cbn [dpop] in Hin.
    destruct (String.eqb t k'); [simpl; auto|]. destruct Hin as [Hin|Hin]; [left; auto|right; auto].
Qed.

Lemma nface_after_add {F} (m : mesh F) t c ii : sets_wf m -> ec_wf c -> existsb (String.eqb t) facetypes = true ->
  me_nface (snd (add_faces m t c ii)) = faces_held (snd (add_faces m t c ii)).
Proof.
  intros H Hc Ht. rewrite <- total_held.
  - unfold add_faces. rewrite Ht. reflexivity.
  - apply (sets_wf_op m (AddF t c ii)); auto.
Qed.

Lemma nface_history {F} (m : mesh F) ops op :
  sets_wf m -> (forall o, In o (ops ++ [op]) -> match o with AddF _ c _ => ec_wf c | _ => True end) -> is_add op = true ->
  let m' := fold_left do_face_op (ops ++ [op]) m in me_nface m' = faces_held m'.
Proof.
  intros H Ho Ha. rewrite fold_left_app. cbn [fold_left].
  assert (W : sets_wf (fold_left do_face_op ops m)).
  { assert (Ho' : forall o, In o ops -> match o with AddF _ c _ => ec_wf c | _ => True end) by (intros o X; apply Ho; apply in_or_app; auto).
    clear Ho Ha. revert m H. induction ops as [|o ops IH]; intros m H; cbn [fold_left]; auto.
    apply IH; [intros o' X; apply Ho'; simpl; auto|]. apply sets_wf_op; auto. apply Ho'; simpl; auto. }
  destruct op as [t c ii|t]; [|discriminate]. cbn [do_face_op]. apply nface_after_add; auto.
  apply (Ho (AddF t c ii)). apply in_or_app; simpl; auto.
Qed.

Lemma nface_after_pop {F} (m : mesh F) t f : sets_wf m -> me_nface m = faces_held m -> 
  dget String.eqb t (me_faces m) = Some f -> In t facetypes -> 0 < ec_nelem (f_f2n f) ->
  me_nface (pop_faces m t) = me_nface m /\ faces_held (pop_faces m t) = faces_held m - ec_nelem (f_f2n f).
Proof.
  intros H HN Hf Ht Hp. assert (W' := sets_wf_op m (PopF t) H I). cbn [do_face_op] in W'.
  rewrite <- !total_held by auto. unfold pop_faces.
  replace (existsb (String.eqb t) facetypes) with true.
  2:{ symmetry. apply existsb_exists. exists t. split; auto. apply String.eqb_refl. }
  split; [reflexivity|]. cbn [with_faces me_faces]. clear - Hf. unfold total_faces.
  induction (me_faces m) as [|[k f'] fs IH]; [discriminate|]. cbn [dget dpop] in *.
  destruct (String.eqb t k).
  - injection Hf as ->. cbn [List.map zsum fold_right]. fold (zsum (List.map (fun '(_, f0) => ec_nelem (f_f2n f0)) fs)). lia.
  - cbn [List.map zsum fold_right]. specialize (IH Hf). fold (zsum (List.map (fun '(_, f0) => ec_nelem (f_f2n f0)) (dpop String.eqb t fs))).
    fold (zsum (List.map (fun '(_, f0) => ec_nelem (f_f2n f0)) fs)). lia.
Qed.

(** ** C23 *)
Lemma set_xyz_ok {F} (m : mesh F) x y z :
  zlen x = me_nnode m -> zlen y = me_nnode m -> zlen z = me_nnode m ->
  exists m', set_coords_xyz m x y z = (Ok tt, m') /\ nodescoord m' = Ok (x, y, z) /\ same_but_nodes m m'.
Proof.
  intros Hx Hy Hz. unfold set_coords_xyz. cbn [forallb]. rewrite Hx, Hy, Hz, Z.eqb_refl. cbn [andb].
  eexists. split; [reflexivity|]. split; [|constructor; reflexivity].
  unfold nodescoord, dget_err. cbn [with_nodes me_nodes].
  rewrite (dget_dset_neq _ seqb_eq "x" "z") by discriminate. rewrite (dget_dset_neq _ seqb_eq "x" "y") by discriminate.
  rewrite (dget_dset_eq _ seqb_eq "x"). cbn [bind].
  rewrite (dget_dset_neq _ seqb_eq "y" "z") by discriminate. rewrite (dget_dset_eq _ seqb_eq "y"). cbn [bind].
  rewrite (dget_dset_eq _ seqb_eq "z"). reflexivity.
Qed.

Lemma set_xyz_bad {F} (m : mesh F) x y z :
  ~ (zlen x = me_nnode m /\ zlen y = me_nnode m /\ zlen z = me_nnode m) ->
  set_coords_xyz m x y z = (Err AssertionError, m).
Proof.
  intros H. unfold set_coords_xyz. destruct (forallb _ _) eqn:E; auto. exfalso. apply H.
  cbn [forallb] in E. rewrite !andb_true_iff in E. rewrite !Z.eqb_eq in E. tauto.
Qed.

Lemma set_nd_ok {F} (m : mesh F) cols rows : zlen rows = me_nnode m -> 3 <= cols ->
  Forall (fun r => zlen r = cols) rows ->
  exists m' x y z, set_coords_nd m cols rows = (Ok tt, m') /\ nodescoord m' = Ok (x, y, z) /\ same_but_nodes m m' /\
    zlen x = me_nnode m /\ zlen y = me_nnode m /\ zlen z = me_nnode m /\
    forall k r, nth_error rows k = Some r ->
      nth_error x k = nth_error r 0 /\ nth_error y k = nth_error r 1 /\ nth_error z k = nth_error r 2.
Proof.
  intros HL Hc HR. unfold set_coords_nd. rewrite HL, Z.eqb_refl. cbn [fold_left].
  assert (HC : forall i, 0 <= i < cols -> exists v, column rows cols i = Ok v /\ zlen v = zlen rows /\
             forall k r, nth_error rows k = Some r -> nth_error v k = nth_error r (Z.to_nat i)).
  { intros i Hi. unfold column. replace (i <? cols) with true by (symmetry; apply Z.ltb_lt; lia).
    clear HL. induction HR as [|r rows Hr HR IH].
    - exists []. split; auto. split; auto. intros [|] r; discriminate.
    - destruct IH as (v & E & L & N). destruct (py_get_total r i) as (a & Ea); [lia|]. cbn [mapM]. rewrite Ea, E. cbn [bind].
      exists (a :: v). split; auto. split; [rewrite !zlen_cons; lia|]. intros [|k] r0 H0; cbn in H0.
      + injection H0 as <-. cbn. symmetry. apply py_get_nonneg; auto; lia.
      + cbn. auto. }
  destruct (HC 0 ltac:(lia)) as (x & Ex & Lx & Nx). destruct (HC 1 ltac:(lia)) as (y & Ey & Ly & Ny).
  destruct (HC 2 ltac:(lia)) as (z & Ez & Lz & Nz). rewrite Ex, Ey, Ez.
  eexists. exists x, y, z. split; [reflexivity|]. split.
  - unfold nodescoord, dget_err. cbn [with_nodes me_nodes].
    rewrite (dget_dset_neq _ seqb_eq "x" "z") by discriminate. rewrite (dget_dset_neq _ seqb_eq "x" "y") by discriminate.
    rewrite (dget_dset_eq _ seqb_eq "x"). cbn [bind].
    rewrite (dget_dset_neq _ seqb_eq "y" "z") by discriminate. rewrite (dget_dset_eq _ seqb_eq "y"). cbn [bind].
    rewrite (dget_dset_eq _ seqb_eq "z"). reflexivity.
  - split; [constructor; reflexivity|]. repeat split; try congruence; (now apply Nx) || (now apply Ny) || (now apply Nz).

Qed.

Lemma set_nd_bad_rows {F} (m : mesh F) cols rows : zlen rows <> me_nnode m ->
  set_coords_nd m cols rows = (Err AssertionError, m).
Proof. intros H. unfold set_coords_nd. apply Z.eqb_neq in H. now rewrite H. Qed.

(** Arrays with two columns: x and y are replaced, then IndexError. *)
Lemma set_nd_two_columns {F} (m : mesh F) rows : zlen rows = me_nnode m -> Forall (fun r => zlen r = 2) rows ->
  exists m' x, set_coords_nd m 2 rows = (Err IndexError, m') /\ dget String.eqb "x" (me_nodes m') = Some x /\
    (forall k r, nth_error rows k = Some r -> nth_error x k = nth_error r 0) /\
    dget String.eqb "z" (me_nodes m') = dget String.eqb "z" (me_nodes m).
Proof.
  intros HL HR. unfold set_coords_nd. rewrite HL, Z.eqb_refl. cbn [fold_left].
  assert (HC : forall i, 0 <= i < 2 -> exists v, column rows 2 i = Ok v /\
             forall k r, nth_error rows k = Some r -> nth_error v k = nth_error r (Z.to_nat i)).
  { intros i Hi. unfold column. replace (i <? 2) with true by (symmetry; apply Z.ltb_lt; lia).
    clear HL. induction HR as [|r rows Hr HR IH].
    - exists []. split; auto. intros [|] r; discriminate.
    - destruct IH as (v & E & N). destruct (py_get_total r i) as (a & Ea); [lia|]. cbn [mapM]. rewrite Ea, E. cbn [bind].
      exists (a :: v). split; auto. intros [|k] r0 H0; cbn in H0.
      + injection H0 as <-. cbn. symmetry. apply py_get_nonneg; auto; lia.
      + cbn. auto. }
  destruct (HC 0 ltac:(lia)) as (x & Ex & Nx). destruct (HC 1 ltac:(lia)) as (y & Ey & Ny). rewrite Ex, Ey.
  change (column rows 2 2) with (@Err (list F) IndexError). 
  eexists. exists x. split; [reflexivity|]. cbn [with_nodes me_nodes]. split.
  - rewrite (dget_dset_neq _ seqb_eq "x" "y") by discriminate. apply (dget_dset_eq _ seqb_eq).
  - split; [exact Nx|]. rewrite (dget_dset_neq _ seqb_eq "z" "y") by discriminate.
    now rewrite (dget_dset_neq _ seqb_eq "z" "x") by discriminate.
Qed.

Lemma scale_ok {F} mul (m : mesh F) x y z sx sy sz : coords_ok m x y z ->
  exists m', scale mul m sx sy sz = (Ok tt, m') /\ same_but_nodes m m' /\
    coords_ok m' (List.map (fun v => mul v sx) x) (List.map (fun v => mul v sy) y) (List.map (fun v => mul v sz) z).
Proof.
  intros (E & Lx & Ly & Lz). unfold scale. rewrite E.
  destruct (set_xyz_ok m (List.map (fun v => mul v sx) x) (List.map (fun v => mul v sy) y) (List.map (fun v => mul v sz) z))
    as (m' & E' & N & S); try (rewrite zlen_map; auto).
  exists m'. split; auto. split; auto. unfold coords_ok. rewrite (sn_nnode _ _ S), !zlen_map. auto.
Qed.

Lemma scale_twice {F} mul (m : mesh F) x y z s t u s' t' u' : coords_ok m x y z ->
  (forall a b c, mul (mul a b) c = mul a (mul b c)) ->
  exists m1 m2 m3, scale mul m s t u = (Ok tt, m1) /\ scale mul m1 s' t' u' = (Ok tt, m2) /\
    scale mul m (mul s s') (mul t t') (mul u u') = (Ok tt, m3) /\ nodescoord m2 = nodescoord m3 /\ same_but_nodes m2 m3.
Proof.
  intros C A. destruct (scale_ok mul m x y z s t u C) as (m1 & E1 & S1 & C1).
  destruct (scale_ok mul m1 _ _ _ s' t' u' C1) as (m2 & E2 & S2 & C2).
  destruct (scale_ok mul m x y z (mul s s') (mul t t') (mul u u') C) as (m3 & E3 & S3 & C3).
  exists m1, m2, m3. repeat (split; [assumption|]). split.
  - destruct C2 as (-> & _). destruct C3 as (-> & _). rewrite !map_map.
    assert (X : forall a b l, List.map (fun v => mul (mul v a) b) l = List.map (fun v => mul v (mul a b)) l) by (intros; apply map_ext; auto).
    now rewrite !X.
  - destruct S1, S2, S3. constructor; congruence.
Qed.

Lemma morph_ok {F} f (m : mesh F) x y z x' y' z' : coords_ok m x y z -> f x y z = (x', y', z') ->
  (zlen x' = me_nnode m /\ zlen y' = me_nnode m /\ zlen z' = me_nnode m ->
   exists m', morph f m = (Ok tt, m') /\ nodescoord m' = Ok (x', y', z') /\ same_but_nodes m m') /\
  (~ (zlen x' = me_nnode m /\ zlen y' = me_nnode m /\ zlen z' = me_nnode m) -> morph f m = (Err AssertionError, m)).
Proof.
  intros (E & L) Hf. unfold morph. rewrite E, Hf. split.
  - intros (A & B & C). now apply set_xyz_ok.
  - now apply set_xyz_bad.
Qed.
