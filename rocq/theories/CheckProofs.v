From Coq Require Import Lia Sorted Permutation ZifyBool ZifyNat Arith.
From Verif Require Import PyFacts IndexListSpec IndexListProofs Conn ConnSpec ConnProofs.

Lemma mapM_entries_ok (d : dict string edict) ls :
  mapM (fun '(_, ed) => il_entries (ed_index ed)) d = Ok ls ->
  ls = List.map (fun kv => entries (ed_index (snd kv))) d /\ (forall t ed, In (t, ed) d -> ed_index ed <> ILnone).
Proof.
  revert ls; induction d as [|[t ed] d IH]; simpl; intros ls H.
  - inv H. split; simpl; tauto.
  - binv. apply il_entries_ok in H0. destruct H0 as [N <-]. destruct (IH _ H1) as [-> Hn].
    split; auto. intros t' ed' [E|E]; [inv E; auto|eauto].
Qed.

Lemma mapM_entries_total (d : dict string edict) :
  (forall t ed, In (t, ed) d -> ed_index ed <> ILnone) ->
  mapM (fun '(_, ed) => il_entries (ed_index ed)) d = Ok (List.map (fun kv => entries (ed_index (snd kv))) d).
Proof.
  intros H. apply mapM_map. intros [t ed] Hin. apply il_entries_entries. eauto.
Qed.

Lemma mapM_list_total (d : dict string edict) :
  (forall t ed, In (t, ed) d -> ed_index ed <> ILnone /\ il_boxed (ed_index ed) = false) ->
  mapM (fun '(_, ed) => il_list (ed_index ed)) d = Ok (List.map (fun kv => entries (ed_index (snd kv))) d).
Proof.
  intros H. apply mapM_map. intros [t ed] Hin. apply H in Hin. now apply il_list_entries.
Qed.

Lemma sorted_full l :
  StronglySorted Z.lt l -> py_min l = Ok 0 -> py_max l = Ok (zlen l - 1) -> l = zrange 0 (zlen l).
Proof.
  intros S Mn Mx. apply py_min_ok in Mn. apply py_max_ok in Mx.
  apply ssorted_le_perm_eq; auto using ssorted_lt_le, zrange_sorted.
  apply NoDup_bounded_perm; auto using ssorted_lt_NoDup.
  intros x Hx. destruct Mn as [_ Mn], Mx as [_ Mx]. specialize (Mn _ Hx). specialize (Mx _ Hx). lia.
Qed.

Lemma all_equal_single l x :
  (forall y, In y l -> y = x) -> py_min l = Ok 0 -> py_max l = Ok (zlen l - 1) -> l = zrange 0 1.
Proof.
  intros H Mn Mx. apply py_min_ok in Mn. apply py_max_ok in Mx.
  destruct Mn as [I0 _], Mx as [Im _]. pose proof (H _ I0). pose proof (H _ Im).
  assert (L : zlen l = 1) by lia. destruct l as [|a [|b l]]; unfold zlen in L; simpl List.length in L; try lia.
  destruct I0 as [->|[]]. reflexivity.
Qed.

Lemma check_sound c b :
  ec_check c = Ok b -> b = true /\ exists n, 0 < n /\ ec_numbers c = zrange 0 n.
Proof.
  unfold ec_check. intros H. apply bind_ok in H. destruct H as (ls & H0 & H).
  apply mapM_entries_ok in H0. destruct H0 as [-> Hn].
  rewrite concat_map_flat_map in H. fold (ec_numbers c) in H.
  destruct (List.map _ (ec_dict c)) as [|bx boxes]; [discriminate|].
  destruct (negb _); [discriminate|].
  apply bind_ok in H. destruct H as (mn & H0 & H).
  apply bind_ok in H. destruct H as (u1 & E0 & H). apply assertb_ok in E0.
  apply bind_ok in H. destruct H as (mx & H2 & H).
  apply bind_ok in H. destruct H as (u2 & E2 & H). apply assertb_ok in E2.
  apply bind_ok in H. destruct H as (ok & H4 & H).
  apply bind_ok in H. destruct H as (u3 & E3 & H). apply assertb_ok in E3.
  inv H. split; auto.
  apply Z.eqb_eq in E0. apply Z.eqb_eq in E2. subst mn mx.
  assert (Hpos : 0 < zlen (ec_numbers c)).
  { destruct (ec_numbers c); [discriminate|]. rewrite zlen_cons. pose proof (zlen_nonneg l). lia. }
  destruct bx.
  - injection H4 as H1. exists 1. split; [lia|].
    pose proof H0 as H0'. apply py_min_ok in H0'. destruct H0' as [I0 _].
    apply (all_equal_single _ 0); auto. intros y Hy.
    rewrite forallb_forall in H1. specialize (H1 0). rewrite forallb_forall in H1.
    apply np_unique_in in I0. specialize (H1 I0 _ Hy). lia.
  - exists (zlen (ec_numbers c)). split; auto.
    unfold np_all_eq in H4. destruct (Nat.eqb _ _) eqn:EL.
    + injection H4 as H1. apply zlist_eqb_eq in H1. apply sorted_full; auto. rewrite <- H1. apply np_unique_sorted.
    + exfalso. destruct (np_unique (ec_numbers c)) as [|u us] eqn:EU.
      * destruct (ec_numbers c) as [|a l]; [simpl in EL; discriminate|].
        assert (In a (np_unique (a :: l))) by (apply np_unique_in; simpl; auto).
        rewrite EU in H. destruct H.
      * destruct us as [|v2 us].
        -- injection H4 as H1. rewrite forallb_forall in H1.
           assert (E : ec_numbers c = zrange 0 1).
           { apply (all_equal_single _ u); auto. intros y Hy. specialize (H1 _ Hy). lia. }
           rewrite E in EL. discriminate.
        -- destruct (ec_numbers c) as [|y [|y2 ys]]; try discriminate.
Qed.

Lemma check_complete c n :
  ec_wf c -> ec_plain c -> 0 < n -> ec_numbers c = zrange 0 n -> ec_check c = Ok true.
Proof.
  intros W Pl Hn E. unfold ec_check. rewrite mapM_entries_total.
  2:{ intros t ed Hin. eapply edwf_typed, ecwf_eds; eauto. }
  cbv beta iota delta [bind]. rewrite concat_map_flat_map. fold (ec_numbers c). rewrite E.
  destruct (List.map _ (ec_dict c)) as [|b bs] eqn:EB.
  { apply map_eq_nil in EB. unfold ec_numbers in E. rewrite EB in E. simpl in E.
    rewrite zrange_cons in E by lia. discriminate. }
  assert (HB : forall x, In x (b :: bs) -> x = false).
  { rewrite <- EB. intros x Hx. apply in_map_iff in Hx. destruct Hx as ([t ed] & <- & Hin). eauto. }
  replace (forallb (Bool.eqb b) (b :: bs)) with true.
  2:{ symmetry. apply forallb_forall. intros x Hx. rewrite (HB _ Hx), (HB b); simpl; auto. }
  simpl negb. cbv iota.
  rewrite (HB b) by (simpl; auto).
  assert (M0 : py_min (zrange 0 n) = Ok 0).
  { apply py_min_ok. split; [apply in_zrange; lia|]. intros y Hy. apply in_zrange in Hy. lia. }
  assert (M1 : py_max (zrange 0 n) = Ok (n - 1)).
  { apply py_max_ok. split; [apply in_zrange; lia|]. intros y Hy. apply in_zrange in Hy. lia. }
  rewrite M0, M1, zlen_zrange by lia. simpl Z.eqb. cbv iota beta delta [assertb].
  replace (n - 1 =? n - 0 - 1) with true by lia.
  rewrite np_unique_of_sorted by apply zrange_sorted. unfold np_all_eq. rewrite Nat.eqb_refl, zlist_eqb_refl. reflexivity.
Qed.

(** ** Node sets *)

Lemma dget_dict_of_zip {V} (ks : list Z) (vs : list V) k :
  NoDup ks -> List.length ks = List.length vs ->
  forall v, dget Z.eqb k (dict_of_zip ks vs) = Some v <-> In (k, v) (combine ks vs).
Proof.
  intros N L. unfold dict_of_zip.
  assert (G : forall (l : list (Z * V)) d v, NoDup (List.map fst l) -> 
            dget Z.eqb k (fold_left (fun d '(k, v) => dset Z.eqb k v d) l d) = Some v <->
            (In (k, v) l \/ (~ In k (List.map fst l) /\ dget Z.eqb k d = Some v))).
  { induction l as [|[k0 v0] l IH]; simpl; intros d v ND.
    - tauto.
    - inv ND. rewrite IH by auto. destruct (Z.eq_dec k k0) as [->|Ne].
      + rewrite (dget_dset_eq _ Z.eqb_eq). split.
        * intros [H|[_ H]]; [|inv H; auto]. exfalso. apply H1. apply in_map_iff. now exists (k0, v).
        * intros [[H|H]|[H _]]; [inv H; auto| |tauto].
          exfalso. apply H1. apply in_map_iff. now exists (k0, v).
      + rewrite (dget_dset_neq _ Z.eqb_eq) by auto. split.
        * intros [H|[H1' H]]; auto. right. split; auto. intros [E|E]; congruence.
        * intros [[H|H]|[H H']]; [inv H; congruence|auto|]. right. split; auto. }
  intros v. rewrite G by (rewrite map_fst_combine; auto). split; [intros [H|[_ H]]; auto; discriminate|auto].
Qed.

Lemma ec_pairs_combine c :
  ec_wf c -> combine (ec_numbers c) (flat_map (fun '(_, ed) => m_rows (ed_e2n ed)) (ec_dict c)) = ec_pairs c.
Proof.
  intros W. unfold ec_numbers, ec_pairs.
  assert (H : forall kv, In kv (ec_dict c) -> ed_wf (snd kv)) by (intros [t ed] Hin; eapply ecwf_eds; eauto).
  induction (ec_dict c) as [|[t ed] d IH]; simpl; auto.
  rewrite combine_app by (apply (edwf_len _ (H (t, ed) (or_introl eq_refl)))).
  rewrite IH by (intros; apply H; simpl; auto). reflexivity.
Qed.

Lemma ec_rows_len c :
  ec_wf c -> List.length (ec_numbers c) = List.length (flat_map (fun '(_, ed) => m_rows (ed_e2n ed)) (ec_dict c)).
Proof.
  intros W. unfold ec_numbers.
  assert (H : forall kv, In kv (ec_dict c) -> ed_wf (snd kv)) by (intros [t ed] Hin; eapply ecwf_eds; eauto).
  induction (ec_dict c) as [|[t ed] d IH]; simpl; auto.
  rewrite !app_length. rewrite IH by (intros; apply H; simpl; auto). f_equal.
  apply (edwf_len _ (H (t, ed) (or_introl eq_refl))).
Qed.

Lemma ec_rows_pairs c :
  ec_wf c -> flat_map (fun '(_, ed) => m_rows (ed_e2n ed)) (ec_dict c) = List.map snd (ec_pairs c).
Proof.
  intros W. rewrite <- ec_pairs_combine by auto. symmetry. apply map_snd_combine. now apply ec_rows_len.
Qed.

Section Enum.
  Variable enum : list Z -> list Z.
  Hypothesis Henum : set_enum enum.

  Lemma nodes_of_indexlist_ok c L :
    ec_wf c -> ec_plain c -> NoDup (ec_numbers c) -> (forall k, In k L -> In k (ec_numbers c)) ->
    exists r, ec_nodes_of_indexlist enum c L = Ok r /\ NoDup r /\
      forall n, In n r <-> exists k nodes, In k L /\ In (k, nodes) (ec_pairs c) /\ In n nodes.
  Proof.
    intros W Pl N HL. unfold ec_nodes_of_indexlist. rewrite mapM_list_total.
    2:{ intros t ed Hin. split; [eapply edwf_typed, ecwf_eds; eauto|eauto]. }
    cbv beta iota delta [bind]. rewrite concat_map_flat_map. fold (ec_numbers c).
    set (d := dict_of_zip _ _).
    assert (HD : forall k v, dget Z.eqb k d = Some v <-> In (k, v) (ec_pairs c)).
    { intros k v. unfold d. rewrite dget_dict_of_zip; auto using ec_rows_len. now rewrite ec_pairs_combine. }
    assert (HT : forall k, In k L -> exists v, dget Z.eqb k d = Some v).
    { intros k Hk. apply HL in Hk. rewrite <- ec_numbers_pairs in Hk by auto. apply in_map_iff in Hk.
      destruct Hk as ([k' v] & E & Hin). simpl in E. subst. exists v. now apply HD. }
    clearbody d. clear HL.
    assert (HM : exists rows, mapM (fun k => match dget Z.eqb k d with Some r => Ok r | None => Err TypeError end) L = Ok rows
              /\ (forall n, In n (List.concat rows) <-> exists k v, In k L /\ dget Z.eqb k d = Some v /\ In n v)).
    { induction L as [|k L IH]; simpl.
      - exists []. split; auto. simpl. split; [tauto|]. intros (k & v & [] & _).
      - destruct (HT k (or_introl eq_refl)) as [v Ev]. rewrite Ev. simpl.
        destruct IH as (rows & -> & Hr); [intros; apply HT; simpl; auto|].
        exists (v :: rows). split; auto. intros n. simpl. rewrite in_app_iff, Hr. split.
        + intros [H|(k' & v' & H1 & H2 & H3)]; [exists k, v|exists k', v']; auto.
        + intros (k' & v' & [->|H1] & H2 & H3); [left; congruence|right; eauto 6]. }
    destruct HM as (rows & -> & Hr). eexists; split; [reflexivity|].
    split; [apply Henum|]. intros n. rewrite (proj2 (Henum _)), Hr.
    split; intros (k & v & H1 & H2 & H3); exists k, v; repeat split; auto; now apply HD.
  Qed.

  Lemma nodes_of_indexlist_unknown c L k :
    ec_wf c -> ec_plain c -> NoDup (ec_numbers c) -> In k L -> ~ In k (ec_numbers c) ->
    ec_nodes_of_indexlist enum c L = Err TypeError.
  Proof.
    intros W Pl N Hk Hn. unfold ec_nodes_of_indexlist. rewrite mapM_list_total.
    2:{ intros t ed Hin. split; [eapply edwf_typed, ecwf_eds; eauto|eauto]. }
    cbv beta iota delta [bind]. rewrite concat_map_flat_map. fold (ec_numbers c).
    set (d := dict_of_zip _ _).
    assert (HD : dget Z.eqb k d = None).
    { destruct (dget Z.eqb k d) eqn:E; auto. exfalso. apply Hn. unfold d in E.
      apply dget_dict_of_zip in E; auto using ec_rows_len. rewrite ec_pairs_combine in E by auto.
      rewrite <- ec_numbers_pairs by auto. apply in_map_iff. now exists (k, l). }
    assert (mapM (fun k => match dget Z.eqb k d with Some r => Ok r | None => Err TypeError end) L = Err TypeError) as ->; auto.
    clear -Hk HD. induction L as [|a L IH]; [destruct Hk|]. simpl.
    destruct (dget Z.eqb a d) eqn:E; simpl; auto. destruct Hk as [->|Hk]; [congruence|].
    now rewrite IH.
  Qed.

  Lemma nodelist_ok c :
    ec_wf c ->
    NoDup (ec_nodelist enum c) /\
    forall n, In n (ec_nodelist enum c) <-> exists k nodes, In (k, nodes) (ec_pairs c) /\ In n nodes.
  Proof.
    intros W. unfold ec_nodelist. split; [apply Henum|]. intros n. rewrite (proj2 (Henum _)).
    assert (E : forall x, In x (flat_map (fun '(_, ed) => List.concat (m_rows (ed_e2n ed))) (ec_dict c)) <->
                          exists r, In r (flat_map (fun '(_, ed) => m_rows (ed_e2n ed)) (ec_dict c)) /\ In x r).
    { intros x. induction (ec_dict c) as [|[t ed] d IH]; simpl.
      - split; [tauto|intros (r & [] & _)].
      - rewrite in_app_iff, IH, in_concat. split.
        + intros [(r & H1 & H2)|(r & H1 & H2)]; exists r; rewrite in_app_iff; auto.
        + intros (r & H1 & H2). rewrite in_app_iff in H1. destruct H1; eauto. }
    rewrite E, ec_rows_pairs by auto. split.
    - intros (r & H1 & H2). apply in_map_iff in H1. destruct H1 as ([k r'] & <- & H1). eauto.
    - intros (k & r & H1 & H2). exists r. split; auto. apply in_map_iff. now exists (k, r).
  Qed.
End Enum.
