From Coq Require Import Lia Sorted Permutation ZifyBool ZifyNat Arith.
From Verif Require Import PyFacts IndexListSpec IndexListProofs Conn ConnSpec.

Lemma seqb_eq a b : String.eqb a b = true <-> a = b.
Proof. apply String.eqb_eq. Qed.

Notation sget := (dget String.eqb).
Notation sset := (dset String.eqb).

Lemma il_entries_entries il : il <> ILnone -> il_entries il = Ok (entries il).
Proof. destruct il; simpl; congruence. Qed.

Lemma il_list_entries il : il <> ILnone -> il_boxed il = false -> il_list il = Ok (entries il).
Proof. destruct il; simpl; congruence. Qed.

Lemma il_list_ok il l : il_list il = Ok l -> il <> ILnone /\ il_boxed il = false /\ entries il = l.
Proof. destruct il; simpl; intros H; inv H; repeat split; congruence. Qed.

Lemma il_entries_ok il l : il_entries il = Ok l -> il <> ILnone /\ entries il = l.
Proof. destruct il; simpl; intros H; inv H; repeat split; congruence. Qed.

(** ** Dictionaries of strings *)

Section DictFlat.
  Context {V B : Type}.

  Lemma flat_map_dset_perm (f : string * V -> list B) k v v' (d : dict string V) x :
    sget k d = Some v ->
    Permutation (f (k, v')) (f (k, v) ++ x) ->
    Permutation (flat_map f (sset k v' d)) (flat_map f d ++ x).
  Proof.
    induction d as [|[k2 v2] d IH]; simpl; [congruence|].
    intros Hg P. destruct (String.eqb k k2) eqn:E.
    - apply seqb_eq in E. subst k2. inv Hg. simpl. rewrite P.
      rewrite <- !app_assoc. apply Permutation_app_head. apply Permutation_app_comm.
    - simpl. rewrite IH by auto. now rewrite app_assoc.
  Qed.

  (** For a key-selective [f], setting a key appends exactly to that key's part. *)
  Lemma flat_map_dset_new (f : string * V -> list B) k v (d : dict string V) :
    sget k d = None -> flat_map f (sset k v d) = flat_map f d ++ f (k, v).
  Proof.
    intros H. apply (dget_None _ seqb_eq) in H. rewrite (dset_notin _ seqb_eq) by auto.
    rewrite flat_map_app. simpl. now rewrite app_nil_r.
  Qed.

  Lemma flat_map_sel_dset (g : V -> list B) t k v (d : dict string V) :
    NoDup (dkeys d) ->
    flat_map (fun kv => if String.eqb t (fst kv) then g (snd kv) else []) (sset k v d) =
    if String.eqb t k then g v
    else flat_map (fun kv => if String.eqb t (fst kv) then g (snd kv) else []) d.
  Proof.
    assert (Hno : forall d : dict string V, ~ In t (dkeys d) ->
              flat_map (fun kv => if String.eqb t (fst kv) then g (snd kv) else []) d = []).
    { induction d0 as [|[a b] d0 IH0]; simpl; auto. intros H.
      destruct (String.eqb t a) eqn:E; [apply seqb_eq in E; subst; tauto|]. simpl. tauto. }
    induction d as [|[k2 v2] d IH]; simpl; intros N.
    - rewrite app_nil_r. reflexivity.
    - inv N. destruct (String.eqb k k2) eqn:E; simpl.
      + apply seqb_eq in E. subst k2. destruct (String.eqb t k) eqn:E2; auto.
        apply seqb_eq in E2. subst k. rewrite Hno by auto. now rewrite app_nil_r.
      + rewrite IH by auto. destruct (String.eqb t k) eqn:E2, (String.eqb t k2) eqn:E3; auto.
        * apply seqb_eq in E2, E3. subst. rewrite String.eqb_refl in E. discriminate.
  Qed.

  Lemma flat_map_sel_get (g : V -> list B) t (d : dict string V) :
    NoDup (dkeys d) ->
    flat_map (fun kv => if String.eqb t (fst kv) then g (snd kv) else []) d =
    match sget t d with Some v => g v | None => [] end.
  Proof.
    induction d as [|[k2 v2] d IH]; simpl; auto. intros N; inv N.
    rewrite IH by auto. destruct (String.eqb t k2) eqn:E; auto.
    apply seqb_eq in E. subst k2. apply (dget_None _ seqb_eq) in H1. rewrite H1. now rewrite app_nil_r.
  Qed.
End DictFlat.

Lemma in_dset {V} k (v : V) d k' v' :
  In (k', v') (sset k v d) -> (k' = k /\ v' = v) \/ In (k', v') d.
Proof.
  induction d as [|[k2 v2] d IH]; simpl.
  - intros [H|[]]. inv H. auto.
  - destruct (String.eqb k k2) eqn:E; simpl.
    + apply seqb_eq in E. subst. intros [H|H]; [inv H|]; auto.
    + intros [H|H]; [inv H; auto|]. apply IH in H. tauto.
Qed.

(** ** add_elems *)

Lemma np_vcat_rows a b m : np_vcat a b = Ok m -> m_rows m = m_rows a ++ m_rows b /\ m_cols m = m_cols a /\ m_cols m = m_cols b.
Proof.
  unfold np_vcat. destruct (m_cols a) eqn:Ea, (m_cols b) eqn:Eb; try discriminate.
  - destruct (Nat.eqb n n0) eqn:E; [|discriminate]. intros H; inv H. simpl.
    apply Nat.eqb_eq in E. subst. auto.
  - intros H; inv H. auto.
Qed.

Lemma np_vcat_wf a b m : mat_wf a -> mat_wf b -> np_vcat a b = Ok m -> mat_wf m.
Proof.
  intros Wa Wb H. destruct (np_vcat_rows _ _ _ H) as (R & C1 & C2).
  unfold mat_wf in *. rewrite R, C1. rewrite <- C2, C1 in Wb. destruct (m_cols a).
  - apply Forall_app; auto.
  - now rewrite Wa, Wb.
Qed.

Lemma np_vcat_same a b c : m_cols a = Some c -> m_cols b = Some c -> exists m, np_vcat a b = Ok m.
Proof. intros Ha Hb. unfold np_vcat. rewrite Ha, Hb, Nat.eqb_refl. eauto. Qed.

Lemma il_append_il_ok a b c : il_append_il a b = Ok c ->
  a <> ILnone /\ b <> ILnone /\ c <> ILnone /\ entries c = entries a ++ entries b /\
  il_boxed a = il_boxed b /\ il_boxed c = il_boxed a.
Proof.
  unfold il_append_il. intros H. binv. apply il_entries_ok in H0, H1.
  destruct H0 as [N1 <-], H1 as [N2 <-].
  destruct (il_boxed a) eqn:Ea, (il_boxed b) eqn:Eb; inv H; repeat split; auto; try discriminate.
Qed.

Lemma il_append_il_plain a b : a <> ILnone -> b <> ILnone -> il_boxed a = il_boxed b ->
  exists c, il_append_il a b = Ok c.
Proof.
  intros Na Nb E. unfold il_append_il. rewrite !il_entries_entries by auto. simpl. rewrite E.
  destruct (il_boxed b); eauto.
Qed.

Definition new_ed (c : econn) (m : mat) (index : option indexlist) : edict :=
  ED (match index with None => ILrange (ec_nelem c) (ec_nelem c + m_nrow m - 1) | Some i => i end) m.

(** Shape of the result of [ec_add]. *)
Lemma ec_add_ok c t m idx c' :
  ec_add c t m idx = Ok c' ->
  exists ed', c' = EC (ec_nelem c + m_nrow m) (sset t ed' (ec_dict c)) /\
    match sget t (ec_dict c) with
    | None => ed' = new_ed c m idx
    | Some ed0 => il_append_il (ed_index ed0) (ed_index (new_ed c m idx)) = Ok (ed_index ed') /\
                  np_vcat (ed_e2n ed0) m = Ok (ed_e2n ed')
    end.
Proof.
  unfold ec_add, new_ed. destruct (sget t (ec_dict c)) eqn:E; simpl; intros H.
  - binv. eexists; split; [reflexivity|]. simpl. auto.
  - inv H. eexists; split; [reflexivity|]. reflexivity.
Qed.

Lemma ed_pairs_append ed0 edn ed' :
  ed_wf ed0 -> il_append_il (ed_index ed0) (ed_index edn) = Ok (ed_index ed') ->
  np_vcat (ed_e2n ed0) (ed_e2n edn) = Ok (ed_e2n ed') ->
  ed_pairs ed' = ed_pairs ed0 ++ ed_pairs edn.
Proof.
  intros W HI HM. apply il_append_il_ok in HI. destruct HI as (_ & _ & _ & E & _).
  apply np_vcat_rows in HM. destruct HM as (R & _). unfold ed_pairs. rewrite E, R.
  apply combine_app. apply edwf_len; auto.
Qed.

Lemma ed_wf_append ed0 edn ed' :
  ed_wf ed0 -> ed_wf edn -> il_append_il (ed_index ed0) (ed_index edn) = Ok (ed_index ed') ->
  np_vcat (ed_e2n ed0) (ed_e2n edn) = Ok (ed_e2n ed') -> ed_wf ed'.
Proof.
  intros W Wn HI HM. pose proof HI as HI'. apply il_append_il_ok in HI'. destruct HI' as (_ & _ & N & E & _).
  pose proof HM as HM'. apply np_vcat_rows in HM'. destruct HM' as (R & _). split; auto.
  - rewrite E, R, !app_length, (edwf_len _ W), (edwf_len _ Wn). reflexivity.
  - eapply np_vcat_wf; [| |eauto]; [apply W|apply Wn].
Qed.

Lemma new_ed_auto_wf c m : mat_wf m -> ed_wf (new_ed c m None).
Proof.
  intros W. split; simpl; auto; try discriminate.
  rewrite zrange_length. unfold m_nrow, zlen. lia.
Qed.

Lemma ed_pairs_len ed : ed_wf ed -> List.length (ed_pairs ed) = List.length (m_rows (ed_e2n ed)).
Proof. intros W. unfold ed_pairs. rewrite combine_length, (edwf_len _ W). lia. Qed.

Lemma ec_add_pairs_of_type c t m idx c' t' :
  ec_wf c -> ec_add c t m idx = Ok c' ->
  pairs_of_type c' t' = pairs_of_type c t' ++
                        (if String.eqb t' t then ed_pairs (new_ed c m idx) else []).
Proof.
  intros W H. apply ec_add_ok in H. destruct H as (ed' & -> & H).
  unfold pairs_of_type; simpl ec_dict.
  rewrite flat_map_sel_dset by apply W.
  destruct (String.eqb t' t) eqn:E.
  - apply seqb_eq in E; subst t'. rewrite flat_map_sel_get by apply W.
    destruct (sget t (ec_dict c)) as [ed0|] eqn:G.
    + destruct H as [HI HM]. eapply ed_pairs_append; eauto.
      eapply ecwf_eds; eauto. apply (dget_in _ seqb_eq) in G. eauto.
    + subst ed'. reflexivity.
  - now rewrite app_nil_r.
Qed.

Lemma ec_add_pairs c t m idx c' :
  ec_wf c -> ec_add c t m idx = Ok c' ->
  Permutation (ec_pairs c') (ec_pairs c ++ ed_pairs (new_ed c m idx)).
Proof.
  intros W H. apply ec_add_ok in H. destruct H as (ed' & -> & H).
  unfold ec_pairs; simpl ec_dict.
  destruct (sget t (ec_dict c)) as [ed0|] eqn:G.
  - destruct H as [HI HM]. eapply flat_map_dset_perm; eauto. simpl.
    erewrite ed_pairs_append; eauto.
    eapply ecwf_eds; eauto. apply (dget_in _ seqb_eq) in G. eauto.
  - subst ed'. rewrite flat_map_dset_new by auto. reflexivity.
Qed.

Lemma ec_add_types c t m idx c' :
  ec_add c t m idx = Ok c' -> forall t', In t' (ec_types c') <-> In t' (ec_types c) \/ t' = t.
Proof.
  intros H t'. apply ec_add_ok in H. destruct H as (ed' & -> & _).
  unfold ec_types; simpl ec_dict. change (List.map fst (ec_dict c)) with (dkeys (ec_dict c)).
  change (List.map fst (sset t ed' (ec_dict c))) with (dkeys (sset t ed' (ec_dict c))).
  destruct (dmem String.eqb t (ec_dict c)) eqn:E.
  - apply (dmem_in _ seqb_eq) in E. rewrite (dset_keys_in _ seqb_eq) by auto.
    split; auto. intros [Hx| ->]; auto.
  - assert (N : ~ In t (dkeys (ec_dict c))) by (rewrite <- (dmem_in _ seqb_eq); congruence).
    rewrite (dset_notin _ seqb_eq) by auto. unfold dkeys. rewrite map_app, in_app_iff. simpl.
    intuition congruence.
Qed.

Lemma ec_add_wf c t m idx c' :
  ec_wf c -> ed_wf (new_ed c m idx) -> ec_add c t m idx = Ok c' -> ec_wf c'.
Proof.
  intros W Wn H. pose proof (ec_add_pairs _ _ _ _ _ W H) as P.
  apply ec_add_ok in H. destruct H as (ed' & -> & H). split.
  - unfold ec_types; simpl. apply (dset_NoDup _ seqb_eq). apply W.
  - simpl. intros t0 ed Hin. apply in_dset in Hin. destruct Hin as [[-> ->]|Hin].
    + destruct (sget t (ec_dict c)) as [ed0|] eqn:G.
      * destruct H as [HI HM]. apply (ed_wf_append ed0 (new_ed c m idx)); auto.
        eapply ecwf_eds; eauto. apply (dget_in _ seqb_eq) in G. eauto.
      * now subst.
    + eapply ecwf_eds; eauto.
  - simpl ec_nelem. rewrite (zlen_perm _ _ P). rewrite zlen_app.
    rewrite <- (ecwf_nelem _ W). f_equal. unfold m_nrow, zlen. rewrite ed_pairs_len by auto. reflexivity.
Qed.

Lemma ec_add_plain c t m idx c' :
  ec_plain c -> match idx with Some i => il_boxed i = false | None => True end ->
  ec_add c t m idx = Ok c' -> ec_plain c'.
Proof.
  intros Pl Hi H. apply ec_add_ok in H. destruct H as (ed' & -> & H).
  intros t0 ed Hin. simpl in Hin. apply in_dset in Hin. destruct Hin as [[-> ->]|Hin]; [|eauto].
  destruct (sget t (ec_dict c)) as [ed0|] eqn:G.
  - destruct H as [HI _]. apply il_append_il_ok in HI. destruct HI as (_ & _ & _ & _ & _ & ->).
    apply (dget_in _ seqb_eq) in G. eauto.
  - subst ed'. destruct idx; simpl; auto.
Qed.

Lemma ec_add_cols nn c t m idx c' :
  ec_cols nn c -> m_cols m = Some (nn t) -> ec_add c t m idx = Ok c' -> ec_cols nn c'.
Proof.
  intros Pl Hi H. apply ec_add_ok in H. destruct H as (ed' & -> & H).
  intros t0 ed Hin. simpl in Hin. apply in_dset in Hin. destruct Hin as [[-> ->]|Hin]; [|eauto].
  destruct (sget t (ec_dict c)) as [ed0|] eqn:G.
  - destruct H as [_ HM]. apply np_vcat_rows in HM. destruct HM as (_ & _ & ->). auto.
  - subst ed'. auto.
Qed.

Lemma ec_add_total nn c t m idx :
  ec_wf c -> ec_cols nn c -> m_cols m = Some (nn t) ->
  match idx with Some i => i <> ILnone | None => True end ->
  (forall ed, sget t (ec_dict c) = Some ed ->
     il_boxed (ed_index ed) = match idx with Some i => il_boxed i | None => false end) ->
  exists c', ec_add c t m idx = Ok c'.
Proof.
  intros W C Hm Hi Hb. unfold ec_add. destruct (sget t (ec_dict c)) as [ed|] eqn:G; [|eauto].
  pose proof G as Hin. apply (dget_in _ seqb_eq) in Hin.
  edestruct (il_append_il_plain (ed_index ed)) as [i' Ei].
  - eapply edwf_typed. eapply ecwf_eds; eauto.
  - instantiate (1 := match idx with None => ILrange (ec_nelem c) (ec_nelem c + m_nrow m - 1) | Some i => i end).
    destruct idx; auto; discriminate.
  - rewrite (Hb _ eq_refl). destruct idx; auto.
  - simpl in Ei. rewrite Ei. simpl. edestruct np_vcat_same as [m' Em]; [| |rewrite Em; simpl; eauto].
    + apply C in Hin. exact Hin.
    + auto.
Qed.

Lemma ec_empty_wf : ec_wf ec_empty.
Proof. split; simpl; try constructor; tauto. Qed.
Lemma ec_empty_plain : ec_plain ec_empty. Proof. intros t ed []. Qed.
Lemma ec_empty_cols nn : ec_cols nn ec_empty. Proof. intros t ed []. Qed.

(** ** C03: sequences of additions without explicit numbers *)

Definition add_all (ops : list (string * mat)) : res econn :=
  foldM (fun c '(t, m) => ec_add c t m None) ec_empty ops.

Lemma ranked_app {A} (l l' : list A) :
  ranked (l ++ l') = ranked l ++ combine (zrange (zlen l) (zlen l + zlen l')) l'.
Proof.
  unfold ranked. rewrite zlen_app. pose proof (zlen_nonneg l); pose proof (zlen_nonneg l').
  rewrite (zrange_app 0 (zlen l)) by lia. apply combine_app. rewrite zrange_length. unfold zlen; lia.
Qed.

Lemma rows_of_ops_app a b : rows_of_ops (a ++ b) = rows_of_ops a ++ rows_of_ops b.
Proof. apply flat_map_app. Qed.

Lemma ranked_of_type_snoc ops t m t' :
  ranked_of_type (ops ++ [(t, m)]) t' =
  ranked_of_type ops t' ++
  (if String.eqb t' t then combine (zrange (zlen (rows_of_ops ops)) (zlen (rows_of_ops ops) + m_nrow m)) (m_rows m)
   else []).
Proof.
  unfold ranked_of_type. rewrite rows_of_ops_app. simpl. rewrite app_nil_r.
  rewrite ranked_app, flat_map_app. f_equal. rewrite zlen_map. unfold m_nrow.
  generalize (zrange (zlen (rows_of_ops ops)) (zlen (rows_of_ops ops) + zlen (m_rows m))) as l.
  induction (m_rows m) as [|r rs IH]; intros [|i l]; simpl; auto; try (destruct (String.eqb t' t); auto; fail).
  rewrite IH. destruct (String.eqb t' t); reflexivity.
Qed.

Lemma drop_type (l : list Z) (t : string) (rs : list (list Z)) :
  List.map (fun '(i, (_, r)) => (i, r)) (combine l (List.map (pair t) rs)) = combine l rs.
Proof. revert rs; induction l; destruct rs; simpl; auto. now rewrite IHl. Qed.

Lemma add_all_inv ops c :
  Forall (fun '(_, m) => mat_wf m) ops -> add_all ops = Ok c ->
  ec_wf c /\ ec_plain c /\
  ec_nelem c = zlen (rows_of_ops ops) /\
  (forall t, pairs_of_type c t = ranked_of_type ops t) /\
  Permutation (ec_pairs c) (List.map (fun '(i, (_, r)) => (i, r)) (ranked (rows_of_ops ops))) /\
  (forall t, In t (ec_types c) <-> In t (List.map fst ops)).
Proof.
  unfold add_all. revert c; induction ops as [|[t m] ops IH] using rev_ind; intros c Hwf H.
  - simpl in H. inv H. split; [apply ec_empty_wf|]. split; [apply ec_empty_plain|].
    repeat split; auto; simpl; tauto.
  - rewrite foldM_app in H. binv. simpl in H. binv. rename x into c0.
    apply Forall_app in Hwf. destruct Hwf as [Hwf Hm]. inv Hm.
    destruct (IH c0 Hwf H0) as (W & Pl & N & T & P & Ty).
    assert (Wn : ed_wf (new_ed c0 m None)) by (now apply new_ed_auto_wf).
    assert (En : ed_pairs (new_ed c0 m None) =
                 combine (zrange (zlen (rows_of_ops ops)) (zlen (rows_of_ops ops) + m_nrow m)) (m_rows m)).
    { unfold ed_pairs, new_ed; simpl. rewrite <- N. f_equal. f_equal. lia. }
    split; [|split; [|split; [|split; [|split]]]].
    + eapply ec_add_wf; eauto.
    + eapply ec_add_plain; eauto. exact I.
    + rewrite rows_of_ops_app, zlen_app. simpl. rewrite app_nil_r, zlen_map.
      apply ec_add_ok in H1. destruct H1 as (ed' & -> & _). simpl. rewrite N. reflexivity.
    + intros t'. erewrite ec_add_pairs_of_type by eauto. rewrite ranked_of_type_snoc, T, En. reflexivity.
    + rewrite (ec_add_pairs _ _ _ _ _ W H1), P, En. rewrite rows_of_ops_app, ranked_app, map_app.
      apply Permutation_app_head. simpl. rewrite app_nil_r, zlen_map. fold (m_nrow m).
      rewrite drop_type. reflexivity.
    + intros t'. rewrite (ec_add_types _ _ _ _ _ H1), Ty, map_app, in_app_iff. simpl. intuition congruence.
Qed.

Lemma ec_numbers_pairs c : ec_wf c -> List.map fst (ec_pairs c) = ec_numbers c.
Proof.
  intros W. unfold ec_pairs, ec_numbers.
  assert (H : forall kv, In kv (ec_dict c) -> ed_wf (snd kv)) by (intros [t ed] Hin; eapply ecwf_eds; eauto).
  induction (ec_dict c) as [|kv d IH]; simpl; auto. rewrite map_app, IH by (intros; apply H; simpl; auto).
  f_equal. apply map_fst_combine. apply (edwf_len _ (H kv (or_introl eq_refl))).
Qed.

Lemma map_fst_ranked {A} (l : list A) : List.map fst (ranked l) = zrange 0 (zlen l).
Proof. apply map_fst_combine. rewrite zrange_length; unfold zlen; lia. Qed.

Lemma add_all_numbers ops c :
  Forall (fun '(_, m) => mat_wf m) ops -> add_all ops = Ok c ->
  Permutation (ec_numbers c) (zrange 0 (ec_nelem c)).
Proof.
  intros Hw H. destruct (add_all_inv _ _ Hw H) as (W & _ & N & _ & P & _).
  rewrite <- ec_numbers_pairs by auto. rewrite P, map_map, N.
  rewrite <- map_fst_ranked. apply Permutation_refl'. apply map_ext. intros [i [t r]]; reflexivity.
Qed.

Lemma add_all_total nn ops :
  Forall (fun '(t, m) => mat_wf m /\ m_cols m = Some (nn t)) ops -> exists c, add_all ops = Ok c.
Proof.
  intros H. enough (exists c, add_all ops = Ok c /\ ec_cols nn c) as (c & ? & _) by eauto.
  induction ops as [|[t m] ops IH] using rev_ind.
  - exists ec_empty. split; [reflexivity|apply ec_empty_cols].
  - apply Forall_app in H. destruct H as [H Hm]. inv Hm. destruct H2 as [Wm Cm].
    destruct (IH H) as (c0 & E0 & C0).
    assert (Hw : Forall (fun '(_, m) => mat_wf m) ops).
    { eapply Forall_impl; [|exact H]. intros [? ?]; tauto. }
    destruct (add_all_inv _ _ Hw E0) as (W & Pl & _).
    destruct (ec_add_total nn c0 t m None) as [c' E]; auto.
    + intros ed G. apply (dget_in _ seqb_eq) in G. eauto.
    + exists c'. split.
      * unfold add_all in *. rewrite foldM_app, E0. simpl. now rewrite E.
      * eapply ec_add_cols; eauto.
Qed.
