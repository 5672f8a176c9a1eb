From Coq Require Import Lia Sorted Permutation ZifyBool ZifyNat Arith.
From Verif Require Import PyFacts IndexListSpec IndexListProofs Conn ConnSpec ConnProofs CheckProofs.

(** ** index_elem_tuples *)

Lemma tuples_aux (rows : list (list Z)) : forall pre ind : list Z, List.length ind = List.length rows ->
  mapM (fun '((i, row) : Z * list Z) => n <- py_get (pre ++ ind) i ;; Ok (n, row))
       (combine (zrange (zlen pre) (zlen pre + zlen rows)) rows) = Ok (combine ind rows).
Proof.
  induction rows as [|r rows IH]; intros pre ind L; destruct ind as [|n ind]; simpl in L; try lia.
  - rewrite zlen_nil, zrange_empty by lia. reflexivity.
  - pose proof (zlen_nonneg rows). rewrite zlen_cons. rewrite zrange_cons by lia. simpl combine. simpl mapM.
    replace (py_get (pre ++ n :: ind) (zlen pre)) with (@Ok Z n).
    2:{ symmetry. apply py_get_nonneg; [apply zlen_nonneg|]. rewrite to_nat_zlen.
        rewrite nth_error_app2 by lia. now rewrite Nat.sub_diag. }
    simpl bind. specialize (IH (pre ++ [n]) ind). rewrite <- app_assoc in IH. simpl in IH.
    rewrite zlen_app, zlen_cons, zlen_nil in IH.
    replace (zlen pre + (0 + 1)) with (zlen pre + 1) in IH by lia.
    replace (zlen pre + (zlen rows + 1)) with (zlen pre + 1 + zlen rows) by lia.
    rewrite IH by lia. reflexivity.
Qed.

Lemma ed_tuples_ok ed : ed_wf ed -> ed_tuples ed = Ok (ed_pairs ed).
Proof.
  intros W. unfold ed_tuples. rewrite il_entries_entries by apply W. simpl bind.
  apply (tuples_aux _ []). apply W.
Qed.

Lemma ec_tuples_ok c : ec_wf c -> ec_tuples c = Ok (ec_pairs c).
Proof.
  intros W. unfold ec_tuples.
  rewrite (mapM_map _ (fun kv => ed_pairs (snd kv))).
  - simpl. now rewrite concat_map_flat_map.
  - intros [t ed] Hin. apply ed_tuples_ok. eapply ecwf_eds; eauto.
Qed.

(** ** pair order *)

Lemma pair_leb_total a b : pair_leb a b = true \/ pair_leb b a = true.
Proof.
  unfold pair_leb. destruct a as [i f], b as [j g]; simpl.
  destruct (i =? j) eqn:E.
  - replace (j =? i) with true by lia. apply zlist_leb_total.
  - replace (j =? i) with false by lia. lia.
Qed.
Lemma pair_leb_trans a b c : pair_leb a b = true -> pair_leb b c = true -> pair_leb a c = true.
Proof.
  unfold pair_leb. destruct a as [i f], b as [j g], c as [k h]; simpl.
  destruct (i =? j) eqn:E1, (j =? k) eqn:E2; intros.
  - replace (i =? k) with true by lia. eapply zlist_leb_trans; eauto.
  - replace (i =? k) with false by lia. lia.
  - replace (i =? k) with false by lia. lia.
  - replace (i =? k) with false by lia. lia.
Qed.
Lemma pair_leb_antisym a b : pair_leb a b = true -> pair_leb b a = true -> a = b.
Proof.
  unfold pair_leb. destruct a as [i f], b as [j g]; simpl.
  destruct (i =? j) eqn:E.
  - replace (j =? i) with true by lia. intros. f_equal; [lia|]. now apply zlist_leb_antisym.
  - replace (j =? i) with false by lia. lia.
Qed.

Definition psorted := StronglySorted (fun a b => pair_leb a b = true).

Lemma psort_sorted l : psorted (isort pair_leb l).
Proof. apply isort_sorted; [apply pair_leb_total|apply pair_leb_trans]. Qed.

Lemma psort_unique l l' : psorted l' -> Permutation l l' -> isort pair_leb l = l'.
Proof.
  intros S P. apply (sorted_perm_unique pair_leb).
  - intros; now apply pair_leb_antisym.
  - apply psort_sorted.
  - exact S.
  - now rewrite isort_perm.
Qed.

Lemma psorted_of_lt l : StronglySorted Z.lt (List.map fst l) -> psorted l.
Proof.
  induction l as [|a l IH]; simpl; intros H; constructor; inv H.
  - now apply IH.
  - apply Forall_forall. intros b Hb. rewrite Forall_forall in H3.
    assert (fst a < fst b) by (apply H3; apply in_map_iff; eauto).
    unfold pair_leb. replace (fst a =? fst b) with false by lia. lia.
Qed.

Lemma psorted_fst l : psorted l -> StronglySorted Z.le (List.map fst l).
Proof.
  induction 1 as [|a l H IH Ha]; simpl; constructor; auto.
  apply Forall_forall. intros x Hx. apply in_map_iff in Hx. destruct Hx as (b & <- & Hb).
  rewrite Forall_forall in Ha. specialize (Ha _ Hb). unfold pair_leb in Ha.
  destruct (fst a =? fst b) eqn:E; lia.
Qed.

(** ** The canonical CSR structure of a list of node lists *)

Definition csr_make (ls : list (list Z)) : csr :=
  Csr (0 :: np_cumsum (List.map zlen ls)) (List.concat ls).

Lemma cumsum_nth acc (ls : list (list Z)) k : (k <= List.length ls)%nat ->
  nth_error (acc :: cumsum_from acc (List.map zlen ls)) k = Some (acc + zlen (List.concat (firstn k ls))).
Proof.
  revert acc k; induction ls as [|r ls IH]; intros acc k H; simpl in H.
  - destruct k; [|lia]. simpl. rewrite zlen_nil. f_equal; lia.
  - destruct k.
    + simpl. rewrite zlen_nil. f_equal; lia.
    + simpl List.map. simpl cumsum_from. simpl nth_error. rewrite IH by lia.
      simpl. rewrite zlen_app. f_equal; lia.
Qed.

Lemma cumsum_len acc l : List.length (cumsum_from acc l) = List.length l.
Proof. revert acc; induction l; simpl; auto. Qed.

Lemma concat_split {A} (ls : list (list A)) k r :
  nth_error ls k = Some r ->
  List.concat ls = List.concat (firstn k ls) ++ r ++ List.concat (skipn (S k) ls).
Proof.
  revert k; induction ls as [|a ls IH]; intros [|k] H; simpl in *; try discriminate.
  - inv H. reflexivity.
  - rewrite (IH k H). now rewrite <- app_assoc.
Qed.

Lemma firstn_S_snoc {A} (ls : list A) k r : nth_error ls k = Some r -> firstn (S k) ls = firstn k ls ++ [r].
Proof.
  revert k; induction ls as [|a ls IH]; intros [|k] H; simpl in *; try discriminate.
  - now inv H.
  - f_equal. now apply IH.
Qed.

Lemma csr_make_of ls : csr_of (csr_make ls) ls.
Proof.
  split; simpl.
  - unfold np_cumsum. now rewrite cumsum_len, map_length.
  - reflexivity.
  - unfold np_cumsum. rewrite cumsum_nth by lia. rewrite firstn_all. f_equal; lia.
  - intros k nodes H. assert (k < List.length ls)%nat by (apply nth_error_Some; congruence).
    exists (0 + zlen (List.concat (firstn k ls))), (0 + zlen (List.concat (firstn (S k) ls))).
    change (0 :: np_cumsum (List.map zlen ls)) with (0 :: cumsum_from 0 (List.map zlen ls)).
    change (nth_error (np_cumsum (List.map zlen ls)) k) with (nth_error (0 :: cumsum_from 0 (List.map zlen ls)) (S k)).
    rewrite !cumsum_nth by lia.
    rewrite (firstn_S_snoc _ _ _ H), concat_app, zlen_app. simpl. rewrite app_nil_r.
    pose proof (zlen_nonneg (List.concat (firstn k ls))). pose proof (zlen_nonneg nodes).
    repeat split; try lia.
    + rewrite (concat_split _ _ _ H), !zlen_app. pose proof (zlen_nonneg (List.concat (skipn (S k) ls))). lia.
    + rewrite (concat_split _ _ _ H). apply py_slice_mid.
Qed.

(** ** Any CSR structure is canonical *)

Fixpoint split_by (ds : list Z) (v : list Z) : list (list Z) :=
  match ds with
  | [] => []
  | d :: ds' => firstn (Z.to_nat d) v :: split_by ds' (skipn (Z.to_nat d) v)
  end.

Lemma split_by_spec ds : forall v, Forall (fun d => 0 <= d) ds -> zsum ds = zlen v ->
  List.map zlen (split_by ds v) = ds /\ List.concat (split_by ds v) = v.
Proof.
  induction ds as [|d ds IH]; intros v H E; simpl.
  - destruct v; auto. unfold zlen in E; simpl in E; lia.
  - inv H. change (zsum (d :: ds)) with (d + zsum ds) in E.
    assert (0 <= zsum ds). { clear -H3. induction H3; unfold zsum in *; simpl; lia. }
    destruct (IH (skipn (Z.to_nat d) v)) as [E1 E2]; auto.
    + unfold zlen in *. rewrite skipn_length. lia.
    + rewrite E1, E2. split; [|apply firstn_skipn]. f_equal. unfold zlen in *. rewrite firstn_length. lia.
Qed.

Lemma diffs_cumsum a l : a :: l = a :: cumsum_from a (diffs (a :: l)).
Proof.
  revert a; induction l as [|b l IH]; intros a; auto.
  change (diffs (a :: b :: l)) with ((b - a) :: diffs (b :: l)).
  simpl cumsum_from. f_equal. replace (a + (b - a)) with b by lia. apply IH.
Qed.

Lemma diffs_of_cumsum a ds : diffs (a :: cumsum_from a ds) = ds.
Proof.
  revert a; induction ds as [|d ds IH]; intros a; auto.
  simpl cumsum_from. change (diffs (a :: (a + d) :: cumsum_from (a + d) ds)) with
    ((a + d - a) :: diffs ((a + d) :: cumsum_from (a + d) ds)). rewrite IH. f_equal; lia.
Qed.

Lemma last_cumsum a ds : last (a :: cumsum_from a ds) 0 = a + zsum ds.
Proof.
  revert a; induction ds as [|d ds IH]; intros a.
  - simpl. lia.
  - simpl cumsum_from. change (last (a :: (a + d) :: cumsum_from (a + d) ds) 0) with (last ((a + d) :: cumsum_from (a + d) ds) 0).
    rewrite IH. unfold zsum. simpl. lia.
Qed.

Lemma diffs_nth l k d : nth_error (diffs l) k = Some d ->
  exists a b, nth_error l k = Some a /\ nth_error l (S k) = Some b /\ d = b - a.
Proof.
  revert k; induction l as [|a l IH]; intros k H; [destruct k; discriminate|].
  destruct l as [|b l]; [destruct k; discriminate|].
  destruct k as [|k].
  - simpl in H. inv H. exists a, b. auto.
  - change (diffs (a :: b :: l)) with ((b - a) :: diffs (b :: l)) in H. simpl nth_error in H. apply IH in H.
    destruct H as (x & y & H1 & H2 & H3). exists x, y. auto.
Qed.

Lemma csr_faces_make z :
  csr_faces z -> exists ls, z = csr_make ls /\ Forall (fun r => 1 <= zlen r <= 4) ls.
Proof.
  intros [F L S]. destruct z as [ix v]; simpl in *.
  destruct ix as [|a ix]; [discriminate|]. simpl in F. inv F.
  assert (D : Forall (fun d => 1 <= d <= 4) (diffs (0 :: ix))).
  { apply Forall_forall. intros d Hd. apply In_nth_error in Hd. destruct Hd as [k Hk].
    apply diffs_nth in Hk. destruct Hk as (x & y & H1 & H2 & ->). eapply S; eauto. }
  rewrite (diffs_cumsum 0 ix), last_cumsum in L.
  destruct (split_by_spec (diffs (0 :: ix)) v) as [E1 E2].
  { eapply Forall_impl; [|exact D]. simpl; lia. } { lia. }
  exists (split_by (diffs (0 :: ix)) v). split.
  - unfold csr_make. rewrite E1, E2. unfold np_cumsum. now rewrite <- diffs_cumsum.
  - apply Forall_forall. intros r Hr. rewrite Forall_forall in D. apply D.
    rewrite <- E1. now apply in_map.
Qed.

(** ** Import *)

Lemma positions_ranked (ls : list (list Z)) u :
  positions (List.map zlen ls) u = List.map fst (filter (fun p => zlen (snd p) =? u) (ranked ls)).
Proof.
  unfold positions, ranked. rewrite zlen_map.
  generalize (zrange 0 (zlen ls)) as l. induction ls as [|r ls IH]; intros [|i l]; simpl; auto.
  destruct (zlen r =? u); simpl; now rewrite IH.
Qed.

Lemma in_ranked {A} (l : list A) k x :
  In (k, x) (ranked l) <-> 0 <= k /\ nth_error l (Z.to_nat k) = Some x.
Proof.
  unfold ranked.
  assert (G : forall (m : list A) a, In (k, x) (combine (zrange a (a + zlen m)) m) <->
              a <= k /\ nth_error m (Z.to_nat (k - a)) = Some x).
  { induction m as [|y m IH]; intros a.
    - rewrite zlen_nil, zrange_empty by lia. simpl. split; [tauto|]. intros [_ H]. now destruct (Z.to_nat (k - a)).
    - pose proof (zlen_nonneg m). rewrite zlen_cons, zrange_cons by lia.
      replace (a + (zlen m + 1)) with ((a + 1) + zlen m) by lia. simpl combine. simpl In. rewrite IH. split.
      + intros [H1|[H1 H2]].
        * inv H1. split; [lia|]. now replace (Z.to_nat (k - k)) with O by lia.
        * split; [lia|]. replace (Z.to_nat (k - a)) with (S (Z.to_nat (k - (a + 1)))) by lia. auto.
      + intros [H1 H2]. destruct (Z.eq_dec k a) as [->|Ne].
        * left. replace (Z.to_nat (a - a)) with O in H2 by lia. inv H2. reflexivity.
        * right. split; [lia|]. replace (Z.to_nat (k - a)) with (S (Z.to_nat (k - (a + 1)))) in H2 by lia. auto. }
  specialize (G l 0). rewrite Z.add_0_l, Z.sub_0_r in G. exact G.
Qed.

Lemma import_take ls F u :
  (forall p, In p F -> In p (ranked ls) /\ zlen (snd p) = u) ->
  exists zind, np_take (z_index (csr_make ls)) (List.map fst F) = Ok zind /\
    mapM (fun s => np_take (z_value (csr_make ls)) (zrange s (s + u))) zind = Ok (List.map snd F).
Proof.
  induction F as [|[k r] F IH]; intros H.
  - exists []. auto.
  - destruct IH as (zind & E1 & E2); [intros; apply H; simpl; auto|].
    destruct (H (k, r) (or_introl eq_refl)) as [Hin Hu]. simpl in Hu.
    apply in_ranked in Hin. destruct Hin as [Hk Hn].
    assert (Hlt : (Z.to_nat k < List.length ls)%nat) by (apply nth_error_Some; congruence).
    exists (zlen (List.concat (firstn (Z.to_nat k) ls)) :: zind).
    unfold np_take in *. cbn [List.map mapM fst snd].
    assert (G : py_get (z_index (csr_make ls)) k = Ok (zlen (List.concat (firstn (Z.to_nat k) ls)))).
    { apply py_get_nonneg; auto. unfold csr_make, np_cumsum. simpl z_index. rewrite cumsum_nth by lia. f_equal; lia. }
    rewrite G. cbn [bind]. rewrite E1. cbn [bind]. split; auto.
    assert (T : np_take (z_value (csr_make ls)) (zrange (zlen (List.concat (firstn (Z.to_nat k) ls)))
                   (zlen (List.concat (firstn (Z.to_nat k) ls)) + u)) = Ok r).
    { simpl z_value. rewrite (concat_split _ _ _ Hn). subst u. apply np_take_mid. }
    unfold np_take in T. cbn [mapM]. rewrite T. cbn [bind]. rewrite E2. reflexivity.
Qed.

Lemma face_from_nnode_ok u : 1 <= u <= 4 -> exists t, dget_err Z.eqb u face_from_nnode = Ok t.
Proof.
  intros H. assert (u = 1 \/ u = 2 \/ u = 3 \/ u = 4) as [ -> | [ -> | [ -> | -> ]]] by lia; eexists; reflexivity.
Qed.

Lemma face_from_nnode_inv u t : dget_err Z.eqb u face_from_nnode = Ok t -> 1 <= u <= 4.
Proof.
  unfold dget_err, face_from_nnode, elem_properties. simpl.
  repeat (match goal with |- context [u =? ?n] => destruct (u =? n) eqn:?; [lia|] end). discriminate.
Qed.

Lemma face_from_nnode_inj u u' t :
  dget_err Z.eqb u face_from_nnode = Ok t -> dget_err Z.eqb u' face_from_nnode = Ok t -> u = u'.
Proof.
  intros H H'. pose proof (face_from_nnode_inv _ _ H). pose proof (face_from_nnode_inv _ _ H').
  assert (u = 1 \/ u = 2 \/ u = 3 \/ u = 4) as [ -> | [ -> | [ -> | -> ]]] by lia;
  assert (u' = 1 \/ u' = 2 \/ u' = 3 \/ u' = 4) as [ -> | [ -> | [ -> | -> ]]] by lia;
  vm_compute in H, H'; congruence.
Qed.

Definition all_boxed (c : econn) : Prop := forall t ed, In (t, ed) (ec_dict c) -> il_boxed (ed_index ed) = true.

Definition import_step (ls : list (list Z)) (c : econn) (u : Z) : res econn :=
  typef <- dget_err Z.eqb u face_from_nnode ;;
  let index := positions (diffs (z_index (csr_make ls))) u in
  zind <- np_take (z_index (csr_make ls)) index ;;
  nodes <- mapM (fun s => np_take (z_value (csr_make ls)) (zrange s (s + u))) zind ;;
  ec_add c typef (Mat (Some (Z.to_nat u)) nodes) (Some (ILboxed index)).

Lemma import_step_ok ls c u t :
  dget_err Z.eqb u face_from_nnode = Ok t -> ec_wf c -> ~ In t (ec_types c) ->
  let F := filter (fun p => zlen (snd p) =? u) (ranked ls) in
  exists c', import_step ls c u = Ok c' /\ ec_wf c' /\
    ec_dict c' = ec_dict c ++ [(t, ED (ILboxed (List.map fst F)) (Mat (Some (Z.to_nat u)) (List.map snd F)))].
Proof.
  intros Ht W N F. unfold import_step. rewrite Ht. cbn [bind].
  assert (D : diffs (z_index (csr_make ls)) = List.map zlen ls) by apply diffs_of_cumsum.
  rewrite D. cbv zeta. rewrite positions_ranked. fold F.
  destruct (import_take ls F u) as (zind & E1 & E2).
  { intros p Hp. apply filter_In in Hp. split; [tauto|lia]. }
  rewrite E1. cbn [bind]. rewrite E2. cbn [bind]. clear E1 E2.
  unfold ec_add. assert (G : sget t (ec_dict c) = None) by (apply (dget_None _ seqb_eq); exact N).
  rewrite G. eexists; split; [reflexivity|]. split.
  - apply (ec_add_wf c t (Mat (Some (Z.to_nat u)) (List.map snd F)) (Some (ILboxed (List.map fst F))));
      [exact W| |unfold ec_add; rewrite G; reflexivity].
    split; simpl; try discriminate.
    + now rewrite !map_length.
    + unfold mat_wf. simpl. apply Forall_forall. intros r Hr. apply in_map_iff in Hr.
      destruct Hr as (p & <- & Hp). apply filter_In in Hp. unfold zlen in Hp. lia.
  - simpl. apply (dset_notin _ seqb_eq). exact N.
Qed.

Lemma combine_fst_snd {A B} (l : list (A * B)) : combine (List.map fst l) (List.map snd l) = l.
Proof. induction l as [|[a b] l IH]; simpl; auto. now rewrite IH. Qed.

Lemma import_sizes ls U :
  NoDup U -> Forall (fun u => 1 <= u <= 4) U ->
  exists c, foldM (import_step ls) ec_empty U = Ok c /\ ec_wf c /\ all_boxed c /\
    (forall t, In t (ec_types c) -> exists u, In u U /\ dget_err Z.eqb u face_from_nnode = Ok t) /\
    ec_pairs c = flat_map (fun u => filter (fun p => zlen (snd p) =? u) (ranked ls)) U.
Proof.
  induction U as [|u U IH] using rev_ind; intros N H.
  - exists ec_empty. split; [reflexivity|]. split; [apply ec_empty_wf|]. split; [intros t ed []|]. split; auto.
    intros t [].
  - apply Forall_app in H. destruct H as [H Hu]. inv Hu.
    apply NoDup_app in N. destruct N as (N & _ & D).
    destruct IH as (c & E & W & B & T & P); auto.
    destruct (face_from_nnode_ok u) as [t Ht]; auto.
    assert (Nt : ~ In t (ec_types c)).
    { intros Hin. apply T in Hin. destruct Hin as (u' & Hu' & Ht'). 
      assert (u' = u) by (eapply face_from_nnode_inj; eauto). subst. apply (D u Hu'). simpl; auto. }
    destruct (import_step_ok ls c u t Ht W Nt) as (c' & E' & W' & D').
    exists c'. split; [|split; [auto|split; [|split]]].
    + rewrite foldM_app, E. simpl. now rewrite E'.
    + intros t' ed Hin. rewrite D', in_app_iff in Hin. destruct Hin as [Hin|[Hin|[]]]; [eauto|]. inv Hin. reflexivity.
    + unfold ec_types. rewrite D', map_app. intros t' Hin. apply in_app_iff in Hin. destruct Hin as [Hin|[Hin|[]]].
      * destruct (T _ Hin) as (u' & Hu' & Ht'). exists u'. rewrite in_app_iff. auto.
      * simpl in Hin. subst. exists u. rewrite in_app_iff. simpl. auto.
    + unfold ec_pairs. rewrite D', !flat_map_app. fold (ec_pairs c). rewrite P. f_equal. simpl.
      rewrite app_nil_r. unfold ed_pairs. simpl. now rewrite combine_fst_snd, app_nil_r.
Qed.

Lemma import_csr_make ls :
  Forall (fun r => 1 <= zlen r <= 4) ls ->
  exists c, ec_import_csr ec_empty (csr_make ls) = Ok c /\ ec_wf c /\ all_boxed c /\
            Permutation (ec_pairs c) (ranked ls).
Proof.
  intros H. destruct (import_sizes ls (np_unique (List.map zlen ls))) as (c & E & W & B & _ & P).
  - apply np_unique_NoDup.
  - apply Forall_forall. intros u Hu. apply (proj1 (np_unique_in _ _)) in Hu. apply in_map_iff in Hu.
    destruct Hu as (r & <- & Hr). rewrite Forall_forall in H. auto.
  - exists c. split; [|split; [auto|split; [auto|]]].
    + change (foldM (import_step ls) ec_empty (np_unique (diffs (z_index (csr_make ls)))) = Ok c).
      assert (D : diffs (z_index (csr_make ls)) = List.map zlen ls) by apply diffs_of_cumsum.
      rewrite D. exact E.
    + rewrite P. apply (Permutation_flat_map_filter (fun p => zlen (snd p))).
      * apply np_unique_NoDup.
      * intros [k r] Hin. apply np_unique_in. apply in_ranked in Hin. destruct Hin as [_ Hin].
        apply nth_error_In in Hin. simpl. now apply in_map.
Qed.

Lemma foldM_err_app {A S} (f : S -> A -> res S) s l1 l2 s1 e :
  foldM f s l1 = Ok s1 -> foldM f s1 l2 = Err e -> foldM f s (l1 ++ l2) = Err e.
Proof. intros H1 H2. rewrite foldM_app, H1. exact H2. Qed.

Lemma import_csr_bad ls r :
  In r ls -> ~ (1 <= zlen r <= 4) -> ec_import_csr ec_empty (csr_make ls) = Err KeyError.
Proof.
  intros Hin Hr. change (foldM (import_step ls) ec_empty (np_unique (diffs (z_index (csr_make ls)))) = Err KeyError).
  assert (D : diffs (z_index (csr_make ls)) = List.map zlen ls) by apply diffs_of_cumsum.
  rewrite D. clear D.
  pose proof (np_unique_NoDup (List.map zlen ls)) as ND.
  assert (HU : In (zlen r) (np_unique (List.map zlen ls))) by (apply np_unique_in; now apply in_map).
  (* split at the first size that is not allowed *)
  assert (SP : exists U1 u U2, np_unique (List.map zlen ls) = U1 ++ u :: U2 /\
                 Forall (fun u => 1 <= u <= 4) U1 /\ ~ (1 <= u <= 4)).
  { clear ND. revert HU. generalize (np_unique (List.map zlen ls)). intros U. induction U as [|u U IH]; [intros []|].
    intros HU. destruct (Z_le_dec 1 u), (Z_le_dec u 4).
    - destruct HU as [->|HU]; [lia|]. destruct (IH HU) as (U1 & u' & U2 & -> & F & N).
      exists (u :: U1), u', U2. repeat split; auto; constructor; auto.
    - exists [], u, U. repeat split; auto; lia.
    - exists [], u, U. repeat split; auto; lia.
    - exists [], u, U. repeat split; auto; lia. }
  destruct SP as (U1 & u & U2 & E & F & Nu). rewrite E in *.
  apply NoDup_app in ND. destruct ND as (N1 & _).
  destruct (import_sizes ls U1 N1 F) as (c & Ec & _).
  eapply foldM_err_app; [exact Ec|]. simpl.
  unfold import_step at 1. destruct (dget_err Z.eqb u face_from_nnode) as [t|e] eqn:Ed.
  - apply face_from_nnode_inv in Ed. tauto.
  - simpl. unfold dget_err in Ed. destruct (dget _ _ _); congruence.
Qed.

(** ** Export *)

Lemma mixed_false_boxed c : all_boxed c -> ec_mixed_boxes c = false.
Proof.
  intros B. unfold ec_mixed_boxes. apply andb_false_iff. right.
  destruct (existsb negb _) eqn:E; auto. apply existsb_exists in E. destruct E as (b & Hb & Hn).
  apply in_flat_map in Hb. destruct Hb as ([t ed] & Hin & Hb). apply in_map_iff in Hb. destruct Hb as (_ & <- & _).
  rewrite (B _ _ Hin) in Hn. discriminate.
Qed.

Lemma mixed_false_plain c : ec_plain c -> ec_mixed_boxes c = false.
Proof.
  intros B. unfold ec_mixed_boxes. apply andb_false_iff. left.
  destruct (existsb _ _) eqn:E; auto. apply existsb_exists in E. destruct E as (b & Hb & Hn).
  apply in_flat_map in Hb. destruct Hb as ([t ed] & Hin & Hb). apply in_map_iff in Hb. destruct Hb as (_ & <- & _).
  rewrite (B _ _ Hin) in Hn. discriminate.
Qed.

Lemma export_eq c : ec_wf c -> ec_mixed_boxes c = false ->
  ec_export_csr c = Ok (csr_make (List.map snd (isort pair_leb (ec_pairs c)))).
Proof.
  intros W M. unfold ec_export_csr. rewrite ec_tuples_ok by auto. simpl bind. rewrite M.
  unfold csr_make. do 3 f_equal. f_equal. rewrite map_map. apply map_ext. now intros [i f].
Qed.

Lemma export_spec c :
  ec_wf c -> ec_plain c ->
  exists z s, ec_export_csr c = Ok z /\ Permutation s (ec_pairs c) /\
              StronglySorted Z.le (List.map fst s) /\ csr_of z (List.map snd s).
Proof.
  intros W P. exists (csr_make (List.map snd (isort pair_leb (ec_pairs c)))), (isort pair_leb (ec_pairs c)).
  split; [apply export_eq; auto using mixed_false_plain|]. split; [apply isort_perm|].
  split; [apply psorted_fst, psort_sorted|apply csr_make_of].
Qed.

Lemma psorted_ranked ls : psorted (ranked ls).
Proof. apply psorted_of_lt. rewrite map_fst_ranked. apply zrange_sorted. Qed.

Lemma map_snd_ranked {A} (ls : list A) : List.map snd (ranked ls) = ls.
Proof. apply map_snd_combine. rewrite zrange_length; unfold zlen; lia. Qed.

Lemma import_export z :
  csr_faces z -> exists c, ec_import_csr ec_empty z = Ok c /\ ec_export_csr c = Ok z.
Proof.
  intros H. apply csr_faces_make in H. destruct H as (ls & -> & F).
  destruct (import_csr_make ls F) as (c & E & W & B & P). exists c. split; auto.
  rewrite export_eq by auto using mixed_false_boxed.
  rewrite (psort_unique _ (ranked ls)); auto using psorted_ranked. now rewrite map_snd_ranked.
Qed.

Lemma ranked_of_numbers (l : list (Z * list Z)) :
  List.map fst l = zrange 0 (zlen l) -> ranked (List.map snd l) = l.
Proof. intros E. unfold ranked. rewrite zlen_map, <- E. apply combine_fst_snd. Qed.

Lemma export_import c :
  ec_wf c -> ec_plain c -> Permutation (ec_numbers c) (zrange 0 (ec_nelem c)) ->
  (forall i nodes, In (i, nodes) (ec_pairs c) -> 1 <= zlen nodes <= 4) ->
  exists z c', ec_export_csr c = Ok z /\ ec_import_csr ec_empty z = Ok c' /\
               ec_nelem c' = ec_nelem c /\ Permutation (ec_pairs c') (ec_pairs c).
Proof.
  intros W Pl PN HS. set (s := isort pair_leb (ec_pairs c)).
  assert (Ps : Permutation s (ec_pairs c)) by apply isort_perm.
  assert (En : List.map fst s = zrange 0 (zlen s)).
  { apply ssorted_le_perm_eq.
    - apply psorted_fst, psort_sorted.
    - apply ssorted_lt_le, zrange_sorted.
    - rewrite (zlen_perm _ _ Ps), <- (ecwf_nelem _ W). rewrite <- PN, <- ec_numbers_pairs by auto.
      now apply Permutation_map. }
  exists (csr_make (List.map snd s)).
  destruct (import_csr_make (List.map snd s)) as (c' & E & W' & B & P).
  { apply Forall_forall. intros r Hr. apply in_map_iff in Hr. destruct Hr as ([i r'] & <- & Hin).
    eapply HS. eapply Permutation_in; eauto. }
  exists c'. split; [apply export_eq; auto using mixed_false_plain|]. split; [auto|].
  rewrite ranked_of_numbers in P by auto. split.
  - rewrite (ecwf_nelem _ W'), (ecwf_nelem _ W). apply zlen_perm. now rewrite P.
  - now rewrite P.
Qed.
