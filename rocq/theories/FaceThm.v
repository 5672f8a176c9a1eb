(** * Face extraction: the main theorems. *)
From Coq Require Import Lia Sorted Permutation ZifyBool ZifyNat Arith.
From Verif Require Import PyFacts IndexListSpec IndexListProofs Conn ConnSpec FaceSpec ConnProofs FaceProofs.

(** Boundary sides and internal pairs of sides selected in a list of sides. *)
Definition bsel (l : list side) : list side :=
  flat_map (fun k => match class k l with [s] => [s] | _ => [] end) (keys_of l).
Definition isel (l : list side) : list (side * side) :=
  flat_map (fun k => match class k l with s0 :: s1 :: _ => [(s0, s1)] | _ => [] end) (keys_of l).

Lemma class_nonempty k l : In k (keys_of l) -> class k l <> [].
Proof. intros H E. apply class_nil in E. auto. Qed.

Lemma zlen1 {A} (l : list A) : (zlen l =? 1) = match l with [_] => true | _ => false end.
Proof. destruct l as [|a [|b l]]; auto. apply Z.eqb_neq. unfold zlen. cbn [List.length]. lia. Qed.

Lemma filter_one l :
  List.map snd (filter (fun '(_, fl) => zlen fl =? 1) (group_sides l)) = List.map (fun s => [s]) (bsel l).
Proof.
  rewrite group_sides_eq. unfold bsel. induction (keys_of l) as [|k ks IH]; auto.
  cbn [List.map filter flat_map]. rewrite zlen1. destruct (class k l) as [|s [|s' c]]; cbn [List.map app]; auto.
  simpl. now rewrite IH.
Qed.

Definition big (p : list Z * list side) : bool := match snd p with [_] => false | _ => true end.

Lemma filter_many l :
  filter (fun '(_, fl) => negb (zlen fl =? 1)) (group_sides l) =
  filter big (List.map (fun k => (k, class k l)) (keys_of l)).
Proof.
  rewrite group_sides_eq. apply filter_ext. intros (k, fl). unfold big. rewrite zlen1. simpl.
  now destruct fl as [|? [|? ?]].
Qed.

Lemma mapM_many {B} (f : list side -> res B) (g : side * side -> B) l :
  (forall s0 s1 c, f (s0 :: s1 :: c) = Ok (g (s0, s1))) ->
  mapM f (dvals (filter (fun '(_, fl) => negb (zlen fl =? 1)) (group_sides l))) = Ok (List.map g (isel l)).
Proof.
  intros H. rewrite filter_many. unfold isel, dvals.
  pose proof (fun k => class_nonempty k l) as K.
  induction (keys_of l) as [|k ks IH]; auto.
  cbn [List.map filter flat_map]. unfold big at 1. cbn [snd].
  specialize (K k (or_introl eq_refl)) as Kk.
  destruct (class k l) as [|s0 [|s1 c]]; [congruence| |].
  - cbn [app]. apply IH. intros; apply K; simpl; auto.
  - cbn [List.map mapM snd app]. rewrite H. cbn [bind]. rewrite IH by (intros; apply K; simpl; auto). reflexivity.
Qed.

Lemma mapM_one {B} (f : list side -> res B) (g : side -> B) l :
  (forall s, f [s] = Ok (g s)) ->
  mapM f (dvals (filter (fun '(_, fl) => zlen fl =? 1) (group_sides l))) = Ok (List.map g (bsel l)).
Proof.
  intros H. unfold dvals. rewrite filter_one. induction (bsel l) as [|s ss IH]; auto.
  cbn [List.map mapM]. rewrite H. cbn [bind]. rewrite IH. reflexivity.
Qed.

Lemma mat_of_rows_ok rows m : mat_of_rows rows = Ok m -> m_rows m = rows /\ mat_wf m.
Proof.
  unfold mat_of_rows. destruct rows as [|r rs].
  - intros H; inv H. split; auto. reflexivity.
  - destruct (forallb _ _) eqn:E; [|discriminate]. intros H; inv H. split; auto.
    unfold mat_wf. simpl m_cols. cbn [m_rows]. rewrite forallb_forall in E. apply Forall_forall.
    intros x Hx. apply Nat.eqb_eq. auto.
Qed.

Lemma mat_of_rows_uniform rows n : (forall r, In r rows -> List.length r = n) ->
  exists m, mat_of_rows rows = Ok m /\ (rows <> [] -> m_cols m = Some n).
Proof.
  intros H. unfold mat_of_rows. destruct rows as [|r rs].
  - eexists; split; [reflexivity|congruence].
  - replace (forallb _ _) with true.
    + eexists; split; [reflexivity|]. intros _. cbn. f_equal. apply H; simpl; auto.
    + symmetry. apply forallb_forall. intros x Hx. apply Nat.eqb_eq. rewrite (H x), (H r); simpl; auto.
Qed.

Lemma ii_set_ok m ii : ii_set m = Ok ii -> m_cols m = Some 2%nat /\ ii = Some m.
Proof.
  unfold ii_set. destruct (m_cols m) as [[|[|[|n]]]|]; try discriminate. intros H; inv H. auto.
Qed.

Definition ii_ok (ii : indirection) : Prop :=
  match ii with None => True | Some m => m_cols m = Some 2%nat end.

Lemma ii_append_ok ii m ii' : ii_append ii m = Ok ii' -> ii_rows ii' = ii_rows ii ++ m_rows m /\ ii_ok ii'.
Proof.
  unfold ii_append. destruct ii as [m0|].
  - intros H. apply bind_ok in H. destruct H as (x & Hx & H). apply bind_ok in H. destruct H as (m' & Hm & H).
    apply ii_set_ok in H. destruct H as [Hc ->]. apply np_vcat_rows in Hm. simpl. split; [tauto|auto].
  - intros H. apply ii_set_ok in H. destruct H as [Hc ->]. simpl. auto.
Qed.

Lemma ii_append_total ii m : ii_ok ii -> m_cols m = Some 2%nat -> exists ii', ii_append ii m = Ok ii'.
Proof.
  intros H Hm. unfold ii_append. destruct ii as [m0|].
  - unfold ii_set at 1. rewrite Hm. cbn [bind]. simpl in H.
    destruct (np_vcat_same _ _ _ H Hm) as (m' & E). rewrite E. cbn [bind].
    apply np_vcat_rows in E. unfold ii_set. destruct E as (_ & E & _). rewrite E, H. eauto.
  - unfold ii_set. rewrite Hm. eauto.
Qed.

Lemma zlen_groups l : zlen (group_sides l) = zlen (keys_of l).
Proof. rewrite group_sides_eq. apply zlen_map. Qed.

(** One face type. *)
Lemma step_ok fs ft l fs' : find_duplicates_step fs (ft, l) = Ok fs' ->
  zlen (keys_of l) < zlen l <= 2 * zlen (keys_of l) /\
  exists mb mi,
    m_rows mb = List.map fst (bsel l) /\ mat_wf mb /\ ec_add (fs_bnd fs) ft mb None = Ok (fs_bnd fs') /\
    m_rows mi = List.map (fun p => fst (fst p)) (isel l) /\ mat_wf mi /\ ec_add (fs_int fs) ft mi None = Ok (fs_int fs') /\
    ii_rows (fs_bnd_f2c fs') = ii_rows (fs_bnd_f2c fs) ++ List.map (fun s => [snd s; -1]) (bsel l) /\
    ii_ok (fs_bnd_f2c fs') /\
    ii_rows (fs_int_f2c fs') = ii_rows (fs_int_f2c fs) ++ List.map (fun p => [snd (fst p); snd (snd p)]) (isel l) /\
    ii_ok (fs_int_f2c fs').
Proof.
  unfold find_duplicates_step, face_from_ufacedict. cbv zeta. intros H.
  rewrite (mapM_one first_nodes fst), (mapM_one _ (fun s => [snd s; -1])) in H by reflexivity.
  rewrite (mapM_many first_nodes (fun p => fst (fst p))),
          (mapM_many _ (fun p => [snd (fst p); snd (snd p)])) in H by reflexivity.
  apply bind_ok in H. destruct H as ([] & H1 & H). apply assertb_ok in H1.
  apply bind_ok in H. destruct H as ([] & H2 & H). apply assertb_ok in H2.
  rewrite zlen_groups in H1, H2. cbn [bind] in H.
  apply bind_ok in H. destruct H as (mb & Hmb & H).
  apply bind_ok in H. destruct H as (bnd & Hbnd & H). cbn [bind] in H.
  apply bind_ok in H. destruct H as (bf & Hbf & H).
  apply bind_ok in H. destruct H as (mi & Hmi & H).
  apply bind_ok in H. destruct H as (int & Hint & H). cbn [bind] in H.
  apply bind_ok in H. destruct H as (mic & Hmic & H).
  apply bind_ok in H. destruct H as (if2 & Hif & H). inv H. cbn [fs_int fs_int_f2c fs_bnd fs_bnd_f2c].
  split; [lia|]. exists mb, mi.
  apply mat_of_rows_ok in Hmb, Hmi, Hmic. destruct Hmb as [Rb Wb], Hmi as [Ri Wi], Hmic as [Ric Wic].
  apply ii_append_ok in Hbf, Hif. destruct Hbf as [Fb Ob], Hif as [Fi Oi]. cbn [m_rows] in Fb. rewrite Ric in Fi.
  repeat split; auto.
Qed.

Lemma isel_lens (l : list side) (n : nat) : (forall s, In s l -> List.length (fst s) = n) ->
  (forall s, In s (bsel l) -> List.length (fst s) = n) /\
  (forall p, In p (isel l) -> List.length (fst (fst p)) = n).
Proof.
  intros H.
  assert (HC : forall k s, In s (class k l) -> List.length (fst s) = n).
  { intros k s Hs. apply filter_In in Hs. apply H. tauto. }
  split.
  - intros s Hs. apply in_flat_map in Hs. destruct Hs as (k & _ & Hs). apply (HC k).
    destruct (class k l) as [|s0 [|]]; simpl in *; tauto.
  - intros p Hp. apply in_flat_map in Hp. destruct Hp as (k & _ & Hp). apply (HC k).
    destruct (class k l) as [|s0 [|s1 c]]; simpl in Hp; try tauto. destruct Hp as [<-|[]]. simpl; auto.
Qed.

Lemma zlen_flat_sum {A B} (f : A -> list B) l : zlen (flat_map f l) = zsum (List.map (fun a => zlen (f a)) l).
Proof. induction l; simpl; auto. rewrite zlen_app. lia. Qed.

Lemma isel_nonempty l : zlen (keys_of l) < zlen l -> isel l <> [].
Proof.
  intros H E. assert (P := zlen_perm _ _ (groups_perm l)). rewrite zlen_flat_sum in P.
  assert (S : zsum (List.map (fun k => zlen (class k l)) (keys_of l)) <= zlen (keys_of l)); [|lia].
  clear P H. unfold isel in E. induction (keys_of l) as [|k ks IH]; [cbn; lia|].
  cbn [flat_map List.map] in *. apply app_eq_nil in E. destruct E as [E1 E2]. specialize (IH E2).
  rewrite zlen_cons. change (zsum (zlen (class k l) :: List.map (fun k => zlen (class k l)) ks)) with
      (zlen (class k l) + zsum (List.map (fun k => zlen (class k l)) ks)).
  destruct (class k l) as [|s0 [|s1 c]]; [rewrite zlen_nil; lia|rewrite zlen_cons, zlen_nil; lia|discriminate].
Qed.

Lemma ec_add_new c t m : sget t (ec_dict c) = None ->
  ec_add c t m None = Ok (EC (ec_nelem c + m_nrow m)
      (ec_dict c ++ [(t, ED (ILrange (ec_nelem c) (ec_nelem c + m_nrow m - 1)) m)])).
Proof.
  intros H. unfold ec_add. rewrite H. rewrite (dset_notin _ seqb_eq); auto.
  now apply (dget_None _ seqb_eq).
Qed.

Lemma step_total fs ft l n :
  zlen (keys_of l) < zlen l <= 2 * zlen (keys_of l) ->
  (forall s, In s l -> List.length (fst s) = n) ->
  ~ In ft (ec_types (fs_bnd fs)) -> ~ In ft (ec_types (fs_int fs)) ->
  ii_ok (fs_bnd_f2c fs) -> ii_ok (fs_int_f2c fs) ->
  exists fs', find_duplicates_step fs (ft, l) = Ok fs'.
Proof.
  intros Hn Hl Nb Ni Ob Oi. destruct (isel_lens _ _ Hl) as [Lb Li].
  assert (NE : isel l <> []) by (apply isel_nonempty; lia).
  unfold find_duplicates_step, face_from_ufacedict. cbv zeta.
  rewrite (mapM_one first_nodes fst), (mapM_one _ (fun s => [snd s; -1])) by reflexivity.
  rewrite (mapM_many first_nodes (fun p => fst (fst p))),
          (mapM_many _ (fun p => [snd (fst p); snd (snd p)])) by reflexivity.
  rewrite zlen_groups.
  replace (zlen (keys_of l) <? zlen l) with true by lia.
  replace (zlen l <=? 2 * zlen (keys_of l)) with true by lia. cbn [bind assertb].
  destruct (mat_of_rows_uniform (@List.map side (list Z) fst (bsel l)) n) as (mb & Eb & _).
  { intros r Hr. apply in_map_iff in Hr. destruct Hr as (s & <- & Hs). auto. }
  rewrite Eb. cbn [bind]. rewrite ec_add_new by (now apply (dget_None _ seqb_eq)). cbn [bind].
  destruct (ii_append_total (fs_bnd_f2c fs) (Mat (Some 2%nat) (List.map (fun s : side => [snd s; -1]) (bsel l)))) as (bf & Ebf); auto.
  rewrite Ebf. cbn [bind].
  destruct (mat_of_rows_uniform (List.map (fun p : side * side => fst (fst p)) (isel l)) n) as (mi & Ei & _).
  { intros r Hr. apply in_map_iff in Hr. destruct Hr as (s & <- & Hs). auto. }
  rewrite Ei. cbn [bind]. rewrite ec_add_new by (now apply (dget_None _ seqb_eq)). cbn [bind].
  destruct (mat_of_rows_uniform (List.map (fun p : side * side => [snd (fst p); snd (snd p)]) (isel l)) 2) as (mc & Ec & Hc).
  { intros r Hr. apply in_map_iff in Hr. destruct Hr as (s & <- & Hs). auto. }
  rewrite Ec. cbn [bind].
  destruct (ii_append_total (fs_int_f2c fs) mc) as (if2 & Eif); auto.
  { apply Hc. destruct (isel l); [congruence|discriminate]. }
  rewrite Eif. cbn [bind]. eauto.
Qed.

Lemma step_refuse fs ft l :
  ~ (zlen (keys_of l) < zlen l <= 2 * zlen (keys_of l)) -> find_duplicates_step fs (ft, l) = Err AssertionError.
Proof.
  intros H. unfold find_duplicates_step. cbv zeta. rewrite zlen_groups.
  destruct (zlen (keys_of l) <? zlen l) eqn:E1; [|reflexivity]. cbn [bind assertb].
  destruct (zlen l <=? 2 * zlen (keys_of l)) eqn:E2; [lia|reflexivity].
Qed.

(** ** All face types *)

Definition ec_typed (c : econn) : list (string * (Z * list Z)) :=
  flat_map (fun kv => List.map (pair (fst kv)) (ed_pairs (snd kv))) (ec_dict c).

Lemma pairs_of_type_typed c t p : In p (pairs_of_type c t) <-> In (t, p) (ec_typed c).
Proof.
  unfold pairs_of_type, ec_typed. rewrite !in_flat_map. split.
  - intros (kv & H1 & H2). exists kv. split; auto. destruct (String.eqb t (fst kv)) eqn:E; [|destruct H2].
    apply seqb_eq in E. subst t. now apply in_map.
  - intros (kv & H1 & H2). exists kv. split; auto. apply in_map_iff in H2. destruct H2 as (x & H2 & H3).
    inv H2. now rewrite String.eqb_refl.
Qed.

Lemma pairs_of_type_filter c t :
  pairs_of_type c t = List.map snd (filter (fun x => String.eqb t (fst x)) (ec_typed c)).
Proof.
  unfold pairs_of_type, ec_typed. induction (ec_dict c) as [|(k, ed) d IH]; auto.
  cbn [flat_map fst snd]. rewrite filter_app, map_app, <- IH. f_equal.
  destruct (String.eqb t k) eqn:E.
  - induction (ed_pairs ed) as [|p ps IHp]; auto. simpl. rewrite E. simpl. congruence.
  - induction (ed_pairs ed) as [|p ps IHp]; auto. simpl. now rewrite E.
Qed.

Lemma ec_pairs_typed c : ec_pairs c = List.map snd (ec_typed c).
Proof.
  unfold ec_pairs, ec_typed. induction (ec_dict c) as [|(k, ed) d IH]; auto.
  simpl. rewrite map_app, <- IH. f_equal. rewrite map_map. simpl. now rewrite map_id.
Qed.

(** What a face set looks like when its faces come from the list [T] of (type, payload). *)
Record face_list {P} (nodes : P -> list Z) (row : P -> list Z) (types : list string)
       (T : list (string * P)) (c : econn) (ii : indirection) : Prop := {
  fl_wf : ec_wf c;
  fl_plain : ec_plain c;
  fl_types : ec_types c = types;
  fl_typed : ec_typed c = List.map (fun x => (fst (snd x), (fst x, nodes (snd (snd x))))) (ranked T);
  fl_rows : ii_rows ii = List.map (fun x => row (snd x)) T;
  fl_ii : ii_ok ii }.

Lemma fl_nelem {P} nodes row types T c ii : @face_list P nodes row types T c ii -> ec_nelem c = zlen T.
Proof.
  intros [W _ _ Ty _ _]. rewrite (ecwf_nelem _ W), ec_pairs_typed, Ty, !zlen_map.
  unfold ranked, zlen. rewrite combine_length, zrange_length. lia.
Qed.

Lemma fl_numbers {P} nodes row types T c ii :
  @face_list P nodes row types T c ii -> ec_numbers c = zrange 0 (ec_nelem c).
Proof.
  intros H. rewrite (fl_nelem _ _ _ _ _ _ H). destruct H as [W _ _ Ty _ _].
  rewrite <- ec_numbers_pairs by auto. rewrite ec_pairs_typed, Ty. rewrite !map_map. simpl.
  apply map_fst_ranked.
Qed.

Lemma face_list_add {P} nodes row types T c ii ft (ps : list P) m c' ii' :
  face_list nodes row types T c ii -> ~ In ft types ->
  m_rows m = List.map nodes ps -> mat_wf m -> ec_add c ft m None = Ok c' ->
  ii_rows ii' = ii_rows ii ++ List.map row ps -> ii_ok ii' ->
  face_list nodes row (types ++ [ft]) (T ++ List.map (pair ft) ps) c' ii'.
Proof.
  intros F N R Wm A RI OI. assert (Hn := fl_nelem _ _ _ _ _ _ F).
  destruct F as [W Pl Ty Td Rw Oi].
  constructor; auto.
  - eapply ec_add_wf; eauto. now apply new_ed_auto_wf.
  - eapply ec_add_plain; eauto. exact I.
  - subst types. rewrite ec_add_new in A by (now apply (dget_None _ seqb_eq)). inv A.
    unfold ec_types. simpl. now rewrite map_app.
  - subst types. rewrite ec_add_new in A by (now apply (dget_None _ seqb_eq)). inv A.
    unfold ec_typed. cbn [ec_dict]. rewrite flat_map_app. fold (ec_typed c). rewrite Td.
    rewrite ranked_app, map_app. f_equal. cbn [flat_map fst snd]. rewrite app_nil_r.
    unfold ed_pairs. cbn [ed_index ed_e2n entries]. rewrite R, Hn. unfold m_nrow. rewrite R, zlen_map.
    replace (zlen T + zlen ps - 1 + 1) with (zlen T + zlen ps) by lia.
    rewrite zlen_map.
    assert (G : forall a, List.map (pair ft) (combine (zrange a (a + zlen ps)) (List.map nodes ps)) =
       List.map (fun x => (fst (snd x), (fst x, nodes (snd (snd x))))) (combine (zrange a (a + zlen ps)) (List.map (pair ft) ps))).
    { clear. induction ps as [|p ps IH]; intros a.
      - simpl. destruct (zrange a (a + zlen (@nil P))); auto.
      - rewrite zlen_cons. pose proof (zlen_nonneg ps). rewrite zrange_cons by lia. simpl. f_equal.
        replace (a + (zlen ps + 1)) with (a + 1 + zlen ps) by lia. apply IH. }
    apply G.
  - rewrite RI, Rw, map_app. f_equal. rewrite map_map. reflexivity.
Qed.

Definition TB (fn : dict string (list side)) : list (string * side) :=
  flat_map (fun kv => List.map (pair (fst kv)) (bsel (snd kv))) fn.
Definition TI (fn : dict string (list side)) : list (string * (side * side)) :=
  flat_map (fun kv => List.map (pair (fst kv)) (isel (snd kv))) fn.

Definition bnodes (s : side) : list Z := fst s.
Definition brow (s : side) : list Z := [snd s; -1].
Definition inodes (p : side * side) : list Z := fst (fst p).
Definition irow (p : side * side) : list Z := [snd (fst p); snd (snd p)].

Lemma faces_fold_ok fn : forall done fs fs',
  NoDup (dkeys (done ++ fn)) ->
  face_list bnodes brow (dkeys done) (TB done) (fs_bnd fs) (fs_bnd_f2c fs) ->
  face_list inodes irow (dkeys done) (TI done) (fs_int fs) (fs_int_f2c fs) ->
  foldM find_duplicates_step fs fn = Ok fs' ->
  face_list bnodes brow (dkeys (done ++ fn)) (TB (done ++ fn)) (fs_bnd fs') (fs_bnd_f2c fs') /\
  face_list inodes irow (dkeys (done ++ fn)) (TI (done ++ fn)) (fs_int fs') (fs_int_f2c fs') /\
  forall ft l, In (ft, l) fn -> zlen (keys_of l) < zlen l <= 2 * zlen (keys_of l).
Proof.
  induction fn as [|(ft, l) fn IH]; intros done fs fs' N FB FI H.
  - rewrite app_nil_r. cbn in H. inv H. split; [exact FB|split; [exact FI|intros ft l []]].
  - cbn [foldM] in H. apply bind_ok in H. destruct H as (fs1 & Hs & H).
    apply step_ok in Hs. destruct Hs as (Hn & mb & mi & Rb & Wb & Ab & Ri & Wi & Ai & Ib & Ob & Ii & Oi).
    replace (done ++ (ft, l) :: fn) with ((done ++ [(ft, l)]) ++ fn) in * by (rewrite <- app_assoc; auto).
    assert (Nd : ~ In ft (dkeys done)).
    { unfold dkeys in *. rewrite !map_app in N. apply NoDup_app in N. destruct N as [N _].
      apply NoDup_app in N. destruct N as (_ & _ & D). intros X. apply (D ft); simpl; auto. }
    assert (K : dkeys (done ++ [(ft, l)]) = dkeys done ++ [ft]) by (unfold dkeys; now rewrite map_app).
    destruct (IH (done ++ [(ft, l)]) fs1 fs') as (G1 & G2 & G3); auto.
    + rewrite K. unfold TB. rewrite flat_map_app. cbn [flat_map fst snd]. rewrite app_nil_r.
      eapply face_list_add; eauto.
    + rewrite K. unfold TI. rewrite flat_map_app. cbn [flat_map fst snd]. rewrite app_nil_r.
      eapply face_list_add; eauto.
    + split; [exact G1|split; [exact G2|]]. intros ft' l' [H0|H0]; [inv H0; lia|]. eapply G3; eauto.
Qed.

Lemma face_list_empty {P} (nodes row : P -> list Z) : face_list nodes row [] [] ec_empty None.
Proof. constructor; auto; [apply ec_empty_wf|apply ec_empty_plain|exact I]. Qed.

(** Selection facts. *)
Lemma bsel_in l s : In s (bsel l) <-> sharing (fst s) l = [s].
Proof.
  unfold bsel. rewrite in_flat_map. split.
  - intros (k & Hk & H). destruct (class k l) as [|s0 [|]] eqn:E; simpl in H; try tauto.
    destruct H as [<-|[]]. rewrite class_sharing. assert (In s0 (class k l)) as X by (rewrite E; simpl; auto).
    apply filter_In in X. destruct X as [_ X]. apply zlist_eqb_eq in X. now rewrite <- X.
  - intros H. rewrite class_sharing in H. exists (zsort (fst s)). split.
    + destruct (in_dec (list_eq_dec Z.eq_dec) (zsort (fst s)) (keys_of l)); auto.
      apply class_nil in n. congruence.
    + rewrite H. simpl; auto.
Qed.

Lemma isel_in l p : In p (isel l) ->
  exists rest, sharing (fst (fst p)) l = fst p :: snd p :: rest.
Proof.
  unfold isel. rewrite in_flat_map. intros (k & Hk & H).
  destruct (class k l) as [|s0 [|s1 c]] eqn:E; simpl in H; try tauto. destruct H as [<-|[]].
  exists c. simpl. rewrite class_sharing. assert (In s0 (class k l)) as X by (rewrite E; simpl; auto).
  apply filter_In in X. destruct X as [_ X]. apply zlist_eqb_eq in X. now rewrite <- X.
Qed.

Lemma filter_one_key {A} (key : A -> list Z) (f : list Z -> list A) ks k :
  NoDup ks -> In k ks ->
  (forall k' a, In k' ks -> In a (f k') -> key a = k') ->
  filter (fun a => zlist_eqb k (key a)) (flat_map f ks) = f k.
Proof.
  intros N Hk H. induction ks as [|a ks IH]; [destruct Hk|]. inv N.
  cbn [flat_map]. rewrite filter_app.
  assert (Hz : forall b, In b (a :: ks) -> filter (fun x => zlist_eqb k (key x)) (f b) = if zlist_eqb k b then f b else []).
  { intros b Hb. assert (H' := fun x => H b x Hb). clear - H'. destruct (zlist_eqb k b) eqn:E.
    - apply zlist_eqb_eq in E. subst b. induction (f k) as [|x xs IHx]; auto. simpl.
      rewrite (H' x) by (simpl; auto). rewrite zlist_eqb_refl. f_equal. apply IHx. intros; apply H'; simpl; auto.
    - induction (f b) as [|x xs IHx]; auto. simpl.
      rewrite (H' x) by (simpl; auto). rewrite E. apply IHx. intros; apply H'; simpl; auto. }
  rewrite Hz by (simpl; auto). destruct (zlist_eqb k a) eqn:E.
  - apply zlist_eqb_eq in E. subst a.
    assert (Z : filter (fun x => zlist_eqb k (key x)) (flat_map f ks) = []); [|rewrite Z; apply app_nil_r].
    assert (G : forall ks', (forall b, In b ks' -> In b ks) -> filter (fun x => zlist_eqb k (key x)) (flat_map f ks') = []).
    { induction ks' as [|b ks' IHk]; auto. intros Hsub. cbn [flat_map]. rewrite filter_app, IHk, app_nil_r by (intros; apply Hsub; simpl; auto).
      rewrite Hz by (right; apply Hsub; simpl; auto). destruct (zlist_eqb k b) eqn:E; auto.
      apply zlist_eqb_eq in E. subst. exfalso. apply H2, Hsub. simpl; auto. }
    apply G; auto.
  - simpl. apply IH; auto.
    + destruct Hk; auto. subst. rewrite zlist_eqb_refl in E. discriminate.
    + intros. eapply H; simpl; eauto.
Qed.

Lemma length_filter_map {A B} (g : A -> B) (f : B -> bool) l :
  List.length (filter f (List.map g l)) = List.length (filter (fun a => f (g a)) l).
Proof. induction l; simpl; auto. destruct (f (g a)); simpl; auto. Qed.

Lemma sel_cover l s : In s l ->
  (List.length (filter (fun b => same_nodes (fst s) (fst b)) (bsel l)) +
   List.length (filter (fun p => same_nodes (fst s) (fst (fst p))) (isel l)) = 1)%nat.
Proof.
  intros Hs. set (k := zsort (fst s)).
  assert (Hk : In k (keys_of l)) by (apply keys_of_in; eauto).
  assert (HC : forall k' x, In x (class k' l) -> zsort (fst x) = k').
  { intros k' x Hx. apply filter_In in Hx. destruct Hx as [_ Hx]. apply zlist_eqb_eq in Hx. auto. }
  rewrite (filter_ext (fun b => same_nodes (fst s) (fst b)) (fun b => zlist_eqb k (zsort (fst b)))) by (intros; apply same_nodes_key).
  rewrite (filter_ext (fun p => same_nodes (fst s) (fst (fst p))) (fun p => zlist_eqb k (zsort (fst (fst p))))) by (intros; apply same_nodes_key).
  unfold bsel, isel.
  rewrite (filter_one_key (fun b : side => zsort (fst b))); [|apply keys_of_NoDup|auto|].
  rewrite (filter_one_key (fun p : side * side => zsort (fst (fst p)))); [|apply keys_of_NoDup|auto|].
  - pose proof (class_nonempty _ _ Hk). destruct (class k l) as [|s0 [|s1 c]]; simpl; auto; congruence.
  - intros k' p _ Hp. destruct (class k' l) as [|s0 [|s1 c]] eqn:E; simpl in Hp; try tauto.
    destruct Hp as [<-|[]]. apply HC. rewrite E. simpl; auto.
  - intros k' p _ Hp. destruct (class k' l) as [|s0 [|s1 c]] eqn:E; simpl in Hp; try tauto.
    destruct Hp as [<-|[]]. apply HC. rewrite E. simpl; auto.
Qed.

Lemma sel_count l : (forall nodes, (List.length (sharing nodes l) <= 2)%nat) ->
  zlen l = 2 * zlen (isel l) + zlen (bsel l).
Proof.
  intros H. rewrite <- (zlen_perm _ _ (groups_perm l)). unfold isel, bsel. 
  assert (HC : forall k, In k (keys_of l) -> class k l <> [] /\ (List.length (class k l) <= 2)%nat).
  { intros k Hk. split; [now apply class_nonempty|]. apply keys_of_in in Hk. destruct Hk as (s & _ & <-).
    rewrite <- class_sharing. apply H. }
  induction (keys_of l) as [|k ks IH]; auto. cbn [flat_map]. rewrite !zlen_app, IH by (intros; apply HC; simpl; auto).
  destruct (HC k) as [H1 H2]; [simpl; auto|]. 
  destruct (class k l) as [|s0 [|s1 [|s2 c]]]; [congruence| | |exfalso; simpl in H2; lia];
    rewrite ?zlen_cons, ?(@zlen_nil side), ?(@zlen_nil (side * side)); lia.
Qed.

(** ** Soundness *)

Lemma in_content {A} ft (l : list A) fn : NoDup (dkeys fn) -> In (ft, l) fn -> content ft fn = l.
Proof. intros N H. unfold content. now rewrite (in_dget _ seqb_eq _ _ _ N H). Qed.

Lemma ranked_nth {A} (T : list A) i a : In (i, a) (ranked T) -> 0 <= i /\ nth_error T (Z.to_nat i) = Some a.
Proof.
  unfold ranked. intros H. apply In_nth_error in H. destruct H as (n & H).
  assert (Hc : nth_error (zrange 0 (zlen T)) n = Some i /\ nth_error T n = Some a).
  { revert H. generalize (zrange 0 (zlen T)). clear. revert n. induction T as [|b T IH]; intros n l H.
    - destruct l; destruct n; discriminate.
    - destruct l; [destruct n; discriminate|]. destruct n; simpl in *; [inv H; auto|auto]. }
  destruct Hc as [H1 H2]. assert (n < List.length T)%nat by (apply nth_error_Some; congruence).
  rewrite nth_error_zrange in H1 by (unfold zlen; lia). inv H1.
  split; [lia|]. rewrite <- H2. f_equal. lia.
Qed.

Lemma nth_error_map' {A B} (f : A -> B) l n a : nth_error l n = Some a -> nth_error (List.map f l) n = Some (f a).
Proof. intros H. now rewrite nth_error_map, H. Qed.

Lemma length_filter_ranked {A} (f : A -> bool) (T : list A) :
  List.length (filter (fun x => f (snd x)) (ranked T)) = List.length (filter f T).
Proof.
  unfold ranked. assert (E := map_snd_combine (zrange 0 (zlen T)) T).
  rewrite <- (length_filter_map snd f). rewrite E; auto. rewrite zrange_length. unfold zlen. lia.
Qed.

Lemma filter_filter {A} (f g : A -> bool) l : filter f (filter g l) = filter (fun a => g a && f a) l.
Proof. induction l; simpl; auto. destruct (g a); simpl; rewrite IHl; auto. Qed.

Lemma count_typed {P} (nodes row : P -> list Z) types T c ii ft (q : list Z -> bool) :
  face_list nodes row types T c ii ->
  List.length (filter (fun p => q (snd p)) (pairs_of_type c ft)) =
  List.length (filter (fun x => q (nodes (snd x))) (filter (fun x => String.eqb ft (fst x)) T)).
Proof.
  intros F. rewrite pairs_of_type_filter, (fl_typed _ _ _ _ _ _ F).
  rewrite length_filter_map, filter_filter, length_filter_map. cbn [fst snd].
  rewrite filter_filter. rewrite <- (length_filter_ranked (fun a => String.eqb ft (fst a) && q (nodes (snd a))) T). reflexivity.
Qed.

Lemma filter_flat_types {P} (sel : list side -> list P) ft fn : NoDup (dkeys fn) ->
  List.map snd (filter (fun x => String.eqb ft (fst x)) (flat_map (fun kv => List.map (pair (fst kv)) (sel (snd kv))) fn)) =
  match sget ft fn with Some l => sel l | None => [] end.
Proof.
  intros N. rewrite <- (flat_map_sel_get sel ft fn N). clear N.
  induction fn as [|(k, l) fn IH]; auto. cbn [flat_map fst snd]. rewrite filter_app, map_app, IH. f_equal.
  destruct (String.eqb ft k) eqn:E.
  - induction (sel l) as [|p ps IHp]; auto. simpl. rewrite E. simpl. congruence.
  - induction (sel l) as [|p ps IHp]; auto. simpl. now rewrite E.
Qed.

Lemma count_sel {P} (sel : list side -> list P) (nodes : P -> list Z) ft fn (q : list Z -> bool) : NoDup (dkeys fn) -> sel [] = [] ->
  List.length (filter (fun x => q (nodes (snd x))) (filter (fun x => String.eqb ft (fst x))
     (flat_map (fun kv => List.map (pair (fst kv)) (sel (snd kv))) fn))) =
  List.length (filter (fun p => q (nodes p)) (sel (content ft fn))).
Proof.
  intros N Z. rewrite <- (length_filter_map snd (fun p => q (nodes p))). rewrite filter_flat_types by auto.
  unfold content. destruct (sget ft fn); auto. now rewrite Z.
Qed.

Theorem create_faces_sound tbl c fs :
  ec_wf c -> ec_plain c -> cells_ok tbl c -> ec_create_faces tbl c = Ok fs -> faces_spec tbl c fs.
Proof.
  intros W P C H. destruct (build_ok tbl c W P C) as (fn & E & N & HC & HK).
  unfold ec_create_faces in H. rewrite E in H. cbn [bind] in H.
  destruct (faces_fold_ok fn [] (FS ec_empty None ec_empty None) fs N (face_list_empty _ _) (face_list_empty _ _) H) as (FB & FI & _).
  simpl app in *. clear H.
  assert (HP : forall ft, Permutation (content ft fn) (ec_sides tbl ft c)).
  { intros ft. rewrite HC. apply src_sides_perm. }
  constructor.
  - destruct FB; auto.
  - destruct FI; auto.
  - eapply fl_numbers; eauto.
  - eapply fl_numbers; eauto.
  - rewrite (fl_nelem _ _ _ _ _ _ FB), (fl_rows _ _ _ _ _ _ FB). apply zlen_map.
  - rewrite (fl_nelem _ _ _ _ _ _ FI), (fl_rows _ _ _ _ _ _ FI). apply zlen_map.
  - intros ft. rewrite (fl_types _ _ _ _ _ _ FB). apply HK.
  - intros ft. rewrite (fl_types _ _ _ _ _ _ FI). apply HK.
  - intros ft f nodes Hin. apply pairs_of_type_typed in Hin. rewrite (fl_typed _ _ _ _ _ _ FB) in Hin.
    apply in_map_iff in Hin. destruct Hin as ((i & ft' & s) & Heq & Hin). cbn in Heq. inv Heq.
    apply ranked_nth in Hin. destruct Hin as [Hf Hn]. exists (snd s). split.
    + rewrite (fl_rows _ _ _ _ _ _ FB). exact (nth_error_map' _ _ _ _ Hn).
    + apply nth_error_In in Hn. apply in_flat_map in Hn. destruct Hn as ((k, l) & Hl & Hs).
      apply in_map_iff in Hs. destruct Hs as (s' & Hs1 & Hs2). cbn in Hs1. inv Hs1. cbn in Hs2.
      apply bsel_in in Hs2. assert (HPf := HP ft). rewrite (in_content _ _ _ N Hl) in HPf.
      assert (X := sharing_perm (fst s) _ _ HPf). rewrite Hs2 in X. apply Permutation_length_1_inv in X.
      unfold bnodes. rewrite X. now destruct s.
  - intros ft f nodes Hin. apply pairs_of_type_typed in Hin. rewrite (fl_typed _ _ _ _ _ _ FI) in Hin.
    apply in_map_iff in Hin. destruct Hin as ((i & ft' & p) & Heq & Hin). cbn in Heq. inv Heq.
    apply ranked_nth in Hin. destruct Hin as [Hf Hn].
    assert (Hn' := Hn). apply nth_error_In in Hn. apply in_flat_map in Hn. destruct Hn as ((k, l) & Hl & Hs).
    apply in_map_iff in Hs. destruct Hs as (p' & Hs1 & Hs2). cbn in Hs1. inv Hs1. cbn in Hs2.
    apply isel_in in Hs2. destruct Hs2 as (rest & Hs2). destruct p as ((n1, c1), (n2, c2)).
    exists c1, c2, n2, rest. split.
    + rewrite (fl_rows _ _ _ _ _ _ FI). exact (nth_error_map' _ _ _ _ Hn').
    + assert (HPf := HP ft). rewrite (in_content _ _ _ N Hl) in HPf.
      assert (X := sharing_perm n1 _ _ HPf). cbn in Hs2. unfold inodes. cbn [fst snd].
      rewrite Hs2 in X. now symmetry.
  - intros ft s Hs. rewrite filter_app, app_length.
    rewrite (count_typed _ _ _ _ _ _ _ (fun n => same_nodes (fst s) n) FB).
    rewrite (count_typed _ _ _ _ _ _ _ (fun n => same_nodes (fst s) n) FI).
    unfold TB, TI. rewrite (count_sel bsel bnodes), (count_sel isel inodes) by (auto; reflexivity).
    apply sel_cover. eapply Permutation_in; [|exact Hs]. symmetry. apply HP.
Qed.

Theorem create_faces_count tbl c fs :
  ec_wf c -> ec_plain c -> cells_ok tbl c -> no_triple tbl c -> ec_create_faces tbl c = Ok fs ->
  forall ft, zlen (ec_sides tbl ft c) =
             2 * zlen (pairs_of_type (fs_int fs) ft) + zlen (pairs_of_type (fs_bnd fs) ft).
Proof.
  intros W P C NT H ft. destruct (build_ok tbl c W P C) as (fn & E & N & HC & HK).
  unfold ec_create_faces in H. rewrite E in H. cbn [bind] in H.
  destruct (faces_fold_ok fn [] (FS ec_empty None ec_empty None) fs N (face_list_empty _ _) (face_list_empty _ _) H) as (FB & FI & _).
  simpl app in *. clear H.
  assert (HP : Permutation (content ft fn) (ec_sides tbl ft c)) by (rewrite HC; apply src_sides_perm).
  rewrite <- (zlen_perm _ _ HP).
  rewrite sel_count.
  - unfold zlen. assert (X := count_typed _ _ _ _ _ _ ft (fun _ => true) FI).
    assert (Y := count_typed _ _ _ _ _ _ ft (fun _ => true) FB).
    unfold TB, TI in X, Y. rewrite (count_sel isel inodes _ _ (fun _ => true)) in X by auto. 
    rewrite (count_sel bsel bnodes _ _ (fun _ => true)) in Y by auto.
    assert (T : forall A (l : list A), filter (fun _ => true) l = l) by (induction l; simpl; congruence).
    rewrite !T in X, Y. lia.
  - intros nodes. rewrite (Permutation_length (sharing_perm nodes _ _ HP)). apply NT.
Qed.

(** ** When it returns *)

Lemma count_representatives l : forall R1 R2, representatives R1 l -> representatives R2 l ->
  (List.length R1 <= List.length R2)%nat.
Proof.
  intros R1 R2 [D1 S1 _] [_ _ A2].
  assert (HD : NoDup (List.map zsort R1)).
  { clear - D1. induction D1 as [|a R H D IH]; simpl; constructor; auto.
    rewrite in_map_iff. intros (b & E & Hb). rewrite Forall_forall in H. specialize (H b Hb).
    rewrite same_nodes_key, E, zlist_eqb_refl in H. discriminate. }
  rewrite <- (map_length zsort R1), <- (map_length zsort R2). apply NoDup_incl_length; auto.
  intros k Hk. apply in_map_iff in Hk. destruct Hk as (r & <- & Hr).
  destruct (S1 r Hr) as (s & Hs & E1). destruct (A2 s Hs) as (r2 & Hr2 & E2).
  apply in_map_iff. exists r2. split; auto.
  rewrite same_nodes_key in E1, E2. apply zlist_eqb_eq in E1, E2. congruence.
Qed.

Lemma keys_representatives l : representatives (keys_of l) l.
Proof.
  constructor.
  - assert (N := keys_of_NoDup l).
    assert (K : forall k, In k (keys_of l) -> zsort k = k).
    { intros k Hk. apply keys_of_in in Hk. destruct Hk as (s & _ & <-). apply zsort_perm_iff, zsort_perm. }
    induction (keys_of l) as [|k ks IH]; constructor; inv N.
    + apply Forall_forall. intros b Hb. rewrite same_nodes_key, (K k), (K b) by (simpl; auto).
      destruct (zlist_eqb k b) eqn:E; auto. apply zlist_eqb_eq in E. subst. tauto.
    + apply IH; auto. intros; apply K; simpl; auto.
  - intros r Hr. apply keys_of_in in Hr. destruct Hr as (s & Hs & <-). exists s. split; auto.
    apply same_nodes_perm, zsort_perm.
  - intros s Hs. exists (zsort (fst s)). split; [apply keys_of_in; eauto|]. apply same_nodes_perm, zsort_perm.
Qed.

Lemma representatives_perm R l l' : Permutation l l' -> representatives R l -> representatives R l'.
Proof.
  intros P [D S A]. constructor; auto.
  - intros r Hr. destruct (S r Hr) as (s & Hs & E). exists s. split; auto. eapply Permutation_in; eauto.
  - intros s Hs. apply A. eapply Permutation_in; [symmetry|]; eauto.
Qed.

Lemma keys_count l R : representatives R l -> zlen (keys_of l) = zlen R.
Proof.
  intros H. unfold zlen.
  assert (X := count_representatives l _ _ (keys_representatives l) H).
  assert (Y := count_representatives l _ _ H (keys_representatives l)). lia.
Qed.

(** All sides of a face type have the same number of nodes. *)
Definition uniform_faces (tbl : sidetable) (nn : string -> nat) : Prop :=
  forall t faces ft efs ef, In (t, faces) tbl -> In (ft, efs) faces -> In ef efs -> List.length ef = nn ft.

Lemma sides_uniform tbl nn c ft s : uniform_faces tbl nn -> In s (ec_sides tbl ft c) -> List.length (fst s) = nn ft.
Proof.
  intros U H. apply in_flat_map in H. destruct H as ((t, ed) & _ & H). unfold ed_sides in H. cbn [fst snd] in H.
  destruct (sget t tbl) as [faces|] eqn:E; [|destruct H]. apply (dget_in _ seqb_eq) in E.
  apply in_flat_map in H. destruct H as ((ci, row) & _ & H). apply in_flat_map in H.
  destruct H as ((ft', efs) & Hfe & H). destruct (String.eqb ft ft') eqn:Ef; [|destruct H].
  apply seqb_eq in Ef. subst ft'. apply in_map_iff in H. destruct H as (ef & <- & Hef).
  cbn [fst]. unfold side_nodes. rewrite map_length, rev_length. eapply U; eauto.
Qed.

Lemma faces_fold_total nn (fn : dict string (list side)) : forall fs,
  NoDup (dkeys fn) ->
  (forall ft, In ft (dkeys fn) -> ~ In ft (ec_types (fs_bnd fs)) /\ ~ In ft (ec_types (fs_int fs))) ->
  ii_ok (fs_bnd_f2c fs) -> ii_ok (fs_int_f2c fs) ->
  (forall ft l, In (ft, l) fn -> (forall s, In s l -> List.length (fst s) = nn ft) /\
                                 zlen (keys_of l) < zlen l <= 2 * zlen (keys_of l)) ->
  exists fs', foldM find_duplicates_step fs fn = Ok fs'.
Proof.
  induction fn as [|(ft, l) fn IH]; intros fs N NT Ob Oi H.
  - cbn. eauto.
  - simpl in N. inv N. destruct (H ft l) as [Hl Hn]; [simpl; auto|].
    destruct (NT ft) as [Nb Ni]; [simpl; auto|].
    destruct (step_total fs ft l (nn ft)) as (fs1 & E); auto. cbn [foldM]. rewrite E. cbn [bind].
    apply step_ok in E. destruct E as (_ & mb & mi & _ & _ & Ab & _ & _ & Ai & _ & Ob' & _ & Oi').
    rewrite ec_add_new in Ab by (now apply (dget_None _ seqb_eq)).
    rewrite ec_add_new in Ai by (now apply (dget_None _ seqb_eq)).
    injection Ab as Ab. injection Ai as Ai.
    apply IH; auto.
    + intros ft' Hft'. destruct (NT ft') as [Nb' Ni']; [simpl; auto|].
      assert (ft' <> ft) by (intros ->; auto).
      rewrite <- Ab, <- Ai. unfold ec_types. cbn [ec_dict]. rewrite !map_app, !in_app_iff. cbn.
      split; intros [X|[X|[]]]; auto.
    + intros; apply H; simpl; auto.
Qed.


Theorem create_faces_returns tbl nn c :
  ec_wf c -> ec_plain c -> cells_ok tbl c -> uniform_faces tbl nn ->
  (accepted tbl c -> exists fs, ec_create_faces tbl c = Ok fs) /\
  (~ accepted tbl c -> ec_create_faces tbl c = Err AssertionError).
Proof.
  intros W P C U. destruct (build_ok tbl c W P C) as (fn & E & N & HC & HK).
  assert (HP : forall ft l, In (ft, l) fn -> Permutation l (ec_sides tbl ft c)).
  { intros ft l Hl. rewrite <- (in_content _ _ _ N Hl), HC. apply src_sides_perm. }
  unfold ec_create_faces. rewrite E. cbn [bind].
  assert (HA : accepted tbl c <-> forall ft l, In (ft, l) fn -> zlen (keys_of l) < zlen l <= 2 * zlen (keys_of l)).
  { split.
    - intros A ft l Hl. assert (P1 := HP ft l Hl). rewrite (zlen_perm _ _ P1).
      apply (A ft).
      + apply HK. apply in_map_iff. exists (ft, l). auto.
      + eapply representatives_perm; [exact P1|apply keys_representatives].
    - intros A ft R Hft HR. apply HK in Hft. apply in_map_iff in Hft. destruct Hft as ((ft', l) & Hf & Hl).
      simpl in Hf. subst ft'. assert (P1 := HP ft l Hl). rewrite <- (zlen_perm _ _ P1).
      rewrite <- (keys_count l R); [now apply (A ft)|]. eapply representatives_perm; [symmetry; exact P1|auto]. }
  split.
  - intros A. rewrite HA in A. eapply (faces_fold_total nn); auto; try exact I.
    intros ft l Hl. split; [|eapply A; eauto]. intros s Hs. eapply sides_uniform; eauto.
    eapply Permutation_in; [apply HP|]; eauto.
  - intros A. rewrite HA in A. clear HA.
    assert (Hgen : forall (fn' : dict string (list side)) fs, incl fn' fn -> NoDup (dkeys fn') ->
       (forall ft, In ft (dkeys fn') -> ~ In ft (ec_types (fs_bnd fs)) /\ ~ In ft (ec_types (fs_int fs))) ->
       ii_ok (fs_bnd_f2c fs) -> ii_ok (fs_int_f2c fs) ->
       ~ (forall ft l, In (ft, l) fn' -> zlen (keys_of l) < zlen l <= 2 * zlen (keys_of l)) ->
       foldM find_duplicates_step fs fn' = Err AssertionError); [|apply Hgen; auto; try exact I; try apply incl_refl].
    clear A. induction fn' as [|(ft, l) fn' IH]; intros fs Hi N' NT Ob Oi A.
    + exfalso. apply A. intros ft l [].
    + destruct (Z_lt_dec (zlen (keys_of l)) (zlen l)) as [L1|L1]; [destruct (Z_le_dec (zlen l) (2 * zlen (keys_of l))) as [L2|L2]|].
      * simpl in N'. inv N'. destruct (NT ft) as [Nb Ni]; [simpl; auto|].
        destruct (step_total fs ft l (nn ft)) as (fs1 & E1); auto.
        { intros s Hs. eapply sides_uniform; eauto. eapply Permutation_in; [apply HP|]; eauto. apply Hi. simpl; auto. }
        cbn [foldM]. rewrite E1. cbn [bind]. apply step_ok in E1.
        destruct E1 as (_ & mb & mi & _ & _ & Ab & _ & _ & Ai & _ & Ob' & _ & Oi').
        rewrite ec_add_new in Ab by (now apply (dget_None _ seqb_eq)).
        rewrite ec_add_new in Ai by (now apply (dget_None _ seqb_eq)).
        injection Ab as Ab. injection Ai as Ai.
        apply IH; auto.
        -- intros x Hx. apply Hi. simpl; auto.
        -- intros ft' Hft'. destruct (NT ft') as [Nb' Ni']; [simpl; auto|].
           assert (ft' <> ft) by (intros ->; auto).
           rewrite <- Ab, <- Ai. unfold ec_types. cbn [ec_dict]. rewrite !map_app, !in_app_iff. cbn.
           split; intros [X|[X|[]]]; auto.
        -- intros X. apply A. intros ft' l' [Heq|Hl']; [inv Heq; lia|eauto].
      * cbn [foldM]. rewrite step_refuse by lia. reflexivity.
      * cbn [foldM]. rewrite step_refuse by lia. reflexivity.
Qed.

(** A face type none of whose sides is shared: refused. *)
Lemma no_shared_refused tbl nn c ft :
  ec_wf c -> ec_plain c -> cells_ok tbl c -> uniform_faces tbl nn ->
  has_face_type tbl c ft ->
  (forall nodes, (List.length (sharing nodes (ec_sides tbl ft c)) <= 1)%nat) ->
  ec_create_faces tbl c = Err AssertionError.
Proof.
  intros W P C U Hft H. apply (create_faces_returns tbl nn c W P C U). intros A.
  specialize (A ft _ Hft (keys_representatives _)). destruct A as [A _].
  set (l := ec_sides tbl ft c) in *.
  rewrite <- (zlen_perm _ _ (groups_perm l)) in A. rewrite zlen_flat_sum in A.
  assert (S : zsum (List.map (fun k => zlen (class k l)) (keys_of l)) <= zlen (keys_of l)); [|lia].
  assert (HC : forall k, In k (keys_of l) -> zlen (class k l) <= 1).
  { intros k Hk. apply keys_of_in in Hk. destruct Hk as (s & _ & <-). rewrite <- class_sharing.
    specialize (H (fst s)). unfold zlen. lia. }
  clear A. induction (keys_of l) as [|k ks IH]; [cbn; lia|].
  assert (X := HC k (or_introl eq_refl)). rewrite zlen_cons.
  change (zsum (List.map (fun k => zlen (class k l)) (k :: ks))) with
      (zlen (class k l) + zsum (List.map (fun k => zlen (class k l)) ks)).
  specialize (IH (fun k Hk => HC k (or_intror Hk))). lia.
Qed.

(** Without triples and with a shared side in each face type: accepted. *)
Lemma shared_accepted tbl c :
  no_triple tbl c ->
  (forall ft, has_face_type tbl c ft -> exists nodes, (2 <= List.length (sharing nodes (ec_sides tbl ft c)))%nat) ->
  accepted tbl c.
Proof.
  intros NT HS ft R Hft HR. rewrite <- (keys_count _ _ HR). clear R HR.
  set (l := ec_sides tbl ft c) in *.
  rewrite <- (zlen_perm _ _ (groups_perm l)), zlen_flat_sum.
  assert (HC : forall k, In k (keys_of l) -> 1 <= zlen (class k l) <= 2).
  { intros k Hk. split.
    - apply class_nonempty in Hk. destruct (class k l); [congruence|]. rewrite zlen_cons. pose proof (zlen_nonneg l0). lia.
    - apply keys_of_in in Hk. destruct Hk as (s & _ & <-). rewrite <- class_sharing.
      specialize (NT ft (fst s)). fold l in NT. unfold zlen. lia. }
  destruct (HS ft Hft) as (nodes & Hn). fold l in Hn. rewrite class_sharing in Hn.
  assert (Hin : In (zsort nodes) (keys_of l)).
  { destruct (in_dec (list_eq_dec Z.eq_dec) (zsort nodes) (keys_of l)); auto.
    apply class_nil in n. rewrite n in Hn. simpl in Hn. lia. }
  revert Hin HC. generalize (keys_of l). intros ks.
  assert (G : (forall k, In k ks -> 1 <= zlen (class k l) <= 2) ->
     zlen ks <= zsum (List.map (fun k => zlen (class k l)) ks) <= 2 * zlen ks /\
     (In (zsort nodes) ks -> zlen ks < zsum (List.map (fun k => zlen (class k l)) ks))).
  { induction ks as [|k ks IH]; intros HC; [cbn; split; [lia|tauto]|].
    assert (X := HC k (or_introl eq_refl)). rewrite zlen_cons.
    change (zsum (List.map (fun k => zlen (class k l)) (k :: ks))) with
      (zlen (class k l) + zsum (List.map (fun k => zlen (class k l)) ks)).
    destruct (IH (fun k Hk => HC k (or_intror Hk))) as [I1 I2]. split; [lia|].
    intros [Ek|Hin]; [rewrite <- Ek in Hn; assert (2 <= zlen (class k l)) by (unfold zlen; lia); lia|]. specialize (I2 Hin). lia. }
  intros Hin HC. destruct (G HC) as [G1 G2]. specialize (G2 Hin). lia.
Qed.
