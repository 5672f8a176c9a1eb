(** * Proofs about [reindex_boundaryfaces]. *)
From Coq Require Import Sorted Permutation Lia.
From Verif Require Import PyFacts Conn ConnSpec ConnProofs MergeProofs IndexListSpec IndexListProofs CsrProofs Mesh MeshSpec MeshProofs.

(** ** Assignments through an index list *)
Lemma np_put_total {A} idx : forall (vals l : list A), List.length idx = List.length vals ->
  (forall i, In i idx -> 0 <= i < zlen l) -> exists l', np_put l idx vals = Ok l' /\ List.length l' = List.length l.
Proof.
  induction idx as [|i idx IH]; intros [|v vals] l HL Hb; try discriminate; cbn [np_put]; eauto.
  rewrite py_set_nonneg by (apply Hb; simpl; auto). cbn [bind].
  destruct (IH vals (upd_nat l (Z.to_nat i) v)) as (l' & E & L).
  - simpl in HL; lia.
  - intros j Hj. unfold zlen. rewrite upd_nat_length. apply Hb. simpl; auto.
  - exists l'. split; auto. now rewrite L, upd_nat_length.
Qed.

Lemma np_put_notin {A} idx : forall (vals l l' : list A), 
  (forall i, In i idx -> 0 <= i < zlen l) -> np_put l idx vals = Ok l' ->
  forall j, ~ In (Z.of_nat j) idx -> nth_error l' j = nth_error l j.
Proof.
  induction idx as [|i idx IH]; intros [|v vals] l l' Hb H j Hj; cbn [np_put] in H; try discriminate.
  - congruence.
  - rewrite py_set_nonneg in H by (apply Hb; simpl; auto). cbn [bind] in H.
    rewrite (IH vals (upd_nat l (Z.to_nat i) v) l').
    + rewrite nth_error_upd_nat. destruct (Nat.eqb _ _) eqn:E; auto. exfalso. apply Hj. left.
      apply Nat.eqb_eq in E. specialize (Hb i (or_introl eq_refl)). lia.
    + intros k Hk. unfold zlen. rewrite upd_nat_length. apply Hb. simpl; auto.
    + exact H.
    + intros X. apply Hj. simpl; auto.
Qed.

Lemma np_put_nth {A} idx : forall (vals l l' : list A), 
  (forall i, In i idx -> 0 <= i < zlen l) -> NoDup idx -> np_put l idx vals = Ok l' ->
  forall k i v, nth_error idx k = Some i -> nth_error vals k = Some v -> nth_error l' (Z.to_nat i) = Some v.
Proof.
  induction idx as [|i idx IH]; intros [|v vals] l l' Hb ND H k i' v' Hi Hv; cbn [np_put] in H; try discriminate.
  - destruct k; discriminate.
  - rewrite py_set_nonneg in H by (apply Hb; simpl; auto). cbn [bind] in H. inv ND.
    assert (Hb' : forall i0, In i0 idx -> 0 <= i0 < zlen (upd_nat l (Z.to_nat i) v)).
    { intros j Hj. unfold zlen. rewrite upd_nat_length. apply Hb. simpl; auto. }
    assert (Bi := Hb i (or_introl eq_refl)).
    destruct k as [|k].
    + cbn in Hi, Hv. injection Hi as <-. injection Hv as <-.
      rewrite (np_put_notin idx vals _ l' Hb' H).
      * rewrite nth_error_upd_nat, Nat.eqb_refl.
        replace (Nat.ltb _ _) with true; [reflexivity|]. symmetry. apply Nat.ltb_lt. unfold zlen in Bi. lia.
      * rewrite Z2Nat.id by lia. auto.
    + eapply IH; eauto.
Qed.

Lemma nth_error_ext' {A} (a : list A) : forall b, (forall k, nth_error a k = nth_error b k) -> a = b.
Proof.
  induction a as [|x a IH]; intros [|y b] H; auto; try (specialize (H 0%nat); discriminate).
  f_equal; [specialize (H 0%nat); now injection H|]. apply IH. intros k. apply (H (S k)).
Qed.

(** ** The renumbering plan *)
Lemma all_eq_unique l : np_all_eq (np_unique l) (zsort l) = Ok true ->
  NoDup l \/ exists x, forall y, In y l -> y = x.
Proof.
  unfold np_all_eq. destruct (Nat.eqb _ _) eqn:EL.
  - intros H. injection H as H. apply zlist_eqb_eq in H. left. now apply np_unique_eq_zsort_iff.
  - destruct (np_unique l) as [|x [|x' u]] eqn:EU.
    + destruct (zsort l) as [|y [|]] eqn:ES; try discriminate.
      intros _. assert (In y (np_unique l)) by (apply np_unique_in; apply zsort_in; rewrite ES; simpl; auto).
      rewrite EU in H. destruct H.
    + intros H. injection H as H. right. exists x. rewrite forallb_forall in H. intros y Hy.
      apply (zsort_in y l) in Hy. specialize (H y Hy). lia.
    + destruct (zsort l) as [|y [|]] eqn:ES; try discriminate. intros _.
      right. exists y. intros z Hz. apply (zsort_in z l) in Hz. rewrite ES in Hz. destruct Hz as [|[]]; auto.
Qed.

Lemma py_min_total l : l <> [] -> exists x, py_min l = Ok x.
Proof. destruct l; [congruence|]. intros _. eexists; reflexivity. Qed.
Lemma py_max_total l : l <> [] -> exists x, py_max l = Ok x.
Proof. destruct l; [congruence|]. intros _. eexists; reflexivity. Qed.

(** [num] maps the k-th entry of [old] to [k]. *)
Definition number_of (new : list Z) (i : Z) : Z := nth (Z.to_nat i) new 0.

Lemma reindex_plan_sound old new : reindex_plan old = Ok new ->
  Permutation old (zrange 0 (zlen old)) /\ old <> [].
Proof.
  unfold reindex_plan. intros H.
  apply bind_ok in H. destruct H as (cu & Hu & H).
  apply bind_ok in H. destruct H as (mn & Hmn & H).
  apply bind_ok in H. destruct H as (mx & Hmx & H).
  destruct (cu && (mn =? 0) && (mx <=? zlen old - 1))%bool eqn:EC; [|discriminate].
  apply andb_true_iff in EC. destruct EC as [EC Emx]. apply andb_true_iff in EC. destruct EC as [-> Emn].
  apply Z.eqb_eq in Emn. apply Z.leb_le in Emx. subst mn.
  apply py_min_ok in Hmn. apply py_max_ok in Hmx. destruct Hmn as [Hin0 Hmin]. destruct Hmx as [_ Hmax].
  assert (Hb : forall i, In i old -> 0 <= i < zlen old) by (intros i Hi; specialize (Hmin i Hi); specialize (Hmax i Hi); lia).
  assert (old <> []) by (intros ->; destruct Hin0).
  split; auto.
  apply bind_ok in H. destruct H as (nw & Hput & H).
  apply bind_ok in H. destruct H as (mn' & Hmn' & H).
  apply bind_ok in H. destruct H as (u & Has & H). apply assertb_ok in Has. apply Z.leb_le in Has.
  apply py_min_ok in Hmn'. destruct Hmn' as [_ Hge].
  assert (Hb' : forall i, In i old -> 0 <= i < zlen (repeat (-1) (List.length old))).
  { intros i Hi. unfold zlen. rewrite repeat_length. now apply Hb. }
  assert (Hincl : incl (zrange 0 (zlen old)) old).
  { intros j Hj. apply in_zrange in Hj. destruct (in_dec Z.eq_dec j old) as [|N]; auto. exfalso.
    assert (E : nth_error nw (Z.to_nat j) = nth_error (repeat (-1) (List.length old)) (Z.to_nat j)).
    { eapply np_put_notin; eauto. now rewrite Z2Nat.id by lia. }
    rewrite (nth_error_repeat (-1)) in E by (unfold zlen in Hj; lia).
    apply nth_error_In in E. specialize (Hge _ E). lia. }
  symmetry. apply NoDup_Permutation_bis; auto.
  - apply NoDup_zrange.
  - rewrite zrange_length. unfold zlen. lia.
Qed.

Lemma reindex_plan_total old : Permutation old (zrange 0 (zlen old)) -> old <> [] ->
  exists new, reindex_plan old = Ok new /\ List.length new = List.length old /\
    forall k i, nth_error old k = Some i -> nth_error new (Z.to_nat i) = Some (Z.of_nat k).
Proof.
  intros P Hne. assert (Hb : forall i, In i old -> 0 <= i < zlen old) by (intros i Hi; eapply perm_zrange_bound; eauto).
  assert (ND : NoDup old) by (eapply Permutation_NoDup; [symmetry; exact P|apply NoDup_zrange]).
  unfold reindex_plan.
  replace (np_all_eq (np_unique old) (zsort old)) with (Ok (A:=bool) true).
  2:{ symmetry. apply np_unique_eq_zsort_iff in ND. rewrite ND. unfold np_all_eq. rewrite Nat.eqb_refl.
      now rewrite zlist_eqb_refl. }
  cbn [bind].
  destruct (py_min_total old Hne) as (mn & Hmn). rewrite Hmn. cbn [bind].
  destruct (py_max_total old Hne) as (mx & Hmx). rewrite Hmx. cbn [bind].
  apply py_min_ok in Hmn. apply py_max_ok in Hmx.
  assert (mn = 0).
  { assert (L : 0 < zlen old) by (destruct old; [congruence|]; rewrite zlen_cons; pose proof (zlen_nonneg old); lia).
    assert (In 0 old) by (apply (Permutation_in _ (Permutation_sym P)); apply in_zrange; lia).
    assert (mn <= 0) by (now apply Hmn). assert (0 <= mn) by (now apply Hb, Hmn). lia. }
  subst mn. assert (mx < zlen old) by (now apply Hb, Hmx).
  replace (mx <=? zlen old - 1) with true by (symmetry; apply Z.leb_le; lia).
  cbn [andb Z.eqb].
  assert (Hb' : forall i, In i old -> 0 <= i < zlen (repeat (-1) (List.length old))).
  { intros i Hi. unfold zlen. rewrite repeat_length. now apply Hb. }
  destruct (np_put_total old (zrange 0 (zlen old)) (repeat (-1) (List.length old))) as (nw & Hput & HL).
  - rewrite zrange_length. unfold zlen. lia.
  - exact Hb'.
  - rewrite Hput. cbn [bind]. rewrite repeat_length in HL.
    assert (Hnth : forall k i, nth_error old k = Some i -> nth_error nw (Z.to_nat i) = Some (Z.of_nat k)).
    { intros k i Hk. eapply np_put_nth; eauto. rewrite nth_error_zrange; [f_equal; lia|].
      assert (nth_error old k <> None) by congruence. apply nth_error_Some in H0. unfold zlen. lia. }
    assert (Hge : forall y, In y nw -> 0 <= y).
    { intros y Hy. apply In_nth_error in Hy. destruct Hy as (j & Hj).
      assert (Hjl : nth_error nw j <> None) by congruence. apply nth_error_Some in Hjl.
      assert (In (Z.of_nat j) old) by (apply (Permutation_in _ (Permutation_sym P)); apply in_zrange; unfold zlen; lia).
      apply In_nth_error in H0. destruct H0 as (k & Hk). specialize (Hnth _ _ Hk). rewrite Nat2Z.id in Hnth.
      rewrite Hj in Hnth. injection Hnth as ->. lia. }
    assert (nw <> []) by (intros ->; destruct old; [congruence|discriminate]).
    destruct (py_min_total nw H0) as (mn' & Hmn'). rewrite Hmn'. cbn [bind].
    apply py_min_ok in Hmn'. destruct Hmn' as [Hin' _].
    replace (0 <=? mn') with true by (symmetry; apply Z.leb_le; auto). cbn [assertb bind]. exists nw. auto.
Qed.

Lemma take_number new l : (forall i, In i l -> 0 <= i < zlen new) -> np_take new l = Ok (List.map (number_of new) l).
Proof.
  intros H. unfold np_take. apply mapM_map. intros i Hi. specialize (H i Hi).
  apply py_get_nonneg; [lia|]. unfold number_of. apply nth_error_nth'. unfold zlen in H. lia.
Qed.

Lemma number_of_old old new : List.length new = List.length old ->
  (forall k i, nth_error old k = Some i -> nth_error new (Z.to_nat i) = Some (Z.of_nat k)) ->
  List.map (number_of new) old = zrange 0 (zlen old).
Proof.
  intros HL H. apply nth_error_ext'. intros k. rewrite nth_error_map.
  destruct (nth_error old k) as [i|] eqn:E; cbn.
  - rewrite nth_error_zrange; [|assert (X : nth_error old k <> None) by congruence; apply nth_error_Some in X; unfold zlen; lia].
    unfold number_of. specialize (H k i E). rewrite (nth_error_nth _ _ _ H). reflexivity.
  - symmetry. apply nth_error_None. rewrite zrange_length. apply nth_error_None in E. unfold zlen. lia.
Qed.

(** ** Marks *)
Lemma app_eq_length {A} (a b c d : list A) : List.length a = List.length c -> a ++ b = c ++ d -> a = c /\ b = d.
Proof.
  revert c; induction a as [|x a IH]; intros [|y c] HL H; try discriminate; auto.
  injection H as -> H. injection HL as HL. destruct (IH c HL H). subst; auto.
Qed.

Lemma segment_head (l : list Z) rest s n : s <= n -> l ++ rest = zrange s n ->
  l = zrange s (s + zlen l) /\ rest = zrange (s + zlen l) n /\ s + zlen l <= n.
Proof.
  intros Hsn H. assert (HL : zlen l + zlen rest = n - s) by (rewrite <- zlen_app, H, zlen_zrange; lia).
  pose proof (zlen_nonneg l). pose proof (zlen_nonneg rest).
  rewrite (zrange_app s (s + zlen l) n) in H by lia. apply app_eq_length in H.
  - destruct H. repeat split; auto; lia.
  - rewrite zrange_length. unfold zlen. lia.
Qed.

Lemma compress_zrange s n : s < n -> il_compress (ILlist (zrange s n)) = Ok (ILrange s (n - 1)).
Proof.
  intros H. rewrite (zrange_cons s n) by lia. rewrite compress_list_cons. rewrite <- zrange_cons by lia.
  rewrite zlen_zrange by lia. replace (s + (n - s)) with n by lia. rewrite zlist_eqb_refl.
  reflexivity.
Qed.

Definition new_mark_of {F} (num : Z -> Z) (b : mark F) : mark F :=
  Mark F (mk_name b) (mk_geodim b) (mk_type b)
    (match List.map num (mk_entries b) with
     | [] => Some (ILlist [])
     | i :: l => Some (ILrange i (i + zlen l)) end) (mk_perio b).

Lemma reindex_mark_ok {F} new (b : mark F) s :
  face_or_bdface b = true -> mark_ok b -> mk_entries b <> [] ->
  (forall i, In i (mk_entries b) -> 0 <= i < zlen new) ->
  List.map (number_of new) (mk_entries b) = zrange s (s + zlen (mk_entries b)) ->
  reindex_mark new b = (Ok tt, new_mark_of (number_of new) b) /\
  mk_index (new_mark_of (number_of new) b) = Some (ILrange s (s + zlen (mk_entries b) - 1)).
Proof.
  intros Hg Hok Hne Hb Hz. assert (L : 0 < zlen (mk_entries b)).
  { destruct (mk_entries b); [congruence|]. rewrite zlen_cons. pose proof (zlen_nonneg l). lia. }
  assert (EI : mk_index (new_mark_of (number_of new) b) = Some (ILrange s (s + zlen (mk_entries b) - 1))).
  { unfold new_mark_of. cbn [mk_index]. rewrite Hz. rewrite zrange_cons by lia.
    f_equal. f_equal. rewrite zlen_zrange by lia. lia. }
  split; auto. unfold reindex_mark. rewrite mark_ok_list by auto. cbn [bind]. rewrite take_number by auto.
  unfold set_index. destruct (mk_geodim b) eqn:Eg.
  - rewrite Hz, compress_zrange by lia. unfold new_mark_of in *. cbn [mk_index] in EI. rewrite EI, Eg. reflexivity.
  - unfold face_or_bdface in Hg. rewrite Eg in Hg. discriminate.
Qed.

Lemma marks_reindex {F} new (bs : dict string (mark F)) : forall s n,
  (forall k b, In (k, b) bs -> face_or_bdface b = true /\ mark_ok b /\ mk_entries b <> []) ->
  (forall i, In i (flat_map (fun kb => mk_entries (snd kb)) bs) -> 0 <= i < zlen new) -> s <= n ->
  List.map (number_of new) (flat_map (fun kb => mk_entries (snd kb)) bs) = zrange s n ->
  each_mark (reindex_mark new) bs = (Ok tt, List.map (fun kb => (fst kb, new_mark_of (number_of new) (snd kb))) bs) /\
  contiguous s (List.map (fun kb => new_mark_of (number_of new) (snd kb)) bs) /\
  Forall (fun kb => mk_entries (new_mark_of (number_of new) (snd kb)) = List.map (number_of new) (mk_entries (snd kb))) bs.
Proof.
  induction bs as [|[k b] bs IH]; intros s n Hm Hb Hsn Hz; [cbn; auto|].
  cbn [flat_map snd] in *. rewrite map_app in Hz. apply segment_head in Hz; auto.
  destruct Hz as (Z1 & Z2 & Z3). rewrite zlen_map in Z1, Z2, Z3.
  destruct (Hm k b (or_introl eq_refl)) as (M1 & M2 & M3).
  destruct (reindex_mark_ok new b s M1 M2 M3) as [R1 R2]; auto.
  { intros i Hi. apply Hb. apply in_or_app; auto. }
  destruct (IH (s + zlen (mk_entries b)) n) as (I1 & I2 & I3); auto.
  { intros k' b' H. apply (Hm k' b'). simpl; auto. }
  { intros i Hi. apply Hb. apply in_or_app; auto. }
  split; [|split].
  - cbn [each_mark]. rewrite R1, I1. reflexivity.
  - cbn [List.map contiguous snd]. exists (s + zlen (mk_entries b) - 1). split; auto. split.
    + destruct (mk_entries b); [congruence|]. rewrite zlen_cons. pose proof (zlen_nonneg l). lia.
    + replace (s + zlen (mk_entries b) - 1 + 1) with (s + zlen (mk_entries b)) by lia. exact I2.
  - constructor; auto. cbn [snd]. unfold mk_entries at 1. rewrite R2. cbn [entries]. rewrite Z1. f_equal. lia.
Qed.

(** ** Faces *)
Definition new_ed_of (num : Z -> Z) (ed : edict) : edict := ED (ILlist (List.map num (entries (ed_index ed)))) (ed_e2n ed).

Lemma reindex_types_ok new (d : dict string edict) :
  (forall t ed, In (t, ed) d -> ed_index ed <> ILnone /\ il_boxed (ed_index ed) = false /\
                                forall i, In i (entries (ed_index ed)) -> 0 <= i < zlen new) ->
  reindex_types new d = (Ok tt, List.map (fun kv => (fst kv, new_ed_of (number_of new) (snd kv))) d).
Proof.
  induction d as [|[t ed] d IH]; intros H; [reflexivity|]. cbn [reindex_types List.map fst snd].
  destruct (H t ed (or_introl eq_refl)) as (A & B & C). rewrite il_list_entries by auto. cbn [bind].
  rewrite take_number by auto. rewrite IH; [reflexivity|]. intros t' ed' Hin. apply (H t' ed'). simpl; auto.
Qed.

Lemma in_ec_numbers c t ed i : In (t, ed) (ec_dict c) -> In i (entries (ed_index ed)) -> In i (ec_numbers c).
Proof. intros A B. unfold ec_numbers. apply in_flat_map. exists (t, ed). auto. Qed.

Lemma pairs_of_renum num n d t :
  pairs_of_type (EC n (List.map (fun kv => (fst kv, new_ed_of num (snd kv))) d)) t =
  List.map (fun p => (num (fst p), snd p)) (pairs_of_type (EC n d) t).
Proof.
  unfold pairs_of_type. cbn [ec_dict]. induction d as [|[t' ed] d IH]; auto.
  cbn [List.map flat_map fst snd]. rewrite map_app, IH. f_equal. destruct (String.eqb t t'); auto.
  unfold ed_pairs, new_ed_of. cbn [ed_index ed_e2n entries]. rewrite combine_map_l.
  apply map_ext. intros [a b]. reflexivity.
Qed.

Lemma renum_wf num c : ec_wf c ->
  ec_wf (EC (ec_nelem c) (List.map (fun kv => (fst kv, new_ed_of num (snd kv))) (ec_dict c))).
Proof.
  intros W. constructor.
  - unfold ec_types. cbn [ec_dict]. rewrite map_map. apply (ecwf_keys _ W).
  - cbn [ec_dict]. intros t ed Hin. apply in_map_iff in Hin. destruct Hin as ((t', ed') & E & Hin). injection E as <- <-.
    destruct (ecwf_eds _ W t' ed' Hin) as [E1 E2 E3]. constructor; unfold new_ed_of; cbn [ed_index ed_e2n entries]; auto; [discriminate|].
    now rewrite map_length.
  - cbn [ec_nelem]. rewrite (ecwf_nelem _ W). unfold ec_pairs. cbn [ec_dict]. clear W.
    induction (ec_dict c) as [|[t ed] d IH]; auto. cbn [List.map flat_map fst snd]. rewrite !zlen_app, IH. f_equal.
    unfold ed_pairs, new_ed_of, zlen. cbn [ed_index ed_e2n entries]. now rewrite !combine_length, map_length.
Qed.
Lemma renum_plain num n (d : dict string edict) : ec_plain (EC n (List.map (fun kv => (fst kv, new_ed_of num (snd kv))) d)).
Proof.
  intros t ed Hin. cbn [ec_dict] in Hin. apply in_map_iff in Hin. destruct Hin as ((t', ed') & E & Hin). now injection E as <- <-.
Qed.
Lemma renum_numbers num n n' (d : dict string edict) :
  ec_numbers (EC n (List.map (fun kv => (fst kv, new_ed_of num (snd kv))) d)) = List.map num (ec_numbers (EC n' d)).
Proof.
  unfold ec_numbers. cbn [ec_dict]. induction d as [|[t ed] d IH]; auto. cbn [List.map flat_map fst snd]. now rewrite map_app, IH.
Qed.

(** ** C19 *)
Theorem reindex_ok {F} (m : mesh F) f mt :
  face_marked m f -> f_f2c f = Some (Some mt) -> m_cols mt = Some 2%nat -> zlen (m_rows mt) = ec_nelem (f_f2n f) ->
  (forall k b, In (k, b) (me_bocos m) -> mk_entries b <> []) -> 0 < ec_nelem (f_f2n f) ->
  Permutation (ec_numbers (f_f2n f)) (zrange 0 (ec_nelem (f_f2n f))) ->
  Permutation (all_marked m) (zrange 0 (ec_nelem (f_f2n f))) ->
  exists num m' f', reindex_boundaryfaces m = (Ok tt, m') /\ renumbered num (ec_nelem (f_f2n f)) m m' f f'.
Proof.
  intros FM Hf2c Hcols Hrows Hne Hpos PN PM. set (nb := ec_nelem (f_f2n f)) in *.
  assert (HLm : zlen (all_marked m) = nb) by (rewrite (zlen_perm _ _ PM), zlen_zrange; lia).
  assert (HneM : all_marked m <> []) by (intros X; rewrite X, zlen_nil in HLm; lia).
  destruct (reindex_plan_total (all_marked m)) as (new & Hplan & HLn & Hnth); auto; [now rewrite HLm|].
  assert (HLnew : zlen new = nb) by (unfold zlen in *; lia).
  unfold reindex_boundaryfaces. rewrite (fm_bnd _ _ FM).
  replace (forallb _ (me_bocos m)) with true.
  2:{ symmetry. apply forallb_forall. intros [k b] Hin. apply (fm_marks _ _ FM k b Hin). }
  cbn [negb]. rewrite list_boco_index_ok by (intros k b Hin; apply (fm_marks _ _ FM k b Hin)).
  cbn [bind]. rewrite Hplan. cbn [bind].
  assert (Hold := number_of_old _ _ HLn Hnth). rewrite HLm in Hold.
  destruct (marks_reindex new (me_bocos m) 0 nb) as (M1 & M2 & M3).
  { intros k b Hin. destruct (fm_marks _ _ FM k b Hin). repeat split; auto. eapply Hne; eauto. }
  { intros i Hi. rewrite HLnew. eapply perm_zrange_bound; [exact PM|exact Hi]. }
  { lia. }
  { exact Hold. }
  rewrite M1. rewrite reindex_types_ok.
  2:{ intros t ed Hin. split; [apply (ecwf_eds _ (fm_wf _ _ FM) t ed Hin)|].
      split; [apply (fm_plain _ _ FM t ed Hin)|]. intros i Hi. rewrite HLnew.
      eapply perm_zrange_bound; [exact PN|]. eapply in_ec_numbers; eauto. }
  unfold reindex_f2c. rewrite Hf2c.
  assert (HT : exists rows, np_take (m_rows mt) (all_marked m) = Ok rows).
  { unfold np_take. exists (List.map (fun i => nth (Z.to_nat i) (m_rows mt) []) (all_marked m)).
    apply mapM_map. intros i Hi. assert (0 <= i < nb) by (eapply perm_zrange_bound; eauto).
    apply py_get_nonneg; [lia|]. apply nth_error_nth'. unfold zlen in *. lia. }
  destruct HT as (rows & HT). rewrite HT. cbn [bind]. unfold ii_set. cbn [m_cols]. rewrite Hcols. cbn [bind].
  exists (number_of new). eexists. eexists. split; [reflexivity|].
  assert (Bij : Permutation (List.map (number_of new) (zrange 0 nb)) (zrange 0 nb)).
  { rewrite <- Hold at 2. apply Permutation_map. symmetry. exact PM. }
  constructor.
  - exact Bij.
  - cbn [with_faces me_faces]. apply (dget_dset_eq _ seqb_eq).
  - intros k N. cbn [with_faces me_faces]. now apply (dget_dset_neq _ seqb_eq).
  - intros t. cbn [f_f2n]. rewrite pairs_of_renum. destruct (f_f2n f); reflexivity.
  - cbn [f_f2n]. unfold ec_types. cbn [ec_dict]. rewrite map_map. reflexivity.
  - reflexivity.
  - cbn [f_f2n]. split; [apply renum_wf, (fm_wf _ _ FM)|apply renum_plain].
  - cbn [f_f2n]. rewrite (renum_numbers _ _ (ec_nelem (f_f2n f))). destruct (f_f2n f); reflexivity.
  - cbn [f_f2n ec_dict]. rewrite map_map. reflexivity.
  - exists mt. eexists. split; [exact Hf2c|]. split; [reflexivity|]. split; [cbn; now rewrite Hcols|].
    cbn [m_rows]. split.
    + apply mapM_ok_len in HT. unfold zlen in *. lia.
    + intros i Hi. assert (Hin : In i (all_marked m)) by (apply (Permutation_in _ (Permutation_sym PM)); apply in_zrange; lia).
      apply In_nth_error in Hin. destruct Hin as (k & Hk). specialize (Hnth k i Hk).
      unfold number_of. rewrite (nth_error_nth _ _ _ Hnth). rewrite Nat2Z.id.
      apply mapM_ok_Forall2 in HT.
      assert (Hkl : (k < List.length rows)%nat).
      { apply Forall2_length' in HT. rewrite <- HT. apply nth_error_Some. congruence. }
      apply nth_error_Some in Hkl. destruct (nth_error rows k) as [r|] eqn:Er; [|congruence].
      assert (X := Forall2_nth_error _ _ _ _ _ _ HT Hk Er). cbn in X. apply py_get_nonneg in X; [|lia]. now symmetry.
  - cbn [with_faces with_bocos me_bocos]. clear - M3. induction M3 as [|[k b] bs H M3 IH]; cbn [List.map]; constructor; auto.
    cbn [fst snd] in *. repeat split; auto.
  - cbn [with_faces with_bocos me_bocos]. rewrite map_map. exact M2.
  - repeat split.
Qed.

(** ** C20 *)
Lemma reindex_refuses {F} (m : mesh F) f : face_marked m f ->
  ~ (Permutation (all_marked m) (zrange 0 (zlen (all_marked m))) /\ all_marked m <> []) ->
  exists e, reindex_boundaryfaces m = (Err e, m).
Proof.
  intros FM H. unfold reindex_boundaryfaces. rewrite (fm_bnd _ _ FM).
  destruct (forallb _ (me_bocos m)); cbn [negb]; [|eauto].
  rewrite list_boco_index_ok by (intros k b Hin; apply (fm_marks _ _ FM k b Hin)). cbn [bind].
  destruct (reindex_plan (all_marked m)) as [new|e] eqn:E; cbn [bind]; eauto.
  exfalso. apply H. now apply reindex_plan_sound in E.
Qed.

Lemma reindex_refuses_nodemark {F} (m : mesh F) k b :
  In (k, b) (me_bocos m) -> face_or_bdface b = false -> reindex_boundaryfaces m = (Err AssertionError, m).
Proof.
  intros Hin Hb. unfold reindex_boundaryfaces. destruct (dget _ _ _); auto.
  replace (forallb _ (me_bocos m)) with false; auto.
  symmetry. destruct (forallb _ (me_bocos m)) eqn:E; auto. rewrite forallb_forall in E.
  specialize (E _ Hin). cbn in E. congruence.
Qed.

(** Marks after [each_mark (reindex_mark new)], whatever happens, keep everything but their numbers. *)
Lemma each_reindex_shape {F} new (bs bs' : dict string (mark F)) r :
  each_mark (reindex_mark new) bs = (r, bs') ->
  Forall2 (fun kb kb' => fst kb' = fst kb /\ mk_name (snd kb') = mk_name (snd kb)) bs bs'.
Proof.
  revert bs' r; induction bs as [|[k b] bs IH]; intros bs' r H; cbn [each_mark] in H.
  - injection H as <- <-. constructor.
  - assert (Hn : mk_name (snd (reindex_mark new b)) = mk_name b).
    { unfold reindex_mark. destruct (bind _ _); auto. unfold set_index. destruct (mk_geodim b); auto.
      destruct (il_compress _); auto. }
    destruct (reindex_mark new b) as [[u|e] b'] eqn:E.
    + destruct (each_mark (reindex_mark new) bs) as [r' bs''] eqn:E'. injection H as <- <-. constructor; eauto.
    + injection H as <- <-. constructor; auto. clear. induction bs; constructor; auto.
Qed.

Lemma each_reindex_empty {F} new (bs : dict string (mark F)) k0 b0 :
  (forall k b, In (k, b) bs -> face_or_bdface b = true /\ mark_ok b /\ forall i, In i (mk_entries b) -> 0 <= i < zlen new) ->
  In (k0, b0) bs -> mk_entries b0 = [] ->
  fst (each_mark (reindex_mark new) bs) = Err IndexError.
Proof.
  induction bs as [|[k b] bs IH]; intros H Hin H0; [destruct Hin|].
  destruct (H k b (or_introl eq_refl)) as (A & B & C).
  cbn [each_mark]. unfold reindex_mark at 1. rewrite mark_ok_list by auto. cbn [bind].
  rewrite take_number by auto. unfold set_index.
  destruct (mk_geodim b) as [g|] eqn:Eg; [|unfold face_or_bdface in A; rewrite Eg in A; discriminate].
  destruct (mk_entries b) as [|i l] eqn:El.
  - reflexivity.
  - destruct Hin as [Hin|Hin]; [injection Hin as -> ->; congruence|].
    cbn [List.map]. rewrite compress_list_cons. destruct (zlist_eqb _ _) eqn:Ez;
      specialize (IH (fun k b X => H k b (or_intror X)) Hin H0);
      destruct (each_mark _ bs); exact IH.
Qed.

(** A mark without faces makes it fail, with no face connectivity touched. *)
Lemma reindex_empty_mark {F} (m : mesh F) f k b : face_marked m f -> In (k, b) (me_bocos m) -> mk_entries b = [] ->
  exists e m', reindex_boundaryfaces m = (Err e, m') /\ me_faces m' = me_faces m /\
     (Permutation (all_marked m) (zrange 0 (zlen (all_marked m))) -> all_marked m <> [] -> e = IndexError).
Proof.
  intros FM Hin H0.
  destruct (reindex_plan (all_marked m)) as [new|e] eqn:E.
  - destruct (reindex_plan_sound _ _ E) as [P Hne].
    destruct (reindex_plan_total _ P Hne) as (new' & E' & HL & _). rewrite E in E'. injection E' as <-.
    unfold reindex_boundaryfaces. rewrite (fm_bnd _ _ FM).
    replace (forallb _ (me_bocos m)) with true.
    2:{ symmetry. apply forallb_forall. intros [k' b'] Hin'. apply (fm_marks _ _ FM k' b' Hin'). }
    cbn [negb]. rewrite list_boco_index_ok by (intros k' b' Hin'; apply (fm_marks _ _ FM k' b' Hin')).
    cbn [bind]. rewrite E. cbn [bind].
    assert (HE := each_reindex_empty new (me_bocos m) k b).
    destruct (each_mark (reindex_mark new) (me_bocos m)) as [r bs]. cbn [fst] in HE.
    rewrite HE; auto.
    + eexists. eexists. split; [reflexivity|]. split; auto.
    + intros k' b' Hin'. destruct (fm_marks _ _ FM k' b' Hin') as [A B]. split; auto. split; auto.
      intros i Hi. replace (zlen new) with (zlen (all_marked m)) by (unfold zlen; lia).
      eapply perm_zrange_bound; [exact P|]. apply all_marked_iff. exists k', b'. auto.
  - destruct (reindex_refuses m f FM) as (e' & He').
    + intros [P Hne]. destruct (reindex_plan_total _ P Hne) as (new' & E' & _). congruence.
    + exists e', m. split; auto. split; auto. intros P Hne.
      destruct (reindex_plan_total _ P Hne) as (new' & E' & _). congruence.
Qed.

Lemma reindex_types_bad new d t ed i :
  (forall t ed, In (t, ed) d -> ed_index ed <> ILnone /\ il_boxed (ed_index ed) = false) ->
  In (t, ed) d -> In i (entries (ed_index ed)) -> zlen new <= i ->
  fst (reindex_types new d) = Err IndexError.
Proof.
  induction d as [|[t' ed'] d IH]; intros H Hin Hi Hz; [destruct Hin|]. cbn [reindex_types].
  destruct (H t' ed' (or_introl eq_refl)) as (A & B). rewrite il_list_entries by auto. cbn [bind].
  destruct (np_take new (entries (ed_index ed'))) as [l|e] eqn:E.
  - destruct Hin as [Hin|Hin].
    + injection Hin as -> ->. exfalso. unfold np_take in E. apply mapM_ok_Forall2 in E.
      apply In_nth_error in Hi. destruct Hi as (k & Hk).
      assert (Hkl : (k < List.length l)%nat).
      { apply Forall2_length' in E. rewrite <- E. apply nth_error_Some. congruence. }
      apply nth_error_Some in Hkl. destruct (nth_error l k) as [r|] eqn:Er; [|congruence].
      assert (X := Forall2_nth_error _ _ _ _ _ _ E Hk Er). cbn in X. apply py_get_ok_range in X. lia.
    + specialize (IH (fun t ed X => H t ed (or_intror X)) Hin Hi Hz). destruct (reindex_types new d). exact IH.
  - cbn [fst]. f_equal. clear - E. unfold np_take in E. revert E. generalize (entries (ed_index ed')).
    induction l as [|x l IH]; cbn [mapM]; [discriminate|]. destruct (py_get new x) eqn:Ex; cbn [bind].
    + destruct (mapM (py_get new) l) eqn:El; cbn [bind]; [discriminate|]. intros X. injection X as <-. now apply IH.
    + intros X. injection X as <-. eapply py_get_err; eauto.
Qed.

(** Some boundary faces unmarked: IndexError, after the marks have been renumbered; the face-to-cell
    table is unchanged. *)
Lemma reindex_unmarked {F} (m : mesh F) f i :
  face_marked m f -> (forall k b, In (k, b) (me_bocos m) -> mk_entries b <> []) ->
  Permutation (all_marked m) (zrange 0 (zlen (all_marked m))) -> all_marked m <> [] ->
  In i (ec_numbers (f_f2n f)) -> zlen (all_marked m) <= i ->
  exists m' f', reindex_boundaryfaces m = (Err IndexError, m') /\ contiguous 0 (List.map snd (me_bocos m')) /\
     dget String.eqb "boundary" (me_faces m') = Some f' /\ f_f2c f' = f_f2c f.
Proof.
  intros FM Hne P HneM Hi Hz. 
  destruct (reindex_plan_total (all_marked m)) as (new & Hplan & HLn & Hnth); auto.
  assert (HLnew : zlen new = zlen (all_marked m)) by (unfold zlen in *; lia).
  unfold reindex_boundaryfaces. rewrite (fm_bnd _ _ FM).
  replace (forallb _ (me_bocos m)) with true.
  2:{ symmetry. apply forallb_forall. intros [k b] Hin. apply (fm_marks _ _ FM k b Hin). }
  cbn [negb]. rewrite list_boco_index_ok by (intros k b Hin; apply (fm_marks _ _ FM k b Hin)).
  cbn [bind]. rewrite Hplan. cbn [bind].
  assert (Hold := number_of_old _ _ HLn Hnth).
  destruct (marks_reindex new (me_bocos m) 0 (zlen (all_marked m))) as (M1 & M2 & M3).
  { intros k b Hin. destruct (fm_marks _ _ FM k b Hin). repeat split; auto. eapply Hne; eauto. }
  { intros j Hj. rewrite HLnew. eapply perm_zrange_bound; [exact P|exact Hj]. }
  { apply zlen_nonneg. }
  { exact Hold. }
  rewrite M1. apply in_flat_map in Hi. destruct Hi as ((t & ed) & Hed & Hi). cbn [snd] in Hi.
  assert (HB := reindex_types_bad new (ec_dict (f_f2n f)) t ed i).
  destruct (reindex_types new (ec_dict (f_f2n f))) as [r d]. cbn [fst] in HB. rewrite HB; auto.
  - eexists. eexists. split; [reflexivity|]. split.
    + cbn [with_faces with_bocos me_bocos]. rewrite map_map. exact M2.
    + cbn [with_faces me_faces]. split; [apply (dget_dset_eq _ seqb_eq)|reflexivity].
  - intros t' ed' Hin. split; [apply (ecwf_eds _ (fm_wf _ _ FM) t' ed' Hin)|apply (fm_plain _ _ FM t' ed' Hin)].
  - lia.
Qed.
