(** * Proofs about meshes. *)
From Coq Require Import Sorted Permutation Lia.
From Verif Require Import PyFacts Conn ConnSpec ConnProofs MergeProofs IndexListSpec IndexListProofs CsrProofs Mesh MeshSpec.

Lemma each_mark_ok {F} (f : mark F -> res unit * mark F) (g : mark F -> mark F) bs :
  (forall k b, In (k, b) bs -> f b = (Ok tt, g b)) ->
  each_mark f bs = (Ok tt, List.map (fun kb => (fst kb, g (snd kb))) bs).
Proof.
  induction bs as [|[k b] bs IH]; intros H; cbn [each_mark List.map fst snd]; auto.
  rewrite (H k b) by (simpl; auto). rewrite IH; auto. intros k' b' H'. apply (H k'). simpl; auto.
Qed.

Lemma mark_ok_list {F} (b : mark F) : mark_ok b -> mark_list b = Ok (mk_entries b).
Proof.
  intros (il & E & Hn & Hb). unfold mark_list, mk_entries. rewrite E. now apply il_list_entries.
Qed.

Lemma subsequence_filter {A} (p : A -> bool) l : subsequence (filter p l) l.
Proof. induction l as [|a l IH]; simpl; [constructor|]. destruct (p a); constructor; auto. Qed.
Lemma subsequence_map {A B} (f : A -> B) a b : subsequence a b -> subsequence (List.map f a) (List.map f b).
Proof. induction 1; simpl; constructor; auto. Qed.

(** ** C16 *)
Lemma face_in_nodelist_iff ns face : face_in_nodelist ns face = true <-> forall n, In n face -> In n ns.
Proof.
  unfold face_in_nodelist. rewrite forallb_forall. split; intros H n Hn; specialize (H n Hn); now apply zmem_in.
Qed.

Lemma plain_noboxed c : ec_plain c -> existsb (fun '(_, ed) => il_boxed (ed_index ed)) (ec_dict c) = false.
Proof.
  intros P. destruct (existsb _ (ec_dict c)) eqn:E; auto. apply existsb_exists in E.
  destruct E as ((t, ed) & Hin & H). rewrite (P t ed Hin) in H. discriminate.
Qed.

Lemma set_node_to_face_ok {F} (m : mesh F) f :
  dget String.eqb "boundary" (me_faces m) = Some f -> ec_wf (f_f2n f) -> ec_plain (f_f2n f) ->
  (forall k b, In (k, b) (me_bocos m) -> nodebased b = true -> mark_ok b) ->
  exists m', bocomarks_set_node_to_face m = (Ok tt, m') /\ same_but_bocos m m' /\
             Forall2 (face_mark_of (f_f2n f)) (me_bocos m) (me_bocos m').
Proof.
  intros Hf W P HM. unfold bocomarks_set_node_to_face. rewrite Hf, (ec_tuples_ok _ W).
  set (g := fun b : mark F => if nodebased b then
     Mark F (mk_name b) (Some Gbdface) (mk_type b)
       (Some (ILlist (List.map fst (filter (fun t => face_in_nodelist (mk_entries b) (snd t)) (ec_pairs (f_f2n f))))))
       (mk_perio b) else b).
  rewrite (each_mark_ok _ g).
  2:{ intros k b Hin. unfold set_node_to_face, g. destruct (nodebased b) eqn:En; auto.
      rewrite (mark_ok_list b (HM k b Hin En)). rewrite plain_noboxed by auto. reflexivity. }
  eexists. split; [reflexivity|]. split; [constructor; reflexivity|].
  cbn [with_bocos me_bocos]. clear HM. induction (me_bocos m) as [|[k b] bs IH]; cbn [List.map]; constructor; auto.
  unfold face_mark_of, g. cbn [fst snd]. split; [reflexivity|].
  change (on_nodes b) with (nodebased b); destruct (nodebased b) eqn:En; split; intros H; try discriminate; auto.
  cbn [mk_name mk_type mk_perio mk_geodim]. repeat (split; [reflexivity|]). split.
  { eexists. split; [reflexivity|split; [discriminate|reflexivity]]. }
  unfold spans. cbn [mk_entries mk_index entries]. split.
  - rewrite <- (ec_numbers_pairs _ W). apply subsequence_map. apply subsequence_filter.
  - intros ND i. unfold mk_entries at 1. cbn [mk_index entries]. rewrite in_map_iff. split.
    + intros ((i' & ns) & Ei & Hin). cbn in Ei. subst i'. apply filter_In in Hin. destruct Hin as [Hin Hx].
      exists ns. split; auto. now apply face_in_nodelist_iff.
    + intros (ns & Hin & Hns). exists (i, ns). split; auto. apply filter_In. split; auto.
      now apply face_in_nodelist_iff.
Qed.

Lemma set_node_to_face_noboundary {F} (m : mesh F) :
  dget String.eqb "boundary" (me_faces m) = None -> bocomarks_set_node_to_face m = (Err AssertionError, m).
Proof. intros H. unfold bocomarks_set_node_to_face. now rewrite H. Qed.

(** ** C17 *)
Lemma list_boco_index_ok {F} (m : mesh F) :
  (forall k b, In (k, b) (me_bocos m) -> mark_ok b) -> list_boco_index m = Ok (all_marked m).
Proof.
  intros H. unfold list_boco_index, all_marked.
  rewrite (mapM_map _ (fun kb => mk_entries (snd kb))).
  - cbn [bind]. now rewrite concat_map_flat_map.
  - intros [k b] Hin. apply mark_ok_list. eauto.
Qed.

Lemma all_marked_iff {F} (m : mesh F) i : In i (all_marked m) <-> marked m i.
Proof.
  unfold all_marked, marked. rewrite in_flat_map. split.
  - intros ((k, b) & Hin & Hi). eauto.
  - intros (k & b & Hin & Hi). exists (k, b). auto.
Qed.

Lemma all_index_ok c : ec_wf c -> ec_plain c -> ec_all_index c = Ok (ec_numbers c).
Proof.
  intros W P. unfold ec_all_index. rewrite (mapM_map _ (fun kv => entries (ed_index (snd kv)))).
  - cbn [bind]. now rewrite concat_map_flat_map.
  - intros [t ed] Hin. apply il_list_entries; [apply (ecwf_eds _ W t ed Hin)|apply (P t ed Hin)].
Qed.

Lemma make_unmarked_eq {F} enum name (m : mesh F) f : face_marked m f ->
  make_unmarked_BC enum name m =
  match enum (filter (fun i => negb (zmem i (all_marked m))) (ec_numbers (f_f2n f))) with
  | [] => (Ok [], m)
  | missing => (Ok missing, add_boco m (unmarked_mark name missing))
  end.
Proof.
  intros H. unfold make_unmarked_BC. rewrite (fm_bnd _ _ H).
  replace (forallb _ (me_bocos m)) with true.
  2:{ symmetry. apply forallb_forall. intros [k b] Hin. apply (fm_marks _ _ H k b Hin). }
  rewrite list_boco_index_ok by (intros k b Hin; apply (fm_marks _ _ H k b Hin)).
  rewrite all_index_ok by (apply (fm_wf _ _ H) || apply (fm_plain _ _ H)). reflexivity.
Qed.

Lemma missing_iff {F} enum (m : mesh F) f i : set_enum enum ->
  In i (enum (filter (fun i => negb (zmem i (all_marked m))) (ec_numbers (f_f2n f)))) <->
  In i (ec_numbers (f_f2n f)) /\ ~ marked m i.
Proof.
  intros E. rewrite (proj2 (E _)), filter_In, negb_true_iff. rewrite <- all_marked_iff, <- (zmem_in i (all_marked m)).
  destruct (zmem i (all_marked m)); intuition congruence.
Qed.

Lemma add_mark_face_marked {F} (m : mesh F) f name l :
  face_marked m f -> face_marked (add_boco m (unmarked_mark name l)) f.
Proof.
  intros [A B C D E]. constructor; auto.
  - unfold add_boco. cbn. apply (dset_NoDup _ seqb_eq). exact D.
  - intros k b H. unfold add_boco in H. cbn in H. apply in_dset in H. destruct H as [[-> ->]|H]; eauto.
    split; auto. eexists. split; [reflexivity|split; [discriminate|reflexivity]].
Qed.

Lemma make_unmarked_ok {F} enum name (m : mesh F) f : set_enum enum -> face_marked m f ->
  exists missing m', make_unmarked_BC enum name m = (Ok missing, m') /\
    NoDup missing /\ (forall i, In i missing <-> In i (ec_numbers (f_f2n f)) /\ ~ marked m i) /\
    same_but_bocos m m' /\ face_marked m' f /\
    (missing = [] -> m' = m) /\
    (missing <> [] -> ~ In name (dkeys (me_bocos m)) ->
       me_bocos m' = me_bocos m ++ [(name, unmarked_mark name missing)] /\
       (forall i, In i (ec_numbers (f_f2n f)) -> marked m' i) /\
       make_unmarked_BC enum name m' = (Ok [], m')).
Proof.
  intros E H. assert (Hmi := fun i => missing_iff enum m f i E).
  rewrite (make_unmarked_eq enum name m f H).
  set (miss := enum _) in *. exists miss.
  assert (ND : NoDup miss) by apply E. clearbody miss.
  destruct miss as [|x l] eqn:El.
  { exists m. split; [reflexivity|]. split; [exact ND|]. split; [exact Hmi|].
    split; [constructor; reflexivity|]. split; auto. split; auto. congruence. }
  set (missing := x :: l) in *. assert (Hnn : missing <> []) by discriminate. clearbody missing.
  exists (add_boco m (unmarked_mark name missing)). split; [reflexivity|]. split; [exact ND|].
  split; [exact Hmi|]. split; [constructor; reflexivity|].
  assert (FM := add_mark_face_marked m f name missing H).
  split; auto. split; [intros; contradiction|]. intros Hne Hno.
  assert (EB : me_bocos (add_boco m (unmarked_mark name missing)) = me_bocos m ++ [(name, unmarked_mark name missing)]).
  { unfold add_boco. cbn. apply (dset_notin _ seqb_eq). exact Hno. }
  split; auto.
  assert (Hall : forall i, In i (ec_numbers (f_f2n f)) -> marked (add_boco m (unmarked_mark name missing)) i).
  { intros i Hi. unfold marked. rewrite EB.
    destruct (in_dec Z.eq_dec i (all_marked m)) as [Hm|Hm].
    - apply all_marked_iff in Hm. destruct Hm as (k & b & Hin & Hb). exists k, b. split; auto. apply in_or_app; auto.
    - exists name, (unmarked_mark name missing). split; [apply in_or_app; simpl; auto|].
      cbn [mk_entries unmarked_mark mk_index entries]. apply Hmi. split; auto. now rewrite <- all_marked_iff. }
  split; auto.
  rewrite (make_unmarked_eq enum name _ f FM).
  assert (Hmi' := fun i => missing_iff enum (add_boco m (unmarked_mark name missing)) f i E).
  destruct (enum _) as [|y l']; auto.
  exfalso. destruct (proj1 (Hmi' y) (or_introl eq_refl)) as [Hy1 Hy2]. auto.
Qed.

(** Replacing an existing mark. *)
Lemma in_dset_iff {V} k (v : V) d k' v' : NoDup (dkeys d) ->
  (In (k', v') (sset k v d) <-> (k' = k /\ v' = v) \/ (k' <> k /\ In (k', v') d)).
Proof.
  intros ND. split.
  - intros H. assert (ND' := dset_NoDup _ seqb_eq k v d ND).
    assert (G := in_dget _ seqb_eq _ _ _ ND' H).
    destruct (string_dec k' k) as [->|N].
    + rewrite (dget_dset_eq _ seqb_eq) in G. injection G as ->. auto.
    + rewrite (dget_dset_neq _ seqb_eq) in G by auto. right. split; auto. now apply (dget_in _ seqb_eq).
  - intros [[-> ->]|[N H]].
    + apply (dget_in _ seqb_eq). apply (dget_dset_eq _ seqb_eq).
    + apply (dget_in _ seqb_eq). rewrite (dget_dset_neq _ seqb_eq) by auto. now apply (in_dget _ seqb_eq).
Qed.

Lemma marked_after_add {F} (m : mesh F) name l i : NoDup (dkeys (me_bocos m)) ->
  (marked (add_boco m (unmarked_mark name l)) i <->
   In i l \/ exists k b, k <> name /\ In (k, b) (me_bocos m) /\ In i (mk_entries b)).
Proof.
  intros ND. unfold marked, add_boco. cbn [with_bocos me_bocos unmarked_mark mk_name]. split.
  - intros (k & b & Hin & Hi). apply in_dset_iff in Hin; auto. destruct Hin as [[-> ->]|[N Hin]].
    + left. exact Hi.
    + right. exists k, b. auto.
  - intros [Hi|(k & b & N & Hin & Hi)].
    + exists name, (unmarked_mark name l). split; auto. apply in_dset_iff; auto.
    + exists k, b. split; auto. apply in_dset_iff; auto.
Qed.

(** When a mark called [name] exists, the faces only it had become the unmarked ones. *)
Lemma make_unmarked_collision {F} enum name (m m' : mesh F) f b0 missing : set_enum enum -> face_marked m f ->
  In (name, b0) (me_bocos m) ->
  make_unmarked_BC enum name m = (Ok missing, m') -> missing <> [] ->
  forall i, In i (ec_numbers (f_f2n f)) -> In i (mk_entries b0) ->
    (forall k b, In (k, b) (me_bocos m) -> k <> name -> ~ In i (mk_entries b)) -> ~ marked m' i.
Proof.
  intros E H H0 HR Hne i Hi Hi0 Honly Hm.
  rewrite (make_unmarked_eq enum name m f H) in HR. assert (Hmi := fun i => missing_iff enum m f i E).
  destruct (enum _) as [|x l] eqn:El in HR; [congruence|].
  assert (m' = add_boco m (unmarked_mark name missing)) by congruence.
  assert (missing = x :: l) by congruence. subst m' missing. rewrite El in Hmi.
  apply (marked_after_add m name (x :: l) i (fm_keys _ _ H)) in Hm. destruct Hm as [Hm|(k & b & N & Hin & Hb)].
  - apply Hmi in Hm. destruct Hm as [_ Hm]. apply Hm. exists name, b0. auto.
  - eapply Honly; eauto.
Qed.

(** ** C18 *)
Lemma mesh_check_eq {F} enum (m : mesh F) : counts_ok m ->
  mesh_check enum m = match make_unmarked_BC enum "unmarked_faces" m with
             | (Err e, m') => (Err e, m')
             | (Ok [], m') => (Ok true, m')
             | (Ok (_ :: _), m') => (Err AssertionError, m')
             end.
Proof.
  intros (A & B & C). unfold mesh_check, check_cell2node. apply Z.ltb_lt in A. apply Z.ltb_lt in B. rewrite A, B.
  destruct (me_cell2node m) as [c |]; [rewrite (C c eq_refl), Z.eqb_refl |]; reflexivity.
Qed.

Lemma mesh_check_all_marked {F} enum (m : mesh F) f : set_enum enum -> face_marked m f -> counts_ok m ->
  (forall i, In i (ec_numbers (f_f2n f)) -> marked m i) -> mesh_check enum m = (Ok true, m).
Proof.
  intros E H C Hall. rewrite mesh_check_eq by auto. rewrite (make_unmarked_eq enum _ m f H).
  assert (Hmi := fun i => missing_iff enum m f i E).
  destruct (enum _) as [|y l']; auto.
  exfalso. destruct (proj1 (Hmi y) (or_introl eq_refl)) as [Hy1 Hy2]. auto.
Qed.

Lemma counts_ok_same {F} (m m' : mesh F) : same_but_bocos m m' -> counts_ok m -> counts_ok m'.
Proof.
  intros S (A & B & C). unfold counts_ok in *.
  rewrite (sb_ncell _ _ S), (sb_nnode _ _ S), (sb_cells _ _ S). auto.
Qed.

Lemma mesh_check_unmarked {F} enum (m : mesh F) f i : set_enum enum -> face_marked m f -> counts_ok m ->
  In i (ec_numbers (f_f2n f)) -> ~ marked m i ->
  exists m', mesh_check enum m = (Err AssertionError, m') /\ m' <> m /\
    (~ In "unmarked_faces" (dkeys (me_bocos m)) -> mesh_check enum m' = (Ok true, m')).
Proof.
  intros E H C Hi Hn. rewrite mesh_check_eq by auto.
  destruct (make_unmarked_ok enum "unmarked_faces" m f E H) as (missing & m' & HR & ND & Hmi & S & FM & _ & Hnew).
  rewrite HR. assert (Him : In i missing) by (apply Hmi; auto).
  destruct missing as [|x l]; [destruct Him|]. exists m'. split; auto. split.
  - intros ->. assert (HR' := HR). rewrite (make_unmarked_eq enum _ m f H) in HR.
    assert (Hmi' := fun i => missing_iff enum m f i E).
    destruct (enum _) as [|y l'] eqn:El in HR; [congruence|].
    assert (E1 : add_boco m (unmarked_mark "unmarked_faces" (y :: l')) = m) by congruence.
    assert (E2 : y :: l' = x :: l) by congruence.
    apply Hn. rewrite <- E1. apply marked_after_add; [apply (fm_keys _ _ H)|]. left. rewrite E2. exact Him.
  - intros Hno. destruct (Hnew ltac:(discriminate) Hno) as (_ & Hall & _).
    eapply mesh_check_all_marked; eauto. eapply counts_ok_same; eauto.
Qed.

Lemma seesaw_step {F} enum (m : mesh F) f : set_enum enum -> face_marked m f -> counts_ok m -> seesaw m f ->
  exists m', mesh_check enum m = (Err AssertionError, m') /\ face_marked m' f /\ counts_ok m' /\ seesaw m' f.
Proof.
  intros E H C (b0 & i & j & H0 & Hi & Hj & Hi0 & Hj0 & Hoth).
  rewrite mesh_check_eq by auto.
  assert (Hmi := fun i => missing_iff enum m f i E).
  rewrite (make_unmarked_eq enum _ m f H). set (missing := enum _) in *.
  assert (Hju : ~ marked m j).
  { intros (k & b & Hin & Hb). destruct (string_dec k "unmarked_faces") as [->|N].
    - assert (b = b0).
      { apply (in_dget _ seqb_eq) in Hin; [|apply (fm_keys _ _ H)]. apply (in_dget _ seqb_eq) in H0; [|apply (fm_keys _ _ H)]. congruence. }
      subst; auto.
    - eapply Hoth; eauto. }
  assert (Hjm : In j missing) by (apply Hmi; auto).
  assert (Him : ~ In i missing).
  { intros X. apply Hmi in X. destruct X as [_ X]. apply X. exists "unmarked_faces", b0. auto. }
  clearbody missing. destruct missing as [|x l] eqn:El; [destruct Hjm|].
  eexists. split; [reflexivity|]. split; [now apply add_mark_face_marked|].
  split; [eapply counts_ok_same; [|exact C]; constructor; reflexivity|].
  exists (unmarked_mark "unmarked_faces" (x :: l)), j, i. unfold add_boco. cbn [with_bocos me_bocos unmarked_mark mk_name].
  split; [apply in_dset_iff; [apply (fm_keys _ _ H)|auto]|].
  split; auto. split; auto. split; [exact Hjm|]. split; [exact Him|].
  intros k b Hin N. apply in_dset_iff in Hin; [|apply (fm_keys _ _ H)].
  destruct Hin as [[-> _]|[_ Hin]]; [congruence|]. destruct (Hoth k b Hin N). auto.
Qed.

Lemma seesaw_forever {F} enum : set_enum enum -> forall n (m : mesh F) f, face_marked m f -> counts_ok m -> seesaw m f ->
  fst (mesh_check enum (check_times enum n m)) = Err AssertionError.
Proof.
  intros E n. induction n as [|n IH]; intros m f H C S; destruct (seesaw_step enum m f E H C S) as (m' & HR & H' & C' & S').
  - cbn. now rewrite HR.
  - cbn [check_times]. rewrite HR. cbn [snd]. eapply IH; eauto.
Qed.
