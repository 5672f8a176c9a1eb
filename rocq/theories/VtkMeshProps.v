(** * C67: meshes to VTK grids and back; C68: cell volumes. *)
From Coq Require Import Permutation Sorted Lia.
From Verif Require Import Py PyFacts ConnProofs ConnSpec Conn FaceThm Mesh Vtk VtkSpec VtkProofs.

(** A cell the package knows: a code of its table, with the number of vertices of that code. *)
Definition known_cell (c : Z * list Z) : Prop :=
  exists e, In (e, fst c) vtk_codes /\ dget String.eqb e type_sizes = Some (zlen (snd c)).

(** The order in which a grid's cells are exported: by type code, then by number. *)
Definition by_type (cs : list (Z * list Z)) (a b : Z) : Prop :=
  exists ca cb, nth_error cs (Z.to_nat a) = Some ca /\ nth_error cs (Z.to_nat b) = Some cb /\
                (fst ca < fst cb \/ fst ca = fst cb /\ a < b).

(** Blocks of elements added one type after the other. *)
Fixpoint blocks (n : Z) (ms : list (string * mat)) : dict string edict :=
  match ms with
  | [] => []
  | (t, m) :: r => (t, ED (ILrange n (n + m_nrow m - 1)) m) :: blocks (n + m_nrow m) r
  end.
Definition total (ms : list (string * mat)) : Z := zlen (flat_map (fun tm => m_rows (snd tm)) ms).

Lemma add_blocks ms : forall c, NoDup (List.map fst ms) -> (forall t, In t (List.map fst ms) -> ~ In t (dkeys (ec_dict c))) ->
  foldM (fun c '(t, m) => ec_add c t m None) c ms = Ok (EC (ec_nelem c + total ms) (ec_dict c ++ blocks (ec_nelem c) ms)).
Proof.
  induction ms as [|(t, m) ms IH]; intros c Hnd Hni.
  - cbn [foldM blocks]. unfold total. cbn. rewrite Z.add_0_r, app_nil_r. destruct c; reflexivity.
  - cbn [foldM]. inversion Hnd as [|? ? Ht Hnd']; subst.
    rewrite ec_add_new.
    2:{ apply (dget_None _ seqb_eq). apply Hni. left. reflexivity. }
    cbn [bind]. rewrite IH.
    + cbn [ec_nelem ec_dict]. f_equal. unfold total. cbn [flat_map snd]. rewrite zlen_app. f_equal; [unfold m_nrow; lia|].
      rewrite <- app_assoc. reflexivity.
    + exact Hnd'.
    + intros t' Ht'. cbn [ec_dict]. unfold dkeys. rewrite map_app, in_app_iff. cbn [List.map fst In]. intros [H|[H|[]]].
      * apply (Hni t'); [right; exact Ht'|exact H].
      * subst. contradiction.
Qed.
Lemma total_cons t m ms : total ((t, m) :: ms) = m_nrow m + total ms.
Proof. unfold total, m_nrow. cbn [flat_map snd]. apply zlen_app. Qed.
Lemma total_nonneg ms : 0 <= total ms.
Proof. apply zlen_nonneg. Qed.
Lemma nrow_nonneg m : 0 <= m_nrow m.
Proof. apply zlen_nonneg. Qed.

Lemma ed_pairs_range n m : ed_pairs (ED (ILrange n (n + m_nrow m - 1)) m) = combine (zrange n (n + m_nrow m)) (m_rows m).
Proof. unfold ed_pairs. cbn [ed_index ed_e2n entries]. replace (n + m_nrow m - 1 + 1) with (n + m_nrow m) by lia. reflexivity. Qed.

Lemma blocks_pairs ms : forall n, flat_map (fun kv => ed_pairs (snd kv)) (blocks n ms) =
  combine (zrange n (n + total ms)) (flat_map (fun tm => m_rows (snd tm)) ms).
Proof.
  induction ms as [|(t, m) ms IH]; intros n; [cbn; destruct (zrange _ _); reflexivity|].
  cbn [blocks flat_map snd]. rewrite IH, ed_pairs_range, total_cons.
  pose proof (nrow_nonneg m). pose proof (total_nonneg ms).
  rewrite (zrange_app n (n + m_nrow m) (n + (m_nrow m + total ms))) by lia.
  rewrite combine_app.
  - do 3 f_equal. lia.
  - rewrite zrange_length. unfold m_nrow, zlen. lia.
Qed.
Lemma blocks_keys ms : forall n, List.map fst (blocks n ms) = List.map fst ms.
Proof. induction ms as [|(t, m) ms IH]; intros n; [reflexivity|]. cbn [blocks List.map fst]. rewrite IH. reflexivity. Qed.
Lemma blocks_in ms : forall n t ed, In (t, ed) (blocks n ms) -> exists a m, ed = ED (ILrange a (a + m_nrow m - 1)) m /\ In (t, m) ms.
Proof.
  induction ms as [|(t0, m) ms IH]; intros n t ed H; [destruct H|]. cbn [blocks In] in H. destruct H as [H|H].
  - injection H as <- <-. exists n, m. split; [reflexivity|left; reflexivity].
  - destruct (IH _ _ _ H) as (a & m' & E & Hin). exists a, m'. split; [exact E|right; exact Hin].
Qed.
Lemma blocks_wf ms : NoDup (List.map fst ms) -> (forall t m, In (t, m) ms -> mat_wf m) -> ec_wf (EC (total ms) (blocks 0 ms)).
Proof.
  intros Hnd Hwf. constructor.
  - unfold ec_types. cbn [ec_dict]. rewrite blocks_keys. exact Hnd.
  - cbn [ec_dict]. intros t ed Hin. apply blocks_in in Hin. destruct Hin as (a & m & -> & Hin). constructor; cbn [ed_index ed_e2n].
    + discriminate.
    + cbn [entries]. replace (a + m_nrow m - 1 + 1) with (a + m_nrow m) by lia. rewrite zrange_length. unfold m_nrow, zlen. lia.
    + apply (Hwf t). exact Hin.
  - cbn [ec_nelem]. unfold ec_pairs. cbn [ec_dict]. rewrite blocks_pairs. unfold total, zlen. rewrite combine_length, zrange_length. unfold zlen. lia.
Qed.
Lemma snd_ed_pairs n m : List.map snd (ed_pairs (ED (ILrange n (n + m_nrow m - 1)) m)) = m_rows m.
Proof. rewrite ed_pairs_range. apply map_snd_combine. rewrite zrange_length. unfold m_nrow, zlen. lia. Qed.

Lemma blocks_rows_of_type ms t : forall n,
  List.map snd (flat_map (fun kv => if String.eqb t (fst kv) then ed_pairs (snd kv) else []) (blocks n ms)) =
  flat_map (fun tm => if String.eqb t (fst tm) then m_rows (snd tm) else []) ms.
Proof.
  induction ms as [|(t0, m) ms IH]; intros n; [reflexivity|]. cbn [blocks flat_map fst snd]. rewrite map_app, IH. f_equal.
  destruct (String.eqb t t0); [|reflexivity]. apply snd_ed_pairs.
Qed.

(** ** Types *)
Lemma ele_of e t : In (e, t) vtktype_ele -> dget Z.eqb t ele_vtktype = Some e.
Proof. intros H. cbn in H. repeat destruct H as [H|H]; try (injection H as <- <-; reflexivity). destruct H. Qed.
Lemma ele_back e t : dget Z.eqb t ele_vtktype = Some e -> In (e, t) vtktype_ele.
Proof.
  intros H. apply (dget_in _ Z.eqb_eq) in H. cbn in H. cbn.
  repeat destruct H as [H|H]; try (injection H as <- <-; tauto). destruct H.
Qed.
Lemma nnode_of e t n : In (e, t) vtktype_ele -> dget String.eqb e nnode_elem = Some n -> dget Z.eqb t vtk_nnode = Some n.
Proof. intros H. cbn in H. repeat destruct H as [H|H]; try (injection H as <- <-; intros E; cbn in E; exact E). destruct H. Qed.
Lemma ele_inj e t t' : In (e, t) vtktype_ele -> In (e, t') vtktype_ele -> t = t'.
Proof. intros H H'. cbn in H, H'. repeat destruct H as [H|H]; try (injection H as <- <-; repeat destruct H' as [H'|H']; try (injection H' as <-; reflexivity); try discriminate; destruct H'). destruct H. Qed.
Lemma code_of e t : In (e, t) vtktype_ele -> dget String.eqb e vtktype_ele = Some t.
Proof. intros H. cbn in H. repeat destruct H as [H|H]; try (injection H as <- <-; reflexivity). destruct H. Qed.

Definition ele_name (t : Z) : string := match dget Z.eqb t ele_vtktype with Some e => e | None => ""%string end.
Definition of_type (cs : list (Z * list Z)) (t : Z) : list (list Z) := List.map snd (filter (fun c => fst c =? t) cs).
Definition size_of (t : Z) : nat := match dget Z.eqb t vtk_nnode with Some n => Z.to_nat n | None => O end.
Definition type_mats (cs : list (Z * list Z)) : list (Z * mat) :=
  List.map (fun t => (t, Mat (Some (size_of t)) (of_type cs t))) (np_unique (List.map fst cs)).

Lemma combine_fst_snd {A B} (l : list (A * B)) : combine (List.map fst l) (List.map snd l) = l.
Proof. induction l as [|(a, b) l IH]; [reflexivity|]. cbn. rewrite IH. reflexivity. Qed.

Lemma cells_dict_ok {P} (g : grid P) cs : grid_of g cs -> Forall known_cell cs -> cells_dict g = Ok (type_mats cs).
Proof.
  intros Hg Hk. unfold cells_dict. rewrite (grid_enc _ _ Hg). rewrite split_enc by apply enc_len_ge. cbn [bind].
  rewrite (go_types _ _ Hg), combine_fst_snd. unfold type_mats.
  apply mapM_map. intros t Ht. rewrite np_unique_in in Ht. apply in_map_iff in Ht. destruct Ht as (c & <- & Hc).
  rewrite Forall_forall in Hk. destruct (Hk c Hc) as (e & He & Hn). unfold size_of. rewrite (nnode_of _ _ _ He Hn). reflexivity.
Qed.

Lemma export_cells_eq (ms : list (Z * mat)) : forall c, Forall (fun tm => exists e, In (e, fst tm) vtktype_ele) ms ->
  foldM (fun c '(itype, cellco) => etype <- dget_err Z.eqb itype ele_vtktype ;; ec_add c etype cellco None) c ms =
  foldM (fun c '(t, m) => ec_add c t m None) c (List.map (fun tm => (ele_name (fst tm), snd tm)) ms).
Proof.
  induction ms as [|(t, m) ms IH]; intros c H; [reflexivity|]. inversion H as [|? ? (e & He) H']; subst. cbn [fst] in He.
  cbn [foldM List.map fst snd]. unfold dget_err at 1. unfold ele_name at 1. rewrite (ele_of _ _ He). cbn [bind].
  destruct (ec_add c e m None) as [c'|]; [|reflexivity]. cbn [bind]. apply IH. exact H'.
Qed.

Definition named (cs : list (Z * list Z)) : list (string * mat) := List.map (fun tm => (ele_name (fst tm), snd tm)) (type_mats cs).

Lemma types_known cs t : Forall known_cell cs -> In t (np_unique (List.map fst cs)) -> In (ele_name t, t) vtktype_ele.
Proof.
  intros Hk Ht. rewrite np_unique_in in Ht. apply in_map_iff in Ht. destruct Ht as (c & <- & Hc). rewrite Forall_forall in Hk.
  destruct (Hk c Hc) as (e & He & _). unfold ele_name. rewrite (ele_of _ _ He). exact He.
Qed.
Lemma named_nodup cs : Forall known_cell cs -> NoDup (List.map fst (named cs)).
Proof.
  intros Hk. unfold named, type_mats. rewrite !List.map_map. cbn [fst]. apply NoDup_map_inj_in.
  - intros a b Ha Hb E. pose proof (types_known cs a Hk Ha) as Ka. pose proof (types_known cs b Hk Hb) as Kb.
    rewrite E in Ka. exact (ele_inj _ _ _ Ka Kb).
  - apply np_unique_NoDup.
Qed.
Lemma export_cells_ok cs : Forall known_cell cs -> export_cells (type_mats cs) = Ok (EC (total (named cs)) (blocks 0 (named cs))).
Proof.
  intros Hk. unfold export_cells. rewrite export_cells_eq.
  - fold (named cs). rewrite add_blocks; [reflexivity|apply named_nodup; exact Hk|intros t _ []].
  - apply Forall_forall. intros (t, m) Hin. unfold type_mats in Hin. apply in_map_iff in Hin. destruct Hin as (t' & E & Ht). injection E as <- _.
    exists (ele_name t'). cbn [fst]. apply (types_known cs); assumption.
Qed.

(** Rows of the export, and the numbers of the cells they come from. *)
Definition order (cs : list (Z * list Z)) : list (Z * (Z * list Z)) :=
  flat_map (fun t => filter (fun ic => fst (snd ic) =? t) (combine (zrange 0 (zlen cs)) cs)) (np_unique (List.map fst cs)).
Lemma filter_combine_snd {A} (l : list A) (p : A -> bool) : forall lo,
  List.map snd (filter (fun ic => p (snd ic)) (combine (zrange lo (lo + zlen l)) l)) = filter p l.
Proof.
  induction l as [|a l IH]; intros lo; [cbn; destruct (zrange _ _); reflexivity|].
  rewrite zlen_cons, zrange_cons by (pose proof (zlen_nonneg l); lia). cbn [combine filter snd].
  replace (lo + (zlen l + 1)) with ((lo + 1) + zlen l) by lia. specialize (IH (lo + 1)).
  destruct (p a); cbn [List.map snd]; rewrite IH; reflexivity.
Qed.
Lemma order_rows cs : flat_map (fun tm => m_rows (snd tm)) (named cs) = List.map (fun ic => snd (snd ic)) (order cs).
Proof.
  unfold named, type_mats, order. rewrite List.map_map. cbn [fst snd]. induction (np_unique (List.map fst cs)) as [|t ts IH]; [reflexivity|].
  cbn [List.map flat_map fst snd m_rows]. rewrite IH, map_app. f_equal. unfold of_type.
  rewrite <- (filter_combine_snd cs (fun c => fst c =? t) 0). rewrite List.map_map. reflexivity.
Qed.
Lemma order_perm cs : Permutation (order cs) (combine (zrange 0 (zlen cs)) cs).
Proof.
  unfold order. apply (Permutation_flat_map_filter (fun ic : Z * (Z * list Z) => fst (snd ic))).
  - apply np_unique_NoDup.
  - intros (i, c) Hic. cbn [fst snd]. rewrite np_unique_in. apply in_combine_r in Hic. apply in_map. exact Hic.
Qed.
Lemma order_in cs i c : In (i, c) (order cs) <-> 0 <= i /\ nth_error cs (Z.to_nat i) = Some c.
Proof.
  assert (Hiff : In (i, c) (order cs) <-> In (i, c) (combine (zrange 0 (zlen cs)) cs)).
  { split; apply Permutation_in; [|symmetry]; apply order_perm. }
  rewrite Hiff. clear Hiff.
  pose proof (in_combine_range cs 0 c i) as H. rewrite Z.sub_0_r in H. rewrite <- H. rewrite Z.add_0_l.
  generalize (zrange 0 (zlen cs)). clear H. intros l. revert l. induction cs as [|x cs IH]; intros [|y l]; cbn; try tauto.
  rewrite IH. split; (intros [E|E]; [left; injection E as -> ->; reflexivity|right; exact E]).
Qed.

Lemma ss_app {A} (R : A -> A -> Prop) l1 l2 : StronglySorted R l1 -> StronglySorted R l2 ->
  (forall a b, In a l1 -> In b l2 -> R a b) -> StronglySorted R (l1 ++ l2).
Proof.
  induction 1 as [|a l1 H1 IH Ha]; intros H2 Hc; [exact H2|]. cbn. constructor.
  - apply IH; [exact H2|]. intros x y Hx Hy. apply Hc; [right; exact Hx|exact Hy].
  - apply Forall_app. split; [exact Ha|]. apply Forall_forall. intros b Hb. apply Hc; [left; reflexivity|exact Hb].
Qed.
Lemma ss_filter {A} (R : A -> A -> Prop) p l : StronglySorted R l -> StronglySorted R (filter p l).
Proof.
  induction 1 as [|a l H IH Ha]; [constructor|]. cbn. destruct (p a); [|exact IH]. constructor; [exact IH|].
  rewrite Forall_forall in *. intros x Hx. apply filter_In in Hx. apply Ha. tauto.
Qed.
Lemma ss_map {A B} (R : A -> A -> Prop) (S : B -> B -> Prop) (f : A -> B) l :
  (forall a b, In a l -> In b l -> R a b -> S (f a) (f b)) -> StronglySorted R l -> StronglySorted S (List.map f l).
Proof.
  intros Hf H. induction H as [|a l H IH Ha]; [constructor|]. cbn. constructor.
  - apply IH. intros x y Hx Hy. apply Hf; right; assumption.
  - apply Forall_forall. intros y Hy. apply in_map_iff in Hy. destruct Hy as (x & <- & Hx). rewrite Forall_forall in Ha.
    apply Hf; [left; reflexivity|right; exact Hx|apply Ha; exact Hx].
Qed.
Lemma ss_perm_eq {A} (R : A -> A -> Prop) : (forall a b, R a b -> R b a -> False) ->
  forall l1 l2, StronglySorted R l1 -> StronglySorted R l2 -> Permutation l1 l2 -> l1 = l2.
Proof.
  intros Has l1. induction l1 as [|a l1 IH]; intros l2 H1 H2 Hp.
  - apply Permutation_nil in Hp. congruence.
  - destruct l2 as [|b l2]; [symmetry in Hp; apply Permutation_nil in Hp; discriminate|].
    inversion H1 as [|? ? S1 F1]; subst. inversion H2 as [|? ? S2 F2]; subst. rewrite Forall_forall in F1, F2.
    assert (E : a = b).
    { assert (Ha : In a (b :: l2)) by (apply (Permutation_in _ Hp); left; reflexivity).
      assert (Hb : In b (a :: l1)) by (symmetry in Hp; apply (Permutation_in _ Hp); left; reflexivity).
      destruct Ha as [Ha|Ha]; [symmetry; exact Ha|]. destruct Hb as [Hb|Hb]; [exact Hb|].
      exfalso. apply (Has a b); auto. }
    subst b. f_equal. apply IH; [exact S1|exact S2|]. apply Permutation_cons_inv in Hp. exact Hp.
Qed.

Definition pair_by_type (a b : Z * (Z * list Z)) : Prop :=
  fst (snd a) < fst (snd b) \/ fst (snd a) = fst (snd b) /\ fst a < fst b.
Lemma combine_sorted (cs : list (Z * list Z)) : forall lo, StronglySorted (fun a b : Z * (Z * list Z) => fst a < fst b) (combine (zrange lo (lo + zlen cs)) cs).
Proof.
  induction cs as [|c cs IH]; intros lo; [cbn; destruct (zrange _ _); constructor|].
  rewrite zlen_cons, zrange_cons by (pose proof (zlen_nonneg cs); lia). cbn [combine].
  replace (lo + (zlen cs + 1)) with ((lo + 1) + zlen cs) by lia. constructor; [apply IH|].
  apply Forall_forall. intros (i, d) Hin. apply in_combine_l in Hin. apply in_zrange in Hin. cbn [fst]. lia.
Qed.
Lemma order_sorted cs : StronglySorted pair_by_type (order cs).
Proof.
  unfold order. pose proof (np_unique_sorted (List.map fst cs)) as Hs. pose proof (combine_sorted cs 0) as Hc. rewrite Z.add_0_l in Hc.
  set (L := combine (zrange 0 (zlen cs)) cs) in *. clearbody L.
  induction Hs as [|t ts Hs IH Ht]; [constructor|]. cbn [flat_map]. apply ss_app.
  - pose proof (ss_filter _ (fun ic : Z * (Z * list Z) => fst (snd ic) =? t) _ Hc) as Hf.
    assert (Hall : Forall (fun ic : Z * (Z * list Z) => fst (snd ic) = t) (filter (fun ic => fst (snd ic) =? t) L)).
    { apply Forall_forall. intros x Hx. apply filter_In in Hx. lia. }
    revert Hf Hall. generalize (filter (fun ic : Z * (Z * list Z) => fst (snd ic) =? t) L). intros l Hf Hall.
    induction Hf as [|a l Hf IHf Ha]; [constructor|]. inversion Hall as [|? ? Ea Hall']; subst. constructor; [apply IHf; exact Hall'|].
    rewrite Forall_forall in *. intros x Hx. right. split; [symmetry; apply Hall'; exact Hx|apply Ha; exact Hx].
  - exact IH.
  - intros a b Ha Hb. apply filter_In in Ha. apply in_flat_map in Hb. destruct Hb as (t' & Ht' & Hb). apply filter_In in Hb.
    rewrite Forall_forall in Ht. apply Ht in Ht'. left. lia.
Qed.
Lemma order_ids_sorted cs : StronglySorted (by_type cs) (List.map fst (order cs)).
Proof.
  apply (ss_map pair_by_type); [|apply order_sorted]. intros (i, c) (j, d) Hi Hj H. apply order_in in Hi. apply order_in in Hj.
  exists c, d. cbn [fst]. unfold pair_by_type in H. cbn [fst snd] in H. tauto.
Qed.
Lemma order_ids_perm cs : Permutation (List.map fst (order cs)) (zrange 0 (zlen cs)).
Proof.
  rewrite (order_perm cs). rewrite map_fst_combine; [reflexivity|]. rewrite zrange_length. unfold zlen. lia.
Qed.
Lemma by_type_asym cs a b : by_type cs a b -> by_type cs b a -> False.
Proof.
  intros (ca & cb & Ea & Eb & H) (cb' & ca' & Eb' & Ea' & H'). rewrite Ea in Ea'. rewrite Eb in Eb'. injection Ea' as <-. injection Eb' as <-. lia.
Qed.
Lemma zrange_ss (R : Z -> Z -> Prop) hi : forall lo, (forall a b, lo <= a -> a < b -> b < hi -> R a b) -> StronglySorted R (zrange lo hi).
Proof.
  intros lo. remember (Z.to_nat (hi - lo)) as n eqn:En. revert lo En. induction n as [|n IH]; intros lo En H.
  - rewrite zrange_empty by lia. constructor.
  - rewrite zrange_cons by lia. constructor.
    + apply IH; [lia|]. intros a b Ha Hab Hb. apply H; lia.
    + apply Forall_forall. intros x Hx. apply in_zrange in Hx. apply H; lia.
Qed.
Lemma ss_nth {A} (R : A -> A -> Prop) l : StronglySorted R l -> forall i j a b, (i < j)%nat -> nth_error l i = Some a -> nth_error l j = Some b -> R a b.
Proof.
  induction 1 as [|x l H IH Hx]; intros i j a b Hij Hi Hj; [destruct i; discriminate|].
  destruct j as [|j]; [lia|]. destruct i as [|i].
  - cbn in Hi, Hj. injection Hi as <-. rewrite Forall_forall in Hx. apply Hx. apply nth_error_In in Hj. exact Hj.
  - cbn in Hi, Hj. apply (IH i j); [lia|exact Hi|exact Hj].
Qed.
Lemma nth_ss {A} (R : A -> A -> Prop) l : (forall i j a b, (i < j)%nat -> nth_error l i = Some a -> nth_error l j = Some b -> R a b) -> StronglySorted R l.
Proof.
  induction l as [|x l IH]; intros H; [constructor|]. constructor.
  - apply IH. intros i j a b Hij Hi Hj. apply (H (S i) (S j)); [lia|exact Hi|exact Hj].
  - apply Forall_forall. intros y Hy. apply In_nth_error in Hy. destruct Hy as (k & Hk). apply (H 0%nat (S k)); [lia|reflexivity|exact Hk].
Qed.
Lemma aligned_iff cs ids : Permutation ids (zrange 0 (zlen cs)) -> StronglySorted (by_type cs) ids ->
  (ids = zrange 0 (zlen cs) <-> StronglySorted Z.le (List.map fst cs)).
Proof.
  intros Hp Hs. split.
  - intros ->. apply nth_ss. intros i j a b Hij Hi Hj. rewrite nth_error_map in Hi, Hj.
    destruct (nth_error cs i) as [ci|] eqn:Ei; [|discriminate]. destruct (nth_error cs j) as [cj|] eqn:Ej; [|discriminate].
    cbn in Hi, Hj. injection Hi as <-. injection Hj as <-.
    assert (Hlj : (j < List.length cs)%nat) by (apply nth_error_Some; congruence).
    assert (Hb : by_type cs (Z.of_nat i) (Z.of_nat j)).
    { apply (ss_nth _ _ Hs i j); [exact Hij| |]; rewrite nth_error_zrange by (unfold zlen; lia); reflexivity. }
    destruct Hb as (ca & cb & Ea & Eb & H). rewrite Nat2Z.id in Ea, Eb. rewrite Ei in Ea. rewrite Ej in Eb. injection Ea as <-. injection Eb as <-. lia.
  - intros Ht. apply (ss_perm_eq (by_type cs) (by_type_asym cs)); [exact Hs| |exact Hp].
    apply zrange_ss. intros a b Ha Hab Hb.
    destruct (nth_error cs (Z.to_nat a)) as [ca|] eqn:Ea; [|apply nth_error_None in Ea; unfold zlen in Hb; lia].
    destruct (nth_error cs (Z.to_nat b)) as [cb|] eqn:Eb; [|apply nth_error_None in Eb; unfold zlen in Hb; lia].
    exists ca, cb. split; [exact Ea|]. split; [exact Eb|].
    assert (fst ca <= fst cb).
    { apply (ss_nth _ _ Ht (Z.to_nat a) (Z.to_nat b)); [lia| |]; rewrite nth_error_map; [rewrite Ea|rewrite Eb]; reflexivity. }
    lia.
Qed.

(** ** Coordinates *)
Section Coords.
  Context {F : Type}.
  Definition cols3 (rows : list (list F)) (x y z : list F) : Prop := stack3 x y z = Ok rows.
  Lemma columns (rows : list (list F)) : Forall (fun r => List.length r = 3%nat) rows ->
    exists x y z, column rows 3 0 = Ok x /\ column rows 3 1 = Ok y /\ column rows 3 2 = Ok z /\ stack3 x y z = Ok rows.
  Proof.
    unfold column. change (0 <? 3) with true. change (1 <? 3) with true. change (2 <? 3) with true. cbv iota.
    induction 1 as [|r rows Hr _ (x & y & z & Hx & Hy & Hz & Hs)]; [exists [], [], []; repeat split; reflexivity|].
    destruct r as [|a [|b [|c [|]]]]; try discriminate. exists (a :: x), (b :: y), (c :: z).
    cbn [mapM]. rewrite Hx, Hy, Hz. cbn [stack3]. rewrite Hs. repeat split; reflexivity.
  Qed.
  Lemma set_coords_ok (m : mesh F) rows : me_nodes m = [] -> zlen rows = me_nnode m -> Forall (fun r => List.length r = 3%nat) rows ->
    exists m', set_coords_nd m 3 rows = (Ok tt, m') /\ nodescoord_nd m' = Ok rows /\
      me_ncell m' = me_ncell m /\ me_nnode m' = me_nnode m /\ me_cell2node m' = me_cell2node m /\ me_faces m' = me_faces m /\
      me_bocos m' = me_bocos m /\ me_nface m' = me_nface m.
  Proof.
    intros Hn Hl Hr. destruct (columns rows Hr) as (x & y & z & Hx & Hy & Hz & Hs).
    unfold set_coords_nd. rewrite Hl, Z.eqb_refl. cbn [fold_left]. rewrite Hx, Hy, Hz.
    eexists. split; [reflexivity|]. unfold nodescoord_nd, nodescoord. cbn [me_nodes with_nodes]. rewrite Hn. cbn.
    repeat split; try reflexivity. exact Hs.
  Qed.
End Coords.

Lemma row_types cs e : Forall known_cell cs ->
  flat_map (fun tm => if String.eqb e (fst tm) then m_rows (snd tm) else []) (named cs) =
  List.map snd (filter (fun c => String.eqb e (ele_name (fst c))) cs).
Proof.
  intros Hk. unfold named, type_mats. rewrite List.map_map.
  destruct (in_dec Z.eq_dec (match dget String.eqb e vtktype_ele with Some t => t | None => -1 end) (np_unique (List.map fst cs))) as [Hin|Hni].
  - set (t0 := match dget String.eqb e vtktype_ele with Some t => t | None => -1 end) in *.
    pose proof (types_known cs t0 Hk Hin) as Ht0.
    assert (E0 : forall t, In t (np_unique (List.map fst cs)) -> (String.eqb e (ele_name t) = true <-> t = t0)).
    { intros t Ht. pose proof (types_known cs t Hk Ht) as Htk. rewrite String.eqb_eq. split.
      - intros ->. unfold t0. rewrite (code_of _ _ Htk). reflexivity.
      - intros ->. unfold t0 in Ht0. destruct (dget String.eqb e vtktype_ele) as [t1|] eqn:E1.
        + apply (dget_in _ seqb_eq) in E1. unfold t0. apply ele_of in E1. unfold ele_name. rewrite E1. reflexivity.
        + exfalso. cbn in Ht0. repeat destruct Ht0 as [Ht0|Ht0]; try discriminate. destruct Ht0. }
    assert (Ef : filter (fun c => String.eqb e (ele_name (fst c))) cs = filter (fun c => fst c =? t0) cs).
    { apply filter_ext_in. intros c Hc. assert (Hct : In (fst c) (np_unique (List.map fst cs))) by (rewrite np_unique_in; apply in_map; exact Hc).
      specialize (E0 _ Hct). destruct (String.eqb e (ele_name (fst c))).
      - symmetry. apply Z.eqb_eq. apply E0. reflexivity.
      - symmetry. apply Z.eqb_neq. intros X. apply E0 in X. discriminate. }
    rewrite Ef. fold (of_type cs t0). pose proof (np_unique_NoDup (List.map fst cs)) as Hnd.
    revert Hnd Hin E0. generalize (np_unique (List.map fst cs)). intros ts Hnd. induction Hnd as [|t ts Hnt _ IH]; intros Hin E0; [destruct Hin|].
    cbn [List.map flat_map fst snd m_rows].
    assert (Hz : forall ts', (forall t', In t' ts' -> String.eqb e (ele_name t') = false) ->
      flat_map (fun tm : string * mat => if String.eqb e (fst tm) then m_rows (snd tm) else [])
        (List.map (fun x => (ele_name (fst (x, Mat (Some (size_of x)) (of_type cs x))), snd (x, Mat (Some (size_of x)) (of_type cs x)))) ts') = []).
    { induction ts' as [|t' ts' IH']; intros H; [reflexivity|]. cbn [List.map flat_map fst snd]. rewrite H by (left; reflexivity).
      apply IH'. intros t'' H''. apply H. right. exact H''. }
    destruct (Z.eq_dec t t0) as [->|Hne].
    + assert (String.eqb e (ele_name t0) = true) as -> by (apply E0; [left; reflexivity|reflexivity]).
      rewrite Hz; [apply app_nil_r|]. intros t' Ht'. destruct (String.eqb e (ele_name t')) eqn:E; [|reflexivity].
      apply E0 in E; [|right; exact Ht']. subst. contradiction.
    + assert (String.eqb e (ele_name t) = false) as ->.
      { destruct (String.eqb e (ele_name t)) eqn:E; [|reflexivity]. apply E0 in E; [contradiction|left; reflexivity]. }
      cbn [app]. apply IH; [destruct Hin; [congruence|assumption]|]. intros t' Ht'. apply E0. right. exact Ht'.
  - assert (E0 : forall t, In t (np_unique (List.map fst cs)) -> String.eqb e (ele_name t) = false).
    { intros t Ht. destruct (String.eqb e (ele_name t)) eqn:E; [|reflexivity]. apply String.eqb_eq in E. subst e.
      pose proof (types_known cs t Hk Ht) as Htk. rewrite (code_of _ _ Htk) in Hni. contradiction. }
    assert (Ef : filter (fun c => String.eqb e (ele_name (fst c))) cs = []).
    { assert (H : forall c, In c cs -> String.eqb e (ele_name (fst c)) = false).
      { intros c Hc. apply E0. rewrite np_unique_in. apply in_map. exact Hc. }
      clear -H. induction cs as [|c cs IH]; [reflexivity|]. cbn. rewrite H by (left; reflexivity). apply IH. intros d Hd. apply H. right. exact Hd. }
    rewrite Ef. revert E0. generalize (np_unique (List.map fst cs)). intros ts E0. induction ts as [|t ts IH]; [reflexivity|].
    cbn [List.map flat_map fst snd]. rewrite E0 by (left; reflexivity). apply IH. intros t' Ht'. apply E0. right. exact Ht'.
Qed.

Lemma named_wf cs t m : Forall known_cell cs -> In (t, m) (named cs) -> mat_wf m.
Proof.
  intros Hk Hin. unfold named, type_mats in Hin. rewrite List.map_map in Hin. apply in_map_iff in Hin. destruct Hin as (t' & E & Ht'). injection E as _ <-.
  unfold mat_wf. cbn [m_cols m_rows]. apply Forall_forall. intros r Hr. unfold of_type in Hr. apply in_map_iff in Hr. destruct Hr as (c & <- & Hc).
  apply filter_In in Hc. destruct Hc as [Hc Et]. apply Z.eqb_eq in Et. subst t'. rewrite Forall_forall in Hk. destruct (Hk c Hc) as (e & He & Hn).
  unfold size_of. rewrite (nnode_of _ _ _ He Hn). unfold zlen. lia.
Qed.

(** [export_mesh] renumbers the cells type by type: cell [k] of the mesh is cell [ids[k]] of the grid.
    The numbers are those of the grid exactly when the grid lists its cells by increasing type code.
    Coordinates are kept; there are no faces and no marks. *)
Theorem C67_export : forall F (g : grid (list F)) cs,
  grid_of g cs -> Forall known_cell cs -> Forall (fun p => List.length p = 3%nat) (g_points g) ->
  exists m c ids,
    export_mesh g = Ok m /\ me_cell2node m = Some c /\ ec_wf c /\
    Permutation ids (zrange 0 (zlen cs)) /\ StronglySorted (by_type cs) ids /\
    Forall2 (fun ic id => exists cell, nth_error cs (Z.to_nat id) = Some cell /\ snd ic = snd cell)
            (ec_pairs c) ids /\
    List.map fst (ec_pairs c) = zrange 0 (zlen cs) /\
    (forall e t, In (e, t) vtk_codes ->
       List.map snd (pairs_of_type c e) = List.map snd (filter (fun cell => fst cell =? t) cs)) /\
    (forall e, In e (ec_types c) -> exists t, In (e, t) vtk_codes) /\
    (ids = zrange 0 (zlen cs) <-> StronglySorted Z.le (g_types g)) /\
    nodescoord_nd m = Ok (g_points g) /\ me_ncell m = zlen cs /\ me_nnode m = zlen (g_points g) /\
    me_faces m = [] /\ me_bocos m = [].
Proof.
  intros F g cs Hg Hk Hp. unfold export_mesh. rewrite (cells_dict_ok g cs Hg Hk). cbn [bind]. rewrite (export_cells_ok cs Hk). cbn [bind].
  set (c := EC (total (named cs)) (blocks 0 (named cs))).
  destruct (set_coords_ok (set_cell2node (new_mesh (n_cells g) (n_points g)) c) (g_points g)) as (m & Em & Hn & H1 & H2 & H3 & H4 & H5 & _);
    [reflexivity|reflexivity|exact Hp|].
  rewrite Em. exists m, c, (List.map fst (order cs)).
  assert (Hpairs : ec_pairs c = combine (zrange 0 (zlen cs)) (List.map (fun ic => snd (snd ic)) (order cs))).
  { unfold ec_pairs, c. cbn [ec_dict]. rewrite blocks_pairs, order_rows, Z.add_0_l. f_equal. f_equal. unfold total. rewrite order_rows, zlen_map.
    rewrite (zlen_perm _ _ (order_perm cs)). unfold zlen. rewrite combine_length, zrange_length. unfold zlen. lia. }
  assert (Hlo : List.length (order cs) = List.length cs).
  { rewrite (Permutation_length (order_perm cs)), combine_length, zrange_length. unfold zlen. lia. }
  split; [reflexivity|]. split; [rewrite H3; reflexivity|]. split.
  { apply blocks_wf; [apply named_nodup; exact Hk|]. intros t mm Hin. apply (named_wf cs t); assumption. }
  split; [apply order_ids_perm|]. split; [apply order_ids_sorted|]. split.
  { rewrite Hpairs. assert (Hall : forall ic, In ic (order cs) -> nth_error cs (Z.to_nat (fst ic)) = Some (snd ic)).
    { intros (i, d) Hin. apply order_in in Hin. tauto. }
    assert (Hlz : List.length (zrange 0 (zlen cs)) = List.length (order cs)) by (rewrite zrange_length, Hlo; unfold zlen; lia).
    revert Hall Hlz. generalize (zrange 0 (zlen cs)). generalize (order cs). clear.
    intros l. induction l as [|ic l IH]; intros zs Hall Hl; destruct zs as [|z zs]; try discriminate; [constructor|].
    cbn [List.map combine]. constructor.
    - exists (snd ic). split; [apply Hall; left; reflexivity|reflexivity].
    - apply IH; [intros x Hx; apply Hall; right; exact Hx|cbn in Hl; lia]. }
  split. { rewrite Hpairs. apply map_fst_combine. rewrite map_length, zrange_length, Hlo. unfold zlen. lia. }
  split.
  { intros e t He. unfold pairs_of_type, c. cbn [ec_dict]. rewrite blocks_rows_of_type, (row_types cs e Hk). f_equal. apply filter_ext_in.
    intros cell Hc. rewrite Forall_forall in Hk. destruct (Hk cell Hc) as (e' & He' & _). unfold ele_name. rewrite (ele_of _ _ He').
    destruct (String.eqb e e') eqn:E.
    - apply String.eqb_eq in E. subst e'. symmetry. apply Z.eqb_eq. exact (ele_inj _ _ _ He' He).
    - symmetry. apply Z.eqb_neq. intros X. rewrite X in He'. apply ele_of in He. apply ele_of in He'. rewrite He in He'. injection He' as <-.
      rewrite String.eqb_refl in E. discriminate. }
  split.
  { intros e He. unfold ec_types, c in He. cbn [ec_dict] in He. rewrite blocks_keys in He. unfold named, type_mats in He.
    rewrite !List.map_map in He. apply in_map_iff in He. destruct He as (t & <- & Ht). exists t. cbn [fst]. apply (types_known cs); assumption. }
  split. { rewrite (go_types _ _ Hg). apply aligned_iff; [apply order_ids_perm|apply order_ids_sorted]. }
  split; [exact Hn|]. split.
  { rewrite H1. cbn [set_cell2node me_ncell]. unfold c. cbn [ec_nelem]. unfold total. rewrite order_rows, zlen_map. unfold zlen. rewrite Hlo. reflexivity. }
  split; [rewrite H2; reflexivity|]. split; [rewrite H4; reflexivity|rewrite H5; reflexivity].
Qed.
Print Assumptions C67_export.

(** A mesh the VTK writer accepts: known types, full arrays of existing nodes. *)
Definition typed_rows (c : econn) : list (string * list Z) :=
  flat_map (fun te => List.map (pair (fst te)) (m_rows (ed_e2n (snd te)))) (ec_dict c).
Record vtk_ready {F} (m : mesh F) (c : econn) (x y z : list F) : Prop := {
  vr_cells : me_cell2node m = Some c;
  vr_some : ec_dict c <> [];
  vr_wf : ec_wf c;
  vr_known : forall t ed, In (t, ed) (ec_dict c) -> exists code n,
     In (t, code) vtk_codes /\ dget String.eqb t type_sizes = Some (Z.of_nat n) /\ m_cols (ed_e2n ed) = Some n;
  vr_nodes : forall t row v, In (t, row) (typed_rows c) -> In v row -> 0 <= v < zlen x;
  vr_coords : nodescoord m = Ok (x, y, z);
  vr_y : List.length y = List.length x;
  vr_z : List.length z = List.length x }.

Lemma stack3_total {F} (x y z : list F) : List.length y = List.length x -> List.length z = List.length x ->
  exists pts, stack3 x y z = Ok pts /\ List.length pts = List.length x /\ Forall (fun p => List.length p = 3%nat) pts.
Proof.
  revert y z. induction x as [|a x IH]; intros [|b y] [|c z] Hy Hz; try discriminate.
  - exists []. repeat split. constructor.
  - destruct (IH y z) as (pts & E & El & Ef); [cbn in Hy; lia|cbn in Hz; lia|]. exists ([a; b; c] :: pts). cbn [stack3]. rewrite E.
    split; [reflexivity|]. split; [cbn; lia|]. constructor; [reflexivity|exact Ef].
Qed.
Lemma stack3_inj {F} (x y z x' y' z' : list F) pts : stack3 x y z = Ok pts -> stack3 x' y' z' = Ok pts -> x = x' /\ y = y' /\ z = z'.
Proof.
  revert y z x' y' z' pts. induction x as [|a x IH]; intros [|b y] [|c z] x' y' z' pts H H'; try discriminate.
  - injection H as <-. destruct x', y', z'; try discriminate; auto. cbn [stack3] in H'. apply bind_ok in H'. destruct H' as (r & _ & H'). discriminate.
  - cbn [stack3] in H. apply bind_ok in H. destruct H as (r & Hr & H). injection H as <-.
    destruct x' as [|a' x'], y' as [|b' y'], z' as [|c' z']; try discriminate.
    cbn [stack3] in H'. apply bind_ok in H'. destruct H' as (r' & Hr' & H'). injection H' as <- <- <- <-.
    destruct (IH _ _ _ _ _ _ Hr Hr') as (<- & <- & <-). auto.
Qed.

Definition vtk_code (t : string) : Z := match dget String.eqb t vtktype_ele with Some k => k | None => 0 end.
Definition mesh_cells (c : econn) : list (Z * list Z) := List.map (fun tr => (vtk_code (fst tr), snd tr)) (typed_rows c).

Lemma mesh_cells_parts (d : dict string edict) :
  List.concat (List.map (fun te => List.map (pair (vtk_code (fst te))) (m_rows (ed_e2n (snd te)))) d) = 
  List.map (fun tr => (vtk_code (fst tr), snd tr)) (flat_map (fun te => List.map (pair (fst te)) (m_rows (ed_e2n (snd te)))) d).
Proof.
  induction d as [|(t, ed) d IH]; [reflexivity|]. cbn [List.map List.concat flat_map fst snd]. rewrite map_app, IH. f_equal.
  rewrite List.map_map. reflexivity.
Qed.

(** The grid has the cells of the mesh, type after type, in the order of the mesh. *)
Theorem C67_write : forall F (m : mesh F) c x y z, vtk_ready m c x y z ->
  exists g cs,
    set_mesh m = Ok g /\ grid_of g cs /\ vertices_ok g cs /\ Forall known_cell cs /\
    Forall2 (fun tr cell => In (fst tr, fst cell) vtk_codes /\ snd cell = snd tr) (typed_rows c) cs /\
    stack3 x y z = Ok (g_points g).
Proof.
  intros F m c x y z H. destruct (stack3_total x y z (vr_y _ _ _ _ _ H) (vr_z _ _ _ _ _ H)) as (pts & Ep & El & _).
  unfold set_mesh, nodescoord_nd. rewrite (vr_coords _ _ _ _ _ H). cbn [bind]. rewrite Ep. cbn [bind]. rewrite (vr_cells _ _ _ _ _ H).
  assert (Hin : forall te, In te (ec_dict c) -> exists n, In (fst te, vtk_code (fst te)) vtktype_ele /\
     dget String.eqb (fst te) nnode_elem = Some (Z.of_nat n) /\ m_cols (ed_e2n (snd te)) = Some n).
  { intros (t, ed) Hte. destruct (vr_known _ _ _ _ _ H t ed Hte) as (code & n & Hc & Hn & Hm). exists n. cbn [fst snd].
    unfold vtk_code. rewrite (code_of _ _ Hc). auto. }
  assert (Ed : mapM (fun '(etype, ed) => t <- dget_err String.eqb etype vtktype_ele ;; Ok (t, ed_e2n ed)) (ec_dict c) =
               Ok (List.map (fun te => (vtk_code (fst te), ed_e2n (snd te))) (ec_dict c))).
  { apply mapM_map. intros (t, ed) Hte. destruct (Hin _ Hte) as (n & Hc & _). cbn [fst snd] in *. unfold dget_err. rewrite (code_of _ _ Hc). reflexivity. }
  rewrite Ed. cbn [bind]. unfold ug_of_dict.
  assert (Hmw : forall te, In te (ec_dict c) -> mat_wf (ed_e2n (snd te))).
  { intros (t, ed) Hte. apply (ecwf_eds _ (vr_wf _ _ _ _ _ H) t ed Hte). }
  assert (Hpts : zlen pts = zlen x) by (unfold zlen; rewrite El; reflexivity).
  assert (Epp : mapM (fun '(t, m0) => match dget Z.eqb t vtk_nnode with
      | None => Err ValueError
      | Some n => match m_cols m0 with
                  | None => Err ValueError
                  | Some c0 => if (Z.of_nat c0 =? n) && forallb (forallb (fun v => (0 <=? v) && (v <? zlen pts))) (m_rows m0)
                               then Ok (List.map (fun r => (t, r)) (m_rows m0)) else Err ValueError
                  end end) (List.map (fun te => (vtk_code (fst te), ed_e2n (snd te))) (ec_dict c)) =
    Ok (List.map (fun te => List.map (pair (vtk_code (fst te))) (m_rows (ed_e2n (snd te)))) (ec_dict c))).
  { rewrite <- (List.map_map (fun te => (vtk_code (fst te), ed_e2n (snd te))) (fun tm : Z * mat => List.map (pair (fst tm)) (m_rows (snd tm)))).
    apply mapM_map. intros (t, mm) Htm. apply in_map_iff in Htm. destruct Htm as (te & E & Hte). injection E as <- <-.
    destruct (Hin te Hte) as (n & Hc & Hn & Hm). rewrite (nnode_of _ _ _ Hc Hn), Hm, Z.eqb_refl. cbn [andb].
    assert (forallb (forallb (fun v => (0 <=? v) && (v <? zlen pts))) (m_rows (ed_e2n (snd te))) = true) as ->; [|reflexivity].
    apply forallb_forall. intros row Hrow. apply forallb_forall. intros v Hv.
    assert (Htr : In (fst te, row) (typed_rows c)).
    { unfold typed_rows. apply in_flat_map. exists te. split; [exact Hte|]. apply in_map. exact Hrow. }
    pose proof (vr_nodes _ _ _ _ _ H _ _ v Htr Hv). lia. }
  rewrite Epp. cbn [bind].
  assert (Hne : List.map (fun te => (vtk_code (fst te), ed_e2n (snd te))) (ec_dict c) <> []).
  { pose proof (vr_some _ _ _ _ _ H). destruct (ec_dict c); [congruence|discriminate]. }
  destruct (List.map (fun te => (vtk_code (fst te), ed_e2n (snd te))) (ec_dict c)) as [|q qs]; [congruence|]. clear Hne.
  rewrite mesh_cells_parts. fold (typed_rows c). fold (mesh_cells c).
  destruct (ug_new_of (mesh_cells c) pts) as (g & Eg & Hg & Egp).
  assert (Eenc : flat_map (fun c0 => zlen (snd c0) :: snd c0) (mesh_cells c) = enc (List.map snd (mesh_cells c))).
  { unfold enc. clear. induction (mesh_cells c) as [|a l IH]; [reflexivity|]. cbn [flat_map List.map]. rewrite IH. reflexivity. }
  rewrite Eenc, Eg. exists g, (mesh_cells c).
  assert (Htyped : forall tr, In tr (typed_rows c) -> exists n, In (fst tr, vtk_code (fst tr)) vtktype_ele /\
      dget String.eqb (fst tr) nnode_elem = Some (Z.of_nat n) /\ List.length (snd tr) = n).
  { intros tr Htr. unfold typed_rows in Htr. apply in_flat_map in Htr. destruct Htr as (te & Hte & Hr). apply in_map_iff in Hr.
    destruct Hr as (row & <- & Hrow). destruct (Hin te Hte) as (n & Hc & Hn & Hm). exists n. cbn [fst snd]. split; [exact Hc|]. split; [exact Hn|].
    specialize (Hmw te Hte). unfold mat_wf in Hmw. rewrite Hm in Hmw. rewrite Forall_forall in Hmw. apply Hmw. exact Hrow. }
  split; [reflexivity|]. split; [exact Hg|]. split; [|split; [|split]].
  - intros cell v Hcell Hv. unfold mesh_cells in Hcell. apply in_map_iff in Hcell. destruct Hcell as ((t, row) & <- & Htr). cbn [snd] in Hv.
    rewrite Egp, Hpts. exact (vr_nodes _ _ _ _ _ H t row v Htr Hv).
  - apply Forall_forall. intros cell Hcell. unfold mesh_cells in Hcell. apply in_map_iff in Hcell. destruct Hcell as (tr & <- & Htr).
    destruct (Htyped tr Htr) as (n & Hc & Hn & Hl). exists (fst tr). cbn [fst snd]. split; [exact Hc|]. change type_sizes with nnode_elem; rewrite Hn. unfold zlen. rewrite Hl. reflexivity.
  - unfold mesh_cells. clear -Htyped. induction (typed_rows c) as [|tr l IH]; [constructor|]. cbn [List.map]. constructor.
    + destruct (Htyped tr (or_introl eq_refl)) as (n & Hc & _). split; [exact Hc|reflexivity].
    + apply IH. intros tr' Htr'. apply Htyped. right. exact Htr'.
  - rewrite Egp. reflexivity.
Qed.
Print Assumptions C67_write.

Lemma pairs_rows c e : ec_wf c -> List.map snd (pairs_of_type c e) = List.map snd (filter (fun tr => String.eqb e (fst tr)) (typed_rows c)).
Proof.
  intros Hw. unfold pairs_of_type, typed_rows.
  assert (Hl : forall te, In te (ec_dict c) -> List.length (entries (ed_index (snd te))) = List.length (m_rows (ed_e2n (snd te)))).
  { intros (t, ed) Hte. apply (ecwf_eds _ Hw t ed Hte). }
  clear Hw. induction (ec_dict c) as [|(t, ed) d IH]; [reflexivity|]. cbn [flat_map fst snd]. rewrite filter_app, !map_app.
  rewrite IH by (intros te Hte; apply Hl; right; exact Hte). f_equal.
  specialize (Hl _ (or_introl eq_refl)). cbn [fst snd] in Hl. destruct (String.eqb e t) eqn:E.
  - assert (Ef : filter (fun tr => String.eqb e (fst tr)) (List.map (pair t) (m_rows (ed_e2n ed))) = List.map (pair t) (m_rows (ed_e2n ed))).
    { induction (m_rows (ed_e2n ed)) as [|r rs IHr]; [reflexivity|]. cbn [List.map filter fst]. rewrite E. f_equal. clear -E.
      induction rs as [|r rs IHr]; [reflexivity|]. cbn [List.map filter fst]. rewrite E, IHr. reflexivity. }
    rewrite Ef, List.map_map. unfold ed_pairs. rewrite map_snd_combine by exact Hl. cbn [snd]. symmetry. apply map_id.
  - assert (Ef : filter (fun tr => String.eqb e (fst tr)) (List.map (pair t) (m_rows (ed_e2n ed))) = []).
    { clear -E. induction (m_rows (ed_e2n ed)) as [|r rs IHr]; [reflexivity|]. cbn [List.map filter fst]. rewrite E. exact IHr. }
    rewrite Ef. reflexivity.
Qed.

(** Converting a mesh to VTK and back keeps the cells of each type in order, and the coordinates;
    faces and marks are lost. *)
Theorem C67_roundtrip : forall F (m : mesh F) c x y z, vtk_ready m c x y z ->
  exists g m' c',
    set_mesh m = Ok g /\ export_mesh g = Ok m' /\ me_cell2node m' = Some c' /\ ec_wf c' /\
    (forall e, List.map snd (pairs_of_type c' e) = List.map snd (pairs_of_type c e)) /\
    nodescoord m' = Ok (x, y, z) /\ me_ncell m' = ec_nelem c /\ me_nnode m' = zlen x /\
    me_faces m' = [] /\ me_bocos m' = [].
Proof.
  intros F m c x y z H. destruct (C67_write F m c x y z H) as (g & cs & Eg & Hg & Hv & Hk & Hf & Ep).
  destruct (stack3_total x y z (vr_y _ _ _ _ _ H) (vr_z _ _ _ _ _ H)) as (pts & Ep' & El & Hp3). rewrite Ep in Ep'. injection Ep' as Ep'.
  rewrite <- Ep' in El, Hp3.
  destruct (C67_export F g cs Hg Hk Hp3) as (m' & c' & ids & E1 & E2 & Hw & _ & _ & _ & _ & Hrows & Htypes & _ & Hn & Hnc & Hnn & Hfa & Hb).
  exists g, m', c'. split; [exact Eg|]. split; [exact E1|]. split; [exact E2|]. split; [exact Hw|]. split; [|split; [|split; [|split; [|split; assumption]]]].
  - intros e. rewrite (pairs_rows c e (vr_wf _ _ _ _ _ H)).
    destruct (dget String.eqb e vtktype_ele) as [t|] eqn:Et.
    + apply (dget_in _ seqb_eq) in Et. rewrite (Hrows e t Et). clear -Hf Et.
      induction Hf as [|tr cell l cs [Hi Hs] _ IH]; [reflexivity|]. cbn [filter].
      assert ((fst cell =? t) = String.eqb e (fst tr)) as ->.
      { destruct (String.eqb e (fst tr)) eqn:E.
        - apply String.eqb_eq in E. subst e. apply Z.eqb_eq. exact (ele_inj _ _ _ Hi Et).
        - apply Z.eqb_neq. intros X. rewrite X in Hi. apply ele_of in Hi. apply ele_of in Et. rewrite Et in Hi. injection Hi as Hi. rewrite Hi, String.eqb_refl in E. discriminate. }
      destruct (String.eqb e (fst tr)); [cbn [List.map]; rewrite IH, Hs; reflexivity|exact IH].
    + assert (Hne : forall t, ~ In (e, t) vtktype_ele). { intros t Hin. apply code_of in Hin. rewrite Hin in Et. discriminate. }
      assert (filter (fun tr => String.eqb e (fst tr)) (typed_rows c) = []) as ->.
      { clear -Hf Hne. induction Hf as [|tr cell l cs [Hi _] _ IH]; [reflexivity|]. cbn [filter]. destruct (String.eqb e (fst tr)) eqn:E; [|exact IH].
        apply String.eqb_eq in E. subst e. exfalso. exact (Hne _ Hi). }
      assert (pairs_of_type c' e = []) as ->; [|reflexivity].
      unfold pairs_of_type. assert (Hno : ~ In e (ec_types c')). { intros Hin. destruct (Htypes e Hin) as (t & Ht). exact (Hne t Ht). }
      unfold ec_types in Hno. clear -Hno. induction (ec_dict c') as [|(t, ed) d IH]; [reflexivity|]. cbn [flat_map fst snd].
      cbn [List.map fst In] in Hno. destruct (String.eqb e t) eqn:E; [apply String.eqb_eq in E; subst; tauto|]. apply IH. tauto.
  - unfold nodescoord_nd in Hn. apply bind_ok in Hn. destruct Hn as (((x' & y') & z') & Hn1 & Hn2). cbv beta iota in Hn2.
    destruct (stack3_inj _ _ _ _ _ _ _ Ep Hn2) as (-> & -> & ->). exact Hn1.
  - rewrite Hnc. rewrite (ecwf_nelem _ (vr_wf _ _ _ _ _ H)). unfold zlen. f_equal. rewrite <- (Forall2_length' _ _ _ Hf).
    unfold typed_rows, ec_pairs. pose proof (ecwf_eds _ (vr_wf _ _ _ _ _ H)) as Heds. clear -Heds.
    induction (ec_dict c) as [|(t, ed) d IH]; [reflexivity|]. cbn [flat_map fst snd]. rewrite !app_length, map_length. rewrite IH.
    + f_equal. unfold ed_pairs. rewrite combine_length. rewrite (edwf_len _ (Heds t ed (or_introl eq_refl))). lia.
    + intros t' ed' Hin. apply (Heds t'). right. exact Hin.
  - rewrite Hnn. unfold zlen. rewrite El. reflexivity.
Qed.
Print Assumptions C67_roundtrip.

(** A type VTK has no code for in the package's table (for instance 27-node hexahedra) is refused. *)
Theorem C67_unsupported : forall F (m : mesh F) c pts, nodescoord_nd m = Ok pts -> me_cell2node m = Some c ->
  (exists t ed, In (t, ed) (ec_dict c) /\ ~ In t (dkeys vtk_codes)) -> set_mesh m = Err KeyError.
Proof.
  intros F m c pts Hp Hc (t & ed & Hin & Hno). unfold set_mesh. rewrite Hp. cbn [bind]. rewrite Hc.
  assert (E : mapM (fun '(etype, ed0) => t0 <- dget_err String.eqb etype vtktype_ele ;; Ok (t0, ed_e2n ed0)) (ec_dict c) = Err KeyError).
  { clear -Hin Hno. induction (ec_dict c) as [|(t', ed') d IH]; [destruct Hin|]. cbn [mapM]. unfold dget_err at 1.
    destruct (dget String.eqb t' vtktype_ele) as [k|] eqn:E.
    - cbn [bind]. destruct Hin as [Hin|Hin].
      + injection Hin as <- <-. exfalso. apply Hno. apply (dget_Some_iff _ seqb_eq). exists k. exact E.
      + rewrite (IH Hin). reflexivity.
    - reflexivity. }
  rewrite E. reflexivity.
Qed.
Print Assumptions C67_unsupported.

(** A case: a triangle and a quadrangle, the quadrangle listed first; the export puts the triangle first. *)
Definition ex_vm : mesh Z :=
  Mesh Z 2 5 0 (Some (EC 2 [("quad4", ED (ILrange 0 0) (Mat (Some 4%nat) [[0;1;4;3]])); ("tri3", ED (ILrange 1 1) (Mat (Some 3%nat) [[1;2;4]]))]))
    [] [("x", [0;1;2;0;1]); ("y", [0;0;0;1;1]); ("z", [0;0;0;0;0])] [].
Example ex_ready : exists c, vtk_ready ex_vm c [0;1;2;0;1] [0;0;0;1;1] [0;0;0;0;0].
Proof.
  eexists. constructor; try reflexivity; try discriminate.
  - constructor.
    + cbn. repeat constructor; cbn; intuition discriminate.
    + intros t ed Hin. cbn in Hin. destruct Hin as [H|[H|[]]]; injection H as <- <-; constructor; try discriminate; try reflexivity; repeat constructor.
    + reflexivity.
  - intros t ed Hin. cbn in Hin. destruct Hin as [H|[H|[]]]; injection H as <- <-; [exists 9, 4%nat|exists 5, 3%nat]; cbn; intuition.
  - intros t row v Hin Hv. cbn in Hin. destruct Hin as [H|[H|[]]]; injection H as <- <-; cbn in Hv; cbn; lia.
Qed.
Example ex_swapped : match set_mesh ex_vm with Ok g => export_mesh g | Err e => Err e end =
  Ok (Mesh Z 2 5 0 (Some (EC 2 [("tri3", ED (ILrange 0 0) (Mat (Some 3%nat) [[1;2;4]])); ("quad4", ED (ILrange 1 1) (Mat (Some 4%nat) [[0;1;4;3]]))]))
    [] [("x", [0;1;2;0;1]); ("y", [0;0;0;1;1]); ("z", [0;0;0;0;0])] []).
Proof. vm_compute. reflexivity. Qed.

(** ** C68 *)
Section Volumes.
  Context {V : Type} (truth : V -> bool).
  (** The values of [n] calls of [volumes] on the same object. *)
  Fixpoint calls (n : nat) (vols : list V) (cached : option (list V)) : list (res (list V)) :=
    match n with
    | O => []
    | S n' => let '(r, cached') := volumes truth vols cached in r :: calls n' vols cached'
    end.
End Volumes.

(** Only the first call works on a mesh of at least two cells. *)
Theorem C68_volumes : forall V (truth : V -> bool) vols n, (2 <= List.length vols)%nat ->
  calls truth (S n) vols None = Ok vols :: List.repeat (Err ValueError) n.
Proof.
  intros V truth vols n Hl. cbn. f_equal. destruct vols as [|a [|b vols]]; cbn in Hl; try lia. clear Hl.
  induction n as [|n IH]; [reflexivity|]. cbn. rewrite IH. reflexivity.
Qed.
Print Assumptions C68_volumes.
(** With one cell or none every call gives the volumes. *)
Theorem C68_single : forall V (truth : V -> bool) vols n, (List.length vols <= 1)%nat ->
  calls truth n vols None = List.repeat (Ok vols) n.
Proof.
  intros V truth vols n Hl. destruct vols as [|a [|b vols]]; cbn in Hl; try lia.
  - assert (H : forall k, calls truth k [] None = List.repeat (Ok []) k /\ calls truth k [] (Some []) = List.repeat (Ok []) k).
    { induction k as [|k [IH1 IH2]]; [split; reflexivity|]. split; cbn; rewrite IH2; reflexivity. }
    apply H.
  - assert (H : forall k, calls truth k [a] None = List.repeat (Ok [a]) k /\ calls truth k [a] (Some [a]) = List.repeat (Ok [a]) k).
    { induction k as [|k [IH1 IH2]]; [split; reflexivity|]. split; cbn; [rewrite IH2; reflexivity|]. destruct (truth a); rewrite IH2; reflexivity. }
    apply H.
Qed.
Print Assumptions C68_single.
(** After any history, giving the object another grid makes the next call give the volumes of that grid. *)
Theorem C68_set : forall V (truth : V -> bool) st l vols,
  snd (volrun truth (fst (volrun truth st l)) [VolSet vols; VolAsk]) = [Ok vols].
Proof. reflexivity. Qed.
Print Assumptions C68_set.
(** Changing the grid itself does not: after a call on one cell of non-zero volume every call gives that volume, and after
    a call on at least two cells every call fails, until another grid is set. *)
Definition is_set {V} (o : volop V) : Prop := match o with VolSet _ => True | _ => False end.
Definition ask_count {V} (l : list (volop V)) : nat := List.length (filter (fun o => match o with VolAsk => true | _ => false end) l).
Theorem C68_moved : forall V (truth : V -> bool) st vols l, Forall (fun o => ~ is_set o) l ->
  (forall v, vols = [v] -> truth v = true ->
     snd (volrun truth st (VolSet vols :: VolAsk :: l)) = Ok [v] :: List.repeat (Ok [v]) (ask_count l)) /\
  ((2 <= List.length vols)%nat ->
     snd (volrun truth st (VolSet vols :: VolAsk :: l)) = Ok vols :: List.repeat (Err ValueError) (ask_count l)).
Proof.
  intros V truth st vols l NS.
  assert (K : forall c o, (forall g, volumes truth g (Some c) = (o, Some c)) -> forall g, snd (volrun truth (g, Some c) l) = List.repeat o (ask_count l)).
  { intros c o Hc. induction l as [|a l IH]; intros g; [reflexivity|].
    inversion NS as [|? ? N1 N2]; subst. specialize (IH N2). destruct a as [w|w|]; [exfalso; apply N1; exact I| |].
    - specialize (IH w). cbn. destruct (volrun truth (w, Some c) l). exact IH.
    - specialize (IH g). cbn [volrun volstep fst snd]. rewrite Hc. destruct (volrun truth (g, Some c) l). cbn in *. now rewrite IH. }
  assert (E : forall c, snd (volrun truth st (VolSet c :: VolAsk :: l)) = Ok c :: snd (volrun truth (c, Some c) l)).
  { intros c. cbn. now destruct (volrun truth (c, Some c) l). }
  rewrite E. split.
  - intros v -> T. f_equal. apply K. intros g. cbn. now rewrite T.
  - intros L. destruct vols as [|a [|b vols]]; cbn in L; try lia. f_equal. apply K. reflexivity.
Qed.
Print Assumptions C68_moved.
Example ex_moved : snd (volrun (fun v => negb (v =? 0)) ([], None) [VolSet [5]; VolAsk; VolMove [7]; VolAsk; VolSet [8; 9]; VolAsk; VolAsk]) =
  [Ok [5]; Ok [5]; Ok [8; 9]; Err ValueError].
Proof. reflexivity. Qed.
Example ex_volumes : calls (fun v => negb (v =? 0)) 3 [5; 7] None = [Ok [5; 7]; Err ValueError; Err ValueError].
Proof. reflexivity. Qed.
