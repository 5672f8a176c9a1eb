(** * C62: HDF5 dumps and XDMF references. *)
From Coq Require Import Ascii Permutation Sorted Lia.
From Verif Require Import Py PyFacts GroupFacts ConnProofs ConnSpec Conn FaceThm Mesh Vtk VtkSpec VtkProofs VtkMeshProps Files FilesSpec FilesProofs Hdf5 Hdf5Spec Hdf5Proofs.

(** ** Step names *)

(** Two time steps never share a group, however many there are. *)
Theorem C62_step_names : forall i j, step_name i = step_name j -> i = j.
Proof. exact step_inj. Qed.
Print Assumptions C62_step_names.
(** They have an 'i' and the number, with zeros in front of it when it has less than six digits. *)
Theorem C62_step_form : forall i, exists z, step_name i = ("i" ++ z ++ dec i)%string /\ Forall (eq "0"%char) (list_ascii_of_string z) /\
  String.length (step_name i) = Nat.max 7 (1 + String.length (dec i)).
Proof.
  intros i. unfold step_name, pad6. exists (zeros (6 - String.length (dec i))). split; [reflexivity|].
  assert (L : forall n, Forall (eq "0"%char) (list_ascii_of_string (zeros n)) /\ String.length (zeros n) = n).
  { induction n as [|n (IH1 & IH2)]; cbn; [split; [constructor|reflexivity]|]. split; [now constructor|now rewrite IH2]. }
  assert (A : forall a b, String.length (a ++ b) = (String.length a + String.length b)%nat) by (intros a b; induction a as [|c a IH]; cbn; congruence).
  split; [apply L|]. rewrite !A, (proj2 (L _)). cbn [String.length]. lia.
Qed.
Print Assumptions C62_step_form.
Example ex_steps : List.map step_name [0; 12; 1234]%nat = ["i000000"; "i000012"; "i001234"]%string.
Proof. reflexivity. Qed.

(** ** The mesh round trip *)
Lemma ug_dict_ok {P} (d : list (Z * mat)) (pts : list P) : d <> [] ->
  (forall t m, In (t, m) d -> exists c, dget Z.eqb t vtk_nnode = Some (Z.of_nat c) /\ m_cols m = Some c /\
     forall row v, In row (m_rows m) -> In v row -> 0 <= v < zlen pts) ->
  exists g, ug_of_dict d pts = Ok g /\ grid_of g (flat_map (fun tm => List.map (pair (fst tm)) (m_rows (snd tm))) d) /\ g_points g = pts.
Proof.
  intros Hne Hd. unfold ug_of_dict.
  assert (E : mapM (fun '(t, m) => match dget Z.eqb t vtk_nnode with
      | None => Err ValueError
      | Some n => match m_cols m with
                  | None => Err ValueError
                  | Some c => if (Z.of_nat c =? n) && forallb (forallb (fun v => (0 <=? v) && (v <? zlen pts))) (m_rows m)
                               then Ok (List.map (fun r => (t, r)) (m_rows m)) else Err ValueError
                  end end) d = Ok (List.map (fun tm => List.map (pair (fst tm)) (m_rows (snd tm))) d)).
  { apply mapM_map. intros (t, m) Hin. destruct (Hd t m Hin) as (c & -> & -> & Hv). rewrite Z.eqb_refl. cbn [andb fst snd].
    assert (forallb (forallb (fun v => (0 <=? v) && (v <? zlen pts))) (m_rows m) = true) as ->; [|reflexivity].
    apply forallb_forall. intros row Hrow. apply forallb_forall. intros v Hv'. specialize (Hv row v Hrow Hv'). lia. }
  rewrite E. cbn [bind]. destruct d as [|x d]; [congruence|]. remember (x :: d) as d' eqn:Ed. clear Ed Hne E Hd x d.
  rewrite <- flat_map_concat_map. set (cs := flat_map _ d').
  destruct (ug_new_of cs pts) as (g & Eg & Hg & Egp). exists g. split; [|split; assumption]. rewrite <- Eg. f_equal.
  unfold enc. clear. induction cs as [|a l IH]; [reflexivity|]. cbn [flat_map List.map]. rewrite IH. reflexivity.
Qed.

Lemma filter_pairs t t' (rows : list (list Z)) : filter (fun c => fst c =? t) (List.map (pair t') rows) = if t' =? t then List.map (pair t') rows else [].
Proof.
  induction rows as [|r rows IH]; [destruct (t' =? t); reflexivity|]. cbn [List.map filter fst]. rewrite IH. destruct (t' =? t); reflexivity.
Qed.
Lemma filter_blocks t (d : list (Z * mat)) : NoDup (List.map fst d) ->
  filter (fun c => fst c =? t) (flat_map (fun tm => List.map (pair (fst tm)) (m_rows (snd tm))) d) =
  match dget Z.eqb t d with Some m => List.map (pair t) (m_rows m) | None => [] end.
Proof.
  induction d as [|(t', m) d IH]; intros Hnd; [reflexivity|]. inversion Hnd as [|? ? Hni Hnd']; subst.
  cbn [flat_map fst snd dget]. rewrite filter_app, filter_pairs, IH by exact Hnd'. rewrite (Z.eqb_sym t t'). destruct (Z.eqb_spec t' t) as [->|Hne]; [|reflexivity].
  replace (dget Z.eqb t d) with (@None mat); [apply app_nil_r|]. symmetry. apply (dget_None _ Z.eqb_eq). exact Hni.
Qed.
Lemma filter_of_type cs t : filter (fun c => fst c =? t) cs = List.map (pair t) (of_type cs t).
Proof.
  unfold of_type. induction cs as [|(t', r) cs IH]; [reflexivity|]. cbn [filter fst]. destruct (Z.eqb_spec t' t) as [->|Hne]; [|exact IH].
  cbn [List.map snd]. f_equal. exact IH.
Qed.
Lemma type_mats_keys cs : List.map fst (type_mats cs) = np_unique (List.map fst cs).
Proof. unfold type_mats. rewrite List.map_map. apply map_id. Qed.
Lemma type_mats_get cs t : dget Z.eqb t (type_mats cs) = if in_dec Z.eq_dec t (List.map fst cs) then Some (Mat (Some (size_of t)) (of_type cs t)) else None.
Proof.
  destruct (in_dec Z.eq_dec t (List.map fst cs)) as [Hin|Hni].
  - apply (in_dget _ Z.eqb_eq); [unfold dkeys; rewrite type_mats_keys; apply np_unique_NoDup|]. unfold type_mats. apply in_map_iff. exists t. split; [reflexivity|].
    rewrite np_unique_in. exact Hin.
  - apply (dget_None _ Z.eqb_eq). unfold dkeys. rewrite type_mats_keys, np_unique_in. exact Hni.
Qed.
Lemma perm_of_filters (cs cs' : list (Z * list Z)) : (forall t, filter (fun c => fst c =? t) cs' = filter (fun c => fst c =? t) cs) -> Permutation cs' cs.
Proof.
  revert cs'. induction cs as [|c cs IH]; intros cs' H.
  - destruct cs' as [|c' cs']; [constructor|]. specialize (H (fst c')). cbn in H. rewrite Z.eqb_refl in H. discriminate.
  - assert (Hc : In c cs'). { assert (Hf : In c (filter (fun x => fst x =? fst c) cs')) by (rewrite H; cbn [filter]; rewrite Z.eqb_refl; left; reflexivity). apply filter_In in Hf. apply Hf. }
    assert (Hs : exists l1 l2, cs' = l1 ++ c :: l2 /\ filter (fun x => fst x =? fst c) l1 = []).
    { pose proof (H (fst c)) as Hfc. cbn [filter] in Hfc. rewrite Z.eqb_refl in Hfc. clear -Hfc. induction cs' as [|c' cs' IH]; [discriminate|].
      cbn [filter] in Hfc. destruct (fst c' =? fst c) eqn:E.
      - injection Hfc as -> _. exists [], cs'. split; reflexivity.
      - destruct (IH Hfc) as (l1 & l2 & -> & Hl). exists (c' :: l1), l2. split; [reflexivity|]. cbn [filter]. rewrite E. exact Hl. }
    destruct Hs as (l1 & l2 & -> & Hl1). rewrite <- Permutation_middle. constructor. apply IH. intros t. pose proof (H t) as Ht. rewrite filter_app in Ht. cbn [filter] in Ht. rewrite filter_app.
    destruct (Z.eqb_spec (fst c) t) as [E|Hne]; [|exact Ht]. rewrite <- E in *. rewrite Hl1 in *. cbn [app] in *. injection Ht as Ht. exact Ht.
Qed.
Lemma type_mats_perm cs cs' : (forall t, filter (fun c => fst c =? t) cs' = filter (fun c => fst c =? t) cs) -> type_mats cs' = type_mats cs.
Proof.
  intros H. unfold type_mats. assert (Hp : Permutation (List.map fst cs') (List.map fst cs)) by (apply Permutation_map, perm_of_filters, H).
  assert (Hu : np_unique (List.map fst cs') = np_unique (List.map fst cs)) by (unfold np_unique; rewrite (proj2 (zsort_perm_iff _ _) Hp); reflexivity).
  rewrite Hu. apply map_ext. intros t. unfold of_type. rewrite H. reflexivity.
Qed.

Lemma known_sizes cs t : Forall known_cell cs -> In t (List.map fst cs) ->
  dget Z.eqb t vtk_nnode = Some (Z.of_nat (size_of t)) /\ In (ele_name t, t) vtktype_ele /\ good_part (ele_name t).
Proof.
  intros Hk Ht. pose proof (types_known cs t Hk) as Hn. rewrite np_unique_in in Hn. specialize (Hn Ht).
  apply in_map_iff in Ht. destruct Ht as (c & <- & Hc). rewrite Forall_forall in Hk. destruct (Hk c Hc) as (e & He & Hs).
  unfold size_of. rewrite (nnode_of _ _ _ He Hs). rewrite Z2Nat.id by apply zlen_nonneg. split; [reflexivity|]. split; [exact Hn|].
  revert Hn. generalize (ele_name (fst c)) as n. clear. intros n Hn. cbn in Hn.
  repeat destruct Hn as [Hn|Hn]; try (injection Hn as <- _; repeat split; try discriminate; intros Hi; cbn in Hi; repeat destruct Hi as [Hi|Hi]; try discriminate; destruct Hi). destruct Hn.
Qed.
Lemma vtk_code_name cs t : Forall known_cell cs -> In t (List.map fst cs) -> vtk_code (ele_name t) = t.
Proof. intros Hk Ht. destruct (known_sizes cs t Hk Ht) as (_ & Hin & _). unfold vtk_code. rewrite (code_of _ _ Hin). reflexivity. Qed.

(** The names of types come back by increasing name. *)
Definition rank (n : string) : nat :=
  match n with "bar2" => 0 | "hexa8" => 1 | "prism6" => 2 | "pyra5" => 3 | "quad4" => 4 | "tetra4" => 5 | "tri3" => 6 | _ => 7 end%string%nat.
Lemma isort_ext {A} (f g : A -> A -> bool) l : (forall a b, In a l -> In b l -> f a b = g a b) -> isort f l = isort g l.
Proof.
  induction l as [|a l IH]; intros H; [reflexivity|]. cbn [isort]. rewrite IH by (intros x y Hx Hy; apply H; right; assumption).
  assert (Hi : forall k, (forall b, In b k -> f a b = g a b) -> insert f a k = insert g a k).
  { induction k as [|b k IHk]; intros Hk; [reflexivity|]. cbn [insert]. rewrite (Hk b (or_introl eq_refl)). destruct (g a b); [reflexivity|]. rewrite IHk; [reflexivity|]. intros x Hx. apply Hk. right. exact Hx. }
  apply Hi. intros b Hb. apply H; [left; reflexivity|right]. apply (Permutation_in _ (Permutation_sym (isort_perm' g l))). exact Hb.
Qed.
Lemma names_order ts : NoDup ts -> (forall t, In t ts -> In (ele_name t, t) vtktype_ele) ->
  isort String.leb (List.map ele_name ts) = List.map ele_name (filter (fun t => existsb (Z.eqb t) ts) imported_order).
Proof.
  intros Hnd Hk. set (r := fun a b : string => Nat.leb (rank a) (rank b)).
  rewrite (isort_ext String.leb r).
  2:{ intros a b Ha Hb. apply in_map_iff in Ha, Hb. destruct Ha as (ta & <- & Ha), Hb as (tb & <- & Hb). apply Hk in Ha, Hb. revert Ha Hb. generalize (ele_name ta) (ele_name tb). intros x y Hx Hy. cbn in Hx, Hy.
      repeat destruct Hx as [Hx|Hx]; try contradiction; injection Hx as <- _; repeat destruct Hy as [Hy|Hy]; try contradiction; injection Hy as <- _; reflexivity. }
  assert (Hp : Permutation (List.map ele_name ts) (List.map ele_name (filter (fun t => existsb (Z.eqb t) ts) imported_order))).
  { apply Permutation_map. apply NoDup_Permutation; [exact Hnd|apply NoDup_filter; repeat (constructor; [cbn; lia|]); constructor|].
    intros t. rewrite filter_In, existsb_exists. split.
    - intros Ht. split; [|exists t; split; [exact Ht|apply Z.eqb_refl]]. apply Hk in Ht. cbn in Ht. repeat destruct Ht as [Ht|Ht]; try contradiction; injection Ht as _ <-; cbn; tauto.
    - intros (_ & u & Hu & E). apply Z.eqb_eq in E. subst u. exact Hu. }
  assert (Hanti : forall a b, In a (isort r (List.map ele_name ts)) -> In b (isort r (List.map ele_name ts)) -> r a b = true -> r b a = true -> a = b).
  { intros a b Ha Hb H1 H2. apply (Permutation_in _ (Permutation_sym (isort_perm' r _))) in Ha, Hb. apply in_map_iff in Ha, Hb. destruct Ha as (ta & <- & Ha), Hb as (tb & <- & Hb).
    apply Hk in Ha, Hb. revert Ha Hb H1 H2. generalize (ele_name ta) (ele_name tb). intros x y Hx Hy. cbn in Hx, Hy.
    repeat destruct Hx as [Hx|Hx]; try contradiction; injection Hx as <- _; repeat destruct Hy as [Hy|Hy]; try contradiction; injection Hy as <- _; unfold r; cbn; congruence. }
  assert (Ht : forall a b, r a b = true \/ r b a = true) by (intros a b; unfold r; rewrite !Nat.leb_le; lia).
  assert (Htr : forall a b c, r a b = true -> r b c = true -> r a c = true) by (intros a b c; unfold r; rewrite !Nat.leb_le; lia).
  apply (sorted_perm_unique r); [exact Hanti|apply isort_sorted; assumption| |rewrite <- Hp; symmetry; apply isort_perm'].
  clear. generalize (fun t => existsb (Z.eqb t) ts). intros f. unfold imported_order. cbn [filter]. destruct (f 3), (f 12), (f 13), (f 14), (f 9), (f 10), (f 5); repeat constructor.
Qed.
(** Reading back the mesh of a file written from the cells [cs]. *)
Lemma import_named {F V} (a : dict string (attr V)) (pts : list (list F)) cs : Forall known_cell cs -> cs <> [] ->
  (forall c v, In c cs -> In v (snd c) -> 0 <= v < zlen pts) ->
  exists g' cs', importhdfgroup (mesh_file a pts (named cs)) ["mesh"%string] = Ok g' /\ grid_of g' cs' /\ g_points g' = pts /\
    cs' = by_types imported_order cs /\ forall t, filter (fun c => fst c =? t) cs' = filter (fun c => fst c =? t) cs.
Proof.
  intros Hk Hne Hv.
  assert (Hin : forall n m, In (n, m) (named cs) -> exists t, In t (List.map fst cs) /\ n = ele_name t /\ m = Mat (Some (size_of t)) (of_type cs t)).
  { intros n m H. unfold named, type_mats in H. rewrite List.map_map in H. apply in_map_iff in H. destruct H as (t & E & Ht). cbn [fst snd] in E. injection E as <- <-.
    exists t. rewrite np_unique_in in Ht. auto. }
  rewrite import_mesh.
  2:{ intros n m H. destruct (Hin n m H) as (t & Ht & -> & _). exists t. apply (known_sizes cs t Hk Ht). }
  set (d := List.map (fun tm => (vtk_code (fst tm), snd tm)) (by_name (named cs))).
  assert (Hperm : Permutation d (type_mats cs)).
  { unfold d, by_name. rewrite <- isort_perm'. unfold named. rewrite List.map_map. cbn [fst snd].
    assert (E : List.map (fun x : Z * mat => (vtk_code (ele_name (fst x)), snd x)) (type_mats cs) = type_mats cs).
    { rewrite <- (map_id (type_mats cs)) at 2. apply map_ext_in. intros (t, m) H. cbn [fst snd]. f_equal. apply (vtk_code_name cs); [exact Hk|].
      apply (in_map fst) in H. rewrite type_mats_keys, np_unique_in in H. exact H. }
    rewrite E. reflexivity. }
  assert (Hnd : NoDup (List.map fst d)). { rewrite Hperm, type_mats_keys. apply np_unique_NoDup. }
  destruct (ug_dict_ok d pts) as (g' & Eg & Hg & Egp).
  - intros E. apply Permutation_nil in Hperm || (rewrite E in Hperm; apply Permutation_nil in Hperm). assert (In (fst (List.hd (0, []) cs)) (List.map fst (type_mats cs))).
    { rewrite type_mats_keys, np_unique_in. destruct cs; [congruence|left; reflexivity]. } rewrite Hperm in H. destruct H.
  - intros t m H. apply (Permutation_in _ Hperm) in H. unfold type_mats in H. apply in_map_iff in H. destruct H as (t' & E & Ht). injection E as -> <-.
    rewrite np_unique_in in Ht. exists (size_of t). destruct (known_sizes cs t Hk Ht) as (Hs & _ & _). split; [exact Hs|]. split; [reflexivity|].
    intros row v Hrow Hvr. cbn [m_rows] in Hrow. unfold of_type in Hrow. apply in_map_iff in Hrow. destruct Hrow as (c & <- & Hc). apply filter_In in Hc. apply (Hv c); [apply Hc|exact Hvr].
  - exists g', (flat_map (fun tm => List.map (pair (fst tm)) (m_rows (snd tm))) d). split; [exact Eg|]. split; [exact Hg|]. split; [exact Egp|]. split.
    { transitivity (by_types (List.map fst d) cs).
      - assert (Hd : forall tm, In tm d -> m_rows (snd tm) = of_type cs (fst tm)).
        { intros tm H. apply (Permutation_in _ Hperm) in H. unfold type_mats in H. apply in_map_iff in H. destruct H as (t & <- & _). reflexivity. }
        clear -Hd. unfold by_types. induction d as [|tm d IH]; [reflexivity|]. cbn [flat_map List.map]. rewrite IH by (intros x Hx; apply Hd; right; exact Hx). rewrite (Hd tm (or_introl eq_refl)), <- filter_of_type. reflexivity.
      - assert (Ed : List.map fst d = filter (fun t => existsb (Z.eqb t) (np_unique (List.map fst cs))) imported_order).
        { transitivity (List.map vtk_code (isort String.leb (List.map ele_name (np_unique (List.map fst cs))))).
          - unfold d, by_name. rewrite List.map_map. cbn [fst]. rewrite <- (List.map_map fst vtk_code). f_equal. unfold named, type_mats. rewrite List.map_map. cbn [fst snd].
            rewrite <- (isort_map fst String.leb). f_equal. rewrite List.map_map. reflexivity.
          - rewrite names_order; [|apply np_unique_NoDup|intros t Ht; apply (types_known cs); assumption]. rewrite List.map_map. rewrite <- (map_id (filter _ _)) at 2. apply map_ext_in.
            intros t Ht. apply filter_In in Ht. destruct Ht as [_ Ht]. apply existsb_exists in Ht. destruct Ht as (u & Hu & E). apply Z.eqb_eq in E. subst u. rewrite np_unique_in in Hu. apply (vtk_code_name cs); assumption. }
        rewrite Ed. unfold by_types. clear. induction imported_order as [|t l IH]; [reflexivity|]. cbn [filter flat_map]. destruct (existsb (Z.eqb t) (np_unique (List.map fst cs))) eqn:E; cbn [flat_map]; rewrite IH; [reflexivity|].
        assert (filter (fun c => fst c =? t) cs = []) as ->; [|reflexivity]. destruct (filter (fun c => fst c =? t) cs) as [|c k] eqn:Ef; [reflexivity|]. exfalso.
        assert (Hc : In c (filter (fun c => fst c =? t) cs)) by (rewrite Ef; left; reflexivity). apply filter_In in Hc. destruct Hc as [Hc E']. apply Z.eqb_eq in E'.
        assert (Et : existsb (Z.eqb t) (np_unique (List.map fst cs)) = true); [|congruence]. apply existsb_exists. exists t. split; [rewrite np_unique_in, <- E'; apply in_map; exact Hc|apply Z.eqb_refl]. }
    intros t. rewrite filter_blocks by exact Hnd. rewrite filter_of_type.
    assert (Eget : dget Z.eqb t d = dget Z.eqb t (type_mats cs)).
    { destruct (dget Z.eqb t (type_mats cs)) as [m|] eqn:E.
      - apply (in_dget _ Z.eqb_eq); [exact Hnd|]. apply (Permutation_in _ (Permutation_sym Hperm)). apply (dget_in _ Z.eqb_eq). exact E.
      - apply (dget_None _ Z.eqb_eq). intros H. apply (dget_None _ Z.eqb_eq) in E. apply E. unfold dkeys in *. rewrite <- Hperm. exact H. }
    rewrite Eget, type_mats_get. destruct (in_dec Z.eq_dec t (List.map fst cs)) as [Hit|Hni]; [reflexivity|].
    assert (of_type cs t = []) as ->; [|reflexivity]. unfold of_type. destruct (filter (fun c => fst c =? t) cs) as [|c l] eqn:Ef; [reflexivity|].
    assert (In c (filter (fun c => fst c =? t) cs)) by (rewrite Ef; left; reflexivity). apply filter_In in H. destruct H as [H1 H2]. apply Z.eqb_eq in H2. exfalso. apply Hni. rewrite <- H2. apply in_map. exact H1.
Qed.

(** [vtkMesh.dumphdf] then [importhdfgroup] gives back all points and, type by type, all cells in order;
    only the types may come in another order. *)
Theorem C62_roundtrip : forall F V ver (g : grid (list F)) cs,
  grid_of g cs -> Forall known_cell cs -> vertices_ok g cs -> cs <> [] ->
  exists (h : h5 F V) g' cs',
    vtk_dumphdf ver g = Ok h /\ importhdfgroup h ["mesh"%string] = Ok g' /\
    grid_of g' cs' /\ g_points g' = g_points g /\
    (forall t, filter (fun c => fst c =? t) cs' = filter (fun c => fst c =? t) cs) /\ cs' = by_types imported_order cs /\
    export_mesh g' = export_mesh g.
Proof.
  intros F V ver g cs Hg Hk Hv Hne. unfold vtk_dumphdf.
  change (open_new ver (Some "dataset"%string) (Some 1)) with (Ok [([], Grp [("cfdtools_version"%string, AStr ver); ("cfd_datatype"%string, AStr "dataset"); ("data_version"%string, AInt 1)])] : res (h5 F V)).
  cbn [bind]. rewrite (cells_dict_ok g cs Hg Hk). cbn [bind].
  assert (E : mapM (fun '(itype, cellco) => e <- dget_err Z.eqb itype ele_vtktype ;; Ok (e, cellco)) (type_mats cs) = Ok (named cs)).
  { unfold named. apply mapM_map. intros (t, m) H. cbn [fst snd]. apply (in_map fst) in H. rewrite type_mats_keys, np_unique_in in H. cbn [fst] in H.
    destruct (known_sizes cs t Hk H) as (_ & Hin & _). unfold dget_err. rewrite (ele_of _ _ Hin). reflexivity. }
  rewrite E. cbn [bind]. rewrite write_mesh.
  2:{ apply named_nodup. exact Hk. }
  2:{ unfold named, type_mats. rewrite !List.map_map. cbn [fst]. apply Forall_forall. intros n H. apply in_map_iff in H. destruct H as (t & <- & Ht). rewrite np_unique_in in Ht. apply (known_sizes cs t Hk Ht). }
  destruct (import_named (V := V) [("cfdtools_version"%string, AStr ver); ("cfd_datatype"%string, AStr "dataset"); ("data_version"%string, AInt 1)] (g_points g) cs Hk Hne) as (g' & cs' & Ei & Hg' & Ep & Hby & Hf).
  { exact Hv. }
  eexists. exists g', cs'. split; [reflexivity|]. split; [exact Ei|]. split; [exact Hg'|]. split; [exact Ep|]. split; [exact Hf|]. split; [exact Hby|]. clear Hby.
  assert (Hk' : Forall known_cell cs'). { rewrite Forall_forall in *. intros c Hc. apply Hk. eapply Permutation_in; [apply perm_of_filters; exact Hf|exact Hc]. }
  unfold export_mesh. rewrite (cells_dict_ok g cs Hg Hk), (cells_dict_ok g' cs' Hg' Hk'), (type_mats_perm cs cs' Hf). cbn [bind].
  unfold n_cells, n_points. rewrite Ep. rewrite (go_types _ _ Hg), (go_types _ _ Hg').
  assert (zlen (List.map fst cs') = zlen (List.map fst cs)) as ->; [|reflexivity]. unfold zlen. rewrite !map_length, (Permutation_length (perm_of_filters cs cs' Hf)). reflexivity.
Qed.
Print Assumptions C62_roundtrip.

(** ** Lists of data sets *)
Lemma blocks_named (ms : list (string * mat)) : forall n, List.map (fun '(t, ed) => (t, ed_e2n ed)) (blocks n ms) = ms.
Proof. induction ms as [|(t, m) ms IH]; intros n; [reflexivity|]. cbn [blocks List.map ed_e2n]. rewrite IH. reflexivity. Qed.
Lemma export_named {F} (g : grid (list F)) cs : grid_of g cs -> Forall known_cell cs -> Forall (fun p => List.length p = 3%nat) (g_points g) ->
  exists m c, export_mesh g = Ok m /\ me_cell2node m = Some c /\ List.map (fun '(t, ed) => (t, ed_e2n ed)) (ec_dict c) = named cs /\ nodescoord_nd m = Ok (g_points g).
Proof.
  intros Hg Hk Hp. unfold export_mesh. rewrite (cells_dict_ok g cs Hg Hk). cbn [bind]. rewrite (export_cells_ok cs Hk). cbn [bind].
  set (c := EC (total (named cs)) (blocks 0 (named cs))).
  destruct (set_coords_ok (set_cell2node (new_mesh (n_cells g) (n_points g)) c) (g_points g)) as (m & Em & Hn & _ & _ & H3 & _); [reflexivity|reflexivity|exact Hp|].
  rewrite Em. exists m, c. split; [reflexivity|]. split; [exact H3|]. split; [|exact Hn]. unfold c. cbn [ec_dict]. apply blocks_named.
Qed.

Section ListDump.
  Context {F V : Type}.
  Notation h5 := (h5 F V).
  Notation pget := (dget path_eqb).
  Open Scope string_scope.

  Definition frame (i : nat) (h h' : h5) : Prop :=
    (forall p, (forall s, p <> "datalist" :: step_name i :: s) -> pget p h' = pget p h) /\
    children h' ["mesh"; "cells"] = children h ["mesh"; "cells"].
  Lemma frame_refl i h : frame i h h. Proof. split; reflexivity. Qed.
  Lemma frame_trans i h1 h2 h3 : frame i h1 h2 -> frame i h2 h3 -> frame i h1 h3.
  Proof. intros [A1 B1] [A2 B2]. split; [|congruence]. intros p Hp. rewrite A2, A1 by exact Hp. reflexivity. Qed.
  Lemma frame_app i h s o : frame i h (h ++ [("datalist" :: step_name i :: s, o)])%list.
  Proof.
    split.
    - intros p Hp. rewrite dget_app. destruct (pget p h); [reflexivity|]. cbn [dget]. destruct (path_eqb p ("datalist" :: step_name i :: s)) eqn:E; [|reflexivity].
      apply path_eqb_eq in E. exfalso. apply (Hp s E).
    - rewrite children_app. cbn [children flat_map strip String.eqb Ascii.eqb Bool.eqb]. apply app_nil_r.
  Qed.
  Lemma children_dset (h : h5) p o p' : (forall n, p' <> p ++ [n])%list -> children (dset path_eqb p' o h) p = children h p.
  Proof.
    assert (Hs : forall p q n, strip p q = Some [n] -> q = (p ++ [n])%list).
    { clear. induction p as [|x p IH]; intros q n E; [cbn in E; injection E as ->; reflexivity|]. destruct q as [|y q]; [discriminate|].
      cbn in E. destruct (String.eqb x y) eqn:Exy; [|discriminate]. apply String.eqb_eq in Exy. subst y. apply IH in E. rewrite E. reflexivity. }
    intros Hn. assert (Ho : forall o : obj F V, children [(p', o)] p = []).
    { intros o'. cbn [children flat_map]. destruct (strip p p') as [[|n [|? ?]]|] eqn:E; try reflexivity. exfalso. apply (Hn n). apply Hs. exact E. }
    induction h as [|(k, v) h IH]; [cbn [dset]; rewrite Ho; reflexivity|]. cbn [dset]. destruct (path_eqb p' k) eqn:E.
    - apply path_eqb_eq in E. subst k. change ((p', o) :: h) with ([(p', o)] ++ h)%list. change ((p', v) :: h) with ([(p', v)] ++ h)%list. rewrite !children_app, !Ho. reflexivity.
    - change ((k, v) :: dset path_eqb p' o h) with ([(k, v)] ++ dset path_eqb p' o h)%list. change ((k, v) :: h) with ([(k, v)] ++ h)%list. rewrite !children_app, IH. reflexivity.
  Qed.
  Lemma frame_attr i h k v : frame i h (set_attr h ["datalist"; step_name i] k v).
  Proof.
    unfold set_attr. destruct (pget ["datalist"; step_name i] h) as [[a|c]|]; try apply frame_refl. split.
    - intros p Hp. apply (dget_dset_neq _ path_eqb_eq). apply Hp.
    - apply children_dset. intros n. discriminate.
  Qed.

  (** One time step. *)
  Lemma entries_ok i (d : dict string (var V)) : NoDup (dkeys d) -> (forall n, In n (dkeys d) -> is_property n = false -> good_part n) ->
    forall (h : h5) a0, (exists a, pget ["datalist"] h = Some (Grp a)) -> pget ["datalist"; step_name i] h = Some (Grp a0) ->
    (forall n, In n (dkeys d) -> pget ["datalist"; step_name i; n] h = None) ->
    exists h' a', foldM (fun h kv => dump_entry h (["datalist"] ++ [step_name i])%list kv) h d = Ok h' /\ frame i h h' /\
      pget ["datalist"; step_name i] h' = Some (Grp a') /\
      dget String.eqb "time" a' = match dget String.eqb "time" d with Some v => Some (AVar v) | None => dget String.eqb "time" a0 end.
  Proof.
    induction d as [|(n, v) d IH]; intros Hnd Hg h a0 Hdl Hst Hno; [exists h, a0; split; [reflexivity|]; split; [apply frame_refl|]; split; [exact Hst|reflexivity]|].
    inversion Hnd as [|? ? Hni Hnd']; subst. cbn [foldM]. unfold dump_entry at 1. cbn [fst snd app].
    destruct (is_property n) eqn:Ep.
    - cbn [bind]. set (h1 := set_attr h ["datalist"; step_name i] n (AVar v)). pose proof (frame_attr i h n (AVar v)) as Hf. fold h1 in Hf.
      unfold is_property in Ep. apply String.eqb_eq in Ep. subst n.
      assert (Hst1 : pget ["datalist"; step_name i] h1 = Some (Grp (dset String.eqb "time" (AVar v) a0))).
      { unfold h1, set_attr. rewrite Hst. apply (dget_dset_eq _ path_eqb_eq). }
      destruct (IH Hnd' ltac:(intros m Hm; apply Hg; right; exact Hm) h1 (dset String.eqb "time" (AVar v) a0)) as (h' & a' & E & Hf' & Hst' & Ht').
      + destruct Hdl as (a & Ha). exists a. rewrite (proj1 Hf) by (intros s; discriminate). exact Ha.
      + exact Hst1.
      + intros m Hm. unfold h1, set_attr. rewrite Hst. rewrite (dget_dset_neq _ path_eqb_eq) by discriminate. apply Hno. right. exact Hm.
      + exists h', a'. split; [exact E|]. split; [eapply frame_trans; eassumption|]. split; [exact Hst'|]. rewrite Ht'. cbn [dget]. rewrite String.eqb_refl.
        replace (dget String.eqb "time" d) with (@None (var V)); [apply (dget_dset_eq _ seqb_eq)|]. symmetry. apply (dget_None _ seqb_eq). exact Hni.
    - assert (Hgn : good_part n) by (apply Hg; [left; reflexivity|exact Ep]).
      unfold create_dataset at 1. rewrite split_single by apply Hgn. cbn [List.last]. assert (kept_part n = true) as -> by (apply kept_good; [apply Hgn|exact Hgn]).
      rewrite from_good by exact Hgn. cbn [app]. rewrite create_ok; [|discriminate|apply Hno; left; reflexivity|].
      2:{ intros p s E Hp Hs. destruct p as [|p1 p]; [congruence|]. injection E as <- E. destruct p as [|p2 p]; [exact Hdl|].
          injection E as <- E. destruct p as [|p3 p]; [exists a0; exact Hst|]. injection E as _ E. destruct p; [destruct s; [congruence|discriminate]|discriminate]. }
      cbn [bind]. set (h1 := (h ++ _)%list). pose proof (frame_app i h [n] (Dat (CVar v))) as Hf. fold h1 in Hf.
      destruct (IH Hnd' ltac:(intros m Hm; apply Hg; right; exact Hm) h1 a0) as (h' & a' & E & Hf' & Hst' & Ht').
      + destruct Hdl as (a & Ha). exists a. rewrite (proj1 Hf) by (intros s; discriminate). exact Ha.
      + unfold h1. rewrite dget_app, Hst. reflexivity.
      + intros m Hm. unfold h1. rewrite dget_app, (Hno m (or_intror Hm)). cbn [dget]. destruct (path_eqb ["datalist"; step_name i; m] ["datalist"; step_name i; n]) eqn:Em; [|reflexivity].
        apply path_eqb_eq in Em. injection Em as ->. contradiction.
      + exists h', a'. split; [exact E|]. split; [eapply frame_trans; eassumption|]. split; [exact Hst'|]. rewrite Ht'. cbn [dget]. unfold is_property in Ep. rewrite String.eqb_sym, Ep. reflexivity.
  Qed.
  Lemma step_ok i (d : dict string (var V)) (h : h5) : NoDup (dkeys d) -> (forall n, In n (dkeys d) -> is_property n = false -> good_part n) ->
    (exists a, pget ["datalist"] h = Some (Grp a)) -> (forall s, pget ("datalist" :: step_name i :: s) h = None) ->
    exists h' a', dump_step h ["datalist"] i d = Ok h' /\ frame i h h' /\ pget ["datalist"; step_name i] h' = Some (Grp a') /\
      dget String.eqb "time" a' = match dget String.eqb "time" d with Some v => Some (AVar v) | None => None end.
  Proof.
    intros Hnd Hg Hdl Hno. unfold dump_step, create_group. rewrite from_good by apply step_good. cbn [app].
    rewrite create_ok; [|discriminate|apply Hno|].
    2:{ intros p s E Hp Hs. destruct p as [|p1 p]; [congruence|]. injection E as <- E. destruct p as [|p2 p]; [exact Hdl|].
        injection E as _ E. destruct p; [destruct s; [congruence|discriminate]|discriminate]. }
    cbn [bind]. set (h1 := (h ++ _)%list). pose proof (frame_app i h [] (Grp [])) as Hf. fold h1 in Hf.
    destruct (entries_ok i d Hnd Hg h1 []) as (h' & a' & E & Hf' & Hst' & Ht').
    - destruct Hdl as (a & Ha). exists a. rewrite (proj1 Hf) by (intros s; discriminate). exact Ha.
    - unfold h1. rewrite dget_app, Hno. cbn [dget]. rewrite (proj2 (path_eqb_eq _ _) eq_refl). reflexivity.
    - intros n _. unfold h1. rewrite dget_app, Hno. cbn [dget]. destruct (path_eqb ["datalist"; step_name i; n] ["datalist"; step_name i]) eqn:Em; [|reflexivity]. apply path_eqb_eq in Em. discriminate.
    - exists h', a'. split; [exact E|]. split; [eapply frame_trans; eassumption|]. split; [exact Hst'|]. exact Ht'.
  Qed.

  Lemma step_head i j (s s' : list string) : "datalist" :: step_name i :: s = "datalist" :: step_name j :: s' -> i = j.
  Proof. intros E. apply step_inj. change (List.nth 1 ("datalist" :: step_name i :: s) "" = List.nth 1 ("datalist" :: step_name j :: s') ""). rewrite E. reflexivity. Qed.
  Definition steps_frame (h h' : h5) : Prop :=
    (forall p, (forall i s, p <> "datalist" :: step_name i :: s) -> pget p h' = pget p h) /\
    children h' ["mesh"; "cells"] = children h ["mesh"; "cells"].
  Definition good_entries (d : dict string (var V)) : Prop :=
    NoDup (dkeys d) /\ forall n, In n (dkeys d) -> n <> "time" -> good_part n.
  Lemma steps_ok (dl : list (dict string (var V))) : Forall good_entries dl -> forall i (h : h5),
    (exists a, pget ["datalist"] h = Some (Grp a)) -> (forall j s, (i <= j)%nat -> pget ("datalist" :: step_name j :: s) h = None) ->
    exists h', dump_steps h ["datalist"] i dl = Ok h' /\ steps_frame h h' /\
      (forall j s, (j < i)%nat -> pget ("datalist" :: step_name j :: s) h' = pget ("datalist" :: step_name j :: s) h) /\
      forall k d, nth_error dl k = Some d -> exists a, pget ["datalist"; step_name (i + k)] h' = Some (Grp a) /\
        dget String.eqb "time" a = match dget String.eqb "time" d with Some v => Some (AVar v) | None => None end.
  Proof.
    induction dl as [|d dl IH]; intros Hd i h Hdl Hno.
    - exists h. split; [reflexivity|]. split; [split; reflexivity|]. split; [reflexivity|]. intros [|k] d H; discriminate.
    - inversion Hd as [|? ? [Hnd Hg] Hd']; subst. cbn [dump_steps].
      destruct (step_ok i d h) as (h1 & a1 & E1 & Hf1 & Hst1 & Ht1); [exact Hnd| |exact Hdl|intros s; apply Hno; lia|].
      { intros n Hn Hp. apply Hg; [exact Hn|]. intros ->. discriminate. }
      rewrite E1. cbn [bind]. destruct (IH Hd' (S i) h1) as (h' & E & Hf & Hold & Hnew).
      + destruct Hdl as (a & Ha). exists a. rewrite (proj1 Hf1) by (intros s; discriminate). exact Ha.
      + intros j s Hj. rewrite (proj1 Hf1); [apply Hno; lia|]. intros s' Es. apply step_head in Es. lia.
      + exists h'. split; [exact E|]. split; [|split].
        * split; [|rewrite (proj2 Hf); exact (proj2 Hf1)]. intros p Hp. rewrite (proj1 Hf) by exact Hp. apply (proj1 Hf1). intros s. apply Hp.
        * intros j s Hj. rewrite Hold by lia. apply (proj1 Hf1). intros s' Es. apply step_head in Es. lia.
        * intros [|k] d' Hk.
          -- injection Hk as <-. rewrite Nat.add_0_r. exists a1. split; [|exact Ht1]. rewrite Hold by lia. exact Hst1.
          -- cbn in Hk. replace (i + S k)%nat with (S i + k)%nat by lia. apply Hnew. exact Hk.
  Qed.
End ListDump.

Lemma components_cat a b : components (a ++ "/" ++ b) = components a ++ components b.
Proof. apply components_app. Qed.

(** [vtkList.dumphdf] of any number of data sets whose names are plain: the file has the mesh, which can
    be imported again, each array of each time step under its own path, each time value, and the type
    and version of its content. *)
Theorem C62_list : forall F V ver f (g : grid (list F)) cs (dl : list (dict string (var V))),
  grid_of g cs -> Forall known_cell cs -> vertices_ok g cs -> cs <> [] -> Forall (fun p => List.length p = 3%nat) (g_points g) ->
  Forall good_entries dl ->
  exists h x,
    list_dumphdf ver f g dl = Ok (h, x) /\
    open_old h = (Some (AStr "datalist"), Some (AStr ver), Some (AInt 1)) /\
    (forall k d n v, nth_error dl k = Some d -> In (n, v) d -> n <> "time"%string ->
       h5_get h ("/datalist/" ++ step_name k ++ "/" ++ n) = Some (CVar v)) /\
    (forall k d, nth_error dl k = Some d ->
       h5_attr h ("/datalist/" ++ step_name k) "time" = match dget String.eqb "time" d with Some v => Some (AVar v) | None => None end) /\
    exists g' cs', importhdfgroup h ["mesh"%string] = Ok g' /\ grid_of g' cs' /\ g_points g' = g_points g /\ cs' = by_types imported_order cs /\
      forall t, filter (fun c => fst c =? t) cs' = filter (fun c => fst c =? t) cs.
Proof.
  intros F V ver f g cs dl Hg Hk Hv Hne Hp Hdl. destruct (export_named g cs Hg Hk Hp) as (m & c & Em & Ec & En & Ep).
  set (a0 := [("cfdtools_version"%string, AStr ver); ("cfd_datatype"%string, AStr "datalist"); ("data_version"%string, AInt 1)] : dict string (attr V)).
  set (h1 := mesh_file a0 (g_points g) (named cs)).
  assert (Hgood : Forall good_part (List.map fst (named cs))).
  { unfold named, type_mats. rewrite !List.map_map. cbn [fst]. apply Forall_forall. intros n H. apply in_map_iff in H. destruct H as (t & <- & Ht). rewrite np_unique_in in Ht. apply (known_sizes cs t Hk Ht). }
  assert (Hdl1 : forall s, dget path_eqb ("datalist"%string :: s) h1 = None).
  { intros s. unfold h1, mesh_file. cbn [dget path_eqb String.eqb Ascii.eqb Bool.eqb andb]. unfold cell_entries. clear. induction (named cs) as [|x l IH]; [reflexivity|]. exact IH. }
  set (h2 := h1 ++ [(["datalist"%string], Grp [])]).
  assert (E2 : create_group h1 [] "datalist" = Ok h2).
  { unfold create_group. change (from [] "datalist") with ["datalist"%string]. apply create_ok; [discriminate|apply Hdl1|].
    intros p s E Hp' Hs. destruct p as [|p1 p]; [congruence|]. injection E as _ E. destruct p; [destruct s; [congruence|discriminate]|discriminate]. }
  destruct (steps_ok dl Hdl 0 h2) as (h & Eh & Hfr & _ & Hst).
  { exists []. unfold h2. rewrite dget_app, Hdl1. reflexivity. }
  { intros j s _. unfold h2. rewrite dget_app, Hdl1. reflexivity. }
  assert (Ed : dl_dumphdf ver m dl = Ok h).
  { unfold dl_dumphdf. change (open_new ver (Some "datalist"%string) (Some 1)) with (Ok [([], Grp a0)] : res (h5 F V)). cbn [bind]. rewrite Ec, Ep. cbn [bind]. rewrite En.
    rewrite write_mesh; [|apply named_nodup; exact Hk|exact Hgood]. cbn [bind]. fold h1. rewrite E2. cbn [bind]. exact Eh. }
  exists h. eexists. split; [unfold list_dumphdf; rewrite Em; cbn [bind]; rewrite Ed; cbn [bind]; reflexivity|].
  assert (Hroot : forall p, (forall s, p <> "datalist"%string :: s) -> dget path_eqb p h = dget path_eqb p h1).
  { intros p Hpp. rewrite (proj1 Hfr) by (intros i s; apply Hpp). unfold h2. rewrite dget_app. destruct (dget path_eqb p h1); [reflexivity|]. cbn [dget].
    destruct (path_eqb p ["datalist"%string]) eqn:E; [|reflexivity]. apply path_eqb_eq in E. exfalso. apply (Hpp [] E). }
  split; [|split; [|split]].
  - unfold open_old, root_attrs. rewrite Hroot by discriminate. reflexivity.
  - intros k d n v Hkd Hin Hnt. destruct (dl_dump_spec ver m dl h c (g_points g) Ed Ec Ep) as (_ & _ & Hdat).
    assert (Hpn : is_property n = false) by (unfold is_property; apply String.eqb_neq; exact Hnt).
    specialize (Hdat k d Hkd n v Hin Hpn).
    assert (Hgn : good_part n). { rewrite Forall_forall in Hdl. apply nth_error_In in Hkd. apply (Hdl d Hkd); [|exact Hnt]. apply (in_map fst) in Hin. exact Hin. }
    rewrite from_good in Hdat by exact Hgn. unfold h5_get.
    change ("/datalist/" ++ step_name k ++ "/" ++ n)%string with ("/datalist" ++ "/" ++ (step_name k ++ "/" ++ n))%string.
    rewrite !components_cat, (components_good (step_name k)), (components_good n) by (exact Hgn || apply step_good). change (components "/datalist") with ["datalist"%string]. cbn [app] in *. rewrite Hdat. reflexivity.
  - intros k d Hkd. destruct (Hst k d Hkd) as (a & Ha & Ht). cbn [Nat.add] in Ha. unfold h5_attr.
    change ("/datalist/" ++ step_name k)%string with ("/datalist" ++ "/" ++ step_name k)%string. rewrite components_cat, (components_good (step_name k)) by apply step_good.
    change (components "/datalist") with ["datalist"%string]. cbn [app]. rewrite Ha. exact Ht.
  - destruct (import_named a0 (g_points g) cs Hk Hne Hv) as (g' & cs' & Ei & Hg' & Egp & Hby & Hf). exists g', cs'. split; [|auto].
    rewrite <- Ei. apply same_import. repeat split; try (apply Hroot; discriminate). rewrite (proj2 Hfr). unfold h2. rewrite children_app. apply app_nil_r.
Qed.
Print Assumptions C62_list.

(** ** XDMF *)
Lemma zprod1 n : zprod [n] = n.
Proof. unfold zprod. cbn. lia. Qed.

(** Every reference of the XDMF file is right, and every array of every time step is referenced, as are
    the nodes and the cells of each type, whatever the file name and the number of time steps. *)
Theorem C62_xdmf : forall F V ver f (g : grid (list F)) cs (dl : list (dict string (var V))) h lines,
  grid_of g cs -> Forall known_cell cs -> Forall (fun p => List.length p = 3%nat) (g_points g) ->
  (forall d n v, In d dl -> In (n, v) d -> n <> "time"%string -> relative n /\ Forall (fun x => 0 <= x) (va_shape v)) ->
  list_dumphdf ver f g dl = Ok (h, Ok lines) ->
  (forall r, In r (refs lines) -> ref_ok f h r) /\
  (forall k d, nth_error dl k = Some d ->
     In (f ++ ":/mesh/nodes")%string (List.map snd (refs lines)) /\
     (forall e t, In (e, t) vtk_codes -> In t (g_types g) -> In (f ++ ":/mesh/cells/" ++ e)%string (List.map snd (refs lines))) /\
     (forall n v, In (n, v) d -> n <> "time"%string ->
        In (f ++ ":/datalist/" ++ step_name k ++ "/" ++ n)%string (List.map snd (refs lines)) /\
        h5_get h ("/datalist/" ++ step_name k ++ "/" ++ n) = Some (CVar v))) /\
  h5_get h "/mesh/nodes" = Some (CPts (g_points g)) /\
  (forall e t, In (e, t) vtk_codes -> In t (g_types g) -> exists m, h5_get h ("/mesh/cells/" ++ e) = Some (CMat m) /\
     m_rows m = List.map snd (filter (fun c => fst c =? t) cs)).
Proof.
  intros F V ver f g cs dl h lines Hg Hk Hp Hrel H. destruct (export_named g cs Hg Hk Hp) as (m & c & Em & Ec & En & Ep).
  unfold list_dumphdf in H. rewrite Em in H. cbn [bind] in H. apply bind_ok in H. destruct H as (h' & Hd & H). injection H as -> Hx.
  apply bind_ok in Hx. destruct Hx as (geo & Hgeo & Hx). apply bind_ok in Hx. destruct Hx as (content & Hcon & Hx). injection Hx as Hx. symmetry in Hx.
  pose proof (list_refs f g (type_mats cs) dl geo content lines (cells_dict_ok g cs Hg Hk) Hgeo Hcon Hx) as Hrefs. clear Hx Hcon Hgeo.
  destruct (dl_dump_spec ver m dl h c (g_points g) Hd Ec Ep) as (Gn & Gc & Gd).
  assert (Hnodes : h5_get h "/mesh/nodes" = Some (CPts (g_points g))) by (unfold h5_get; change (components "/mesh/nodes") with ["mesh"; "nodes"]%string; rewrite Gn; reflexivity).
  assert (Hcell : forall t, In t (List.map fst cs) -> h5_get h ("/mesh/cells/" ++ ele_name t) = Some (CMat (Mat (Some (size_of t)) (of_type cs t)))).
  { intros t Ht. destruct (known_sizes cs t Hk Ht) as (_ & _ & Hgood).
    assert (Hin : In (ele_name t, Mat (Some (size_of t)) (of_type cs t)) (List.map (fun '(t, ed) => (t, ed_e2n ed)) (ec_dict c))).
    { rewrite En. unfold named, type_mats. rewrite List.map_map. apply in_map_iff. exists t. split; [reflexivity|]. rewrite np_unique_in. exact Ht. }
    apply in_map_iff in Hin. destruct Hin as ((e, ed) & E & Hin). injection E as -> E. specialize (Gc _ _ Hin). rewrite from_good in Gc by exact Hgood. rewrite E in Gc.
    unfold h5_get. change ("/mesh/cells/" ++ ele_name t)%string with ("/mesh/cells" ++ "/" ++ ele_name t)%string. rewrite components_cat, (components_good (ele_name t)) by exact Hgood.
    change (components "/mesh/cells") with ["mesh"; "cells"]%string. cbn [app] in *. rewrite Gc. reflexivity. }
  assert (Hdat : forall k d n v, nth_error dl k = Some d -> In (n, v) d -> n <> "time"%string -> h5_get h ("/datalist/" ++ step_name k ++ "/" ++ n) = Some (CVar v)).
  { intros k d n v Hkd Hin Hnt. assert (Hpn : is_property n = false) by (unfold is_property; apply String.eqb_neq; exact Hnt).
    specialize (Gd k d Hkd n v Hin Hpn). pose proof (nth_error_In _ _ Hkd) as Hdin. destruct (Hrel d n v Hdin Hin Hnt) as [Hr _]. rewrite from_rel in Gd by exact Hr.
    unfold h5_get. change ("/datalist/" ++ step_name k ++ "/" ++ n)%string with ("/datalist" ++ "/" ++ (step_name k ++ "/" ++ n))%string.
    rewrite !components_cat, (components_good (step_name k)) by apply step_good. change (components "/datalist") with ["datalist"%string]. cbn [app] in *. rewrite Gd. reflexivity. }
  assert (Hseq : forall k d, In (k, d) (combine (seq 0 (List.length dl)) dl) <-> nth_error dl k = Some d).
  { intros k d. split.
    - intros Hin. apply In_nth_error in Hin. destruct Hin as (j & Hj). assert (Hc2 : forall (a : list nat) (b : list (dict string (var V))) j x y, nth_error (combine a b) j = Some (x, y) -> nth_error a j = Some x /\ nth_error b j = Some y).
      { clear. induction a as [|u a IH]; intros [|w b] [|j] x y E; try discriminate; cbn in *; [injection E as -> ->; auto|apply IH; exact E]. }
      apply Hc2 in Hj. destruct Hj as [H1 H2]. assert (Hjl : (j < List.length dl)%nat) by (apply nth_error_Some; congruence).
      rewrite nth_error_nth' with (d := 0%nat) in H1 by (rewrite seq_length; exact Hjl). rewrite seq_nth in H1 by exact Hjl. injection H1 as <-. exact H2.
    - intros Hkd. assert (Hkl : (k < List.length dl)%nat) by (apply nth_error_Some; congruence). assert (Hc2 : forall (a : list nat) (b : list (dict string (var V))) j x y, nth_error a j = Some x -> nth_error b j = Some y -> In (x, y) (combine a b)).
      { clear. induction a as [|u a IH]; intros [|w b] [|j] x y E1 E2; try discriminate; cbn in *; [injection E1 as ->; injection E2 as ->; left; reflexivity|right; apply (IH b j); assumption]. }
      apply (Hc2 _ _ k); [|exact Hkd]. rewrite nth_error_nth' with (d := 0%nat) by (rewrite seq_length; exact Hkl). rewrite seq_nth by exact Hkl. reflexivity. }
  rewrite Hrefs. unfold all_refs. split; [|split; [|split; [exact Hnodes|]]].
  - intros r Hr. apply in_concat in Hr. destruct Hr as (l & Hl & Hr). apply in_map_iff in Hl. destruct Hl as ((k, d) & <- & Hkd). apply Hseq in Hkd. cbn [fst snd] in Hr.
    apply in_app_or in Hr. destruct Hr as [[<-|Hr]|Hr].
    + exists [zlen (g_points g) * 3], "/mesh/nodes"%string, (CPts (g_points g)). repeat split; try exact Hnodes.
      * constructor; [pose proof (zlen_nonneg (g_points g)); lia|constructor].
      * cbn [n_values]. rewrite zprod1. reflexivity.
    + apply in_map_iff in Hr. destruct Hr as ((t, mm) & <- & Hin). cbn [fst snd]. assert (Ht := Hin). apply (in_map fst) in Ht. rewrite type_mats_keys, np_unique_in in Ht. cbn [fst] in Ht.
      unfold type_mats in Hin. apply in_map_iff in Hin. destruct Hin as (t' & E & _). injection E as -> <-.
      exists [mat_size (Mat (Some (size_of t)) (of_type cs t))], ("/mesh/cells/" ++ ele_name t)%string, (CMat (Mat (Some (size_of t)) (of_type cs t))). repeat split; try (apply Hcell; exact Ht).
      * constructor; [|constructor]. unfold mat_size. cbn [m_cols m_rows]. pose proof (zlen_nonneg (of_type cs t)). nia.
      * rewrite zprod1. reflexivity.
    + apply in_map_iff in Hr. destruct Hr as ((n, v) & <- & Hin). unfold plain_data in Hin. apply filter_In in Hin. destruct Hin as [Hin Hpr]. cbn [fst] in Hpr.
      assert (Hnt : n <> "time"%string). { intros ->. discriminate. }
      exists (va_shape v), ("/datalist/" ++ step_name k ++ "/" ++ n)%string, (CVar v). repeat split; try (apply (Hdat k d); assumption).
      apply nth_error_In in Hkd. apply (Hrel d n v Hkd Hin Hnt).
  - intros k d Hkd.
    assert (Hin_all : forall r, In r ((item_ref (zdec (zlen (g_points g) * 3)) f "/mesh/nodes" ::
       List.map (fun tm => item_ref (zdec (mat_size (snd tm))) f ("/mesh/cells/" ++ ele_name (fst tm))%string) (type_mats cs)) ++ List.map (var_ref f k) (plain_data d)) ->
       In (snd r) (List.map snd (all_refs f g (type_mats cs) dl))).
    { intros r Hr. apply in_map. unfold all_refs. apply in_concat. eexists. split; [|exact Hr]. apply in_map_iff. exists (k, d). split; [reflexivity|]. apply Hseq. exact Hkd. }
    split; [|split].
    + apply (Hin_all (item_ref (zdec (zlen (g_points g) * 3)) f "/mesh/nodes")). left. reflexivity.
    + intros e t He Ht. rewrite (go_types _ _ Hg) in Ht. destruct (known_sizes cs t Hk Ht) as (_ & Hen & _).
      assert (ele_name t = e) as <-. { unfold ele_name. rewrite (ele_of _ _ He). reflexivity. }
      apply (Hin_all (item_ref (zdec (mat_size (Mat (Some (size_of t)) (of_type cs t)))) f ("/mesh/cells/" ++ ele_name t)%string)). apply in_or_app. left. right.
      apply in_map_iff. exists (t, Mat (Some (size_of t)) (of_type cs t)). split; [reflexivity|]. unfold type_mats. apply in_map_iff. exists t. split; [reflexivity|]. rewrite np_unique_in. exact Ht.
    + intros n v Hin Hnt. split; [|apply (Hdat k d); assumption]. apply (Hin_all (var_ref f k (n, v))). apply in_or_app. right. apply in_map. unfold plain_data. apply filter_In. split; [exact Hin|].
      cbn [fst]. unfold is_property. apply Bool.negb_true_iff, String.eqb_neq. exact Hnt.
  - intros e t He Ht. rewrite (go_types _ _ Hg) in Ht. assert (ele_name t = e) as <-. { unfold ele_name. rewrite (ele_of _ _ He). reflexivity. }
    eexists. split; [apply Hcell; exact Ht|]. reflexivity.
Qed.
Print Assumptions C62_xdmf.

(** The XDMF file is written when no cell is a line and every array has one or two dimensions. *)
Lemma topo_ok f (d : dict Z mat) : (forall t, In t (List.map fst d) -> In t (List.map fst xdmf_names)) ->
  exists topo, mapM (fun '(itype, cellco) =>
        x <- dget_err Z.eqb itype pyvista2xdmf ;;
        e <- dget_err Z.eqb itype ele_vtktype ;;
        Ok ([("<Topology NumberOfElements=" ++ q ++ zdec (zlen (m_rows cellco)) ++ q ++ " TopologyType=" ++ q ++ x ++ q ++ ">")%string]
            ++ data_item (zdec (mat_size cellco)) f ("/mesh/cells/" ++ e)%string ++ ["</Topology>"%string])) d = Ok topo /\
   forall t m x, In (t, m) d -> In (t, x) xdmf_names ->
     In (("<Topology NumberOfElements=" ++ q ++ zdec (zlen (m_rows m)) ++ q ++ " TopologyType=" ++ q ++ x ++ q ++ ">")%string ::
         data_item (zdec (mat_size m)) f ("/mesh/cells/" ++ ele_name t)%string ++ ["</Topology>"%string]) topo.
Proof.
  induction d as [|(t, m) d IH]; intros Hd; [exists []; split; [reflexivity|intros t m x []]|].
  destruct IH as (topo & E & Hin); [intros t' Ht'; apply Hd; right; exact Ht'|]. cbn [mapM].
  assert (Ht : exists x, dget_err Z.eqb t pyvista2xdmf = Ok x /\ dget_err Z.eqb t ele_vtktype = Ok (ele_name t) /\ forall x', In (t, x') xdmf_names -> x' = x).
  { specialize (Hd t (or_introl eq_refl)). cbn in Hd. repeat destruct Hd as [<-|Hd]; try (eexists; split; [reflexivity|]; split; [reflexivity|]; intros x' H; cbn in H; repeat destruct H as [H|H]; try (injection H as <-; reflexivity); try discriminate; destruct H). destruct Hd. }
  destruct Ht as (x & -> & -> & Hx). cbn [bind]. rewrite E. cbn [bind]. eexists. split; [reflexivity|].
  intros t' m' x' [Ei|Hi] Hx'; [injection Ei as <- <-; left; rewrite (Hx x' Hx'); reflexivity|right; apply (Hin t' m' x' Hi Hx')].
Qed.
Lemma vars_ok {V} f i (l : list (string * var V)) : (forall n v, In (n, v) l -> one_or_two_dims v) -> exists vars, mapM (var_xdmf f i) l = Ok vars.
Proof.
  induction l as [|(n, v) l IH]; intros H; [exists []; reflexivity|]. destruct IH as (vars & E); [intros n' v' Hin; apply (H n'); right; exact Hin|].
  cbn [mapM]. unfold var_xdmf at 1. specialize (H n v (or_introl eq_refl)). destruct v as [sh va]. cbn [va_shape] in *. unfold one_or_two_dims in H. cbn [va_shape] in H.
  destruct sh as [|a [|b [|c sh]]]; cbn in H; try lia; cbn [bind]; rewrite E; cbn [bind]; eexists; reflexivity.
Qed.
Lemma steps_xdmf_ok {V} f geo (dl : list (dict string (var V))) : (forall d n v, In d dl -> In (n, v) d -> n <> "time"%string -> one_or_two_dims v) ->
  forall i, exists lines, steps_xdmf f geo i dl = Ok lines.
Proof.
  induction dl as [|d dl IH]; intros H i; [exists []; reflexivity|]. cbn [steps_xdmf]. unfold step_xdmf.
  destruct (vars_ok f i (filter (fun kv => negb (is_property (fst kv))) d)) as (vars & ->).
  { intros n v Hin. apply filter_In in Hin. destruct Hin as [Hin Hp]. apply (H d n v (or_introl eq_refl) Hin). intros ->. discriminate. }
  cbn [bind]. destruct (IH (fun d' n v Hin => H d' n v (or_intror Hin)) (S i)) as (b & ->). cbn [bind]. eexists. reflexivity.
Qed.
Lemma steps_geo {V} f geo (dl : list (dict string (var V))) : forall i lines k d, steps_xdmf f geo i dl = Ok lines -> nth_error dl k = Some d -> exists l1 l2, lines = l1 ++ geo ++ l2.
Proof.
  induction dl as [|d dl IH]; intros i lines k d' H Hk; [destruct k; discriminate|]. cbn [steps_xdmf] in H. apply bind_ok in H. destruct H as (a & Ha & H). apply bind_ok in H. destruct H as (b & Hb & H). injection H as <-.
  destruct k as [|k].
  - unfold step_xdmf in Ha. apply bind_ok in Ha. destruct Ha as (vars & _ & Ha). injection Ha as <-. eexists (_ :: _ :: []). eexists. cbn [app]. rewrite <- !app_assoc. reflexivity.
  - destruct (IH (S i) b k d' Hb Hk) as (l1 & l2 & ->). exists (a ++ l1), l2. rewrite <- app_assoc. reflexivity.
Qed.
Lemma in_concat_split {A} (x : list A) l : In x l -> exists l1 l2, List.concat l = l1 ++ x ++ l2.
Proof.
  induction l as [|y l IH]; [intros []|intros [->|H]]; [exists [], (List.concat l); reflexivity|]. destruct (IH H) as (l1 & l2 & E). exists (y ++ l1), l2. cbn [List.concat]. rewrite E, <- app_assoc. reflexivity.
Qed.

Definition part {A} (x l : list A) : Prop := exists l1 l2, l = l1 ++ x ++ l2.
Lemma part_refl {A} (x : list A) : part x x. Proof. exists [], []. rewrite app_nil_r. reflexivity. Qed.
Lemma part_trans {A} (x y z : list A) : part x y -> part y z -> part x z.
Proof. intros (a & b & ->) (c & d & ->). exists (c ++ a), (b ++ d). rewrite !app_assoc. reflexivity. Qed.
Lemma part_app_r {A} (x l r : list A) : part x r -> part x (l ++ r).
Proof. intros (a & b & ->). exists (l ++ a), b. rewrite !app_assoc. reflexivity. Qed.
Lemma part_cons {A} (x : list A) a r : part x r -> part x (a :: r).
Proof. apply (part_app_r x [a]). Qed.
Lemma part_app_l {A} (x l r : list A) : part x l -> part x (l ++ r).
Proof. intros (a & b & ->). exists a, (b ++ r). rewrite !app_assoc. reflexivity. Qed.

Theorem C62_xdmf_written : forall F V ver f (g : grid (list F)) cs (dl : list (dict string (var V))) h x,
  grid_of g cs -> Forall known_cell cs -> (forall t, In t (g_types g) -> In t (List.map fst xdmf_names)) ->
  (forall d n v, In d dl -> In (n, v) d -> n <> "time"%string -> one_or_two_dims v) ->
  list_dumphdf ver f g dl = Ok (h, x) ->
  exists lines, x = Ok lines /\
    forall t name, dl <> [] -> In t (g_types g) -> In (t, name) xdmf_names ->
      exists l1 item path l2, lines = l1 ++ [("<Topology NumberOfElements=" ++ q ++ dec (List.length (filter (fun c => Z.eqb (fst c) t) cs)) ++ q
                                           ++ " TopologyType=" ++ q ++ name ++ q ++ ">")%string; item; (f ++ ":" ++ path)%string] ++ l2 /\
        forall e, In (e, t) vtk_codes -> path = ("/mesh/cells/" ++ e)%string.
Proof.
  intros F V ver f g cs dl h x Hg Hk Ht Hv H. unfold list_dumphdf in H. apply bind_ok in H. destruct H as (m & _ & H). apply bind_ok in H. destruct H as (h' & _ & H). injection H as _ <-.
  unfold mesh_xdmf. rewrite (cells_dict_ok g cs Hg Hk). cbn [bind].
  destruct (topo_ok f (type_mats cs)) as (topo & -> & Htopo). { intros t Hin. apply Ht. rewrite type_mats_keys, np_unique_in in Hin. rewrite (go_types _ _ Hg). exact Hin. }
  cbn [bind]. set (geo := _ ++ _). unfold dl_xdmf. destruct (steps_xdmf_ok f geo dl Hv 0) as (steps & Es). rewrite Es. cbn [bind]. eexists. split; [reflexivity|].
  intros t name Hne Hty Hname. destruct dl as [|d dl]; [congruence|]. destruct (steps_geo f geo (d :: dl) 0 steps 0 d Es eq_refl) as (l1 & l2 & ->).
  rewrite (go_types _ _ Hg) in Hty. specialize (Htopo t (Mat (Some (size_of t)) (of_type cs t)) name).
  destruct (in_concat_split _ _ (Htopo ltac:(unfold type_mats; apply in_map_iff; exists t; split; [reflexivity|rewrite np_unique_in; exact Hty]) Hname)) as (a & b & Eab).
  assert (El : dec (List.length (filter (fun c => fst c =? t) cs)) = zdec (zlen (m_rows (Mat (Some (size_of t)) (of_type cs t))))).
  { unfold zdec, zlen, of_type. cbn [m_rows]. rewrite Nat2Z.id, map_length. reflexivity. }
  rewrite El. clear El Htopo Es.
  match type of Eab with _ = a ++ (?T :: data_item ?i _ _ ++ _) ++ b => set (T0 := T) in *; set (i0 := i) in * end.
  set (I := ("<DataItem Dimensions=" ++ q ++ i0 ++ q ++ " Format=" ++ q ++ "HDF" ++ q ++ ">")%string).
  assert (Hpart : part [T0; I; (f ++ ":" ++ ("/mesh/cells/" ++ ele_name t))%string] (List.concat topo)).
  { rewrite Eab. apply part_app_r. exists [], (["</DataItem>"; "</Topology>"]%string ++ b). reflexivity. }
  clearbody T0 I. clear Eab.
  assert (Hall : forall big, part (List.concat topo) big -> part [T0; I; (f ++ ":" ++ ("/mesh/cells/" ++ ele_name t))%string] big).
  { intros big. apply part_trans. exact Hpart. }
  match goal with |- exists _ _ _ _, ?big = _ /\ _ => assert (Hbig : part (List.concat topo) big) end.
  { apply part_cons, part_cons, part_app_l, part_app_r, part_app_l, part_app_r, part_app_l. unfold geo. rewrite !app_assoc. apply part_app_r, part_refl. }
  apply Hall in Hbig. destruct Hbig as (p1 & p2 & ->). exists p1, I, ("/mesh/cells/" ++ ele_name t)%string, p2. split; [reflexivity|].
  intros e He. unfold ele_name. rewrite (ele_of _ _ He). reflexivity.
Qed.
Print Assumptions C62_xdmf_written.

(** ** Which cell an entry of an array belongs to *)

(** The cells of the dumped mesh, in the order of the XDMF topologies. *)
Definition dumped_rows (cs : list (Z * list Z)) : list (list Z) := flat_map (fun tm => m_rows (snd tm)) (type_mats cs).
Lemma filter_split t (cs : list (Z * list Z)) : StronglySorted Z.le (List.map fst cs) -> (forall c, In c cs -> t <= fst c) ->
  cs = filter (fun c => fst c =? t) cs ++ filter (fun c => negb (fst c =? t)) cs.
Proof.
  induction cs as [|c cs IH]; intros Hs Hle; [reflexivity|]. cbn [List.map] in Hs. apply StronglySorted_inv in Hs. destruct Hs as [Hs Hall]. cbn [filter].
  destruct (Z.eqb_spec (fst c) t) as [E|Hne]; cbn [negb].
  - cbn [app]. f_equal. apply IH; [exact Hs|]. intros c' Hc'. apply Hle. right. exact Hc'.
  - assert (Hn : filter (fun c => fst c =? t) cs = []).
    { rewrite Forall_forall in Hall. pose proof (Hle c (or_introl eq_refl)) as H0. clear -Hall Hne H0. induction cs as [|d cs IH]; [reflexivity|]. cbn [filter].
      pose proof (Hall (fst d) (or_introl eq_refl)). destruct (Z.eqb_spec (fst d) t) as [E|_]; [lia|]. apply IH. intros x Hx. apply Hall. right. exact Hx. }
    rewrite Hn. cbn [app]. f_equal. transitivity (filter (fun c => fst c =? t) cs ++ filter (fun c => negb (fst c =? t)) cs); [|rewrite Hn; reflexivity].
    apply IH; [exact Hs|]. intros c' Hc'. apply Hle. right. exact Hc'.
Qed.
Lemma sorted_filter (f : Z * list Z -> bool) cs : StronglySorted Z.le (List.map fst cs) -> StronglySorted Z.le (List.map fst (filter f cs)).
Proof.
  induction cs as [|c cs IH]; intros Hs; [constructor|]. cbn [List.map] in Hs. apply StronglySorted_inv in Hs. destruct Hs as [Hs Hall]. cbn [filter].
  destruct (f c); [|apply IH; exact Hs]. cbn [List.map]. constructor; [apply IH; exact Hs|]. rewrite Forall_forall in *. intros x Hx. apply Hall.
  apply in_map_iff in Hx. destruct Hx as (d & <- & Hd). apply filter_In in Hd. apply in_map. apply Hd.
Qed.
Lemma rows_sorted ts : StronglySorted Z.lt ts -> forall cs, StronglySorted Z.le (List.map fst cs) -> (forall c, In c cs -> In (fst c) ts) ->
  flat_map (fun t => of_type cs t) ts = List.map snd cs.
Proof.
  induction ts as [|t ts IH]; intros Hts cs Hs Hin.
  - destruct cs as [|c cs]; [reflexivity|]. destruct (Hin c (or_introl eq_refl)).
  - apply StronglySorted_inv in Hts. destruct Hts as [Hts Hall]. rewrite Forall_forall in Hall.
    pose proof (filter_split t cs Hs) as Hsp. cbn [flat_map]. set (cs' := filter (fun c => negb (fst c =? t)) cs) in *.
    assert (E : flat_map (fun t0 => of_type cs t0) ts = flat_map (fun t0 => of_type cs' t0) ts).
    { rewrite !flat_map_concat_map. f_equal. apply map_ext_in. intros u Hu. specialize (Hall u Hu). unfold of_type, cs'. f_equal. clear -Hall.
      induction cs as [|c cs IH]; [reflexivity|]. cbn [filter]. destruct (Z.eqb_spec (fst c) t) as [E|Hne]; cbn [negb].
      - destruct (Z.eqb_spec (fst c) u); [lia|]. exact IH.
      - cbn [filter]. destruct (fst c =? u); rewrite IH; reflexivity. }
    rewrite E, IH; [|exact Hts|apply sorted_filter; exact Hs|].
    + rewrite Hsp at 2; [rewrite map_app; reflexivity|]. intros c Hc. destruct (Hin c Hc) as [->|Hc']; [lia|]. specialize (Hall _ Hc'). lia.
    + intros c Hc. unfold cs' in Hc. apply filter_In in Hc. destruct Hc as [Hc Hnt]. destruct (Hin c Hc) as [Et|Hc']; [|exact Hc']. rewrite <- Et, Z.eqb_refl in Hnt. discriminate.
Qed.
(** When the cells of the grid come by increasing VTK type, entry [k] of a dumped array is that of cell
    [k] of the dumped mesh. *)
Theorem C62_aligned : forall cs k c, StronglySorted Z.le (List.map fst cs) -> nth_error cs k = Some c ->
  nth_error (dumped_rows cs) k = Some (snd c).
Proof.
  intros cs k c Hs Hk. unfold dumped_rows, type_mats.
  rewrite flat_map_concat_map, List.map_map. cbn [snd m_rows]. rewrite <- flat_map_concat_map.
  rewrite rows_sorted; [rewrite nth_error_map, Hk; reflexivity|apply np_unique_sorted|exact Hs|]. intros c' Hc'. rewrite np_unique_in. apply in_map. exact Hc'.
Qed.
Print Assumptions C62_aligned.
(** Otherwise the order of the cells changes but not that of the arrays. *)
Example ex_misaligned : dumped_rows [(9, [0; 1; 2; 3]); (5, [1; 4; 2]); (9, [4; 5; 6; 2])] = [[1; 4; 2]; [0; 1; 2; 3]; [4; 5; 6; 2]].
Proof. reflexivity. Qed.

(** ** Opening and the type of the mesh *)
(** A file is created only with one of the five kinds of data and a version; opened again, it gives them. *)
Theorem C62_opened : forall F V ver datatype version,
  (forall h : h5 F V, open_new ver datatype version = Ok h -> exists d n, datatype = Some d /\ version = Some n /\
     In d ["external"; "dataset"; "datalist"; "probes"; "cfdmesh"]%string /\ open_old h = (Some (AStr d), Some (AStr ver), Some (AInt n))) /\
  (forall d n, datatype = Some d -> version = Some n -> In d ["external"; "dataset"; "datalist"; "probes"; "cfdmesh"]%string -> exists h : h5 F V, open_new ver datatype version = Ok h) /\
  (forall d, datatype = Some d -> version = None -> In d ["external"; "dataset"; "datalist"; "probes"; "cfdmesh"]%string -> open_new ver datatype version = Err RuntimeError :> res (h5 F V)) /\
  ((datatype = None \/ exists d, datatype = Some d /\ ~ In d ["external"; "dataset"; "datalist"; "probes"; "cfdmesh"]%string) -> open_new ver datatype version = Err AssertionError :> res (h5 F V)).
Proof.
  intros F V ver datatype version.
  assert (A : forall d, existsb (String.eqb d) available_types = true <-> In d ["external"; "dataset"; "datalist"; "probes"; "cfdmesh"]%string).
  { intros d. rewrite existsb_exists. split; [intros (x & I & E); apply String.eqb_eq in E; subst; exact I | intros I; exists d; split; [exact I | apply String.eqb_refl]]. }
  unfold open_new. split; [|split; [|split]].
  - intros h H. destruct datatype as [d|]; [|discriminate]. destruct (existsb (String.eqb d) available_types) eqn:E; [|discriminate]. destruct version as [n|]; [|discriminate]. injection H as <-.
    exists d, n. repeat split. apply A. exact E.
  - intros d n -> -> I. apply A in I. rewrite I. eexists. reflexivity.
  - intros d -> -> I. apply A in I. rewrite I. reflexivity.
  - intros [->|(d & -> & N)]; [reflexivity|]. destruct (existsb (String.eqb d) available_types) eqn:E; [apply A in E; contradiction|reflexivity].
Qed.
Print Assumptions C62_opened.
(** A file of older versions, with a kind of data but no version of them, has the version 0; a file without
    a kind of data has none. *)
Theorem C62_no_version : forall F V (h : h5 F V) a, dget path_eqb [] h = Some (Grp a) -> dget String.eqb "data_version" a = None ->
  (forall d, dget String.eqb "cfd_datatype" a = Some (AStr d) -> d <> ""%string -> snd (open_old h) = Some (AInt 0)) /\
  (dget String.eqb "cfd_datatype" a = None -> snd (open_old h) = None).
Proof.
  intros F V h a R N. unfold open_old, root_attrs. rewrite R, N. split; [intros d -> Hd|intros ->; reflexivity]. cbn [snd]. destruct d; [congruence|reflexivity].
Qed.
Print Assumptions C62_no_version.
(** Only a group of type "unsmesh" is read, and its nodes become the points. *)
Theorem C62_group : forall F V (h : h5 F V) p,
  (forall g, importhdfgroup h p = Ok g -> exists a, dget path_eqb p h = Some (Grp a) /\ dget String.eqb "meshtype" a = Some (AStr "unsmesh") /\
     dget path_eqb (p ++ ["nodes"%string]) h = Some (Dat (CPts (g_points g)))) /\
  (forall a s, dget path_eqb p h = Some (Grp a) -> dget String.eqb "meshtype" a = Some (AStr s) -> s <> "unsmesh"%string -> importhdfgroup h p = Err AssertionError).
Proof.
  intros F V h p. unfold importhdfgroup. split.
  - intros g H. destruct (dget path_eqb p h) as [[a|c]|]; [|discriminate|discriminate]. exists a. split; [reflexivity|].
    apply bind_ok in H. destruct H as (t & T & H). unfold dget_err in T. destruct (dget String.eqb "meshtype" a) as [t'|]; [|discriminate]. injection T as ->.
    destruct t as [s| |]; [|discriminate|discriminate]. destruct (String.eqb s "unsmesh") eqn:E; [|discriminate]. apply String.eqb_eq in E. rewrite E. cbn [negb] in H. split; [reflexivity|].
    apply bind_ok in H. destruct H as (pts & P & H). destruct (dget path_eqb (p ++ ["nodes"%string]) h) as [[?|[rows| |]]|]; try discriminate. injection P as ->.
    destruct (dget path_eqb (p ++ ["cells"%string]) h) as [[?|?]|]; try discriminate. apply bind_ok in H. destruct H as (cd & _ & H).
    unfold ug_of_dict in H. apply bind_ok in H. destruct H as (parts & _ & H). destruct cd as [|c0 cd]; [discriminate|]. unfold ug_new in H.
    repeat match type of H with
    | bind _ _ = Ok _ => apply bind_ok in H; destruct H as (? & _ & H)
    | (if ?b then _ else _) = Ok _ => destruct b; try discriminate H
    | (match ?x with _ => _ end) = Ok _ => destruct x; try discriminate H
    end; injection H as <-; reflexivity.
  - intros a s -> M N. unfold dget_err. rewrite M. cbn [bind]. apply String.eqb_neq in N. rewrite N. reflexivity.
Qed.
Print Assumptions C62_group.
(** A group, nodes or cells that are missing. *)
Theorem C62_group_missing : forall F V (h : h5 F V) p,
  (dget path_eqb p h = None -> importhdfgroup h p = Err KeyError) /\
  (forall a, dget path_eqb p h = Some (Grp a) -> dget String.eqb "meshtype" a = None -> importhdfgroup h p = Err KeyError) /\
  (forall a, dget path_eqb p h = Some (Grp a) -> dget String.eqb "meshtype" a = Some (AStr "unsmesh") ->
     dget path_eqb (p ++ ["nodes"%string]) h = None -> importhdfgroup h p = Err KeyError) /\
  (forall a rows, dget path_eqb p h = Some (Grp a) -> dget String.eqb "meshtype" a = Some (AStr "unsmesh") ->
     dget path_eqb (p ++ ["nodes"%string]) h = Some (Dat (CPts rows)) -> dget path_eqb (p ++ ["cells"%string]) h = None -> importhdfgroup h p = Err KeyError).
Proof.
  intros F V h p. unfold importhdfgroup, dget_err. split; [intros ->; reflexivity|]. split; [intros a -> ->; reflexivity|].
  split; [intros a -> -> N; cbn; now rewrite N|]. intros a rows -> -> N C. cbn. now rewrite N, C.
Qed.
Print Assumptions C62_group_missing.

(** ** Cases outside the claim *)
Definition ex_grid : grid (list Z) :=
  Grid _ [3; 0; 1; 2; 4; 1; 3; 4; 2] [0; 3; 7] [5; 9] [[0;0;0]; [1;0;0]; [0;1;0]; [2;0;0]; [2;1;0]].
Definition ex_cells : list (Z * list Z) := [(5, [0; 1; 2]); (9, [1; 3; 4; 2])].
Definition ex_dl (n : string) (sh : list Z) : list (dict string (var (list Z))) := [[("time", Var [] [5]); (n, Var sh [7; 8])]; [("time", Var [] [6]); (n, Var sh [9; 10])]]%string.
Example ex_grid_of : grid_of ex_grid ex_cells /\ Forall known_cell ex_cells /\ vertices_ok ex_grid ex_cells /\ Forall (fun p => List.length p = 3%nat) (g_points ex_grid).
Proof.
  split; [|split; [|split]].
  - split; try reflexivity. intros k Hk. cbn in Hk. do 3 (destruct k as [|k]; [reflexivity|]). lia.
  - repeat constructor; cbn; [exists "tri3"%string|exists "quad4"%string]; cbn; auto 20.
  - unfold vertices_ok. cbn. intros c v [<-|[<-|[]]] Hv; cbn in Hv; lia.
  - repeat constructor.
Qed.
Example ex_good_dl : Forall good_entries (ex_dl "rho" [2]).
Proof.
  assert (H : forall a b : var (list Z), good_entries [("time", a); ("rho", b)]%string).
  { intros a b. split.
    - constructor; [intros [H|[]]; discriminate|]. constructor; [intros []|constructor].
    - intros n [<-|[<-|[]]] Ht; [destruct (Ht eq_refl)|]. cbn [fst]. repeat split; try discriminate. intros Hi; cbn in Hi; repeat destruct Hi as [Hi|Hi]; try discriminate; destruct Hi. }
  constructor; [apply H|]. constructor; [apply H|constructor].
Qed.
(** What the theorems say of this case. *)
Example ex_list : match list_dumphdf "0.6" "out.hdf" ex_grid (ex_dl "rho" [2]) with
  | Ok (h, Ok lines) => (h5_get h "/datalist/i000001/rho", h5_attr h "/datalist/i000001" "time", List.map snd (refs lines))
  | _ => (None, None, [])
  end = (Some (CVar (Var [2] [9; 10])), Some (AVar (Var [] [6])),
         ["out.hdf:/mesh/nodes"; "out.hdf:/mesh/cells/tri3"; "out.hdf:/mesh/cells/quad4"; "out.hdf:/datalist/i000000/rho";
          "out.hdf:/mesh/nodes"; "out.hdf:/mesh/cells/tri3"; "out.hdf:/mesh/cells/quad4"; "out.hdf:/datalist/i000001/rho"]%string).
Proof. vm_compute. reflexivity. Qed.
(** An array whose name starts with a slash is put at the root of the file: the dump succeeds, but the
    path written in the XDMF file opens nothing. *)
Example ex_absolute : match list_dumphdf "0.6" "out.hdf" ex_grid [List.hd [] (ex_dl "/rho" [2])] with
  | Ok (h, Ok lines) => (h5_get h "/datalist/i000000//rho", h5_get h "/rho", List.last (List.map snd (refs lines)) ""%string)
  | _ => (None, None, ""%string)
  end = (None, Some (CVar (Var [2] [7; 8])), "out.hdf:/datalist/i000000//rho"%string).
Proof. vm_compute. reflexivity. Qed.
(** An array with three dimensions: the HDF5 file is written, then the XDMF file is refused. *)
Theorem C62_three_dims : forall F V ver f (g : grid (list F)) (dl : list (dict string (var V))) h x d n v,
  list_dumphdf ver f g dl = Ok (h, x) -> In d dl -> In (n, v) d -> n <> "time"%string -> ~ one_or_two_dims v -> exists e, x = Err e.
Proof.
  intros F V ver f g dl h x d n v H Hd Hin Hnt Hv. unfold list_dumphdf in H. apply bind_ok in H. destruct H as (m & _ & H). apply bind_ok in H. destruct H as (h' & _ & H). injection H as _ <-.
  destruct (mesh_xdmf f g) as [geo|e]; [|exists e; reflexivity]. cbn [bind]. unfold dl_xdmf.
  assert (Hs : forall dl i, In d dl -> exists e, steps_xdmf f geo i dl = Err e).
  { clear dl Hd. induction dl as [|d' dl IH]; intros i Hd; [destruct Hd|]. cbn [steps_xdmf]. destruct (step_xdmf f geo i d') as [a|e] eqn:Ea; [|exists e; reflexivity]. cbn [bind].
    destruct Hd as [->|Hd]; [|destruct (IH (S i) Hd) as (e & ->); exists e; reflexivity]. exfalso.
    unfold step_xdmf in Ea. apply bind_ok in Ea. destruct Ea as (vars & Hvars & _).
    assert (Hin' : In (n, v) (filter (fun kv => negb (is_property (fst kv))) d)). { apply filter_In. split; [exact Hin|]. cbn [fst]. unfold is_property. apply Bool.negb_true_iff, String.eqb_neq. exact Hnt. }
    apply mapM_ok_Forall2 in Hvars. revert Hin'. clear -Hvars Hv. intros Hin. induction Hvars as [|a b l l' Hab Hr IH]; [destruct Hin|].
    destruct Hin as [->|Hin]; [|exact (IH Hin)]. apply Hv. unfold var_xdmf in Hab. unfold one_or_two_dims. destruct (va_shape v) as [|? [|? [|? ?]]]; cbn; auto; discriminate. }
  destruct (Hs dl 0%nat Hd) as (e & ->). exists e. reflexivity.
Qed.
Print Assumptions C62_three_dims.
Example ex_three_dims : match list_dumphdf "0.6" "out.hdf" ex_grid (ex_dl "grad" [2; 1; 1]) with Ok (_, x) => x | Err e => Err e end = Err ValueError.
Proof. vm_compute. reflexivity. Qed.
(** A grid with a line: the mesh is dumped, the XDMF file is refused. *)
Example ex_line : match list_dumphdf "0.6" "out.hdf" (Grid _ [2; 0; 1] [0; 2] [3] [[0;0;0]; [1;0;0]] : grid (list Z)) (ex_dl "rho" [1]) with Ok (_, x) => x | Err e => Err e end = Err KeyError.
Proof. vm_compute. reflexivity. Qed.
