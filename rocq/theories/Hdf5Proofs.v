(** * Facts about the HDF5 and XDMF model. *)
From Coq Require Import Ascii Permutation Sorted Lia.
From Verif Require Import Py PyFacts ConnProofs ConnSpec Conn FaceThm Mesh Vtk VtkSpec VtkProofs VtkMeshProps Files FilesSpec FilesProofs Hdf5 Hdf5Spec.

Lemma path_eqb_eq a : forall b, path_eqb a b = true <-> a = b.
Proof.
  induction a as [|x a IH]; intros [|y b]; cbn; split; intros H; try discriminate; try reflexivity.
  - apply andb_prop in H. destruct H as [H1 H2]. apply String.eqb_eq in H1. apply IH in H2. congruence.
  - injection H as -> ->. rewrite String.eqb_refl. apply IH. reflexivity.
Qed.

Section Facts.
  Context {F V : Type}.
  Notation h5 := (h5 F V).
  Notation pget := (dget path_eqb).

  (** ** Creation *)
  Definition extends (t : list string) (h h' : h5) : Prop :=
    (forall p x, pget p h = Some x -> pget p h' = Some x) /\
    exists ex, h' = h ++ ex /\ Forall (fun kv => fst kv <> [] /\ exists s, t = fst kv ++ s) ex.
  Lemma extends_refl t h : extends t h h.
  Proof. split; [auto|]. exists []. split; [symmetry; apply app_nil_r|constructor]. Qed.
  Lemma extends_trans t h1 h2 h3 : extends t h1 h2 -> extends t h2 h3 -> extends t h1 h3.
  Proof.
    intros [H1 (e1 & -> & F1)] [H2 (e2 & -> & F2)]. split; [intros p x Hp; apply H2, H1, Hp|].
    exists (e1 ++ e2). split; [symmetry; apply app_assoc|]. apply Forall_app. split; assumption.
  Qed.
  Lemma dget_none_notin (h : h5) t : pget t h = None -> ~ In t (dkeys h).
  Proof.
    intros H Hin. induction h as [|(k, v) h IH]; [destruct Hin|]. cbn [dget] in H. destruct (path_eqb t k) eqn:E; [discriminate|].
    destruct Hin as [Hk|Hin]; [|apply IH; assumption]. cbn in Hk. subst k. rewrite (proj2 (path_eqb_eq t t) eq_refl) in E. discriminate.
  Qed.
  Lemma extends_new t p (h : h5) o : pget p h = None -> p <> [] -> (exists s, t = p ++ s) -> extends t h (dset path_eqb p o h) /\ pget p (dset path_eqb p o h) = Some o.
  Proof.
    intros Hn Hp Hs. split; [|apply (dget_dset_eq _ path_eqb_eq)]. split.
    - intros p' x Hx. destruct (list_eq_dec string_dec p' p) as [->|Hne]; [congruence|]. rewrite (dget_dset_neq _ path_eqb_eq) by exact Hne. exact Hx.
    - exists [(p, o)]. split; [apply (dset_notin _ path_eqb_eq); apply dget_none_notin; exact Hn|]. constructor; [split; assumption|constructor].
  Qed.
  Lemma mk_parents_spec rest : forall pre (h h' : h5), mk_parents h pre rest = Ok h' -> extends (pre ++ rest) h h'.
  Proof.
    induction rest as [|w r IH]; intros pre h h' H; [injection H as <-; apply extends_refl|].
    cbn [mk_parents] in H. destruct r as [|w' r]; [injection H as <-; apply extends_refl|].
    assert (Eapp : pre ++ w :: w' :: r = (pre ++ [w]) ++ w' :: r) by (rewrite <- app_assoc; reflexivity).
    destruct (pget (pre ++ [w]) h) as [[a|c]|] eqn:E; [|discriminate|].
    - apply IH in H. rewrite Eapp. exact H.
    - apply IH in H. rewrite Eapp. eapply extends_trans; [|exact H]. apply extends_new; [exact E|destruct pre; discriminate|]. eexists. reflexivity.
  Qed.
  Lemma create_spec (h : h5) t o h' : create h t o = Ok h' -> extends t h h' /\ pget t h' = Some o /\ pget t h = None.
  Proof.
    intros H. assert (Hne : t <> []) by (intros ->; discriminate). assert (Hc : (h1 <- mk_parents h [] t ;; if dmem path_eqb t h1 then Err ValueError else Ok (dset path_eqb t o h1)) = Ok h').
    { unfold create in H. destruct t; [congruence|exact H]. }
    clear H. apply bind_ok in Hc. destruct Hc as (h1 & H1 & H). destruct (dmem path_eqb t h1) eqn:Em; [discriminate|]. injection H as <-.
    apply mk_parents_spec in H1. cbn [app] in H1. unfold dmem in Em. destruct (pget t h1) eqn:Eg; [discriminate|].
    destruct (extends_new t t h1 o Eg Hne) as [He Hg]; [exists []; symmetry; apply app_nil_r|].
    split; [eapply extends_trans; eassumption|]. split; [exact Hg|]. destruct (pget t h) eqn:E0; [|reflexivity]. apply (proj1 H1) in E0. congruence.
  Qed.
  Lemma create_ok (h : h5) t o : t <> [] -> pget t h = None ->
    (forall p s, t = p ++ s -> p <> [] -> s <> [] -> exists a, pget p h = Some (Grp a)) -> create h t o = Ok (h ++ [(t, o)]).
  Proof.
    intros Hne Hn Hp. assert (Hm : mk_parents h [] t = Ok h).
    { assert (Hgen : forall rest pre, pre ++ rest = t -> mk_parents h pre rest = Ok h).
      { induction rest as [|w r IH]; intros pre E; [reflexivity|]. cbn [mk_parents]. destruct r as [|w' r]; [reflexivity|].
        assert (E' : (pre ++ [w]) ++ w' :: r = t) by (rewrite <- app_assoc; exact E).
        destruct (Hp (pre ++ [w]) (w' :: r)) as (a & Ha); [symmetry; exact E'|destruct pre; discriminate|discriminate|]. rewrite Ha. apply IH. exact E'. }
      apply Hgen. reflexivity. }
    unfold create. destruct t as [|w t0] eqn:Et; [congruence|]. rewrite <- Et in *. rewrite Hm. cbn [bind]. unfold dmem. rewrite Hn.
    f_equal. apply (dset_notin _ path_eqb_eq). apply dget_none_notin. exact Hn.
  Qed.

  (** Data sets are never lost. *)
  Definition keeps (h h' : h5) : Prop := forall p c, pget p h = Some (Dat c) -> pget p h' = Some (Dat c).
  Lemma keeps_refl h : keeps h h. Proof. intros p c H. exact H. Qed.
  Lemma keeps_trans h1 h2 h3 : keeps h1 h2 -> keeps h2 h3 -> keeps h1 h3.
  Proof. intros H1 H2 p c H. apply H2, H1, H. Qed.
  Lemma create_keeps h t o h' : create h t o = Ok h' -> keeps h h'.
  Proof. intros H. apply create_spec in H. destruct H as ((H & _) & _). intros p c Hp. apply H. exact Hp. Qed.
  Lemma set_attr_keeps h p k v : keeps h (set_attr h p k v).
  Proof.
    unfold set_attr. destruct (pget p h) as [[a|c]|] eqn:E; try apply keeps_refl. intros p' c Hp.
    destruct (list_eq_dec string_dec p' p) as [->|Hne]; [congruence|]. rewrite (dget_dset_neq _ path_eqb_eq) by exact Hne. exact Hp.
  Qed.
  Lemma group_keeps h b n h' : create_group h b n = Ok h' -> keeps h h'.
  Proof. apply create_keeps. Qed.
  Lemma dataset_keeps h b n c h' : create_dataset h b n c = Ok h' -> keeps h h' /\ pget (from b n) h' = Some (Dat c).
  Proof.
    unfold create_dataset. destruct (kept_part _); [|discriminate]. intros H. split; [eapply create_keeps; exact H|]. apply create_spec in H. apply H.
  Qed.

  (** ** Paths *)
  Lemma split_slash_app a b : split_slash (a ++ String "/" b) = split_slash a ++ split_slash b.
  Proof.
    induction a as [|c a IH]; cbn [append split_slash].
    - destruct (split_slash b) as [|w l] eqn:E; [exfalso; apply (split_nonempty b); exact E|]. reflexivity.
    - rewrite IH. destruct (split_slash a) as [|w l] eqn:E; [exfalso; apply (split_nonempty a); exact E|]. cbn [app]. destruct (Ascii.eqb c "/"); reflexivity.
  Qed.
  Lemma components_app a b : components (a ++ String "/" b) = components a ++ components b.
  Proof. unfold components. rewrite split_slash_app, filter_app. reflexivity. Qed.
  Lemma components_good w : good_part w -> components w = [w].
  Proof. intros H. unfold components. rewrite split_single by apply H. apply filter_kept. constructor; [exact H|constructor]. Qed.
  Lemma from_rel b n : relative n -> from b n = b ++ components n.
  Proof.
    intros H. unfold from. destruct n as [|c n]; [reflexivity|]. destruct (ascii_dec c "/") as [->|Hc]; [exfalso; apply (H n); reflexivity|].
    destruct c as [[] [] [] [] [] [] [] []]; try reflexivity. exfalso; apply Hc; reflexivity.
  Qed.
  Lemma good_relative w : good_part w -> relative w.
  Proof. intros (_ & _ & H) r ->. apply H. left. reflexivity. Qed.
  Lemma from_good b w : good_part w -> from b w = b ++ [w].
  Proof. intros H. rewrite from_rel by (apply good_relative; exact H). rewrite components_good by exact H. reflexivity. Qed.

  (** ** Step names *)
  Lemma zeros_chars n : chars (zeros n) = repeat "0"%char n.
  Proof. induction n as [|n IH]; [reflexivity|]. cbn. rewrite IH. reflexivity. Qed.
  Lemma digits_no_slash s : Forall digits (chars s) -> no_char "/" s.
  Proof. intros H Hin. rewrite Forall_forall in H. specialize (H _ Hin). unfold digits in H. cbn in H. repeat destruct H as [H|H]; try discriminate. destruct H. Qed.
  Lemma step_digits i : Forall digits (chars (pad6 (dec i))).
  Proof.
    unfold pad6. rewrite chars_app. apply Forall_app. split; [|apply dec_digits]. rewrite zeros_chars. apply Forall_forall. intros c Hc.
    apply repeat_spec in Hc. subst c. left. reflexivity.
  Qed.
  Lemma step_good i : good_part (step_name i).
  Proof.
    unfold step_name. cbn [append]. split; [discriminate|]. split; [discriminate|]. apply no_char_cons. split; [discriminate|]. apply digits_no_slash, step_digits.
  Qed.
End Facts.

Fixpoint d0s (k : nat) (u : Decimal.uint) : Decimal.uint := match k with O => u | S k' => Decimal.D0 (d0s k' u) end.
Lemma zeros_uint k u : (zeros k ++ DecimalString.NilEmpty.string_of_uint u)%string = DecimalString.NilEmpty.string_of_uint (d0s k u).
Proof. induction k as [|k IH]; [reflexivity|]. cbn [zeros append d0s DecimalString.NilEmpty.string_of_uint]. rewrite IH. reflexivity. Qed.
Lemma of_uint_d0s k u : Nat.of_uint (d0s k u) = Nat.of_uint u.
Proof. induction k as [|k IH]; [reflexivity|]. cbn [d0s]. rewrite <- IH. reflexivity. Qed.
Lemma to_uint_not_nil n : Nat.to_uint n <> Decimal.Nil.
Proof.
  intros H. pose proof (DecimalNat.Unsigned.of_to n) as E. rewrite H in E. cbn in E. subst n. discriminate.
Qed.
Lemma dec_empty n : dec n = DecimalString.NilEmpty.string_of_uint (Nat.to_uint n).
Proof. unfold dec. pose proof (to_uint_not_nil n). destruct (Nat.to_uint n); [congruence|reflexivity..]. Qed.
Lemma step_inj i j : step_name i = step_name j -> i = j.
Proof.
  unfold step_name. intros H. apply append_inv_head in H. unfold pad6 in H. rewrite !dec_empty, !zeros_uint in H.
  apply (f_equal DecimalString.NilEmpty.uint_of_string) in H. rewrite !DecimalString.NilEmpty.usu in H. injection H as H.
  apply (f_equal Nat.of_uint) in H. rewrite !of_uint_d0s, !DecimalNat.Unsigned.of_to in H. exact H.
Qed.

(** ** References *)
Lemma refs_tag a r : prefix "<DataItem" a = false -> refs (a :: r) = refs r.
Proof. intros H. cbn [refs]. rewrite H. reflexivity. Qed.
Lemma refs_item dims f p r : refs (data_item dims f p ++ r) =
  (("<DataItem Dimensions=" ++ q ++ dims ++ q ++ " Format=" ++ q ++ "HDF" ++ q ++ ">")%string, (f ++ ":" ++ p)%string) :: refs r.
Proof. reflexivity. Qed.

Section Xdmf.
  Context {F V : Type}.
  Definition item_ref (dims f p : string) : string * string :=
    (("<DataItem Dimensions=" ++ q ++ dims ++ q ++ " Format=" ++ q ++ "HDF" ++ q ++ ">")%string, (f ++ ":" ++ p)%string).

  Lemma topo_refs f (d : dict Z mat) : forall topo r,
    mapM (fun '(itype, cellco) =>
        x <- dget_err Z.eqb itype pyvista2xdmf ;;
        e <- dget_err Z.eqb itype ele_vtktype ;;
        Ok ([("<Topology NumberOfElements=" ++ q ++ zdec (zlen (m_rows cellco)) ++ q ++ " TopologyType=" ++ q ++ x ++ q ++ ">")%string]
            ++ data_item (zdec (mat_size cellco)) f ("/mesh/cells/" ++ e)%string ++ ["</Topology>"%string])) d = Ok topo ->
    refs (List.concat topo ++ r) = List.map (fun tm => item_ref (zdec (mat_size (snd tm))) f ("/mesh/cells/" ++ ele_name (fst tm))%string) d ++ refs r.
  Proof.
    induction d as [|(t, m) d IH]; intros topo r H; [injection H as <-; reflexivity|].
    cbn [mapM] in H. apply bind_ok in H. destruct H as (a & Ha & H). apply bind_ok in H. destruct H as (b & Hb & H). injection H as <-.
    apply bind_ok in Ha. destruct Ha as (x & Hx & Ha). apply bind_ok in Ha. destruct Ha as (e & He & Ha).
    assert (Ee : ele_name t = e). { unfold ele_name. unfold dget_err in He. destruct (dget Z.eqb t ele_vtktype); [|discriminate]. injection He as ->. reflexivity. }
    pose proof (IH b r Hb) as Hr. injection Ha as <-. cbn [List.concat List.map fst snd]. rewrite Ee.
    transitivity (item_ref (zdec (mat_size m)) f ("/mesh/cells/" ++ e)%string :: refs (List.concat b ++ r)); [reflexivity|]. rewrite Hr. reflexivity.
  Qed.
  Lemma mesh_refs f (g : grid (list F)) d lines r : cells_dict g = Ok d -> mesh_xdmf f g = Ok lines ->
    refs (lines ++ r) = (item_ref (zdec (zlen (g_points g) * 3)) f "/mesh/nodes" ::
      List.map (fun tm => item_ref (zdec (mat_size (snd tm))) f ("/mesh/cells/" ++ ele_name (fst tm))%string) d) ++ refs r.
  Proof.
    intros Hd H. unfold mesh_xdmf in H. rewrite Hd in H. cbn [bind] in H. apply bind_ok in H. destruct H as (topo & Ht & H). injection H as <-.
    transitivity (item_ref (zdec (zlen (g_points g) * 3)) f "/mesh/nodes" :: refs (List.concat topo ++ r)); [reflexivity|].
    rewrite (topo_refs f d topo r Ht). reflexivity.
  Qed.
  Definition var_ref (f : string) (i : nat) (kv : string * var V) : string * string :=
    item_ref (String.concat " " (List.map zdec (va_shape (snd kv)))) f ("/datalist/" ++ step_name i ++ "/" ++ fst kv)%string.
  Definition plain_data (d : dict string (var V)) : list (string * var V) := filter (fun kv => negb (is_property (fst kv))) d.
  Lemma vars_refs f i (l : list (string * var V)) : forall vars r, mapM (var_xdmf f i) l = Ok vars -> refs (List.concat vars ++ r) = List.map (var_ref f i) l ++ refs r.
  Proof.
    induction l as [|(n, v) l IH]; intros vars r H; [injection H as <-; reflexivity|].
    cbn [mapM] in H. apply bind_ok in H. destruct H as (a & Ha & H). apply bind_ok in H. destruct H as (b & Hb & H). injection H as <-.
    unfold var_xdmf in Ha. apply bind_ok in Ha. destruct Ha as (typ & _ & Ha). injection Ha as <-. pose proof (IH b r Hb) as Hr.
    transitivity (var_ref f i (n, v) :: refs (List.concat b ++ r)); [reflexivity|]. rewrite Hr. reflexivity.
  Qed.
  Lemma steps_refs f (geo : list string) gr : (forall r, refs (geo ++ r) = gr ++ refs r) ->
    forall (dl : list (dict string (var V))) i lines r, steps_xdmf f geo i dl = Ok lines ->
    refs (lines ++ r) = List.concat (List.map (fun di => gr ++ List.map (var_ref f (fst di)) (plain_data (snd di))) (combine (seq i (List.length dl)) dl)) ++ refs r.
  Proof.
    intros Hg. induction dl as [|d dl IH]; intros i lines r H; [injection H as <-; reflexivity|].
    cbn [steps_xdmf] in H. apply bind_ok in H. destruct H as (a & Ha & H). apply bind_ok in H. destruct H as (b & Hb & H). injection H as <-.
    unfold step_xdmf in Ha. apply bind_ok in Ha. destruct Ha as (vars & Hv & Ha). injection Ha as <-.
    cbn [List.length seq combine List.map List.concat fst snd].
    transitivity (refs (geo ++ List.concat vars ++ "</Grid>"%string :: b ++ r)); [cbn [app]; rewrite !refs_tag by reflexivity; rewrite <- !app_assoc; reflexivity|].
    rewrite Hg, (vars_refs f i _ vars _ Hv), refs_tag by reflexivity. rewrite (IH (S i) b r Hb). rewrite <- !app_assoc. reflexivity.
  Qed.

  (** The references of the whole file. *)
  Definition all_refs (f : string) (g : grid (list F)) (d : dict Z mat) (dl : list (dict string (var V))) : list (string * string) :=
    List.concat (List.map (fun di =>
      (item_ref (zdec (zlen (g_points g) * 3)) f "/mesh/nodes" ::
       List.map (fun tm => item_ref (zdec (mat_size (snd tm))) f ("/mesh/cells/" ++ ele_name (fst tm))%string) d)
      ++ List.map (var_ref f (fst di)) (plain_data (snd di))) (combine (seq 0 (List.length dl)) dl)).
  Lemma list_refs f g d dl geo content lines : cells_dict g = Ok d -> mesh_xdmf f g = Ok geo -> dl_xdmf f geo dl = Ok content ->
    lines = ([("<Xdmf Version=" ++ q ++ "3.0" ++ q ++ ">")%string; "<Domain>"%string] ++ content ++ ["</Domain>"; "</Xdmf>"]%string) ->
    refs lines = all_refs f g d dl.
  Proof.
    intros Hd Hm Hc ->. unfold dl_xdmf in Hc. apply bind_ok in Hc. destruct Hc as (steps & Hs & Hc). injection Hc as <-.
    transitivity (refs (steps ++ ["</Grid>"; "</Domain>"; "</Xdmf>"]%string)); [cbn [app]; rewrite !refs_tag by reflexivity; rewrite <- !app_assoc; reflexivity|].
    rewrite (steps_refs f geo _ (fun r => mesh_refs f g d geo r Hd Hm) dl 0 steps _ Hs). rewrite !refs_tag by reflexivity. rewrite app_nil_r. reflexivity.
  Qed.
End Xdmf.

(** ** Contents *)
Section Dump.
  Context {F V : Type}.
  Notation h5 := (h5 F V).
  Notation pget := (dget path_eqb).

  Lemma fold_datasets {A} (f : h5 -> A -> res h5) (P : A -> h5 -> Prop) l :
    (forall a h h', In a l -> f h a = Ok h' -> keeps h h' /\ P a h') -> (forall a h h', P a h -> keeps h h' -> P a h') ->
    forall h h', foldM f h l = Ok h' -> keeps h h' /\ Forall (fun a => P a h') l.
  Proof.
    intros Hf Hp. induction l as [|a l IH]; intros h h' H; [injection H as <-; split; [apply keeps_refl|constructor]|].
    cbn [foldM] in H. apply bind_ok in H. destruct H as (h1 & H1 & H). destruct (Hf a h h1 (or_introl eq_refl) H1) as [K1 P1].
    destruct (IH ltac:(intros b x y Hb; apply Hf; right; exact Hb) h1 h' H) as [K2 P2].
    split; [eapply keeps_trans; eassumption|]. constructor; [eapply Hp; eassumption|exact P2].
  Qed.

  Lemma write_unsmesh_spec (h : h5) cn nodes h' : write_unsmesh h cn nodes = Ok h' ->
    keeps h h' /\ pget ["mesh"; "nodes"]%string h' = Some (Dat (CPts nodes)) /\
    Forall (fun tm => pget (from ["mesh"; "cells"]%string (fst tm)) h' = Some (Dat (CMat (snd tm)))) cn.
  Proof.
    intros H. unfold write_unsmesh in H. apply bind_ok in H. destruct H as (h1 & H1 & H). apply bind_ok in H. destruct H as (h3 & H3 & H).
    apply bind_ok in H. destruct H as (h4 & H4 & H). apply group_keeps in H1. pose proof (set_attr_keeps h1 ["mesh"%string] "meshtype" (AStr "unsmesh")) as K2.
    destruct (dataset_keeps _ _ _ _ _ H3) as [K3 G3]. apply group_keeps in H4.
    destruct (fold_datasets (fun h '(ctype, cellco) => create_dataset h ["mesh"; "cells"]%string ctype (CMat cellco))
       (fun tm h => pget (from ["mesh"; "cells"]%string (fst tm)) h = Some (Dat (CMat (snd tm)))) cn) with (h := h4) (h' := h') as [K5 G5]; [| |exact H|].
    - intros (t, m) x y _ Hx. apply dataset_keeps in Hx. exact Hx.
    - intros (t, m) x y Hx Kx. apply Kx. exact Hx.
    - split; [|split; [|exact G5]].
      + eapply keeps_trans; [exact H1|]. eapply keeps_trans; [exact K2|]. eapply keeps_trans; [exact K3|]. eapply keeps_trans; eassumption.
      + apply K5, H4. exact G3.
  Qed.

  Lemma dump_step_spec (h : h5) base i d h' : dump_step h base i d = Ok h' ->
    keeps h h' /\ Forall (fun kv => is_property (fst kv) = false -> pget (from (base ++ [step_name i]) (fst kv)) h' = Some (Dat (CVar (snd kv)))) d.
  Proof.
    intros H. unfold dump_step in H. apply bind_ok in H. destruct H as (h1 & H1 & H). apply group_keeps in H1.
    destruct (fold_datasets (fun h kv => dump_entry h (base ++ [step_name i]) kv)
       (fun kv h => is_property (fst kv) = false -> pget (from (base ++ [step_name i]) (fst kv)) h = Some (Dat (CVar (snd kv)))) d) with (h := h1) (h' := h') as [K G]; [| |exact H|].
    - intros kv x y _ Hx. unfold dump_entry in Hx. destruct (is_property (fst kv)) eqn:E.
      + injection Hx as <-. split; [apply set_attr_keeps|discriminate].
      + apply dataset_keeps in Hx. split; [apply Hx|]. intros _. apply Hx.
    - intros kv x y Hx Kx Hp. apply Kx. apply Hx. exact Hp.
    - split; [eapply keeps_trans; eassumption|exact G].
  Qed.
  Lemma dump_steps_spec base (dl : list (dict string (var V))) : forall (h : h5) i h', dump_steps h base i dl = Ok h' ->
    keeps h h' /\ forall k d, nth_error dl k = Some d -> forall n v, In (n, v) d -> is_property n = false ->
       pget (from (base ++ [step_name (i + k)]) n) h' = Some (Dat (CVar v)).
  Proof.
    induction dl as [|d dl IH]; intros h i h' H; [injection H as <-; split; [apply keeps_refl|intros [|k] d Hd; discriminate]|].
    cbn [dump_steps] in H. apply bind_ok in H. destruct H as (h1 & H1 & H). apply dump_step_spec in H1. destruct H1 as [K1 G1].
    destruct (IH _ _ _ H) as [K2 G2]. split; [eapply keeps_trans; eassumption|]. intros [|k] d' Hd n v Hin Hp.
    - injection Hd as <-. rewrite Nat.add_0_r. apply K2. rewrite Forall_forall in G1. exact (G1 _ Hin Hp).
    - cbn in Hd. replace (i + S k)%nat with (S i + k)%nat by lia. exact (G2 k d' Hd n v Hin Hp).
  Qed.
  Lemma dl_dump_spec ver (m : mesh F) dl (h : h5) c nodes : dl_dumphdf ver m dl = Ok h -> me_cell2node m = Some c -> nodescoord_nd m = Ok nodes ->
    pget ["mesh"; "nodes"]%string h = Some (Dat (CPts nodes)) /\
    (forall t ed, In (t, ed) (ec_dict c) -> pget (from ["mesh"; "cells"]%string t) h = Some (Dat (CMat (ed_e2n ed)))) /\
    (forall k d, nth_error dl k = Some d -> forall n v, In (n, v) d -> is_property n = false ->
       pget (from ["datalist"%string; step_name k] n) h = Some (Dat (CVar v))).
  Proof.
    intros H Hc Hn. unfold dl_dumphdf in H.
    apply bind_ok in H. destruct H as (h0 & _ & H). rewrite Hc, Hn in H. cbn [bind] in H. apply bind_ok in H. destruct H as (h1 & H1 & H). apply bind_ok in H. destruct H as (h2 & H2 & H).
    destruct (write_unsmesh_spec _ _ _ _ H1) as (_ & Gn & Gc). apply group_keeps in H2. apply dump_steps_spec in H. destruct H as [K G].
    split; [apply K, H2, Gn|]. split; [|intros k d Hk n v Hin Hp; exact (G k d Hk n v Hin Hp)].
    intros t ed Hin. apply K, H2. rewrite Forall_forall in Gc. apply (Gc (t, ed_e2n ed)). apply in_map_iff. exists (t, ed). split; [reflexivity|exact Hin].
  Qed.
End Dump.

(** ** The mesh group, exactly *)
Section MeshGroup.
  Context {F V : Type}.
  Notation h5 := (h5 F V).
  Notation pget := (dget path_eqb).
  Open Scope string_scope.

  Definition cell_entries (cn : list (string * mat)) : h5 := List.map (fun tm => (["mesh"; "cells"; fst tm], Dat (CMat (snd tm)))) cn.
  Definition mesh_file (a : dict string (attr V)) (nodes : list (list F)) (cn : list (string * mat)) : h5 :=
    (([], Grp a) :: (["mesh"], Grp [("meshtype", AStr "unsmesh")]) :: (["mesh"; "nodes"], Dat (CPts nodes)) :: (["mesh"; "cells"], Grp []) :: cell_entries cn)%list.

  Lemma dget_app (h1 h2 : h5) p : pget p (h1 ++ h2)%list = match pget p h1 with Some x => Some x | None => pget p h2 end.
  Proof. induction h1 as [|(k, v) h IH]; [reflexivity|]. cbn [app dget]. destruct (path_eqb p k); [reflexivity|exact IH]. Qed.
  Lemma pget_cells cn t : pget ["mesh"; "cells"; t] (cell_entries cn) = match dget String.eqb t cn with Some m => Some (Dat (CMat m)) | None => None end.
  Proof.
    induction cn as [|(t', m) cn IH]; [reflexivity|]. cbn [cell_entries List.map dget fst snd]. fold (cell_entries cn).
    replace (path_eqb ["mesh"; "cells"; t] ["mesh"; "cells"; t']) with (String.eqb t t') by (cbn; rewrite Bool.andb_true_r; reflexivity).
    destruct (String.eqb t t'); [reflexivity|exact IH].
  Qed.
  Lemma fold_cells a nodes l : forall done, NoDup (List.map fst (done ++ l)%list) -> Forall good_part (List.map fst l) ->
    foldM (fun h '(ctype, cellco) => create_dataset h ["mesh"; "cells"] ctype (CMat cellco)) (mesh_file a nodes done) l = Ok (mesh_file a nodes (done ++ l)).
  Proof.
    induction l as [|(t, m) l IH]; intros done Hnd Hg; [rewrite app_nil_r; reflexivity|]. inversion Hg as [|? ? Ht Hg']; subst. cbn [fst] in Ht.
    cbn [foldM]. unfold create_dataset at 1. rewrite split_single by apply Ht. cbn [List.last].
    assert (kept_part t = true) as -> by (apply kept_good; [apply Ht|exact Ht]). rewrite from_good by exact Ht. cbn [app].
    rewrite create_ok; [|discriminate| |].
    - cbn [bind]. change ((mesh_file a nodes done ++ [(["mesh"; "cells"; t], Dat (CMat m))])%list) with (([], Grp a) :: (["mesh"], Grp [("meshtype", AStr "unsmesh")]) :: (["mesh"; "nodes"], Dat (CPts nodes)) :: (["mesh"; "cells"], Grp []) :: (cell_entries done ++ cell_entries [(t, m)]))%list.
      replace (cell_entries done ++ cell_entries [(t, m)])%list with (cell_entries (done ++ [(t, m)])%list) by (unfold cell_entries; apply map_app).
      fold (mesh_file a nodes (done ++ [(t, m)])%list). rewrite IH; [rewrite <- app_assoc; reflexivity|rewrite <- app_assoc; exact Hnd|exact Hg'].
    - unfold mesh_file. cbn [dget path_eqb String.eqb Ascii.eqb Bool.eqb andb]. rewrite pget_cells.
      replace (dget String.eqb t done) with (@None mat); [reflexivity|]. symmetry. apply (dget_None _ seqb_eq). rewrite map_app in Hnd. apply NoDup_remove_2 in Hnd.
      intros Hin. apply Hnd. apply in_or_app. left. exact Hin.
    - intros p s E Hp Hs. destruct p as [|p1 p]; [congruence|]. injection E as <- E. destruct p as [|p2 p]; [eexists; reflexivity|].
      injection E as <- E. destruct p as [|p3 p]; [eexists; reflexivity|]. injection E as _ E. destruct p; [destruct s; [congruence|discriminate]|discriminate].
  Qed.
  Lemma write_mesh a cn nodes : NoDup (List.map fst cn) -> Forall good_part (List.map fst cn) ->
    write_unsmesh [([], Grp a)] cn nodes = Ok (mesh_file a nodes cn).
  Proof.
    intros Hnd Hg. unfold write_unsmesh. change (create_group [([], Grp a)] [] "/mesh") with (Ok [([], Grp a); (["mesh"], Grp [])] : res h5). cbn [bind].
    change (create_dataset (set_attr [([], Grp a); (["mesh"], Grp [])] ["mesh"] "meshtype" (AStr "unsmesh")) ["mesh"] "nodes" (CPts nodes))
      with (Ok [([], Grp a); (["mesh"], Grp [("meshtype", AStr "unsmesh")]); (["mesh"; "nodes"], Dat (CPts nodes))] : res h5). cbn [bind].
    change (create_group [([], Grp a); (["mesh"], Grp [("meshtype", AStr "unsmesh")]); (["mesh"; "nodes"], Dat (CPts nodes))] ["mesh"] "cells")
      with (Ok (mesh_file a nodes [])). cbn [bind]. rewrite fold_cells; [reflexivity|exact Hnd|exact Hg].
  Qed.

  (** What [importhdfgroup] looks at. *)
  Definition same_mesh (h h' : h5) : Prop :=
    pget ["mesh"] h' = pget ["mesh"] h /\ pget ["mesh"; "nodes"] h' = pget ["mesh"; "nodes"] h /\
    pget ["mesh"; "cells"] h' = pget ["mesh"; "cells"] h /\ children h' ["mesh"; "cells"] = children h ["mesh"; "cells"].
  Lemma same_import h h' : same_mesh h h' -> importhdfgroup h' ["mesh"] = importhdfgroup h ["mesh"].
  Proof.
    intros (H1 & H2 & H3 & H4). unfold importhdfgroup. cbn [app]. unfold items. rewrite H1, H2, H3, H4. reflexivity.
  Qed.
  Lemma children_app (h1 h2 : h5) p : children (h1 ++ h2)%list p = (children h1 p ++ children h2 p)%list.
  Proof. unfold children. apply flat_map_app. Qed.
  Lemma children_cells cn : children (cell_entries cn) ["mesh"; "cells"] = List.map (fun tm => (fst tm, Dat (CMat (snd tm)))) cn.
  Proof. induction cn as [|(t, m) cn IH]; [reflexivity|]. cbn [cell_entries List.map]. fold (cell_entries cn). rewrite <- IH. reflexivity. Qed.
  Lemma children_mesh a nodes cn : children (mesh_file a nodes cn) ["mesh"; "cells"] = List.map (fun tm => (fst tm, Dat (CMat (snd tm)))) cn.
  Proof. rewrite <- children_cells. reflexivity. Qed.

  Lemma insert_map {A B} (f : A -> B) (leb : B -> B -> bool) a l : insert leb (f a) (List.map f l) = List.map f (insert (fun x y => leb (f x) (f y)) a l).
  Proof. induction l as [|b l IH]; [reflexivity|]. cbn. destruct (leb (f a) (f b)); [reflexivity|]. cbn. rewrite IH. reflexivity. Qed.
  Lemma isort_map {A B} (f : A -> B) (leb : B -> B -> bool) l : isort leb (List.map f l) = List.map f (isort (fun x y => leb (f x) (f y)) l).
  Proof. induction l as [|a l IH]; [reflexivity|]. cbn [isort List.map]. rewrite IH. apply insert_map. Qed.
  Lemma insert_perm {A} (leb : A -> A -> bool) a l : Permutation (a :: l) (insert leb a l).
  Proof. induction l as [|b l IH]; [reflexivity|]. cbn. destruct (leb a b); [reflexivity|]. rewrite perm_swap. constructor. exact IH. Qed.
  Lemma isort_perm' {A} (leb : A -> A -> bool) l : Permutation l (isort leb l).
  Proof. induction l as [|a l IH]; [reflexivity|]. cbn [isort]. rewrite <- insert_perm. constructor. exact IH. Qed.
  Definition by_name (cn : list (string * mat)) : list (string * mat) := isort (fun a b => String.leb (fst a) (fst b)) cn.

  Lemma import_mesh a nodes cn : (forall t m, In (t, m) cn -> exists k, In (t, k) vtktype_ele) ->
    importhdfgroup (mesh_file a nodes cn) ["mesh"] = ug_of_dict (List.map (fun tm => (vtk_code (fst tm), snd tm)) (by_name cn)) nodes.
  Proof.
    intros Hk. unfold importhdfgroup. cbn [app]. unfold mesh_file at 1 2 3. cbn [dget path_eqb String.eqb Ascii.eqb Bool.eqb andb dget_err bind negb].
    unfold items. rewrite children_mesh, isort_map. cbn [fst].
    change (isort (fun x y : string * mat => String.leb (fst x) (fst y)) cn) with (by_name cn).
    assert (E : mapM (fun '(etype, o) => t <- dget_err String.eqb etype vtktype_ele ;; match o with Dat (CMat m) => Ok (t, m) | _ => Err TypeError end)
        (List.map (fun tm => (fst tm, Dat (CMat (snd tm)) : obj F V)) (by_name cn)) = Ok (List.map (fun tm => (vtk_code (fst tm), snd tm)) (by_name cn))).
    { assert (Hk' : forall t m, In (t, m) (by_name cn) -> exists k, In (t, k) vtktype_ele).
      { intros t m Hin. apply (Hk t m). eapply Permutation_in; [symmetry; apply isort_perm'|exact Hin]. }
      clear -Hk'. induction (by_name cn) as [|(t, m) l IH]; [reflexivity|]. cbn [List.map mapM fst snd]. destruct (Hk' t m (or_introl eq_refl)) as (k & Hin).
      unfold dget_err at 1. unfold vtk_code at 1. rewrite (code_of _ _ Hin). cbn [bind]. rewrite IH by (intros t' m' H; apply (Hk' t' m'); right; exact H). reflexivity. }
    rewrite E. reflexivity.
  Qed.
End MeshGroup.
