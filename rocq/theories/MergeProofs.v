From Coq Require Import Lia Sorted Permutation ZifyBool ZifyNat Arith.
From Verif Require Import PyFacts IndexListSpec IndexListProofs Conn ConnSpec ConnProofs CheckProofs.

Definition sel (d : dict string edict) (t : string) : list (Z * list Z) :=
  flat_map (fun kv => if String.eqb t (fst kv) then ed_pairs (snd kv) else []) d.
Definition dpairs (d : dict string edict) : list (Z * list Z) := flat_map (fun kv => ed_pairs (snd kv)) d.

Record good (nn : string -> nat) (d : dict string edict) : Prop := {
  g_wf : forall t ed, In (t, ed) d -> ed_wf ed;
  g_plain : forall t ed, In (t, ed) d -> il_boxed (ed_index ed) = false;
  g_cols : forall t ed, In (t, ed) d -> m_cols (ed_e2n ed) = Some (nn t) }.

Lemma shift_ok ed k : ed_wf ed -> il_boxed (ed_index ed) = false ->
  exists il, il_shift (ed_index ed) k = Ok (Some il) /\ il <> ILnone /\ il_boxed il = false /\
             entries il = List.map (fun j => j + k) (entries (ed_index ed)).
Proof.
  intros W B. pose proof (edwf_typed _ W). destruct (ed_index ed); simpl in *; try congruence.
  - eexists; repeat split; simpl; try discriminate. rewrite map_add_zrange. f_equal. lia.
  - eexists; repeat split; simpl; discriminate.
Qed.

Lemma combine_map_l {A B C} (f : A -> C) (l : list A) (m : list B) :
  combine (List.map f l) m = List.map (fun '(a, b) => (f a, b)) (combine l m).
Proof. revert m; induction l; destruct m; simpl; auto. now rewrite IHl. Qed.

Lemma merge_step_ok nn k : forall (d md : dict string edict),
  NoDup (dkeys md) -> good nn md -> good nn d ->
  exists md', merge_step md (k, EC 0 d) = Ok md' /\ NoDup (dkeys md') /\ good nn md' /\
    (forall t, sel md' t = sel md t ++ shift_pairs k (sel d t)) /\
    Permutation (dpairs md') (dpairs md ++ shift_pairs k (dpairs d)) /\
    (forall t, In t (dkeys md') <-> In t (dkeys md) \/ In t (dkeys d)).
Proof.
  unfold merge_step. simpl ec_dict.
  induction d as [|[key ed] d IH]; intros md N G H.
  - exists md. simpl. split; [auto|]. split; [auto|]. split; [auto|]. split; [|split].
    + intros; now rewrite app_nil_r.
    + now rewrite app_nil_r.
    + tauto.
  - assert (Hed : ed_wf ed) by (eapply g_wf; eauto; simpl; auto).
    assert (Bed : il_boxed (ed_index ed) = false) by (eapply g_plain; eauto; simpl; auto).
    assert (Ced : m_cols (ed_e2n ed) = Some (nn key)) by (eapply g_cols; eauto; simpl; auto).
    assert (Hd : good nn d).
    { destruct H as [h1 h2 h3]. split; intros; [eapply h1|eapply h2|eapply h3]; simpl; eauto. }
    destruct (shift_ok ed k Hed Bed) as (il & Es & Nil & Bil & Eil).
    assert (Wn : ed_wf (ED il (ed_e2n ed))).
    { split; simpl; auto; [|apply Hed]. rewrite Eil, map_length. apply Hed. }
    assert (Pn : ed_pairs (ED il (ed_e2n ed)) = shift_pairs k (ed_pairs ed)).
    { unfold ed_pairs; simpl. rewrite Eil. apply combine_map_l. }
    (* the dictionary after this key *)
    assert (Step : exists ed1, 
       (match sget key md with
        | Some ed0 =>
          sh <- il_shift (ed_index ed) k ;;
          sh <- match sh with Some i => Ok i | None => Err AttributeError end ;;
          ind <- il_add (ed_index ed0) sh ;;
          m <- np_vcat (ed_e2n ed0) (ed_e2n ed) ;;
          Ok (dset String.eqb key (ED ind m) md)
        | None =>
          sh <- il_shift (ed_index ed) k ;;
          sh <- match sh with Some i => Ok i | None => Err AttributeError end ;;
          Ok (dset String.eqb key (ED sh (ed_e2n ed)) md)
        end) = Ok (sset key ed1 md) /\ ed_wf ed1 /\ il_boxed (ed_index ed1) = false /\
       m_cols (ed_e2n ed1) = Some (nn key) /\
       ed_pairs ed1 = match sget key md with Some ed0 => ed_pairs ed0 | None => [] end ++ shift_pairs k (ed_pairs ed)).
    { rewrite Es. cbn [bind]. destruct (sget key md) as [ed0|] eqn:Eg.
      - apply (dget_in _ seqb_eq) in Eg.
        assert (W0 : ed_wf ed0) by (exact (g_wf _ _ G _ _ Eg)).
        assert (B0 : il_boxed (ed_index ed0) = false) by (exact (g_plain _ _ G _ _ Eg)).
        assert (C0 : m_cols (ed_e2n ed0) = Some (nn key)) by (exact (g_cols _ _ G _ _ Eg)).
        unfold il_add. rewrite (il_list_entries (ed_index ed0) (edwf_typed _ W0) B0).
        rewrite (il_list_entries il Nil Bil). cbn [bind].
        destruct (np_vcat_same _ _ _ C0 Ced) as [m Em]. rewrite Em. cbn [bind].
        exists (ED (ILlist (entries (ed_index ed0) ++ entries il)) m). split; [reflexivity|].
        destruct (np_vcat_rows _ _ _ Em) as (R & R1 & R2). split; [|split; [|split]]; simpl; auto.
        + split; simpl; try discriminate.
          * rewrite R, !app_length. rewrite (edwf_len _ W0). f_equal. apply (edwf_len _ Wn).
          * eapply np_vcat_wf; [| |eauto]; [apply W0|apply Hed].
        + congruence.
        + rewrite <- Pn. unfold ed_pairs at 1. simpl. rewrite R. apply combine_app. apply W0.
      - exists (ED il (ed_e2n ed)). split; [reflexivity|]. repeat split; auto; apply Wn. }
    destruct Step as (ed1 & E1 & W1 & B1 & C1 & P1).
    destruct (IH (sset key ed1 md)) as (md' & Em & Nm & Gm & Sm & Pm & Km).
    + now apply (dset_NoDup _ seqb_eq).
    + split; intros t ed' Hin; apply in_dset in Hin; destruct Hin as [[-> ->]|Hin]; auto;
        [eapply (g_wf _ _ G)|eapply (g_plain _ _ G)|eapply (g_cols _ _ G)]; eauto.
    + auto.
    + exists md'. cbn [foldM]. rewrite E1. cbn [bind]. split; [exact Em|]. split; [auto|]. split; [auto|].
      assert (Kmd : forall t, In t (dkeys (sset key ed1 md)) <-> In t (dkeys md) \/ t = key).
      { intros t. destruct (dmem String.eqb key md) eqn:E.
        - apply (dmem_in _ seqb_eq) in E. rewrite (dset_keys_in _ seqb_eq) by auto. intuition congruence.
        - assert (Hn : ~ In key (dkeys md)) by (rewrite <- (dmem_in _ seqb_eq); congruence).
          rewrite (dset_notin _ seqb_eq) by auto. unfold dkeys. rewrite map_app, in_app_iff. simpl. intuition congruence. }
      split; [|split].
      * intros t. rewrite Sm. unfold sel at 1. rewrite flat_map_sel_dset by auto.
        simpl sel. unfold sel at 3. simpl. fold (sel d t).
        destruct (String.eqb t key) eqn:Et.
        -- apply seqb_eq in Et. subst t. rewrite P1. unfold sel at 2. rewrite flat_map_sel_get by auto.
           unfold shift_pairs. rewrite map_app, app_assoc. reflexivity.
        -- reflexivity.
      * rewrite Pm. simpl dpairs. unfold shift_pairs at 2. rewrite map_app. fold (shift_pairs k (ed_pairs ed)).
        fold (shift_pairs k (dpairs d)). rewrite app_assoc. apply Permutation_app_tail.
        unfold dpairs. destruct (sget key md) as [ed0|] eqn:Eg.
        -- eapply flat_map_dset_perm; eauto. simpl. now rewrite P1.
        -- rewrite flat_map_dset_new by auto. simpl. now rewrite P1.
      * intros t. rewrite Km, Kmd. simpl. intuition.
Qed.

Lemma good_of nn c : ec_wf c -> ec_plain c -> ec_cols nn c -> good nn (ec_dict c).
Proof. intros W P C. split; eauto using ecwf_eds. Qed.

(** The merge of a list with given shifts. *)
Lemma merge_fold_ok nn : forall (cons : list econn) (shifts : list Z) (md : dict string edict),
  NoDup (dkeys md) -> good nn md -> List.length shifts = List.length cons ->
  (forall c, In c cons -> good nn (ec_dict c)) ->
  exists md', foldM merge_step md (combine shifts cons) = Ok md' /\ NoDup (dkeys md') /\ good nn md' /\
    (forall t, sel md' t = sel md t ++ flat_map (fun '(k, c) => shift_pairs k (sel (ec_dict c) t)) (combine shifts cons)) /\
    Permutation (dpairs md') (dpairs md ++ flat_map (fun '(k, c) => shift_pairs k (dpairs (ec_dict c))) (combine shifts cons)).
Proof.
  induction cons as [|c cons IH]; intros shifts md N G L H; destruct shifts as [|k shifts]; simpl in L; try lia.
  - exists md. simpl. split; [auto|]. split; [auto|]. split; [auto|].
    split; intros; now rewrite app_nil_r.
  - destruct (merge_step_ok nn k (ec_dict c) md) as (md1 & E1 & N1 & G1 & S1 & P1 & _); auto.
    { apply H; simpl; auto. }
    destruct (IH shifts md1) as (md' & E & N' & G' & S' & P'); auto.
    { intros; apply H; simpl; auto. }
    exists md'. cbn [combine foldM]. 
    assert (E1' : merge_step md (k, c) = Ok md1) by exact E1. rewrite E1'. cbn [bind].
    split; [exact E|]. split; [auto|]. split; [auto|]. split.
    + intros t. rewrite S', S1. simpl. now rewrite app_assoc.
    + rewrite P', P1. simpl. now rewrite app_assoc.
Qed.

Lemma add_dict_ok nn : forall (d : dict string edict) (c : econn),
  NoDup (dkeys d) -> good nn d -> ec_wf c -> ec_plain c -> ec_cols nn c ->
  (forall t, In t (dkeys d) -> ~ In t (ec_types c)) ->
  exists c', foldM (fun self '(etype, ed) => ec_add self etype (ed_e2n ed) (Some (ed_index ed))) c d = Ok c' /\
    ec_wf c' /\ ec_plain c' /\ ec_cols nn c' /\ ec_dict c' = ec_dict c ++ d.
Proof.
  induction d as [|[t ed] d IH]; intros c N G W P C D.
  - exists c. simpl. rewrite app_nil_r. auto.
  - inv N. cbn [foldM].
    assert (Wed : ed_wf ed) by (eapply g_wf; eauto; simpl; auto).
    assert (Nt : sget t (ec_dict c) = None) by (apply (dget_None _ seqb_eq); apply D; simpl; auto).
    assert (A : ec_add c t (ed_e2n ed) (Some (ed_index ed)) =
                Ok (EC (ec_nelem c + m_nrow (ed_e2n ed)) (ec_dict c ++ [(t, ed)]))).
    { unfold ec_add. rewrite Nt. rewrite (dset_notin _ seqb_eq).
      - destruct ed; reflexivity.
      - apply (dget_None _ seqb_eq); auto. }
    rewrite A. cbn [bind].
    assert (Wc : ec_wf (EC (ec_nelem c + m_nrow (ed_e2n ed)) (ec_dict c ++ [(t, ed)]))).
    { eapply ec_add_wf; eauto. unfold new_ed. now destruct ed. }
    destruct (IH (EC (ec_nelem c + m_nrow (ed_e2n ed)) (ec_dict c ++ [(t, ed)]))) as (c' & E & W' & P' & C' & D'); auto.
    + destruct G as [h1 h2 h3]. split; intros; [eapply h1|eapply h2|eapply h3]; simpl; eauto.
    + eapply ec_add_plain; [exact P| |exact A]. eapply g_plain; eauto; simpl; auto.
    + eapply ec_add_cols; [exact C| |exact A]. eapply g_cols; eauto; simpl; auto.
    + unfold ec_types. simpl. intros t' Ht' Hin. rewrite map_app, in_app_iff in Hin. simpl in Hin.
      destruct Hin as [Hin|[Hin|[]]]; [apply (D t'); simpl; auto|]. subst. auto.
    + exists c'. split; [auto|]. split; [auto|]. split; [auto|]. split; [auto|]. rewrite D'. simpl. now rewrite <- app_assoc.
Qed.

Lemma sizes_ok cons :
  (forall c, In c cons -> ec_wf c) ->
  mapM (fun c => ls <- mapM (fun '(_, ed) => il_entries (ed_index ed)) (ec_dict c) ;;
                 Ok (zsum (List.map zlen ls))) cons = Ok (List.map ec_nelem cons).
Proof.
  intros H. apply mapM_map. intros c Hin. specialize (H _ Hin).
  rewrite mapM_entries_total by (intros; eapply edwf_typed, ecwf_eds; eauto). cbn [bind]. f_equal.
  rewrite (ecwf_nelem _ H). rewrite <- (zlen_map fst), (ec_numbers_pairs _ H).
  unfold ec_numbers. clear. induction (ec_dict c) as [|kv d IH]; simpl; auto.
  rewrite zlen_app. unfold zsum in *. simpl. lia.
Qed.

Definition shifts_of (cons : list econn) : list Z := 0 :: removelast (List.map ec_nelem cons).

(** General result: each operand is shifted by the size of its predecessor only. *)
Lemma merge_general nn cons :
  cons <> [] -> (forall c, In c cons -> ec_wf c /\ ec_plain c /\ ec_cols nn c) ->
  exists c, ec_merge ec_empty cons = Ok c /\ ec_wf c /\ ec_plain c /\ ec_cols nn c /\
    (forall t, pairs_of_type c t = flat_map (fun '(k, x) => shift_pairs k (pairs_of_type x t)) (combine (shifts_of cons) cons)) /\
    Permutation (ec_pairs c) (flat_map (fun '(k, x) => shift_pairs k (ec_pairs x)) (combine (shifts_of cons) cons)).
Proof.
  intros Hne H. unfold ec_merge. rewrite sizes_ok by (intros; now apply H). cbn [bind]. fold (shifts_of cons).
  assert (L : List.length (shifts_of cons) = List.length cons).
  { unfold shifts_of. destruct (exists_last Hne) as (l & x & ->). rewrite map_app. simpl.
    rewrite removelast_last, map_length, app_length. simpl. lia. }
  destruct (merge_fold_ok nn cons (shifts_of cons) []) as (md & E & N & G & S & P); auto.
  { constructor. } { split; intros t ed []. } { intros c Hc. apply H in Hc. apply good_of; tauto. }
  rewrite E. cbn [bind].
  destruct (add_dict_ok nn md ec_empty) as (c & Ec & W & Pl & C & D); auto using ec_empty_wf, ec_empty_plain, ec_empty_cols.
  simpl in D. exists c. split; [exact Ec|]. split; [auto|]. split; [auto|]. split; [auto|]. split.
  - intros t. unfold pairs_of_type at 1. rewrite D. exact (S t).
  - unfold ec_pairs at 1. rewrite D. exact P.
Qed.

Lemma merge_two nn a b :
  ec_wf a -> ec_plain a -> ec_cols nn a -> ec_wf b -> ec_plain b -> ec_cols nn b ->
  exists c, ec_merge ec_empty [a; b] = Ok c /\ ec_wf c /\ ec_plain c /\
    ec_nelem c = ec_nelem a + ec_nelem b /\
    (forall t, pairs_of_type c t = pairs_of_type a t ++ shift_pairs (ec_nelem a) (pairs_of_type b t)) /\
    Permutation (ec_pairs c) (ec_pairs a ++ shift_pairs (ec_nelem a) (ec_pairs b)).
Proof.
  intros Wa Pa Ca Wb Pb Cb.
  destruct (merge_general nn [a; b]) as (c & E & W & P & C & S & PP).
  { discriminate. } { intros c [->|[->|[]]]; auto. }
  assert (S0 : forall l, shift_pairs 0 l = l).
  { intros l. unfold shift_pairs. rewrite <- (map_id l) at 2. apply map_ext. intros [i n]. f_equal; lia. }
  simpl in S, PP. rewrite app_nil_r, S0 in PP.
  exists c. split; [auto|]. split; [auto|]. split; [auto|]. split; [|split; [|auto]].
  - rewrite (ecwf_nelem _ W), (zlen_perm _ _ PP), zlen_app. unfold shift_pairs. rewrite zlen_map.
    now rewrite (ecwf_nelem _ Wa), (ecwf_nelem _ Wb).
  - intros t. rewrite S, S0, app_nil_r. reflexivity.
Qed.

Lemma map_fst_shift k l : List.map fst (shift_pairs k l) = List.map (fun i => i + k) (List.map fst l).
Proof. unfold shift_pairs. rewrite !map_map. apply map_ext. now intros [i n]. Qed.

Lemma merge_two_numbers a b c :
  ec_wf a -> ec_wf b -> ec_wf c ->
  Permutation (ec_numbers a) (zrange 0 (ec_nelem a)) ->
  Permutation (ec_numbers b) (zrange 0 (ec_nelem b)) ->
  Permutation (ec_pairs c) (ec_pairs a ++ shift_pairs (ec_nelem a) (ec_pairs b)) ->
  Permutation (ec_numbers c) (zrange 0 (ec_nelem a + ec_nelem b)).
Proof.
  intros Wa Wb Wc Na Nb P. rewrite <- ec_numbers_pairs by auto.
  apply (Permutation_map fst) in P. rewrite P, map_app, map_fst_shift, !ec_numbers_pairs by auto.
  assert (0 <= ec_nelem a) by (rewrite (ecwf_nelem _ Wa); apply zlen_nonneg).
  assert (0 <= ec_nelem b) by (rewrite (ecwf_nelem _ Wb); apply zlen_nonneg).
  rewrite (zrange_app 0 (ec_nelem a)) by lia. apply Permutation_app; auto.
  replace (zrange (ec_nelem a) (ec_nelem a + ec_nelem b)) with (List.map (fun i => i + ec_nelem a) (zrange 0 (ec_nelem b))).
  - now apply Permutation_map.
  - rewrite map_add_zrange. f_equal. lia.
Qed.

(** Three operands always collide. *)
Lemma merge_three_collide nn a b d c :
  (forall x, In x [a; b; d] -> ec_wf x /\ ec_plain x /\ ec_cols nn x /\
                               Permutation (ec_numbers x) (zrange 0 (ec_nelem x))) ->
  0 < ec_nelem a -> 0 < ec_nelem d ->
  ec_merge ec_empty [a; b; d] = Ok c -> ~ NoDup (ec_numbers c).
Proof.
  intros H Ha Hd E. destruct (merge_general nn [a; b; d]) as (c' & E' & W & P & C & S & PP).
  { discriminate. } { intros x Hx. apply H in Hx. tauto. }
  assert (c' = c) by congruence. subst c'. simpl in PP. rewrite app_nil_r in PP.
  destruct (H a) as (Wa & _ & _ & Na); [simpl; auto|].
  destruct (H b) as (Wb & _ & _ & Nb); [simpl; auto|].
  destruct (H d) as (Wd & _ & _ & Nd); [simpl; auto|].
  rewrite <- ec_numbers_pairs by auto. apply (Permutation_map fst) in PP.
  intros ND. eapply Permutation_NoDup in ND; [|exact PP].
  rewrite !map_app, !map_fst_shift, !ec_numbers_pairs in ND by auto.
  rewrite app_assoc in ND. apply NoDup_app in ND. destruct ND as (_ & _ & D).
  apply (D (ec_nelem b)).
  - assert (0 <= ec_nelem b) by (rewrite (ecwf_nelem _ Wb); apply zlen_nonneg).
    apply in_app_iff. destruct (Z_lt_le_dec (ec_nelem b) (ec_nelem a)).
    + left. apply in_map_iff. exists (ec_nelem b). split; [lia|]. eapply Permutation_in; [symmetry; exact Na|]. apply in_zrange; lia.
    + right. apply in_map_iff. exists (ec_nelem b - ec_nelem a). split; [lia|]. eapply Permutation_in; [symmetry; exact Nb|]. apply in_zrange; lia.
  - apply in_map_iff. exists 0. split; [lia|]. eapply Permutation_in; [symmetry; exact Nd|]. apply in_zrange; lia.
Qed.
