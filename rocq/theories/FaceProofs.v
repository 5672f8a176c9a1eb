(** * Proofs about face extraction ([create_faces_from_elems]). *)
From Coq Require Import Lia Sorted Permutation ZifyBool ZifyNat Arith.
From Verif Require Import PyFacts IndexListSpec IndexListProofs Conn ConnSpec FaceSpec ConnProofs.

(** ** Same nodes *)

Lemma same_nodes_perm a b : same_nodes a b = true <-> Permutation a b.
Proof.
  unfold same_nodes. rewrite (Permutation_count_occ Z.eq_dec). rewrite forallb_forall. split.
  - intros H x. destruct (in_dec Z.eq_dec x (a ++ b)) as [Hin|Hout].
    + apply Nat.eqb_eq. auto.
    + assert (~ In x a /\ ~ In x b) as [Ha Hb] by (rewrite in_app_iff in Hout; tauto).
      apply (count_occ_not_In Z.eq_dec) in Ha, Hb. congruence.
  - intros H x _. apply Nat.eqb_eq. auto.
Qed.

Lemma same_nodes_key a b : same_nodes a b = zlist_eqb (zsort a) (zsort b).
Proof.
  apply eq_true_iff_eq. rewrite same_nodes_perm, zlist_eqb_eq, zsort_perm_iff. reflexivity.
Qed.

Lemma same_nodes_refl a : same_nodes a a = true.
Proof. apply same_nodes_perm; reflexivity. Qed.

Lemma same_nodes_sym a b : same_nodes a b = same_nodes b a.
Proof. apply eq_true_iff_eq. rewrite !same_nodes_perm. split; apply Permutation_sym. Qed.

Lemma sharing_perm_arg a b l : same_nodes a b = true -> sharing a l = sharing b l.
Proof.
  intros H. unfold sharing. apply filter_ext. intros s. rewrite !same_nodes_key.
  rewrite same_nodes_key in H. apply zlist_eqb_eq in H. now rewrite H.
Qed.

Lemma filter_perm {A} (f : A -> bool) l l' : Permutation l l' -> Permutation (filter f l) (filter f l').
Proof.
  induction 1; simpl; auto.
  - destruct (f x); auto.
  - destruct (f y), (f x); auto. constructor.
  - etransitivity; eauto.
Qed.

Lemma sharing_perm nodes l l' : Permutation l l' -> Permutation (sharing nodes l) (sharing nodes l').
Proof. apply filter_perm. Qed.

(** ** Grouping *)

Notation kget := (dget zlist_eqb).

Definition add_new (ks : list (list Z)) (k : list Z) : list (list Z) :=
  if existsb (zlist_eqb k) ks then ks else ks ++ [k].
Definition keys_of (l : list side) : list (list Z) :=
  fold_left (fun ks s => add_new ks (zsort (fst s))) l [].

Lemma keys_of_snoc l s : keys_of (l ++ [s]) = add_new (keys_of l) (zsort (fst s)).
Proof. unfold keys_of. now rewrite fold_left_app. Qed.

Lemma existsb_key k ks : existsb (zlist_eqb k) ks = true <-> In k ks.
Proof.
  rewrite existsb_exists. split.
  - intros (x & H & E). apply zlist_eqb_eq in E. now subst.
  - intros H. exists k. split; auto. apply zlist_eqb_refl.
Qed.

Lemma keys_of_in k l : In k (keys_of l) <-> exists s, In s l /\ zsort (fst s) = k.
Proof.
  revert k. induction l as [|s l IH] using rev_ind; intros k.
  - simpl. split; [tauto|intros (s & [] & _)].
  - rewrite keys_of_snoc. unfold add_new. destruct (existsb _ _) eqn:E.
    + apply existsb_key in E. rewrite IH. split.
      * intros (x & H & K). exists x. rewrite in_app_iff. tauto.
      * intros (x & H & K). apply in_app_iff in H. destruct H as [H|[<-|[]]]; eauto.
        rewrite K in E. now apply IH.
    + rewrite in_app_iff, IH. split.
      * intros [(x & H & K)|[<-|[]]]; [exists x|exists s]; rewrite in_app_iff; simpl; auto.
      * intros (x & H & K). apply in_app_iff in H. destruct H as [H|[<-|[]]]; simpl; eauto.
Qed.

Lemma keys_of_NoDup l : NoDup (keys_of l).
Proof.
  induction l as [|s l IH] using rev_ind; [constructor|]. rewrite keys_of_snoc. unfold add_new.
  destruct (existsb _ _) eqn:E; auto. apply NoDup_app. split; [auto|split].
  - constructor; [intros []|constructor].
  - intros x H [<-|[]]. apply existsb_key in H. congruence.
Qed.

Definition class (k : list Z) (l : list side) : list side := filter (fun s => zlist_eqb k (zsort (fst s))) l.

Lemma class_snoc k l s : class k (l ++ [s]) = class k l ++ (if zlist_eqb k (zsort (fst s)) then [s] else []).
Proof. unfold class. rewrite filter_app. simpl. now destruct (zlist_eqb k (zsort (fst s))). Qed.

Lemma class_sharing nodes l : sharing nodes l = class (zsort nodes) l.
Proof. apply filter_ext. intros s. apply same_nodes_key. Qed.

Lemma class_nil k l : class k l = [] <-> ~ In k (keys_of l).
Proof.
  rewrite keys_of_in. split.
  - intros H (s & Hs & K). assert (In s (class k l)) as X.
    { apply filter_In. split; auto. apply zlist_eqb_eq. auto. }
    rewrite H in X. destruct X.
  - intros H. destruct (class k l) as [|s c] eqn:E; auto. exfalso. apply H.
    assert (In s (class k l)) as X by (rewrite E; simpl; auto).
    apply filter_In in X. destruct X as [X1 X2]. apply zlist_eqb_eq in X2. eauto.
Qed.

Lemma dset_map_update {V} (g : list Z -> V) ks k v :
  NoDup ks -> In k ks ->
  dset zlist_eqb k v (List.map (fun k' => (k', g k')) ks) =
  List.map (fun k' => (k', if zlist_eqb k' k then v else g k')) ks.
Proof.
  induction ks as [|a ks IH]; simpl; [tauto|]. intros N H. inv N.
  destruct (zlist_eqb k a) eqn:E.
  - apply zlist_eqb_eq in E. subst a. rewrite zlist_eqb_refl. f_equal. apply map_ext_in.
    intros b Hb. destruct (zlist_eqb b k) eqn:E2; auto. apply zlist_eqb_eq in E2. subst. tauto.
  - destruct (zlist_eqb a k) eqn:E2.
    + apply zlist_eqb_eq in E2. subst. rewrite zlist_eqb_refl in E. discriminate.
    + f_equal. apply IH; auto. destruct H; auto. subst. rewrite zlist_eqb_refl in E. discriminate.
Qed.

Lemma kget_map {V} (g : list Z -> V) ks k :
  kget k (List.map (fun k' => (k', g k')) ks) = if existsb (zlist_eqb k) ks then Some (g k) else None.
Proof.
  induction ks as [|a ks IH]; simpl; auto. destruct (zlist_eqb k a) eqn:E; simpl; auto.
  apply zlist_eqb_eq in E. now subst.
Qed.

Lemma group_sides_snoc l s :
  group_sides (l ++ [s]) = dextend zlist_eqb (zsort (fst s)) [s] (group_sides l).
Proof. unfold group_sides. now rewrite fold_left_app. Qed.

Lemma group_sides_eq l : group_sides l = List.map (fun k => (k, class k l)) (keys_of l).
Proof.
  induction l as [|s l IH] using rev_ind; [reflexivity|].
  rewrite group_sides_snoc, IH.
  rewrite keys_of_snoc. unfold dextend, add_new. rewrite kget_map.
  destruct (existsb (zlist_eqb (zsort (fst s))) (keys_of l)) eqn:E.
  - rewrite dset_map_update; [|apply keys_of_NoDup|now apply existsb_key].
    apply map_ext. intros k. rewrite class_snoc. destruct (zlist_eqb k (zsort (fst s))) eqn:E2.
    + apply zlist_eqb_eq in E2. now subst.
    + now rewrite app_nil_r.
  - assert (N : ~ In (zsort (fst s)) (keys_of l)) by (rewrite <- existsb_key; congruence).
    rewrite (dset_notin _ zlist_eqb_eq).
    + rewrite map_app. simpl. f_equal.
      * apply map_ext_in. intros k Hk. rewrite class_snoc.
        destruct (zlist_eqb k (zsort (fst s))) eqn:E2; [|now rewrite app_nil_r].
        apply zlist_eqb_eq in E2. subst. tauto.
      * rewrite class_snoc, zlist_eqb_refl. apply class_nil in N. now rewrite N.
    + unfold dkeys. rewrite map_map. simpl. rewrite map_id. auto.
Qed.

Lemma class_cons k s l : class k (s :: l) = (if zlist_eqb k (zsort (fst s)) then [s] else []) ++ class k l.
Proof. unfold class. simpl. now destruct (zlist_eqb k (zsort (fst s))). Qed.

Lemma class_flat_perm l : forall ks, NoDup ks -> (forall s, In s l -> In (zsort (fst s)) ks) ->
  Permutation (flat_map (fun k => class k l) ks) l.
Proof.
  induction l as [|s l IH]; intros ks N H.
  - clear. induction ks; simpl; auto.
  - assert (Hs : In (zsort (fst s)) ks) by (apply H; simpl; auto).
    assert (P : Permutation (flat_map (fun k => class k (s :: l)) ks) (s :: flat_map (fun k => class k l) ks)).
    { clear IH H. induction ks as [|k ks IH]; [destruct Hs|]. inv N.
      cbn [flat_map]. rewrite class_cons. destruct (zlist_eqb k (zsort (fst s))) eqn:E.
      - apply zlist_eqb_eq in E. subst k. cbn [app]. constructor. apply Permutation_app_head.
        apply Permutation_refl'. clear - H1. induction ks as [|k ks IH]; auto. cbn [flat_map].
        rewrite class_cons. destruct (zlist_eqb k (zsort (fst s))) eqn:E.
        + apply zlist_eqb_eq in E. subst. simpl in H1. tauto.
        + cbn [app]. simpl in H1. now rewrite IH by tauto.
      - cbn [app]. rewrite IH; auto.
        + symmetry. apply Permutation_middle.
        + destruct Hs as [Hs|Hs]; auto. subst. rewrite zlist_eqb_refl in E. discriminate. }
    rewrite P. constructor. apply IH; auto. intros s' Hs'. apply H. simpl; auto.
Qed.

Lemma groups_perm l : Permutation (flat_map (fun k => class k l) (keys_of l)) l.
Proof.
  apply class_flat_perm; [apply keys_of_NoDup|]. intros s Hs. apply keys_of_in. eauto.
Qed.

(** ** Gathering the sides *)

Notation sextend := (dextend String.eqb).
Definition content {A} (ft : string) (d : dict string (list A)) : list A :=
  match sget ft d with Some l => l | None => [] end.

(** [d'] is [d] with [X ft] appended to the entry of each [ft] and the keys [K] added. *)
Record adds {A} (X : string -> list A) (K : string -> Prop) (d d' : dict string (list A)) : Prop := {
  adds_nd : NoDup (dkeys d) -> NoDup (dkeys d');
  adds_content : forall ft, content ft d' = content ft d ++ X ft;
  adds_keys : forall k, In k (dkeys d') <-> In k (dkeys d) \/ K k }.

Lemma sextend_adds {A} ft (l : list A) d :
  adds (fun ft' => if String.eqb ft' ft then l else []) (fun k => k = ft) d (sextend ft l d).
Proof.
  unfold dextend. constructor.
  - intros N. destruct (sget ft d); apply (dset_NoDup _ seqb_eq); auto.
  - intros ft'. unfold content. destruct (String.eqb ft' ft) eqn:E.
    + apply seqb_eq in E. subst. destruct (sget ft d); now rewrite (dget_dset_eq _ seqb_eq).
    + assert (ft' <> ft) by (intros ->; rewrite String.eqb_refl in E; discriminate).
      rewrite app_nil_r. destruct (sget ft d); now rewrite (dget_dset_neq _ seqb_eq).
  - intros k. destruct (sget ft d) eqn:E.
    + assert (Hk : In ft (dkeys d)) by (apply (dget_Some_iff _ seqb_eq); eauto).
      rewrite (dset_keys_in _ seqb_eq) by auto. split; auto. intros [H|H]; auto. now subst.
    + apply (dget_None _ seqb_eq) in E. rewrite (dset_notin _ seqb_eq) by auto.
      unfold dkeys. rewrite map_app, in_app_iff. simpl. intuition.
Qed.

Lemma adds_ext {A} (X X' : string -> list A) (K K' : string -> Prop) d d' :
  (forall ft, X ft = X' ft) -> (forall k, K k <-> K' k) -> adds X K d d' -> adds X' K' d d'.
Proof.
  intros HX HK [A1 A2 A3]. constructor; auto.
  - intros ft. now rewrite A2, HX.
  - intros k. now rewrite A3, HK.
Qed.

Lemma foldM_adds {A B} (f : dict string (list A) -> B -> res (dict string (list A)))
      (X : B -> string -> list A) (K : B -> string -> Prop) (l : list B) :
  (forall d b, In b l -> exists d', f d b = Ok d' /\ adds (X b) (K b) d d') ->
  forall d, exists d', foldM f d l = Ok d' /\
    adds (fun ft => flat_map (fun b => X b ft) l) (fun k => exists b, In b l /\ K b k) d d'.
Proof.
  induction l as [|b l IH]; intros H d.
  - exists d. split; auto. constructor; auto; intros; simpl.
    + now rewrite app_nil_r.
    + split; auto. intros [H0|(b & [] & _)]; auto.
  - destruct (H d b) as (d1 & E1 & A1); [simpl; auto|].
    destruct (IH (fun d b Hb => H d b (or_intror Hb)) d1) as (d2 & E2 & A2).
    exists d2. cbn [foldM]. rewrite E1. cbn [bind]. split; auto.
    destruct A1, A2. constructor; auto.
    + intros ft. simpl. rewrite adds_content1, adds_content0. now rewrite app_assoc.
    + intros k. rewrite adds_keys1, adds_keys0. split.
      * intros [[H1|H1]|(b' & H1 & H2)]; eauto; right; [exists b|exists b']; simpl; auto.
      * intros [H1|(b' & [<-|H1] & H2)]; eauto.
Qed.

(** Sides in the order the loops produce them. *)
Definition src_sides_ef (ed : edict) (ef : list Z) : list side :=
  combine (List.map (fun row => side_nodes row ef) (m_rows (ed_e2n ed))) (entries (ed_index ed)).
Definition src_sides_ed (tbl : sidetable) (ft t : string) (ed : edict) : list side :=
  match sget t tbl with
  | None => []
  | Some faces => flat_map (fun fe => flat_map (fun ef => if String.eqb ft (fst fe) then src_sides_ef ed ef else []) (snd fe)) faces
  end.
Definition src_sides (tbl : sidetable) (ft : string) (c : econn) : list side :=
  flat_map (fun kv => src_sides_ed tbl ft (fst kv) (snd kv)) (ec_dict c).

Lemma np_take_nth row cols n : List.length row = n -> (forall j, In j cols -> 0 <= j < Z.of_nat n) ->
  np_take row cols = Ok (List.map (fun j => nth (Z.to_nat j) row 0) cols).
Proof.
  intros Hl H. unfold np_take. apply mapM_map. intros j Hj. specialize (H j Hj).
  apply py_get_nonneg; [lia|]. apply nth_error_nth'. lia.
Qed.

Lemma np_cols_ok m n cols : m_cols m = Some n -> mat_wf m ->
  (forall j, In j cols -> 0 <= j < Z.of_nat n) ->
  np_cols m cols = Ok (List.map (fun row => List.map (fun j => nth (Z.to_nat j) row 0) cols) (m_rows m)).
Proof.
  intros Hc W H. unfold np_cols. rewrite Hc.
  replace (forallb _ cols) with true.
  - apply mapM_map. intros row Hr. apply np_take_nth with (n := n); auto.
    unfold mat_wf in W. rewrite Hc in W. rewrite Forall_forall in W. auto.
  - symmetry. apply forallb_forall. intros j Hj. specialize (H j Hj). lia.
Qed.

Lemma build_ok tbl c : ec_wf c -> ec_plain c -> cells_ok tbl c ->
  exists fn, build_face_and_neighbour tbl c = Ok fn /\ NoDup (dkeys fn) /\
    (forall ft, content ft fn = src_sides tbl ft c) /\
    (forall ft, In ft (dkeys fn) <-> has_face_type tbl c ft).
Proof.
  intros W P C. unfold build_face_and_neighbour.
  destruct (foldM_adds (A := side)
    (fun fn '(etype, ed) =>
      index <- il_list (ed_index ed) ;;
      faces <- dget_err String.eqb etype tbl ;;
      foldM (fun fn '(ftype, face_of_elem) =>
          foldM (fun fn eface =>
              reindex_f <- np_cols (ed_e2n ed) (rev eface) ;;
              Ok (sextend ftype (combine reindex_f index) fn))
            fn face_of_elem)
        fn faces)
    (fun kv ft => src_sides_ed tbl ft (fst kv) (snd kv))
    (fun kv k => exists faces efs, sget (fst kv) tbl = Some faces /\ In (k, efs) faces /\ efs <> [])
    (ec_dict c)) with (d := @nil (string * list side)) as (fn & E & A).
  - intros d (t, ed) Hin. destruct (C t ed Hin) as (faces & n & Ht & Hn & Hj).
    destruct W as [_ Weds _]. destruct (Weds t ed Hin) as [Wt Wl Wm].
    rewrite il_list_entries by (auto; eapply P; eauto). cbn [bind].
    unfold dget_err. rewrite Ht. cbn [bind fst snd].
    destruct (foldM_adds (A := side)
      (fun fn '(ftype, face_of_elem) =>
          foldM (fun fn eface =>
              reindex_f <- np_cols (ed_e2n ed) (rev eface) ;;
              Ok (sextend ftype (combine reindex_f (entries (ed_index ed))) fn))
            fn face_of_elem)
      (fun (fe : string * list (list Z)) ft => flat_map (fun ef => if String.eqb ft (fst fe) then src_sides_ef ed ef else []) (snd fe))
      (fun fe k => k = fst fe /\ snd fe <> [])
      faces) with (d := d) as (d' & E & A).
    + intros d1 (ft, efs) Hfe. cbn [fst snd].
      destruct (foldM_adds (A := side)
         (fun fn eface =>
              reindex_f <- np_cols (ed_e2n ed) (rev eface) ;;
              Ok (sextend ft (combine reindex_f (entries (ed_index ed))) fn))
         (fun ef ft' => if String.eqb ft' ft then src_sides_ef ed ef else [])
         (fun ef k => k = ft) efs) with (d := d1) as (d2 & E2 & A2).
      * intros d2 ef Hef. rewrite (np_cols_ok _ n) by (auto; intros j Hj'; apply in_rev in Hj'; eapply Hj; eauto).
        cbn [bind]. eexists; split; [reflexivity|].
        apply (sextend_adds ft (src_sides_ef ed ef) d2).
      * exists d2. split; auto. eapply adds_ext; [| |exact A2]; auto.
        intros k. simpl. split.
        -- intros (b & Hb & ->). split; auto. intros ->. destruct Hb.
        -- intros [-> Hne]. destruct efs; [congruence|]. eexists; split; [left; reflexivity|auto].
    + exists d'. split; auto. eapply adds_ext; [| |exact A].
      * intros ft. unfold src_sides_ed. now rewrite Ht.
      * intros k. split.
        -- intros ((ft, efs) & Hb & -> & Hne). eauto.
        -- intros (faces' & efs & Hf & Hin' & Hne). assert (faces' = faces) as -> by congruence.
           exists (k, efs). auto.
  - exists fn. destruct A as [A1 A2 A3]. split; [exact E|]. split; [apply A1; constructor|].
    split.
    + intros ft. rewrite A2. reflexivity.
    + intros ft. rewrite A3. simpl. unfold has_face_type. split.
      * intros [[]|((t, ed) & Hin & faces & efs & H)]. exists t, ed, faces, efs. tauto.
      * intros (t & ed & faces & efs & Hin & H). right. exists (t, ed). split; auto. exists faces, efs. auto.
Qed.

Lemma Permutation_flat_map_ext {A B} (f g : A -> list B) l :
  (forall a, In a l -> Permutation (f a) (g a)) -> Permutation (flat_map f l) (flat_map g l).
Proof.
  induction l as [|a l IH]; simpl; auto. intros H. apply Permutation_app; auto.
Qed.

(** Swapping two nested loops. *)
Lemma Permutation_flat_map_app {A B} (f g : A -> list B) l :
  Permutation (flat_map (fun a => f a ++ g a) l) (flat_map f l ++ flat_map g l).
Proof.
  induction l as [|a l IH]; simpl; auto. rewrite IH.
  rewrite <- !app_assoc. apply Permutation_app_head.
  rewrite !app_assoc. apply Permutation_app_tail. apply Permutation_app_comm.
Qed.

Lemma Permutation_flat_map_swap {A B C} (f : A -> B -> list C) la lb :
  Permutation (flat_map (fun a => flat_map (fun b => f a b) lb) la)
              (flat_map (fun b => flat_map (fun a => f a b) la) lb).
Proof.
  induction la as [|a la IH]; simpl.
  - induction lb; simpl; auto.
  - rewrite IH. symmetry. apply (Permutation_flat_map_app (fun b => f a b) (fun b => flat_map (fun a => f a b) la)).
Qed.

Lemma src_sides_ef_pairs ed ef :
  src_sides_ef ed ef = List.map (fun p => (side_nodes (snd p) ef, fst p)) (ed_pairs ed).
Proof.
  unfold src_sides_ef, ed_pairs. generalize (m_rows (ed_e2n ed)). generalize (entries (ed_index ed)).
  induction l as [|i l IH]; intros [|r rs]; simpl; auto. now rewrite IH.
Qed.

Lemma map_as_flat_map {A B} (f : A -> B) l : List.map f l = flat_map (fun a => [f a]) l.
Proof. induction l; simpl; congruence. Qed.

Lemma src_sides_perm tbl ft c : Permutation (src_sides tbl ft c) (ec_sides tbl ft c).
Proof.
  apply Permutation_flat_map_ext. intros (t, ed) _. unfold src_sides_ed, ed_sides. simpl.
  destruct (sget t tbl) as [faces|]; auto.
  symmetry.
  transitivity (flat_map (fun fe => flat_map (fun p : Z * list Z => 
      flat_map (fun ef => if String.eqb ft (fst fe) then [(side_nodes (snd p) ef, fst p)] else []) (snd fe)) (ed_pairs ed)) faces).
  - rewrite <- Permutation_flat_map_swap. apply Permutation_flat_map_ext. intros (ci, row) _.
    apply Permutation_flat_map_ext. intros (ft', efs) _. simpl. destruct (String.eqb ft ft').
    + now rewrite map_as_flat_map.
    + clear; induction efs; simpl; auto.
  - apply Permutation_flat_map_ext. intros (ft', efs) _. simpl.
    rewrite Permutation_flat_map_swap. apply Permutation_flat_map_ext. intros ef _.
    destruct (String.eqb ft ft').
    + rewrite src_sides_ef_pairs, map_as_flat_map. reflexivity.
    + clear; induction (ed_pairs ed); simpl; auto.
Qed.
