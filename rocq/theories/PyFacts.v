(** * Facts about the Python/numpy primitives of [Py]. *)
From Coq Require Import Lia Permutation Sorted ZifyBool ZifyNat Arith.
From Verif Require Export Py.

Ltac inv H := inversion H; subst; clear H.

Lemma bind_ok {A B} (x : res A) (k : A -> res B) b :
  bind x k = Ok b <-> exists a, x = Ok a /\ k a = Ok b.
Proof.
  destruct x; simpl; split.
  - intros H; eauto.
  - intros (a0 & H & H'); inv H; auto.
  - discriminate.
  - intros (a0 & H & H'); discriminate.
Qed.

Lemma assertb_ok b u : assertb b = Ok u <-> b = true.
Proof. destruct b, u; simpl; split; congruence. Qed.

Ltac binv :=
  repeat match goal with
  | H : bind _ _ = Ok _ |- _ => apply bind_ok in H; destruct H as (? & ? & H)
  | H : assertb _ = Ok _ |- _ => apply assertb_ok in H
  | H : Ok _ = Ok _ |- _ => inv H
  | H : Err _ = Ok _ |- _ => discriminate H
  end.

(** ** mapM, foldM *)

Lemma Forall2_length' {A B} (R : A -> B -> Prop) l1 l2 :
  Forall2 R l1 l2 -> List.length l1 = List.length l2.
Proof. induction 1; simpl; auto. Qed.

Lemma mapM_ok_Forall2 {A B} (f : A -> res B) l bs :
  mapM f l = Ok bs <-> Forall2 (fun a b => f a = Ok b) l bs.
Proof.
  revert bs; induction l as [|a l IH]; simpl; intros bs; split; intros H.
  - inv H; constructor.
  - inv H; reflexivity.
  - binv. constructor; auto. now apply IH.
  - inv H. rewrite H2; simpl. apply IH in H4. now rewrite H4.
Qed.

Lemma mapM_ok_len {A B} (f : A -> res B) l bs : mapM f l = Ok bs -> List.length bs = List.length l.
Proof. intros H; apply mapM_ok_Forall2 in H. symmetry; eapply Forall2_length'; eauto. Qed.

Lemma mapM_map {A B} (f : A -> res B) (g : A -> B) l :
  (forall a, In a l -> f a = Ok (g a)) -> mapM f l = Ok (List.map g l).
Proof.
  induction l; simpl; intros H; auto.
  rewrite H by auto; simpl. rewrite IHl; auto.
Qed.

Lemma mapM_app {A B} (f : A -> res B) l1 l2 :
  mapM f (l1 ++ l2) = (a <- mapM f l1 ;; b <- mapM f l2 ;; Ok (a ++ b)).
Proof.
  induction l1; simpl.
  - destruct (mapM f l2); reflexivity.
  - destruct (f a); simpl; auto. rewrite IHl1.
    destruct (mapM f l1); simpl; auto. destruct (mapM f l2); simpl; auto.
Qed.

Lemma foldM_app {A S} (f : S -> A -> res S) s l1 l2 :
  foldM f s (l1 ++ l2) = (s' <- foldM f s l1 ;; foldM f s' l2).
Proof.
  revert s; induction l1; simpl; intros; auto.
  destruct (f s a); simpl; auto.
Qed.

(** Invariant rule for [foldM]. *)
Lemma foldM_inv {A S} (P : S -> Prop) (f : S -> A -> res S) l :
  (forall s a s', In a l -> P s -> f s a = Ok s' -> P s') ->
  forall s s', P s -> foldM f s l = Ok s' -> P s'.
Proof.
  induction l; simpl; intros Hf s s' Ps H; binv; auto.
  eapply IHl; [intros; eapply Hf; eauto | eapply Hf; eauto | eauto].
Qed.

(** ** zlen and zrange *)

Lemma zlen_nil {A} : @zlen A [] = 0. Proof. reflexivity. Qed.
Lemma zlen_cons {A} (a : A) l : zlen (a :: l) = zlen l + 1.
Proof. unfold zlen; simpl List.length; lia. Qed.
Lemma zlen_app {A} (l1 l2 : list A) : zlen (l1 ++ l2) = zlen l1 + zlen l2.
Proof. unfold zlen; rewrite app_length; lia. Qed.
Lemma zlen_nonneg {A} (l : list A) : 0 <= zlen l.
Proof. unfold zlen; lia. Qed.
Lemma zlen_map {A B} (f : A -> B) l : zlen (List.map f l) = zlen l.
Proof. unfold zlen; now rewrite map_length. Qed.
Lemma zlen_perm {A} (l1 l2 : list A) : Permutation l1 l2 -> zlen l1 = zlen l2.
Proof. intros H; unfold zlen; now rewrite (Permutation_length H). Qed.
#[export] Hint Rewrite @zlen_nil @zlen_cons @zlen_app @zlen_map : zlen.

Lemma zrange_length lo hi : List.length (zrange lo hi) = Z.to_nat (hi - lo).
Proof. unfold zrange; now rewrite map_length, seq_length. Qed.

Lemma zlen_zrange lo hi : lo <= hi -> zlen (zrange lo hi) = hi - lo.
Proof. intros; unfold zlen; rewrite zrange_length; lia. Qed.

Lemma in_zrange x lo hi : In x (zrange lo hi) <-> lo <= x < hi.
Proof.
  unfold zrange; rewrite in_map_iff; split.
  - intros (k & <- & Hk); apply in_seq in Hk; lia.
  - intros H; exists (Z.to_nat (x - lo)); split; [lia|]. apply in_seq; lia.
Qed.

Lemma nth_error_zrange lo hi n :
  (n < Z.to_nat (hi - lo))%nat -> nth_error (zrange lo hi) n = Some (lo + Z.of_nat n).
Proof.
  intros H; unfold zrange. erewrite map_nth_error; eauto.
  rewrite nth_error_nth' with (d := O) by (rewrite seq_length; auto).
  now rewrite seq_nth.
Qed.

Lemma zrange_empty lo hi : hi <= lo -> zrange lo hi = [].
Proof. intros; unfold zrange; replace (Z.to_nat (hi - lo)) with O by lia; reflexivity. Qed.

Lemma zrange_cons lo hi : lo < hi -> zrange lo hi = lo :: zrange (lo + 1) hi.
Proof.
  intros H; unfold zrange.
  replace (Z.to_nat (hi - lo)) with (S (Z.to_nat (hi - (lo + 1)))) by lia.
  simpl seq; simpl List.map. f_equal; [lia|].
  rewrite <- seq_shift, map_map. apply map_ext; intros; lia.
Qed.

Lemma zrange_app a b c : a <= b -> b <= c -> zrange a c = zrange a b ++ zrange b c.
Proof.
  intros Hab Hbc. remember (Z.to_nat (b - a)) as n eqn:En. revert a Hab En.
  induction n as [|n IH]; intros a Hab En.
  - assert (a = b) by lia. subst a. now rewrite (zrange_empty b b) by lia.
  - rewrite (zrange_cons a c), (zrange_cons a b) by lia. simpl. f_equal. apply IH; lia.
Qed.

Lemma zrange_snoc lo hi : lo <= hi -> zrange lo (hi + 1) = zrange lo hi ++ [hi].
Proof.
  intros; rewrite (zrange_app lo hi (hi + 1)) by lia. f_equal.
  rewrite zrange_cons by lia. now rewrite zrange_empty by lia.
Qed.

Lemma map_add_zrange lo hi i : List.map (fun j => j + i) (zrange lo hi) = zrange (lo + i) (hi + i).
Proof.
  unfold zrange. replace (hi + i - (lo + i)) with (hi - lo) by lia.
  rewrite map_map; apply map_ext; intros; lia.
Qed.

Lemma NoDup_zrange lo hi : NoDup (zrange lo hi).
Proof.
  unfold zrange. apply FinFun.Injective_map_NoDup; [|apply seq_NoDup].
  intros a b; lia.
Qed.

Lemma zrange_inj_len lo hi lo' hi' : zrange lo hi = zrange lo' hi' -> lo < hi -> lo = lo' /\ hi = hi'.
Proof.
  intros H Hlt. rewrite zrange_cons in H by lia.
  destruct (Z_lt_le_dec lo' hi') as [Hl|Hl].
  - rewrite (zrange_cons lo') in H by lia. inversion H. subst lo'.
    split; auto. apply (f_equal (@List.length Z)) in H2. rewrite !zrange_length in H2. lia.
  - rewrite (zrange_empty lo') in H by lia. discriminate.
Qed.

Lemma zrange_sorted lo hi : StronglySorted Z.lt (zrange lo hi).
Proof.
  destruct (Z_lt_le_dec lo hi) as [H|H].
  - remember (Z.to_nat (hi - lo)) as n eqn:En.
    revert lo H En. induction n; intros; [lia|].
    rewrite zrange_cons by lia. constructor.
    + destruct (Z_lt_le_dec (lo + 1) hi).
      * apply IHn; lia.
      * rewrite zrange_empty by lia. constructor.
    + apply Forall_forall. intros x Hx. apply in_zrange in Hx. lia.
  - rewrite zrange_empty by lia; constructor.
Qed.

Lemma zsum_app a b : zsum (a ++ b) = zsum a + zsum b.
Proof. unfold zsum; induction a; simpl; lia. Qed.

Lemma zsum_perm a b : Permutation a b -> zsum a = zsum b.
Proof. induction 1; unfold zsum in *; simpl; lia. Qed.

(** ** Indexing *)

Lemma py_get_nonneg {A} (l : list A) i a :
  0 <= i -> (py_get l i = Ok a <-> nth_error l (Z.to_nat i) = Some a).
Proof.
  intros Hi. unfold py_get.
  replace (i <? 0) with false by lia. simpl. replace (i <? 0) with false by lia.
  destruct (nth_error l (Z.to_nat i)); split; congruence.
Qed.

Lemma py_get_ok_range {A} (l : list A) i a : py_get l i = Ok a -> - zlen l <= i < zlen l.
Proof.
  unfold py_get. destruct (i <? 0) eqn:E; simpl.
  - destruct (i + zlen l <? 0) eqn:E2; [discriminate|].
    destruct (nth_error l (Z.to_nat (i + zlen l))) eqn:E3; [|discriminate]. intros _.
    assert (Z.to_nat (i + zlen l) < List.length l)%nat by (apply nth_error_Some; congruence).
    unfold zlen in *; lia.
  - rewrite E. destruct (nth_error l (Z.to_nat i)) eqn:E3; [|discriminate]. intros _.
    assert (Z.to_nat i < List.length l)%nat by (apply nth_error_Some; congruence).
    unfold zlen in *; lia.
Qed.

Lemma py_get_total {A} (l : list A) i : - zlen l <= i < zlen l -> exists a, py_get l i = Ok a.
Proof.
  intros H. unfold py_get.
  set (j := if i <? 0 then i + zlen l else i).
  assert (0 <= j < zlen l) by (unfold j; destruct (i <? 0) eqn:E; lia).
  replace (j <? 0) with false by lia.
  destruct (nth_error l (Z.to_nat j)) eqn:E; eauto.
  apply nth_error_None in E. unfold zlen in *; lia.
Qed.

Lemma py_get_err {A} (l : list A) i e : py_get l i = Err e -> e = IndexError.
Proof.
  unfold py_get. destruct (_ <? 0); [congruence|]. destruct (nth_error _ _); congruence.
Qed.

Lemma py_get_err_iff {A} (l : list A) i :
  py_get l i = Err IndexError <-> (i < - zlen l \/ zlen l <= i).
Proof.
  split.
  - intros H. destruct (Z_lt_le_dec i (- zlen l)); auto.
    destruct (Z_lt_le_dec i (zlen l)); auto.
    destruct (py_get_total l i) as [a E]; [lia|congruence].
  - intros H. destruct (py_get l i) eqn:E.
    + apply py_get_ok_range in E. lia.
    + apply py_get_err in E. now subst.
Qed.

Lemma py_get_zrange lo hi i : 0 <= i < hi - lo -> py_get (zrange lo hi) i = Ok (lo + i).
Proof.
  intros H. apply py_get_nonneg; [lia|]. rewrite nth_error_zrange by lia. f_equal; lia.
Qed.

Lemma to_nat_zlen {A} (l : list A) : Z.to_nat (zlen l) = List.length l.
Proof. unfold zlen; lia. Qed.

Lemma py_get_last {A} (l : list A) x : py_get (l ++ [x]) (-1) = Ok x.
Proof.
  unfold py_get. replace (-1 <? 0) with true by lia. cbv zeta iota.
  rewrite zlen_app, zlen_cons, zlen_nil.
  replace (-1 + (zlen l + (0 + 1))) with (zlen l) by lia.
  pose proof (zlen_nonneg l). replace (zlen l <? 0) with false by lia.
  rewrite to_nat_zlen, nth_error_app2 by lia. now rewrite Nat.sub_diag.
Qed.

Lemma np_take_seq_id {A} (l : list A) : np_take l (zrange 0 (zlen l)) = Ok l.
Proof.
  unfold np_take. apply mapM_ok_Forall2.
  assert (H : forall pre, Forall2 (fun i a => py_get (pre ++ l) i = Ok a)
              (zrange (zlen pre) (zlen pre + zlen l)) l).
  { induction l as [|a l IH]; intros pre.
    - rewrite zrange_empty; [constructor|unfold zlen; simpl; lia].
    - rewrite zrange_cons by (autorewrite with zlen; pose proof (zlen_nonneg l); lia).
      constructor.
      + apply py_get_nonneg; [apply zlen_nonneg|]. unfold zlen; rewrite Nat2Z.id.
        rewrite nth_error_app2 by lia. now rewrite Nat.sub_diag.
      + specialize (IH (pre ++ [a])). rewrite <- app_assoc in IH. simpl in IH.
        autorewrite with zlen in IH. autorewrite with zlen.
        replace (zlen pre + (zlen l + 1)) with (zlen pre + (0 + 1) + zlen l) by lia.
        replace (zlen pre + 1) with (zlen pre + (0 + 1)) by lia. exact IH. }
  apply (H []).
Qed.

(** ** upd_nat / py_set *)

Lemma upd_nat_length {A} (l : list A) n v : List.length (upd_nat l n v) = List.length l.
Proof. revert n; induction l; destruct n; simpl; auto. Qed.

Lemma nth_error_upd_nat {A} (l : list A) n v m :
  nth_error (upd_nat l n v) m =
  if Nat.eqb n m then (if Nat.ltb n (List.length l) then Some v else None) else nth_error l m.
Proof.
  revert n m; induction l as [|a l IH]; intros n m; simpl.
  - destruct (Nat.eqb n m) eqn:E; [|reflexivity]. destruct m; reflexivity.
  - destruct n, m; simpl; auto. rewrite IH. reflexivity.
Qed.

Lemma py_set_nonneg {A} (l : list A) i v :
  0 <= i < zlen l -> py_set l i v = Ok (upd_nat l (Z.to_nat i) v).
Proof.
  intros H; unfold py_set. replace (i <? 0) with false by lia.
  replace ((i <? 0) || (zlen l <=? i)) with false by lia. reflexivity.
Qed.

(** ** Sorting *)

Section SortFacts.
  Context {A : Type} (leb : A -> A -> bool).
  Hypothesis leb_total : forall a b, leb a b = true \/ leb b a = true.
  Hypothesis leb_trans : forall a b c, leb a b = true -> leb b c = true -> leb a c = true.
  Let le a b := leb a b = true.

  Lemma insert_perm a l : Permutation (insert leb a l) (a :: l).
  Proof.
    induction l; simpl; auto. destruct (leb a a0); auto.
    rewrite IHl. apply perm_swap.
  Qed.

  Lemma isort_perm l : Permutation (isort leb l) l.
  Proof. induction l; simpl; auto. rewrite insert_perm. now constructor. Qed.

  Lemma insert_sorted a l : StronglySorted le l -> StronglySorted le (insert leb a l).
  Proof.
    induction 1; simpl.
    - repeat constructor.
    - destruct (leb a a0) eqn:E.
      + constructor; [constructor; auto|].
        constructor; auto. eapply Forall_impl; [|eauto]. simpl; intros.
        eapply leb_trans; eauto.
      + constructor; auto.
        eapply Permutation_Forall; [symmetry; apply insert_perm|].
        constructor; auto. destruct (leb_total a a0); [congruence|auto].
  Qed.

  Lemma isort_sorted l : StronglySorted le (isort leb l).
  Proof. induction l; simpl; [constructor|]. now apply insert_sorted. Qed.

  (** Two sorted permutations are equal if the order is antisymmetric on the elements. *)
  Lemma sorted_perm_unique l1 l2 :
    (forall a b, In a l1 -> In b l1 -> le a b -> le b a -> a = b) ->
    StronglySorted le l1 -> StronglySorted le l2 -> Permutation l1 l2 -> l1 = l2.
  Proof.
    intros Hanti H1; revert l2; induction H1 as [|a l1 H1 IH Ha]; intros l2 H2 P.
    - apply Permutation_nil in P. now subst.
    - destruct H2 as [|b l2 H2 Hb].
      + apply Permutation_sym, Permutation_nil in P. discriminate.
      + assert (a = b).
        { assert (Ia : In a (b :: l2)) by (eapply Permutation_in; [exact P|left; auto]).
          assert (Ib : In b (a :: l1)) by (eapply Permutation_in; [symmetry; exact P|left; auto]).
          destruct Ia as [->|Ia]; auto. destruct Ib as [->|Ib]; auto.
          apply Hanti; simpl; auto.
          - rewrite Forall_forall in Ha; auto.
          - rewrite Forall_forall in Hb; auto. }
        subst b. f_equal. apply IH; auto.
        * intros; apply Hanti; simpl; auto.
        * now apply Permutation_cons_inv in P.
  Qed.

  Lemma isort_id_of_sorted l : StronglySorted le l -> isort leb l = l.
  Proof.
    induction 1 as [|a l H IH Ha]; simpl; auto. rewrite IH.
    destruct l; simpl; auto. inv Ha. unfold le in H2. now rewrite H2.
  Qed.
End SortFacts.

Lemma zleb_total a b : (a <=? b) = true \/ (b <=? a) = true. Proof. lia. Qed.
Lemma zleb_trans a b c : (a <=? b) = true -> (b <=? c) = true -> (a <=? c) = true. Proof. lia. Qed.

Lemma zsort_perm l : Permutation (zsort l) l.
Proof. apply isort_perm. Qed.
Lemma zsort_sorted l : StronglySorted Z.le (zsort l).
Proof.
  assert (H := isort_sorted Z.leb zleb_total zleb_trans l).
  unfold zsort. induction H; constructor; auto.
  eapply Forall_impl; [|eauto]. simpl; lia.
Qed.
Lemma zsort_in x l : In x (zsort l) <-> In x l.
Proof. split; apply Permutation_in; [|symmetry]; apply zsort_perm. Qed.
Lemma zsort_length l : List.length (zsort l) = List.length l.
Proof. apply Permutation_length, zsort_perm. Qed.
Lemma zlen_zsort l : zlen (zsort l) = zlen l.
Proof. unfold zlen; now rewrite zsort_length. Qed.

Lemma ssorted_le_perm_eq l1 l2 :
  StronglySorted Z.le l1 -> StronglySorted Z.le l2 -> Permutation l1 l2 -> l1 = l2.
Proof.
  intros H1 H2 P.
  apply (sorted_perm_unique Z.leb); auto.
  - intros; lia.
  - clear -H1; induction H1; constructor; auto. eapply Forall_impl; [|eauto]; simpl; lia.
  - clear -H2; induction H2; constructor; auto. eapply Forall_impl; [|eauto]; simpl; lia.
Qed.

Lemma zsort_perm_iff l1 l2 : zsort l1 = zsort l2 <-> Permutation l1 l2.
Proof.
  split; intros H.
  - rewrite <- (zsort_perm l1), <- (zsort_perm l2). now rewrite H.
  - apply ssorted_le_perm_eq; try apply zsort_sorted. now rewrite !zsort_perm.
Qed.

Lemma ssorted_lt_le l : StronglySorted Z.lt l -> StronglySorted Z.le l.
Proof. induction 1; constructor; auto. eapply Forall_impl; [|eauto]; simpl; lia. Qed.

Lemma ssorted_lt_NoDup l : StronglySorted Z.lt l -> NoDup l.
Proof.
  induction 1; constructor; auto. intros Hin. rewrite Forall_forall in H0.
  apply H0 in Hin. lia.
Qed.

Lemma ssorted_lt_ext l1 l2 :
  StronglySorted Z.lt l1 -> StronglySorted Z.lt l2 -> (forall x, In x l1 <-> In x l2) -> l1 = l2.
Proof.
  intros H1 H2 E. apply ssorted_le_perm_eq; auto using ssorted_lt_le.
  apply NoDup_Permutation; auto using ssorted_lt_NoDup.
Qed.

Lemma zsort_zrange lo hi : zsort (zrange lo hi) = zrange lo hi.
Proof.
  apply ssorted_le_perm_eq; [apply zsort_sorted|apply ssorted_lt_le, zrange_sorted|apply zsort_perm].
Qed.

Lemma zsort_perm_zrange l n : Permutation l (zrange 0 n) -> zsort l = zrange 0 n.
Proof. intros P. rewrite <- zsort_zrange. now apply zsort_perm_iff. Qed.

(** ** np.unique *)

Lemma dedup_adj_in x l : In x (dedup_adj l) <-> In x l.
Proof.
  induction l as [|a l IH]; simpl; [tauto|].
  destruct l as [|b l].
  - simpl; tauto.
  - destruct (a =? b) eqn:E.
    + rewrite IH. assert (a = b) by lia. subst. simpl; tauto.
    + simpl In at 1. rewrite IH. simpl; tauto.
Qed.

Lemma dedup_adj_sorted l : StronglySorted Z.le l -> StronglySorted Z.lt (dedup_adj l).
Proof.
  induction 1 as [|a l H IH Ha]; simpl; [constructor|].
  destruct l as [|b l]; [repeat constructor|].
  destruct (a =? b) eqn:E; auto.
  constructor; auto. apply Forall_forall. intros x Hx. apply (proj1 (dedup_adj_in _ _)) in Hx.
  inv Ha. destruct Hx as [<-|Hx]; [lia|].
  inv H. rewrite Forall_forall in H5. apply H5 in Hx. lia.
Qed.

Lemma np_unique_in x l : In x (np_unique l) <-> In x l.
Proof. unfold np_unique. now rewrite dedup_adj_in, zsort_in. Qed.
Lemma np_unique_sorted l : StronglySorted Z.lt (np_unique l).
Proof. apply dedup_adj_sorted, zsort_sorted. Qed.
Lemma np_unique_NoDup l : NoDup (np_unique l).
Proof. apply ssorted_lt_NoDup, np_unique_sorted. Qed.

Lemma np_unique_of_sorted l : StronglySorted Z.lt l -> np_unique l = l.
Proof.
  intros H. apply ssorted_lt_ext; auto using np_unique_sorted. intros; apply np_unique_in.
Qed.

Lemma np_unique_eq_zsort_iff l : np_unique l = zsort l <-> NoDup l.
Proof.
  split; intros H.
  - eapply Permutation_NoDup; [apply zsort_perm|]. rewrite <- H. apply np_unique_NoDup.
  - apply ssorted_le_perm_eq.
    + apply ssorted_lt_le, np_unique_sorted.
    + apply zsort_sorted.
    + rewrite zsort_perm. apply NoDup_Permutation; auto using np_unique_NoDup. intros; apply np_unique_in.
Qed.

(** ** Booleans on lists *)

Lemma zmem_in x l : zmem x l = true <-> In x l.
Proof.
  unfold zmem. rewrite existsb_exists. split.
  - intros (y & H & E). apply Z.eqb_eq in E. now subst.
  - intros; exists x; split; auto. apply Z.eqb_refl.
Qed.

Lemma zlist_eqb_eq a b : zlist_eqb a b = true <-> a = b.
Proof.
  revert b; induction a; destruct b; simpl; try (split; congruence).
  rewrite andb_true_iff, IHa. split.
  - intros [E ->]. f_equal; lia.
  - intros E; inv E. split; auto; lia.
Qed.

Lemma zlist_eqb_refl a : zlist_eqb a a = true.
Proof. now apply zlist_eqb_eq. Qed.

Lemma zlist_leb_total a b : zlist_leb a b = true \/ zlist_leb b a = true.
Proof.
  revert b; induction a; destruct b; simpl; auto.
  destruct (a =? z) eqn:E.
  - replace (z =? a) with true by lia. apply IHa.
  - replace (z =? a) with false by lia. lia.
Qed.

Lemma zlist_leb_trans a b c : zlist_leb a b = true -> zlist_leb b c = true -> zlist_leb a c = true.
Proof.
  revert b c; induction a; destruct b, c; simpl; try congruence; auto.
  destruct (a =? z) eqn:E1, (z =? z0) eqn:E2; intros.
  - replace (a =? z0) with true by lia. eauto.
  - replace (a =? z0) with false by lia. lia.
  - replace (a =? z0) with false by lia. lia.
  - replace (a =? z0) with false by lia. lia.
Qed.

Lemma zlist_leb_antisym a b : zlist_leb a b = true -> zlist_leb b a = true -> a = b.
Proof.
  revert b; induction a; destruct b; simpl; try congruence; auto.
  destruct (a =? z) eqn:E.
  - replace (z =? a) with true by lia. intros. f_equal; [lia|auto].
  - replace (z =? a) with false by lia. lia.
Qed.

(** ** Dictionaries *)

Section DictFacts.
  Context {K V : Type} (eqb : K -> K -> bool).
  Hypothesis eqb_eq : forall a b, eqb a b = true <-> a = b.
  Notation dict := (dict K V).

  Lemma eqb_refl' a : eqb a a = true.
  Proof. now apply eqb_eq. Qed.
  Lemma eqb_neq' a b : eqb a b = false <-> a <> b.
  Proof. rewrite <- eqb_eq. destruct (eqb a b); split; congruence. Qed.

  Lemma dget_dset_eq k v (d : dict) : dget eqb k (dset eqb k v d) = Some v.
  Proof.
    induction d as [|[k' v'] d IH]; simpl.
    - now rewrite eqb_refl'.
    - destruct (eqb k k') eqn:E; simpl; rewrite E; auto.
  Qed.

  Lemma dget_dset_neq k k' v (d : dict) : k <> k' -> dget eqb k (dset eqb k' v d) = dget eqb k d.
  Proof.
    intros N. induction d as [|[k2 v2] d IH]; simpl.
    - apply eqb_neq' in N. now rewrite N.
    - destruct (eqb k' k2) eqn:E; simpl.
      + apply eqb_eq in E. subst k2. apply eqb_neq' in N. now rewrite N.
      + destruct (eqb k k2); auto.
  Qed.

  Lemma dget_in k v (d : dict) : dget eqb k d = Some v -> In (k, v) d.
  Proof.
    induction d as [|[k' v'] d IH]; simpl; [congruence|].
    destruct (eqb k k') eqn:E; intros H.
    - inv H. apply eqb_eq in E. subst; auto.
    - auto.
  Qed.

  Lemma in_dget k v (d : dict) : NoDup (dkeys d) -> In (k, v) d -> dget eqb k d = Some v.
  Proof.
    induction d as [|[k' v'] d IH]; simpl; [tauto|]. intros N H; inv N.
    destruct H as [H|H].
    - inv H. now rewrite eqb_refl'.
    - destruct (eqb k k') eqn:E; auto.
      apply eqb_eq in E; subst. exfalso. apply H2. apply in_map_iff. now exists (k', v).
  Qed.

  Lemma dget_None k (d : dict) : dget eqb k d = None <-> ~ In k (dkeys d).
  Proof.
    induction d as [|[k' v'] d IH]; simpl; [tauto|].
    destruct (eqb k k') eqn:E.
    - apply eqb_eq in E. subst. split; [congruence|tauto].
    - apply eqb_neq' in E. rewrite IH. split; intuition congruence.
  Qed.

  Lemma dget_Some_iff k (d : dict) : (exists v, dget eqb k d = Some v) <-> In k (dkeys d).
  Proof.
    destruct (dget eqb k d) eqn:E.
    - split; intros; eauto. apply dget_in in E. apply in_map_iff. now exists (k, v).
    - apply dget_None in E. split; [intros (v & H); congruence|tauto].
  Qed.

  Lemma dmem_in k (d : dict) : dmem eqb k d = true <-> In k (dkeys d).
  Proof.
    unfold dmem. rewrite <- dget_Some_iff. destruct (dget eqb k d); split; intros; eauto; try congruence.
    destruct H; congruence.
  Qed.

  Lemma dset_keys_in k v (d : dict) : In k (dkeys d) -> dkeys (dset eqb k v d) = dkeys d.
  Proof.
    induction d as [|[k' v'] d IH]; simpl; [tauto|]. intros H.
    destruct (eqb k k') eqn:E; simpl; auto. f_equal. apply IH.
    destruct H; auto. subst. rewrite eqb_refl' in E. congruence.
  Qed.

  Lemma dset_notin k v (d : dict) : ~ In k (dkeys d) -> dset eqb k v d = d ++ [(k, v)].
  Proof.
    induction d as [|[k' v'] d IH]; simpl; auto. intros H.
    destruct (eqb k k') eqn:E.
    - apply eqb_eq in E. subst. tauto.
    - rewrite IH by tauto. reflexivity.
  Qed.

  Lemma dset_NoDup k v (d : dict) : NoDup (dkeys d) -> NoDup (dkeys (dset eqb k v d)).
  Proof.
    intros H. destruct (dmem eqb k d) eqn:E.
    - apply dmem_in in E. now rewrite dset_keys_in.
    - assert (N : ~ In k (dkeys d)) by (rewrite <- dmem_in; congruence).
      rewrite dset_notin by auto. unfold dkeys. rewrite map_app. simpl.
      eapply Permutation_NoDup; [apply Permutation_app_comm|]. simpl. constructor; auto.
  Qed.

  Lemma dpop_notin k (d : dict) : NoDup (dkeys d) -> ~ In k (dkeys (dpop eqb k d)).
  Proof.
    induction d as [|[k' v'] d IH]; simpl; [tauto|]. intros N; inv N.
    destruct (eqb k k') eqn:E.
    - apply eqb_eq in E; now subst.
    - simpl. apply eqb_neq' in E. intros [H|H]; [congruence|]. now apply IH.
  Qed.

  Lemma dpop_in k k' v (d : dict) : k <> k' -> In (k', v) d -> In (k', v) (dpop eqb k d).
  Proof.
    intros N. induction d as [|[k2 v2] d IH]; simpl; [tauto|].
    intros [H|H].
    - inv H. apply eqb_neq' in N. rewrite N. simpl; auto.
    - destruct (eqb k k2); simpl; auto.
  Qed.

  Lemma dget_dpop_neq k k' (d : dict) : k <> k' -> dget eqb k (dpop eqb k' d) = dget eqb k d.
  Proof.
    intros N. induction d as [|[k2 v2] d IH]; simpl; auto.
    destruct (eqb k' k2) eqn:E; simpl.
    - apply eqb_eq in E. subst. apply eqb_neq' in N. now rewrite N.
    - destruct (eqb k k2); auto.
  Qed.
End DictFacts.

(** ** Miscellaneous *)

Lemma NoDup_map_inj_in {A B} (f : A -> B) l :
  (forall a b, In a l -> In b l -> f a = f b -> a = b) -> NoDup l -> NoDup (List.map f l).
Proof.
  induction l; simpl; intros Hf N; constructor; inv N.
  - rewrite in_map_iff. intros (b & E & Hb). apply Hf in E; auto. now subst.
  - apply IHl; auto.
Qed.

Lemma NoDup_app {A} (l1 l2 : list A) :
  NoDup (l1 ++ l2) <-> NoDup l1 /\ NoDup l2 /\ (forall x, In x l1 -> ~ In x l2).
Proof.
  induction l1 as [|a l1 IH]; simpl.
  - split; [intros H; repeat split; auto; constructor|tauto].
  - split.
    + intros H; inv H. apply IH in H3. destruct H3 as (N1 & N2 & D). rewrite in_app_iff in H2.
      repeat split; auto.
      * constructor; tauto.
      * intros x [->|Hx]; auto.
    + intros (N1 & N2 & D). inv N1. constructor.
      * rewrite in_app_iff. intros [H|H]; [tauto|]. apply (D a); auto.
      * apply IH. repeat split; auto.
Qed.

Lemma Forall2_nth_error {A B} (R : A -> B -> Prop) l1 l2 n a b :
  Forall2 R l1 l2 -> nth_error l1 n = Some a -> nth_error l2 n = Some b -> R a b.
Proof.
  intros H; revert n; induction H; intros [|n]; simpl; try congruence; eauto.
Qed.

Lemma perm_zrange_bound l n x : Permutation l (zrange 0 n) -> In x l -> 0 <= x < n.
Proof. intros P H. apply in_zrange. eapply Permutation_in; eauto. Qed.

Lemma combine_app {A B} (l1 l2 : list A) (m1 m2 : list B) :
  List.length l1 = List.length m1 -> combine (l1 ++ l2) (m1 ++ m2) = combine l1 m1 ++ combine l2 m2.
Proof.
  revert m1; induction l1; destruct m1; simpl; intros; try lia; auto.
  f_equal. auto.
Qed.

Lemma map_fst_combine {A B} (l : list A) (m : list B) :
  List.length l = List.length m -> List.map fst (combine l m) = l.
Proof. revert m; induction l; destruct m; simpl; intros; try lia; auto. f_equal; auto. Qed.

Lemma map_snd_combine {A B} (l : list A) (m : list B) :
  List.length l = List.length m -> List.map snd (combine l m) = m.
Proof. revert m; induction l; destruct m; simpl; intros; try lia; auto. f_equal; auto. Qed.

Lemma Permutation_refl' {A} (l l' : list A) : l = l' -> Permutation l l'.
Proof. intros ->; reflexivity. Qed.

Lemma fold_min_spec l x : (In (fold_left Z.min l x) (x :: l)) /\ (forall y, In y (x :: l) -> fold_left Z.min l x <= y).
Proof.
  revert x; induction l as [|a l IH]; intros x; simpl.
  - split; auto. intros y [->|[]]; lia.
  - destruct (IH (Z.min x a)) as [H1 H2]. split.
    + destruct H1 as [H1|H1]; auto. rewrite <- H1. destruct (Z.min_spec x a) as [[_ ->]|[_ ->]]; auto.
    + intros y Hy. destruct Hy as [->|[->|Hy]].
      * etransitivity; [apply H2; left; reflexivity|lia].
      * etransitivity; [apply H2; left; reflexivity|lia].
      * apply H2; simpl; auto.
Qed.
Lemma fold_max_spec l x : (In (fold_left Z.max l x) (x :: l)) /\ (forall y, In y (x :: l) -> y <= fold_left Z.max l x).
Proof.
  revert x; induction l as [|a l IH]; intros x; simpl.
  - split; auto. intros y [->|[]]; lia.
  - destruct (IH (Z.max x a)) as [H1 H2]. split.
    + destruct H1 as [H1|H1]; auto. rewrite <- H1. destruct (Z.max_spec x a) as [[_ ->]|[_ ->]]; auto.
    + intros y Hy. destruct Hy as [->|[->|Hy]].
      * etransitivity; [|apply H2; left; reflexivity]. lia.
      * etransitivity; [|apply H2; left; reflexivity]. lia.
      * apply H2; simpl; auto.
Qed.

Lemma py_min_ok l m : py_min l = Ok m <-> In m l /\ forall y, In y l -> m <= y.
Proof.
  destruct l as [|x l]; simpl py_min.
  - split; [discriminate|]. intros [[] _].
  - destruct (fold_min_spec l x) as [H1 H2]. split.
    + intros H; inv H. auto.
    + intros [H3 H4]. f_equal. apply Z.le_antisymm; auto.
Qed.
Lemma py_max_ok l m : py_max l = Ok m <-> In m l /\ forall y, In y l -> y <= m.
Proof.
  destruct l as [|x l]; simpl py_max.
  - split; [discriminate|]. intros [[] _].
  - destruct (fold_max_spec l x) as [H1 H2]. split.
    + intros H; inv H. auto.
    + intros [H3 H4]. f_equal. apply Z.le_antisymm; auto.
Qed.

(** Distinct integers within [0,n), [n] of them: all of them. *)
Lemma NoDup_bounded_perm l n :
  NoDup l -> (forall x, In x l -> 0 <= x < n) -> zlen l = n -> Permutation l (zrange 0 n).
Proof.
  intros N B L. apply NoDup_Permutation; auto using NoDup_zrange.
  intros x; split; [intros; apply in_zrange; auto|].
  apply NoDup_length_incl; auto.
  - rewrite zrange_length. unfold zlen in L. lia.
  - intros y Hy. apply in_zrange. auto.
Qed.

Lemma concat_map_flat_map {A B} (f : A -> list B) l : List.concat (List.map f l) = flat_map f l.
Proof. symmetry; apply flat_map_concat_map. Qed.

Lemma mapM_err {A B} (f : A -> res B) l a e :
  In a l -> f a = Err e -> exists e', mapM f l = Err e'.
Proof.
  induction l as [|b l IH]; simpl; [tauto|]. intros [->|H] E.
  - rewrite E; simpl; eauto.
  - destruct (f b); simpl; eauto. destruct (IH H E) as [e' ->]. simpl; eauto.
Qed.

Lemma py_slice_mid {A} (a b c : list A) : py_slice (a ++ b ++ c) (zlen a) (zlen a + zlen b) = b.
Proof.
  unfold py_slice, slice_bound. rewrite !zlen_app.
  pose proof (zlen_nonneg a); pose proof (zlen_nonneg b); pose proof (zlen_nonneg c).
  replace (zlen a <? 0) with false by lia. replace (zlen a + zlen b <? 0) with false by lia. cbv zeta.
  replace (Z.max 0 (Z.min (zlen a + (zlen b + zlen c)) (zlen a))) with (zlen a) by lia.
  replace (Z.max 0 (Z.min (zlen a + (zlen b + zlen c)) (zlen a + zlen b))) with (zlen a + zlen b) by lia.
  replace (zlen a + zlen b - zlen a) with (zlen b) by lia. rewrite !to_nat_zlen.
  rewrite skipn_app, skipn_all, Nat.sub_diag. simpl.
  rewrite firstn_app, firstn_all, Nat.sub_diag. simpl. now rewrite app_nil_r.
Qed.

Lemma py_get_app_mid {A} (a b c : list A) i x :
  0 <= i -> nth_error b (Z.to_nat i) = Some x -> py_get (a ++ b ++ c) (zlen a + i) = Ok x.
Proof.
  intros Hi H. pose proof (zlen_nonneg a). apply py_get_nonneg; [lia|].
  replace (Z.to_nat (zlen a + i)) with (List.length a + Z.to_nat i)%nat by (unfold zlen; lia).
  rewrite nth_error_app2 by lia. replace (List.length a + Z.to_nat i - List.length a)%nat with (Z.to_nat i) by lia.
  rewrite nth_error_app1; auto. apply nth_error_Some. congruence.
Qed.

Lemma np_take_mid {A} (a b c : list A) :
  np_take (a ++ b ++ c) (zrange (zlen a) (zlen a + zlen b)) = Ok b.
Proof.
  revert a; induction b as [|x b IH]; intros a.
  - rewrite zlen_nil. rewrite zrange_empty by lia. reflexivity.
  - pose proof (zlen_nonneg b). rewrite zrange_cons by (rewrite zlen_cons; lia).
    unfold np_take. cbn [mapM].
    assert (G : py_get (a ++ (x :: b) ++ c) (zlen a) = Ok x).
    { replace (zlen a) with (zlen a + 0) by lia. apply py_get_app_mid; [lia|reflexivity]. }
    rewrite G. cbn [bind].
    specialize (IH (a ++ [x])). rewrite <- app_assoc in IH. simpl in IH. rewrite zlen_app, zlen_cons, zlen_nil in IH.
    unfold np_take in IH. rewrite zlen_cons.
    replace (zlen a + (0 + 1)) with (zlen a + 1) in IH by lia.
    replace (zlen a + 1 + zlen b) with (zlen a + (zlen b + 1)) in IH by lia.
    simpl app. rewrite IH. reflexivity.
Qed.

Lemma Permutation_flat_map_filter {A} (key : A -> Z) (U : list Z) (l : list A) :
  NoDup U -> (forall a, In a l -> In (key a) U) ->
  Permutation (flat_map (fun u => filter (fun a => key a =? u) l) U) l.
Proof.
  intros N. induction l as [|a l IH]; intros H.
  - simpl. induction U; simpl; auto. apply IHU. now inv N. intros ? [].
  - transitivity (a :: flat_map (fun u => filter (fun a => key a =? u) l) U);
      [|constructor; apply IH; intros; apply H; simpl; auto].
    assert (Ha : In (key a) U) by (apply H; simpl; auto). clear H IH.
    apply in_split in Ha. destruct Ha as (U1 & U2 & ->).
    apply NoDup_remove in N. destruct N as [_ Nk]. rewrite in_app_iff in Nk.
    rewrite !flat_map_app. simpl. rewrite Z.eqb_refl.
    assert (E : forall V, ~ In (key a) V ->
       flat_map (fun u => filter (fun a => key a =? u) (a :: l)) V = flat_map (fun u => filter (fun a => key a =? u) l) V).
    { induction V as [|v V IHV]; simpl; auto. intros HV.
      replace (key a =? v) with false by (symmetry; apply Z.eqb_neq; intuition congruence).
      f_equal. apply IHV. tauto. }
    simpl in E. rewrite !E by tauto. symmetry. apply Permutation_middle.
Qed.
