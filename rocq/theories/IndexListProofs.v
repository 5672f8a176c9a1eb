From Coq Require Import Lia Sorted Permutation ZifyBool ZifyNat.
From Verif Require Import PyFacts IndexList IndexListSpec.

Lemma denotes_list il l : denotes il l <-> il_list il = Ok l.
Proof.
  split.
  - intros H; inv H; simpl; auto. f_equal.
    apply ssorted_lt_ext; auto using zrange_sorted.
    intros x; rewrite H1, in_zrange; lia.
  - destruct il; simpl; intros H; inv H.
    + constructor; [apply zrange_sorted|]. intros x; rewrite in_zrange; lia.
    + constructor.
Qed.

Lemma denotes_fun il l l' : denotes il l -> denotes il l' -> l = l'.
Proof. rewrite !denotes_list. congruence. Qed.

Lemma shift_denotes il l i :
  denotes il l ->
  exists il', il_shift il i = Ok (Some il') /\ denotes il' (List.map (fun j => j + i) l).
Proof.
  intros H. pose proof H as H'. apply denotes_list in H'. destruct H; simpl.
  - eexists; split; [reflexivity|constructor].
  - eexists; split; [reflexivity|]. apply denotes_list. simpl. simpl in H'. inv H'.
    rewrite map_add_zrange. do 2 f_equal. lia.
Qed.

Lemma append_denotes il l l' :
  denotes il l -> exists il', il_append il l' = Ok il' /\ denotes il' (l ++ l').
Proof.
  intros H; apply denotes_list in H. destruct il; simpl in *; inv H; eexists; (split; [reflexivity|constructor]).
Qed.

Lemma add_denotes a b la lb :
  denotes a la -> denotes b lb -> exists c, il_add a b = Ok c /\ denotes c (la ++ lb).
Proof.
  rewrite !denotes_list. intros Ha Hb. unfold il_add. rewrite Ha, Hb. simpl.
  eexists; split; [reflexivity|constructor].
Qed.

Lemma getitem_denotes il l k : denotes il l -> il_getitem il k = py_get l k.
Proof. rewrite denotes_list. intros H. unfold il_getitem. now rewrite H. Qed.

Lemma size_denotes il l :
  denotes il l ->
  match il with ILrange lo hi => lo - 1 <= hi | _ => True end ->
  il_size il = Ok (zlen l).
Proof.
  rewrite denotes_list. intros H Hr. destruct il; simpl in *; inv H; auto.
  f_equal. rewrite zlen_zrange; lia.
Qed.

Lemma size_denotes_iff il l :
  denotes il l -> (il_size il = Ok (zlen l) <-> match il with ILrange lo hi => lo - 1 <= hi | _ => True end).
Proof.
  intros H. split; [|intros; apply size_denotes; auto].
  intros E. destruct il; auto. simpl in E. inv E. pose proof (zlen_nonneg l). lia.
Qed.

Lemma consecutive_zrange l a : consecutive (a :: l) <-> a :: l = zrange a (a + zlen (a :: l)).
Proof.
  split.
  - revert a; induction l as [|b l IH]; intros a H.
    + unfold zlen; simpl. rewrite zrange_cons by lia. now rewrite zrange_empty by lia.
    + assert (b = a + 1) by (apply (H O); reflexivity). subst b.
      rewrite zrange_cons by (autorewrite with zlen; pose proof (zlen_nonneg l); lia).
      f_equal. rewrite (IH (a + 1)) at 1.
      * f_equal. autorewrite with zlen. lia.
      * intros n x y Hx Hy. apply (H (S n)); auto.
  - intros E n x y Hx Hy. rewrite E in Hx, Hy.
    assert (Hlt : (S n < List.length (a :: l))%nat).
    { rewrite E. apply nth_error_Some. congruence. }
    rewrite nth_error_zrange in Hx by (unfold zlen; lia).
    rewrite nth_error_zrange in Hy by (unfold zlen; lia). inv Hx. inv Hy. lia.
Qed.

Lemma py_get_last_zrange lo hi : lo <= hi -> py_get (zrange lo (hi + 1)) (-1) = Ok hi.
Proof. intros; rewrite zrange_snoc by lia. apply py_get_last. Qed.

(** compress on a list. *)
Lemma compress_list_cons a l :
  il_compress (ILlist (a :: l)) =
  if zlist_eqb (a :: l) (zrange a (a + zlen (a :: l)))
  then Ok (ILrange a (a + zlen (a :: l) - 1)) else Ok (ILlist (a :: l)).
Proof.
  unfold il_compress. change (py_get (a :: l) 0) with (Ok a). cbv beta iota delta [bind].
  destruct (zlist_eqb _ _) eqn:E; auto.
  apply zlist_eqb_eq in E. rewrite E at 1.
  pose proof (zlen_nonneg l).
  replace (a + zlen (a :: l)) with ((a + zlen l) + 1) at 1 by (autorewrite with zlen; lia).
  rewrite py_get_last_zrange by lia. do 2 f_equal. autorewrite with zlen. lia.
Qed.

Lemma compress_spec il l :
  denotes il l -> il <> ILlist [] ->
  exists il', il_compress il = Ok il' /\ denotes il' l /\
              (is_range il' <-> is_range il \/ (l <> [] /\ consecutive l)).
Proof.
  intros H Hne. destruct H as [l|lo hi l Hs Hi].
  - destruct l as [|a l]; [congruence|].
    rewrite compress_list_cons. destruct (zlist_eqb _ _) eqn:E.
    + apply zlist_eqb_eq in E. eexists; repeat split.
      * apply denotes_list. simpl il_list. f_equal. rewrite E. f_equal. rewrite <- E. lia.
      * intros _. right. split; [congruence|]. now apply consecutive_zrange.
      * intros _. red; eauto.
    + eexists; repeat split.
      * constructor.
      * intros (lo & hi & Hx). discriminate.
      * intros [(lo & hi & Hx)|[_ Hc]]; [discriminate|].
        apply consecutive_zrange in Hc. rewrite <- Hc, zlist_eqb_refl in E. discriminate.
  - simpl. eexists; split; [reflexivity|]. split; [now constructor|].
    split; [auto|intros _; red; eauto].
Qed.

Lemma compress_empty : il_compress (ILlist []) = Err IndexError.
Proof. reflexivity. Qed.
