(** * Facts on dictionaries filled by a loop (used by the proofs about the readers). *)
From Coq Require Import Lia Permutation.
From Verif Require Import Py PyFacts Conn.

(** The distinct elements of a list, in the order of their first occurrences. *)
Section FirstSeen.
  Context {K : Type} (eqb : K -> K -> bool) (eqb_eq : forall a b, eqb a b = true <-> a = b).

  Fixpoint first_seen (l : list K) : list K :=
    match l with
    | [] => []
    | k :: l' => k :: filter (fun k' => negb (eqb k' k)) (first_seen l')
    end.

  Lemma first_seen_in k l : In k (first_seen l) <-> In k l.
  Proof.
    induction l as [|a l IH]; simpl; [tauto|]. rewrite filter_In, IH. split; [tauto|].
    intros [H|H]; auto. destruct (eqb k a) eqn:E; [apply eqb_eq in E; auto|right; auto].
  Qed.
  Lemma first_seen_NoDup l : NoDup (first_seen l).
  Proof.
    induction l as [|a l IH]; simpl; constructor.
    - rewrite filter_In. intros [_ H]. assert (E : eqb a a = true) by now apply eqb_eq.
      rewrite E in H. discriminate.
    - apply NoDup_filter; auto.
  Qed.
  Lemma first_seen_snoc l k :
    first_seen (l ++ [k]) = if existsb (eqb k) l then first_seen l else first_seen l ++ [k].
  Proof.
    induction l as [|a l IH]; simpl; auto. rewrite IH.
    destruct (eqb k a) eqn:E; simpl.
    - destruct (existsb (eqb k) l); auto. rewrite filter_app. simpl. rewrite E. simpl. now rewrite app_nil_r.
    - destruct (existsb (eqb k) l); auto. rewrite filter_app. simpl. now rewrite E.
  Qed.
  Lemma existsb_eqb k l : existsb (eqb k) l = true <-> In k l.
  Proof.
    rewrite existsb_exists. split; [intros (x & H & E); apply eqb_eq in E; now subst|].
    intros H. exists k. split; auto. now apply eqb_eq.
  Qed.

  Context {V : Type}.

  Lemma dset_map_upd (g : K -> V) ks k v :
    NoDup ks -> In k ks ->
    dset eqb k v (List.map (fun k' => (k', g k')) ks) =
    List.map (fun k' => (k', if eqb k' k then v else g k')) ks.
  Proof.
    induction ks as [|a ks IH]; simpl; [tauto|]. intros N H. apply NoDup_cons_iff in N. destruct N as [N1 N2].
    destruct (eqb k a) eqn:E.
    - apply eqb_eq in E. subst a. assert (R : eqb k k = true) by now apply eqb_eq. rewrite R. f_equal.
      apply map_ext_in. intros b Hb. destruct (eqb b k) eqn:E2; auto. apply eqb_eq in E2. now subst.
    - destruct (eqb a k) eqn:E2.
      + apply eqb_eq in E2. subst. assert (R : eqb k k = true) by now apply eqb_eq. congruence.
      + f_equal. apply IH; auto. destruct H as [->|H]; auto. assert (R : eqb k k = true) by now apply eqb_eq.
        congruence.
  Qed.
  Lemma dget_map_keys (g : K -> V) ks k :
    dget eqb k (List.map (fun k' => (k', g k')) ks) = if existsb (eqb k) ks then Some (g k) else None.
  Proof.
    induction ks as [|a ks IH]; simpl; auto. destruct (eqb k a) eqn:E; simpl; auto.
    apply eqb_eq in E. now subst.
  Qed.

  (** A loop that sets [d[key(a)]] to a function of its previous value and of [a]. *)
  Context {A : Type} (key : A -> K) (f : option V -> A -> V) (g : list A -> V).
  Definition having (k : K) (l : list A) : list A := filter (fun a => eqb (key a) k) l.
  Definition accum (l : list A) : dict K V :=
    fold_left (fun d a => dset eqb (key a) (f (dget eqb (key a) d) a) d) l [].

  Lemma accum_eq :
    (forall a, g [a] = f None a) ->
    (forall l a, l <> [] -> g (l ++ [a]) = f (Some (g l)) a) ->
    forall l, accum l = List.map (fun k => (k, g (having k l))) (first_seen (List.map key l)).
  Proof.
    intros G1 G2. induction l as [|a l IH] using rev_ind; [reflexivity|].
    unfold accum. rewrite fold_left_app. cbn [fold_left]. fold (accum l). rewrite IH.
    rewrite map_app. cbn [List.map]. rewrite first_seen_snoc.
    assert (H : forall k, having k (l ++ [a]) = having k l ++ (if eqb (key a) k then [a] else [])).
    { intros k. unfold having. rewrite filter_app. cbn [filter]. now destruct (eqb (key a) k). }
    rewrite dget_map_keys.
    assert (X : existsb (eqb (key a)) (first_seen (List.map key l)) = existsb (eqb (key a)) (List.map key l)).
    { apply Bool.eq_iff_eq_true. rewrite !existsb_eqb. apply first_seen_in. }
    rewrite X. assert (R : eqb (key a) (key a) = true) by now apply eqb_eq.
    destruct (existsb (eqb (key a)) (List.map key l)) eqn:E.
    - rewrite dset_map_upd; [|apply first_seen_NoDup|now apply first_seen_in, existsb_eqb].
      apply map_ext_in. intros k Hk. rewrite H. destruct (eqb k (key a)) eqn:E2.
      + apply eqb_eq in E2. subst k. rewrite R, G2; auto. apply existsb_eqb, in_map_iff in E.
        destruct E as (b & B1 & B2). intros Hn. assert (In b (having (key a) l)) as Hb.
        { apply filter_In. split; auto. now apply eqb_eq. }
        rewrite Hn in Hb. destruct Hb.
      + destruct (eqb (key a) k) eqn:E3; [|now rewrite app_nil_r].
        apply eqb_eq in E3. subst k. congruence.
    - assert (N : ~ In (key a) (List.map key l)) by (rewrite <- existsb_eqb; congruence).
      rewrite (dset_notin _ eqb_eq).
      2:{ unfold dkeys. rewrite map_map. cbn [fst]. rewrite map_id. rewrite first_seen_in. exact N. }
      rewrite map_app. cbn [List.map]. f_equal.
      + apply map_ext_in. intros k Hk. rewrite H. destruct (eqb (key a) k) eqn:E3; [|now rewrite app_nil_r].
        apply eqb_eq in E3. subst k. rewrite first_seen_in in Hk. tauto.
      + rewrite H, R. assert (Z : having (key a) l = []).
        { destruct (having (key a) l) as [|b q] eqn:Eq; auto. exfalso. apply N.
          assert (Hb : In b (having (key a) l)) by (rewrite Eq; left; auto).
          apply filter_In in Hb. destruct Hb as [B1 B2]. apply eqb_eq in B2. rewrite <- B2.
          apply in_map; auto. }
        rewrite Z. cbn [app]. now rewrite G1.
  Qed.
End FirstSeen.

(** [d[key(a)].append(val(a))]. *)
Lemma group_eq {K A B} (eqb : K -> K -> bool) (eqb_eq : forall a b, eqb a b = true <-> a = b)
      (key : A -> K) (val : A -> B) l :
  fold_left (fun d a => dextend eqb (key a) [val a] d) l [] =
  List.map (fun k => (k, List.map val (having eqb key k l))) (first_seen eqb (List.map key l)).
Proof.
  rewrite <- (accum_eq eqb eqb_eq key (fun o a => match o with Some q => q ++ [val a] | None => [val a] end)
                (List.map val)).
  - unfold accum. assert (X : forall d0 : dict K (list B),
      fold_left (fun d a => dextend eqb (key a) [val a] d) l d0 =
      fold_left (fun d a => dset eqb (key a)
         (match dget eqb (key a) d with Some q => q ++ [val a] | None => [val a] end) d) l d0); [|apply X].
    induction l as [|a l IH]; intros d0; auto. cbn [fold_left]. rewrite IH. f_equal. unfold dextend.
    now destruct (dget eqb (key a) d0).
  - intros a. reflexivity.
  - intros q a _. now rewrite map_app.
Qed.

Lemma first_seen_perm {K A} (eqb : K -> K -> bool) (eqb_eq : forall a b, eqb a b = true <-> a = b)
      (key : A -> K) (l : list A) :
  Permutation (flat_map (fun k => having eqb key k l) (first_seen eqb (List.map key l))) l.
Proof.
  assert (G : forall ks, NoDup ks -> (forall a, In a l -> In (key a) ks) ->
              Permutation (flat_map (fun k => having eqb key k l) ks) l).
  { clear - eqb_eq. induction l as [|s l IH]; intros ks N H.
    - clear. induction ks; simpl; auto.
    - assert (Hs : In (key s) ks) by (apply H; left; auto).
      assert (HC : forall k, having eqb key k (s :: l) = (if eqb (key s) k then [s] else []) ++ having eqb key k l).
      { intros k. unfold having. cbn [filter]. now destruct (eqb (key s) k). }
      assert (P : Permutation (flat_map (fun k => having eqb key k (s :: l)) ks)
                              (s :: flat_map (fun k => having eqb key k l) ks)).
      { clear IH H. induction ks as [|k ks IH]; [destruct Hs|].
        apply NoDup_cons_iff in N. destruct N as [N1 N2].
        cbn [flat_map]. rewrite HC. destruct (eqb (key s) k) eqn:E.
        - apply eqb_eq in E. subst k. cbn [app]. constructor. apply Permutation_app_head.
          apply Permutation_refl'. clear - N1 HC eqb_eq. induction ks as [|k ks IH]; auto. cbn [flat_map].
          rewrite HC. destruct (eqb (key s) k) eqn:E.
          + apply eqb_eq in E. subst. exfalso. apply N1. left; auto.
          + cbn [app]. rewrite IH; auto. intros X. apply N1. right; auto.
        - cbn [app]. rewrite IH; auto.
          + symmetry. apply Permutation_middle.
          + destruct Hs as [Hs|Hs]; auto. subst. assert (R : eqb (key s) (key s) = true) by now apply eqb_eq.
            congruence. }
      rewrite P. constructor. apply IH; auto. intros a Ha. apply H. right; auto. }
  apply G; [apply first_seen_NoDup; auto|].
  intros a Ha. apply first_seen_in; auto. apply in_map; auto.
Qed.

Lemma foldM_map_ok {A B S} (f : S -> B -> res S) (h : S -> A -> S) (g : A -> B) l :
  (forall s a, In a l -> f s (g a) = Ok (h s a)) ->
  forall s, foldM f s (List.map g l) = Ok (fold_left h l s).
Proof.
  induction l as [|a l IH]; intros H s; [reflexivity|]. cbn [List.map foldM fold_left].
  rewrite H by (left; auto). cbn [bind]. apply IH. intros s' a' Ha. apply H. right; auto.
Qed.

Lemma fold_left_filter {A S} (p : A -> bool) (h : S -> A -> S) l s :
  fold_left (fun s a => if p a then h s a else s) l s = fold_left h (filter p l) s.
Proof. revert s. induction l as [|a l IH]; intros s; auto. cbn [fold_left filter]. rewrite IH. now destruct (p a). Qed.

Lemma mapM_total {A B} (f : A -> res B) (g : A -> B) l :
  (forall a, In a l -> f a = Ok (g a)) -> mapM f l = Ok (List.map g l).
Proof.
  induction l as [|a l IH]; intros H; auto. cbn [mapM List.map]. rewrite H by (left; auto). cbn [bind].
  rewrite IH; auto. intros b Hb. apply H. right; auto.
Qed.
