From Coq Require Import Ascii DecimalString DecimalNat Lia List.
From Verif Require Import Py PyFacts Files FilesSpec.

(** ** Strings *)
Lemma append_nil s : (s ++ "")%string = s.
Proof. induction s as [| c s IH]; cbn; [| rewrite IH]; reflexivity. Qed.
Lemma append_assoc' a b c : ((a ++ b) ++ c = a ++ (b ++ c))%string.
Proof. induction a as [| x a IH]; cbn; [| rewrite IH]; reflexivity. Qed.
Lemma chars_app a b : chars (a ++ b) = chars a ++ chars b.
Proof. induction a as [| x a IH]; cbn; [| rewrite IH]; reflexivity. Qed.
Lemma chars_inj a : forall b, chars a = chars b -> a = b.
Proof. induction a as [| x a IH]; intros [| y b] H; cbn in H; try discriminate; [reflexivity |]. injection H as -> H. f_equal. auto. Qed.
Lemma append_inv_head a b c : (a ++ b = a ++ c)%string -> b = c.
Proof. induction a as [| x a IH]; cbn; [auto |]. intros H. injection H as H. auto. Qed.
Lemma append_inv_tail a b c : (a ++ c = b ++ c)%string -> a = b.
Proof. intros H. apply chars_inj. apply (f_equal chars) in H. rewrite !chars_app in H. exact (app_inv_tail _ _ _ H). Qed.
Lemma append_empty a b : (a ++ b = "")%string -> a = ""%string /\ b = ""%string.
Proof. destruct a; cbn; [auto | discriminate]. Qed.
Lemma no_char_app c a b : no_char c (a ++ b) <-> no_char c a /\ no_char c b.
Proof. unfold no_char. rewrite chars_app, in_app_iff. tauto. Qed.
Lemma no_char_cons c x s : no_char c (String x s) <-> x <> c /\ no_char c s.
Proof. unfold no_char. cbn. tauto. Qed.

(** ** Last dot *)
Lemma last_dot_some s : forall a b, last_dot s = Some (a, b) -> s = (a ++ b)%string /\ exists r, b = String "." r /\ no_char "." r.
Proof.
  induction s as [| c s IH]; cbn; [discriminate |]. intros a b. destruct (last_dot s) as [(a', b') |] eqn:E.
  - intros H. injection H as <- <-. destruct (IH _ _ eq_refl) as (-> & R). split; [reflexivity | exact R].
  - destruct (Ascii.eqb c ".") eqn:C; [| discriminate]. intros H. injection H as <- <-. apply Ascii.eqb_eq in C. subst c. split; [reflexivity |]. exists s. split; [reflexivity |].
    clear -E. induction s as [| c s IH]; [intros [] |]. cbn in E. destruct (last_dot s) as [[]|] eqn:D; [discriminate |]. destruct (Ascii.eqb c ".") eqn:C; [discriminate |].
    apply no_char_cons. split; [apply Ascii.eqb_neq; exact C | apply IH; reflexivity].
Qed.
Lemma last_dot_none s : last_dot s = None -> no_char "." s.
Proof.
  induction s as [| c s IH]; intros E; [intros [] |]. cbn in E. destruct (last_dot s) as [[]|] eqn:D; [discriminate |]. destruct (Ascii.eqb c ".") eqn:C; [discriminate |].
  apply no_char_cons. split; [apply Ascii.eqb_neq; exact C | apply IH; reflexivity].
Qed.
Lemma last_dot_of_none s : no_char "." s -> last_dot s = None.
Proof.
  induction s as [| c s IH]; intros H; [reflexivity |]. apply no_char_cons in H. destruct H as (N & H). cbn. rewrite (IH H). apply Ascii.eqb_neq in N. rewrite N. reflexivity.
Qed.
Lemma last_dot_of a r : no_char "." r -> last_dot (a ++ String "." r) = Some (a, String "." r).
Proof.
  intros H. induction a as [| c a IH]; cbn [append last_dot].
  - rewrite (last_dot_of_none r H). reflexivity.
  - rewrite IH. reflexivity.
Qed.

Lemma name_split_ok n : split_name n (fst (name_split n)) (snd (name_split n)).
Proof.
  unfold name_split. destruct (last_dot n) as [(a, b) |] eqn:E.
  - destruct (last_dot_some _ _ _ E) as (N & r & B & R). destruct (String.eqb a "" || String.eqb b ".") eqn:C; cbn [fst snd].
    + right. split; [reflexivity |]. split; [reflexivity |]. intros a' b' H (r' & -> & NE & R'). subst n. rewrite H in E. rewrite (last_dot_of a' r' R') in E. injection E as -> <-.
      apply orb_true_iff in C. destruct C as [C | C]; apply String.eqb_eq in C; [exact C |]. rewrite C in B. injection B as <-.
      clear -C NE. injection C as C. destruct (NE C).
    + left. apply orb_false_iff in C. destruct C as (C1 & C2). apply String.eqb_neq in C1. apply String.eqb_neq in C2. split; [exact N |]. split; [| exact C1].
      exists r. split; [exact B |]. split; [intros ->; apply C2; exact B | exact R].
  - right. cbn [fst snd]. split; [reflexivity |]. split; [reflexivity |]. intros a' b' H (r' & -> & NE & R'). apply last_dot_none in E. subst n. apply no_char_app in E. destruct E as (_ & E).
    apply no_char_cons in E. destruct E as (E & _). destruct (E eq_refl).
Qed.
Lemma split_name_det n a b a' b' : split_name n a b -> split_name n a' b' -> a = a' /\ b = b'.
Proof.
  intros [(E1 & S1 & N1) | (E1 & B1 & F1)] [(E2 & S2 & N2) | (E2 & B2 & F2)].
  - destruct S1 as (r1 & -> & _ & R1), S2 as (r2 & -> & _ & R2). assert (H := last_dot_of a r1 R1). rewrite <- E1, E2, (last_dot_of a' r2 R2) in H. injection H as -> ->. auto.
  - destruct (N1 (F2 _ _ E1 S1)).
  - destruct (N2 (F1 _ _ E2 S2)).
  - subst. auto.
Qed.
Lemma name_split_app n : (fst (name_split n) ++ snd (name_split n))%string = n.
Proof. destruct (name_split_ok n) as [(E & _) | (E & -> & _)]; [auto |]. rewrite append_nil. exact E. Qed.

(** ** Parsing *)
Lemma split_nonempty s : split_slash s <> [].
Proof. induction s as [| c s IH]; [discriminate |]. cbn [split_slash]. destruct (split_slash s); [congruence |]. destruct (Ascii.eqb c "/"); discriminate. Qed.
Lemma split_no_slash s : Forall (no_char "/") (split_slash s).
Proof.
  induction s as [| c s IH]; cbn [split_slash]; [constructor; [intros [] | constructor] |]. destruct (split_slash s) as [| w l]; [constructor |]. apply Forall_cons_iff in IH. destruct IH as (W & L).
  destruct (Ascii.eqb c "/") eqn:E.
  - constructor; [intros [] | constructor; assumption].
  - constructor; [| exact L]. apply no_char_cons. split; [apply Ascii.eqb_neq; exact E | exact W].
Qed.
Lemma split_single w : no_char "/" w -> split_slash w = [w].
Proof. induction w as [| c w IH]; intros H; [reflexivity |]. apply no_char_cons in H. destruct H as (N & H). cbn. rewrite (IH H). apply Ascii.eqb_neq in N. rewrite N. reflexivity. Qed.
Lemma split_cons w s : no_char "/" w -> split_slash (w ++ String "/" s) = w :: split_slash s.
Proof.
  induction w as [| c w IH]; intros H.
  - cbn [append split_slash]. destruct (split_slash s) eqn:E; [destruct (split_nonempty s E) | reflexivity].
  - apply no_char_cons in H. destruct H as (N & H). cbn [append split_slash]. rewrite (IH H). apply Ascii.eqb_neq in N. rewrite N. reflexivity.
Qed.
Lemma split_concat l : Forall (no_char "/") l -> l <> [] -> split_slash (String.concat "/" l) = l.
Proof.
  induction l as [| w l IH]; intros F N; [congruence |]. apply Forall_cons_iff in F. destruct F as (W & F). destruct l as [| w' l].
  - cbn. apply split_single. exact W.
  - change (String.concat "/" (w :: w' :: l)) with (w ++ String "/" (String.concat "/" (w' :: l)))%string. rewrite split_cons by exact W. f_equal. apply IH; [exact F | discriminate].
Qed.
Lemma kept_good w : no_char "/" w -> kept_part w = true <-> good_part w.
Proof.
  intros S. unfold kept_part, good_part. rewrite negb_true_iff, orb_false_iff, !String.eqb_neq. tauto.
Qed.
Lemma path_of_good s : good_path (path_of s).
Proof.
  split.
  - unfold path_of, root_of. cbn [p_root]. repeat (match goal with |- context [match ?x with _ => _ end] => destruct x end; cbn; auto).
  - cbn [path_of p_parts]. apply Forall_forall. intros w H. apply filter_In in H. destruct H as (I & K). apply kept_good; [| exact K]. assert (F := split_no_slash s). rewrite Forall_forall in F. auto.
Qed.
Lemma filter_kept l : Forall good_part l -> filter kept_part l = l.
Proof. induction 1 as [| w l G F IH]; [reflexivity |]. cbn. replace (kept_part w) with true by (symmetry; apply kept_good; apply G || exact G). rewrite IH. reflexivity. Qed.
Lemma good_slash l : Forall good_part l -> Forall (no_char "/") l.
Proof. apply Forall_impl. intros w G. apply G. Qed.
Lemma root_plain w l : good_part w -> root_of (String.concat "/" (w :: l)) = ""%string.
Proof.
  intros (N & _ & S). destruct w as [| c w]; [congruence |]. apply no_char_cons in S. destruct S as (S & _).
  assert (E : exists t, String.concat "/" (String c w :: l) = String c t).
  { destruct l; cbn; eexists; reflexivity. }
  destruct E as (t & ->). unfold root_of. destruct c as [[] [] [] [] [] [] [] []]; try reflexivity. congruence.
Qed.
(** Reading the text of a path gives the path. *)
Lemma path_str_of p : good_path p -> path_of (path_str p) = p.
Proof.
  destruct p as [r l]. intros (R & F). cbn [p_root p_parts] in *. unfold path_str. cbn [p_root p_parts].
  assert (L : forall l, Forall good_part l -> filter kept_part (split_slash (String.concat "/" l)) = l).
  { intros [| w l'] G; [reflexivity |]. rewrite split_concat; [apply filter_kept; exact G | apply good_slash; exact G | discriminate]. }
  destruct R as [<- | [<- | [<- | []]]].
  - destruct l as [| w l]; [reflexivity |]. cbn [append]. unfold path_of. rewrite L by exact F. apply Forall_cons_iff in F. rewrite root_plain by apply F. reflexivity.
  - unfold path_of. change ("/" ++ String.concat "/" l)%string with ("" ++ String "/" (String.concat "/" l))%string. rewrite split_cons by (intros []). cbn [filter kept_part String.eqb negb orb].
    rewrite L by exact F. f_equal. destruct l as [| w l]; [reflexivity |]. apply Forall_cons_iff in F. destruct F as (F & _). assert (Q := root_plain w l F).
    cbn [append]. destruct (String.concat "/" (w :: l)) as [| c t]; [reflexivity |]. destruct c as [[] [] [] [] [] [] [] []]; try reflexivity. exfalso. clear -Q. destruct t as [| c t]; [discriminate |]. destruct c as [[] [] [] [] [] [] [] []]; try discriminate. destruct t as [| c t]; [discriminate |]. destruct c as [[] [] [] [] [] [] [] []]; discriminate.
  - unfold path_of. change ("//" ++ String.concat "/" l)%string with ("" ++ String "/" ("" ++ String "/" (String.concat "/" l)))%string. rewrite !split_cons by (intros []). cbn [filter kept_part String.eqb negb orb].
    rewrite L by exact F. f_equal. destruct l as [| w l]; [reflexivity |]. apply Forall_cons_iff in F. destruct F as (F & _). assert (Q := root_plain w l F).
    cbn [append]. destruct (String.concat "/" (w :: l)) as [| c t]; [reflexivity |]. destruct c as [[] [] [] [] [] [] [] []]; try reflexivity. exfalso. clear -Q. destruct t as [| c t]; [discriminate |]. destruct c as [[] [] [] [] [] [] [] []]; try discriminate. destruct t as [| c t]; [discriminate |]. destruct c as [[] [] [] [] [] [] [] []]; discriminate.
Qed.
Lemma path_str_inj p q : good_path p -> good_path q -> path_str p = path_str q -> p = q.
Proof. intros P Q H. rewrite <- (path_str_of p P), <- (path_str_of q Q), H. reflexivity. Qed.

(** ** Names in a folder *)
Lemma path_of_part w : good_part w -> path_of w = Path_ "" [w].
Proof.
  intros G. unfold path_of. assert (R := root_plain w [] G). cbn in R. rewrite R. rewrite split_single by apply G. cbn [filter]. replace (kept_part w) with true by (symmetry; apply kept_good; apply G || exact G). reflexivity.
Qed.
Lemma join_part d w : good_part w -> path_join d (path_of w) = Path_ (p_root d) (p_parts d ++ [w]).
Proof. intros G. rewrite (path_of_part w G). reflexivity. Qed.
Lemma parent_good p : good_path p -> good_path (path_parent p).
Proof.
  intros (R & F). split; [exact R |]. cbn [path_parent p_parts]. clear R. induction F as [| w l G F IH]; [constructor |]. destruct l; [constructor |]. cbn. constructor; [exact G | exact IH].
Qed.
Lemma name_good p : good_path p -> p_parts p <> [] -> good_part (path_name p).
Proof. intros (_ & F) N. unfold path_name. rewrite Forall_forall in F. apply F. destruct (exists_last N) as (l & w & ->). rewrite last_last. apply in_or_app. right. left. reflexivity. Qed.
Lemma parent_name p : p_parts p <> [] -> p_parts p = p_parts (path_parent p) ++ [path_name p].
Proof. intros N. cbn. apply app_removelast_last. exact N. Qed.
Lemma name_snoc r l w : path_name (Path_ r (l ++ [w])) = w.
Proof. unfold path_name. cbn. apply last_last. Qed.
Lemma removelast_snoc {A} (l : list A) w : List.removelast (l ++ [w]) = l.
Proof. apply removelast_last. Qed.

(** ** Numbers *)
Lemma dec_inj n m : dec n = dec m -> n = m.
Proof.
  intros H. unfold dec in H. assert (U : forall k, NilZero.uint_of_string (NilZero.string_of_uint (Nat.to_uint k)) = Some (Nat.to_uint k)).
  { intros k. apply NilZero.usu. intros E. destruct k as [| k]; [discriminate E |]. assert (Q := DecimalNat.Unsigned.of_to (S k)). rewrite E in Q. discriminate Q. }
  assert (E : Some (Nat.to_uint n) = Some (Nat.to_uint m)) by (rewrite <- !U, H; reflexivity). injection E as E. rewrite <- (DecimalNat.Unsigned.of_to n), E. apply DecimalNat.Unsigned.of_to.
Qed.
Lemma uint_digits u : Forall digits (chars (NilEmpty.string_of_uint u)).
Proof. induction u; cbn; constructor; try assumption; unfold digits; cbn; tauto. Qed.
Lemma dec_digits n : Forall digits (chars (dec n)).
Proof. unfold dec, NilZero.string_of_uint. destruct (Nat.to_uint n) eqn:E; try apply uint_digits. repeat constructor. Qed.
Lemma dec_no c n : ~ digits c -> no_char c (dec n).
Proof. intros N I. assert (F := dec_digits n). rewrite Forall_forall in F. exact (N (F _ I)). Qed.
Ltac nodigit := unfold digits; cbn; intuition discriminate.

Lemma split_chars n a b c : split_name n a b -> no_char c n -> no_char c a /\ no_char c b.
Proof.
  intros [(-> & _) | (-> & -> & _)] H; [apply no_char_app in H; exact H |]. split; [exact H | intros []].
Qed.
(** The numbered name. *)
Definition num_name (p : path) (i : nat) : string := (path_stem p ++ "(" ++ dec i ++ ")" ++ path_suffix p)%string.
Lemma num_name_good p i : good_path p -> good_part (num_name p i).
Proof.
  intros G. unfold num_name. split; [| split].
  - intros E. apply append_empty in E. destruct E as (_ & E). discriminate.
  - intros E. assert (I : In "("%char (chars ".")) by (rewrite <- E, chars_app; apply in_or_app; right; left; reflexivity). cbn in I. intuition discriminate.
  - assert (S : no_char "/" (path_name p)).
    { destruct (p_parts p) as [| w l] eqn:E; [unfold path_name; rewrite E; intros [] |]. apply name_good; [exact G | rewrite E; discriminate]. }
    destruct (split_chars _ _ _ "/"%char (name_split_ok (path_name p)) S) as (S1 & S2).
    rewrite !no_char_app. split; [exact S1 |]. split; [cbn; intros [E | []]; discriminate E |]. split; [apply dec_no; nodigit |]. split; [cbn; intros [E | []]; discriminate E | exact S2].
Qed.
Lemma numbered_eq p i : good_path p -> numbered p i = Path_ (p_root p) (List.removelast (p_parts p) ++ [num_name p i]).
Proof. intros G. unfold numbered. fold (num_name p i). rewrite join_part by (apply num_name_good; exact G). reflexivity. Qed.
Lemma num_name_inj p i j : num_name p i = num_name p j -> i = j.
Proof.
  unfold num_name. intros H. apply append_inv_head in H. apply append_inv_head in H. apply append_inv_tail in H. apply dec_inj. exact H.
Qed.
Lemma numbered_good p i : good_path p -> good_path (numbered p i).
Proof.
  intros G. rewrite numbered_eq by exact G. split; [apply G |]. cbn [p_parts]. apply Forall_app. split; [apply (parent_good p G) |]. constructor; [apply num_name_good; exact G | constructor].
Qed.
Lemma numbered_inj p i j : good_path p -> path_str (numbered p i) = path_str (numbered p j) -> i = j.
Proof.
  intros G H. apply path_str_inj in H; [| apply numbered_good; exact G | apply numbered_good; exact G]. rewrite !numbered_eq in H by exact G. injection H as H. apply app_inv_head in H. injection H as H. exact (num_name_inj p i j H).
Qed.

(** ** The loop *)
(** The names in the order in which they are tried. *)
Definition candidate (p : path) (i : nat) : path := match i with O => p | S _ => numbered p i end.
Lemma safe_loop_ok ex p : forall fuel i n, (i <= n)%nat -> (n - i <= fuel)%nat -> ex (path_str (candidate p n)) = false ->
  (forall k, (i <= k < n)%nat -> ex (path_str (candidate p k)) = true) ->
  safe_loop fuel ex p (candidate p i) i = Ok (candidate p n, (0 <? n)%nat).
Proof.
  induction fuel as [| fuel IH]; intros i n L B F T.
  - assert (i = n) by lia. subst i. cbn [safe_loop]. rewrite F. reflexivity.
  - cbn [safe_loop]. destruct (Nat.eq_dec i n) as [-> | NE]; [rewrite F; reflexivity |]. rewrite (T i) by lia.
    change (numbered p (S i)) with (candidate p (S i)). apply IH; [lia | lia | exact F |]. intros k K. apply T. lia.
Qed.
Lemma least_free ex p n : ex (path_str (candidate p n)) = false ->
  exists m, (m <= n)%nat /\ ex (path_str (candidate p m)) = false /\ forall k, (k < m)%nat -> ex (path_str (candidate p k)) = true.
Proof.
  intros H. assert (Q : forall b, (exists m, (m <= b)%nat /\ ex (path_str (candidate p m)) = false /\ forall k, (k < m)%nat -> ex (path_str (candidate p k)) = true) \/ (forall k, (k <= b)%nat -> ex (path_str (candidate p k)) = true)).
  { induction b as [| b IH].
    - destruct (ex (path_str (candidate p 0))) eqn:E; [right; intros k K; replace k with 0%nat by lia; exact E | left; exists 0%nat; repeat split; [lia | exact E | lia]].
    - destruct IH as [(m & M1 & M2 & M3) | A]; [left; exists m; repeat split; auto; lia |].
      destruct (ex (path_str (candidate p (S b)))) eqn:E; [right; intros k K; destruct (Nat.eq_dec k (S b)) as [-> | NE]; [exact E | apply A; lia] |].
      left. exists (S b). repeat split; [lia | exact E |]. intros k K. apply A. lia. }
  destruct (Q n) as [X | X]; [exact X |]. rewrite (X n) in H by lia. discriminate.
Qed.
(** One of the numbered names is free. *)
Lemma free_number ex (l : list string) p : good_path p -> (forall s, ex s = true -> In s l) ->
  exists n, (n <= List.length l + 1)%nat /\ ex (path_str (candidate p n)) = false.
Proof.
  intros G F. set (c := List.map (fun i => path_str (numbered p i)) (seq 1 (List.length l + 1))).
  destruct (forallb ex c) eqn:E.
  - exfalso. assert (N : NoDup c).
    { unfold c. apply NoDup_map_inj_in; [intros i j _ _ Q; exact (numbered_inj p i j G Q) | apply seq_NoDup]. }
    assert (I : incl c l) by (intros s S; rewrite forallb_forall in E; auto).
    assert (L := NoDup_incl_length N I). unfold c in L. rewrite map_length, seq_length in L. lia.
  - assert (X : exists s, In s c /\ ex s = false).
    { clear -E. induction c as [| s c IH]; [discriminate |]. cbn in E. destruct (ex s) eqn:S; [destruct (IH E) as (t & T & U); exists t; split; [right; exact T | exact U] | exists s; split; [left; reflexivity | exact S]]. }
    destruct X as (s & S & X). unfold c in S. apply in_map_iff in S. destruct S as (i & <- & S). apply in_seq in S. exists i. split; [lia |]. destruct i; [lia | exact X].
Qed.
