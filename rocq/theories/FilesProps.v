(** * Properties C45 (safe output names) and C47 (path manipulation). *)
From Coq Require Import Ascii DecimalString DecimalNat Lia List.
From Verif Require Import Py PyFacts Files FilesSpec FilesProofs.

Ltac nochars := unfold no_char; cbn; intuition discriminate.
(** The decimal numeral of [n], from the standard library. *)
Notation numeral n := (NilZero.string_of_uint (Nat.to_uint n)).

(** The path [p] is the file [nm] of folder [d]; the paths without components are their own folder. *)
Definition located_at (d : path) (nm : string) (p : path) : Prop := in_dir d nm p \/ (p_parts p = [] /\ d = p /\ nm = ""%string).

Lemma located_parent d nm p : located_at d nm p -> path_name p = nm /\ p_root p = p_root d /\ List.removelast (p_parts p) = p_parts d.
Proof.
  intros [(R & P) | (E & -> & ->)].
  - unfold path_name. rewrite P, last_last, removelast_last. auto.
  - unfold path_name. rewrite E. auto.
Qed.

(** C45: on a file system with finitely many names, [find_safe_newfile] ends, with a free name: the
    given one if it is free, otherwise that of the smallest free number, in the same folder. *)
Theorem C45_safe_name ex names fuel p d nm a b :
  good_path p -> located_at d nm p -> split_name nm a b ->
  (forall s, ex s = true -> In s names) -> (List.length names + 1 <= fuel)%nat ->
  exists q changed, find_safe_newfile fuel ex p = Ok (q, changed) /\ good_path q /\ ex (path_str q) = false /\
    (changed = false -> q = p) /\ (changed = true <-> ex (path_str p) = true) /\
    (changed = true -> exists n, (1 <= n)%nat /\ in_dir d (a ++ "(" ++ numeral n ++ ")" ++ b) q /\
       forall k r, (1 <= k < n)%nat -> in_dir d (a ++ "(" ++ numeral k ++ ")" ++ b) r -> ex (path_str r) = true).
Proof.
  intros G L S F B. destruct (located_parent d nm p L) as (NM & R & RL).
  destruct (free_number ex names p G F) as (n0 & L0 & F0). destruct (least_free ex p n0 F0) as (n & LE & FR & T).
  exists (candidate p n), (0 <? n)%nat. assert (S2 := name_split_ok (path_name p)). rewrite NM in S2. destruct (split_name_det _ _ _ _ _ S S2) as (EA & EB).
  assert (NN : forall k, num_name p k = (a ++ "(" ++ numeral k ++ ")" ++ b)%string) by (intros k; unfold num_name, path_stem, path_suffix; rewrite NM, <- EA, <- EB; reflexivity).
  split; [| split; [| split; [exact FR | split; [| split]]]].
  - apply (safe_loop_ok ex p fuel 0 n); [lia | lia | exact FR | intros k K; apply T; lia].
  - destruct n; [exact G | apply numbered_good; exact G].
  - destruct n; [reflexivity | discriminate].
  - destruct n as [| n]; [cbn in FR |- *; rewrite FR; split; discriminate |]. split; [intros _; apply (T 0%nat); lia | reflexivity].
  - intros C. exists n. destruct n as [| n]; [discriminate |]. split; [lia |]. split.
    + unfold candidate. rewrite numbered_eq by exact G. split; [exact R |]. cbn [p_parts]. rewrite RL, NN. reflexivity.
    + intros k r K (R1 & P1). specialize (T k ltac:(lia)). destruct k as [| k]; [lia |]. unfold candidate in T. rewrite numbered_eq in T by exact G. rewrite RL, R, NN in T.
      destruct r as [rr rp]. cbn [p_root p_parts] in *. subst rr rp. exact T.
Qed.
Print Assumptions C45_safe_name.

(** The new name keeps the suffix, unless the requested name ends with a dot. *)
Theorem C45_suffix nm a b n : split_name nm a b -> (forall a', nm <> (a' ++ ".")%string) ->
  split_name (a ++ "(" ++ numeral n ++ ")" ++ b) (a ++ "(" ++ numeral n ++ ")") b.
Proof.
  intros S D. assert (DN : no_char "." (numeral n)) by (apply (dec_no "."%char n); nodigit).
  assert (PN : no_char "." ("(" ++ numeral n ++ ")")).
  { rewrite !no_char_app. split; [nochars |]. split; [exact DN | nochars]. }
  destruct S as [(E & SB & NA) | (-> & -> & F)].
  - left. split; [rewrite !append_assoc'; reflexivity |]. split; [exact SB |]. intros Q. apply append_empty in Q. destruct Q as (Q & _). exact (NA Q).
  - right. rewrite append_nil. split; [reflexivity |]. split; [reflexivity |]. intros a' b' H (r & -> & NE & R). destruct (last_dot nm) as [(x, y) |] eqn:LD.
    + destruct (last_dot_some _ _ _ LD) as (E & r' & -> & R'). assert (X : x = ""%string).
      { destruct r' as [| c r']; [destruct (D x E) |]. apply (F x _ E). eexists. split; [reflexivity |]. split; [discriminate | exact R']. }
      subst x. cbn [append] in E. subst nm.
      assert (Q := last_dot_of a' r R). rewrite <- H in Q.
      assert (R2 : no_char "." (r' ++ "(" ++ numeral n ++ ")")) by (apply no_char_app; split; [exact R' | exact PN]).
      assert (Q2 := last_dot_of "" (r' ++ "(" ++ numeral n ++ ")") R2). cbn [append] in Q2, Q. rewrite Q2 in Q. injection Q as <- _. reflexivity.
    + apply last_dot_none in LD. assert (X : no_char "." (nm ++ "(" ++ numeral n ++ ")")) by (apply no_char_app; split; [exact LD | exact PN]).
      rewrite H in X. apply no_char_app in X. destruct X as (_ & X). apply no_char_cons in X. destruct X as (X & _). destruct (X eq_refl).
Qed.
Print Assumptions C45_suffix.
(** With a dot at the end the number itself becomes the suffix. *)
Theorem C45_last_dot x n : x <> ""%string -> split_name (x ++ ".") (x ++ ".") "" /\
  split_name ((x ++ ".") ++ "(" ++ numeral n ++ ")") x ("." ++ "(" ++ numeral n ++ ")").
Proof.
  intros NX. split.
  - right. split; [reflexivity |]. split; [reflexivity |]. intros a' b' H (r & -> & NE & R). assert (Q := last_dot_of a' r R). rewrite <- H in Q.
    assert (Q2 := last_dot_of x "" (fun f => f)). cbn [append] in Q2. rewrite Q2 in Q. injection Q as _ Q. congruence.
  - left. split; [rewrite append_assoc'; reflexivity |]. split; [| exact NX]. eexists. split; [reflexivity |]. split; [discriminate |].
    rewrite !no_char_app. split; [nochars |]. split; [apply (dec_no "."%char n); nodigit | nochars].
Qed.
Print Assumptions C45_last_dot.

(** C47: [change_dir] keeps the name, [remove_dir] is [change_dir] to the empty name, the folder of
    the program. *)
Theorem C47_change_dir newdir p d nm : good_path p -> in_dir d nm p -> in_dir (path_of newdir) nm (change_dir newdir p).
Proof.
  intros G I. destruct (located_parent d nm p (or_introl I)) as (NM & _ & _). destruct I as (_ & P).
  assert (GN : good_part nm) by (rewrite <- NM; apply name_good; [exact G | rewrite P; destruct (p_parts d); discriminate]).
  unfold change_dir. rewrite NM, join_part by exact GN. split; reflexivity.
Qed.
Theorem C47_remove_dir p d nm : good_path p -> in_dir d nm p ->
  in_dir (Path_ "" []) nm (remove_dir p) /\ remove_dir p = change_dir "" p /\ remove_dir p = change_dir "." p.
Proof.
  intros G I. destruct (located_parent d nm p (or_introl I)) as (NM & _ & _). destruct I as (_ & P).
  assert (GN : good_part nm) by (rewrite <- NM; apply name_good; [exact G | rewrite P; destruct (p_parts d); discriminate]).
  unfold remove_dir, change_dir. rewrite NM, !join_part, path_of_part by exact GN. split; [split; reflexivity | split; reflexivity].
Qed.
(** [change_suffix] changes the suffix and nothing else. *)
Definition valid_ext (ext : string) : Prop := no_char "/" ext /\ (ext = ""%string \/ exists r, ext = String "." r /\ r <> ""%string).
Theorem C47_change_suffix ext p d nm a b : good_path p -> in_dir d nm p -> split_name nm a b -> valid_ext ext ->
  exists q, change_suffix ext p = Ok q /\ in_dir d (a ++ ext) q /\ (ext <> ""%string -> good_path q).
Proof.
  intros G I S (NS & V). destruct (located_parent d nm p (or_introl I)) as (NM & RT & RL). assert (P : p_parts p <> []) by (destruct I as (_ & ->); destruct (p_parts d); discriminate).
  assert (GN : good_part nm) by (rewrite <- NM; apply name_good; assumption).
  assert (S2 := name_split_ok (path_name p)). rewrite NM in S2. destruct (split_name_det _ _ _ _ _ S S2) as (EA & EB).
  eexists. split.
  - unfold change_suffix, with_suffix. replace (has_slash ext) with false.
    + cbn [orb]. assert (E : negb (String.eqb ext "") && negb (dotted ext) = false /\ String.eqb ext "." = false).
      { destruct V as [-> | (r & -> & NR)]; [split; reflexivity |]. split; [reflexivity |]. apply String.eqb_neq. congruence. }
      destruct E as (-> & ->). cbn [orb]. rewrite NM. replace (String.eqb nm "") with false by (symmetry; apply String.eqb_neq; apply GN). unfold path_stem. rewrite NM, <- EA, RL, RT. reflexivity.
    + symmetry. clear -NS. induction ext as [| c ext IH]; [reflexivity |]. apply no_char_cons in NS. destruct NS as (N & NS). cbn. apply Ascii.eqb_neq in N. rewrite N. apply IH. exact NS.
  - split; [split; reflexivity |]. intros NE. destruct V as [E | (r & E & NR)]; [congruence |]. split; [cbn [p_root]; rewrite <- RT; apply G |]. cbn [p_parts]. apply Forall_app. split.
    + rewrite <- RL. apply (parent_good p G).
    + constructor; [| constructor]. destruct (split_chars _ _ _ "/"%char S (proj2 (proj2 GN))) as (SA & _). split; [| split; [| apply no_char_app; auto]].
      * intros Q. apply append_empty in Q. destruct Q as (_ & Q). congruence.
      * intros Q. assert (NA : a <> ""%string) by (destruct S as [(_ & _ & N) | (-> & _)]; [exact N | apply GN]). destruct a as [| c a]; [congruence |]. cbn in Q. injection Q as _ Q. apply append_empty in Q. destruct Q as (_ & Q). congruence.
Qed.
(** It refuses what is no suffix, and paths without a name; both with ValueError. *)
Theorem C47_refused ext p : good_path p -> (forall q, change_suffix ext p <> Ok q) <-> ~ valid_ext ext \/ p_parts p = [].
Proof.
  intros G. split.
  - intros H. destruct (p_parts p) as [| w l] eqn:P; [right; reflexivity |]. left. intros V.
    assert (I : in_dir (path_parent p) (path_name p) p) by (split; [reflexivity |]; apply parent_name; rewrite P; discriminate).
    destruct (C47_change_suffix ext p _ _ _ _ G I (name_split_ok _) V) as (q & Q & _). exact (H q Q).
  - intros [H | H] q E; unfold change_suffix, with_suffix in E.
    + apply H. destruct (has_slash ext) eqn:HS; [discriminate |]. cbn [orb] in E.
      assert (NS : no_char "/" ext).
      { clear -HS. induction ext as [| c ext IH]; [intros [] |]. cbn in HS. apply orb_false_iff in HS. destruct HS as (C & HS). apply no_char_cons. split; [apply Ascii.eqb_neq; exact C | auto]. }
      split; [exact NS |]. destruct ext as [| c ext]; [left; reflexivity |]. right. destruct (dotted (String c ext)) eqn:D; [| discriminate E].
      assert (c = "."%char) by (unfold dotted in D; destruct c as [[] [] [] [] [] [] [] []]; try discriminate; reflexivity). subst c. exists ext. split; [reflexivity |]. intros ->. discriminate E.
    + unfold path_name in E. rewrite H in E. cbn [List.last String.eqb] in E. destruct (has_slash ext || (negb (String.eqb ext "") && negb (dotted ext)) || String.eqb ext "."); discriminate.
Qed.
Theorem C47_refused_error ext p e : change_suffix ext p = Err e -> e = ValueError.
Proof.
  unfold change_suffix, with_suffix. intros E. destruct (has_slash ext || (negb (String.eqb ext "") && negb (dotted ext)) || String.eqb ext "."); [congruence |]. destruct (String.eqb (path_name p) ""); congruence.
Qed.
(** Doing it twice changes nothing more when there is one dot in the suffix; it does with two. *)
Theorem C47_idempotent ext p q : good_path p -> a_suffix ext -> change_suffix ext p = Ok q -> change_suffix ext q = Ok q.
Proof.
  intros G SX E. destruct SX as (r & -> & NR & R).
  assert (NS : p_parts p <> []).
  { intros Q. apply (proj2 (C47_refused (String "." r) p G) (or_intror Q) q E). }
  assert (V : valid_ext (String "." r)).
  { destruct (has_slash (String "." r)) eqn:HS; [unfold change_suffix, with_suffix in E; rewrite HS in E; discriminate |]. split; [| right; eauto].
    clear -HS. induction (String "." r) as [| c s IH]; [intros [] |]. cbn in HS. apply orb_false_iff in HS. destruct HS as (C & HS). apply no_char_cons. split; [apply Ascii.eqb_neq; exact C | auto]. }
  assert (I : in_dir (path_parent p) (path_name p) p) by (split; [reflexivity |]; apply parent_name; exact NS).
  assert (S := name_split_ok (path_name p)).
  destruct (C47_change_suffix _ p _ _ _ _ G I S V) as (q' & E' & I' & G'). rewrite E in E'. injection E' as <-. specialize (G' ltac:(discriminate)).
  assert (GN := name_good p G NS). assert (NA : fst (name_split (path_name p)) <> ""%string) by (destruct S as [(_ & _ & N) | (-> & _)]; [exact N | apply GN]).
  assert (S' : split_name (fst (name_split (path_name p)) ++ String "." r) (fst (name_split (path_name p))) (String "." r)).
  { left. split; [reflexivity |]. split; [exists r; auto | exact NA]. }
  destruct (C47_change_suffix _ q _ _ _ _ G' I' S' V) as (q2 & E2 & I2 & _). rewrite E2. f_equal. destruct I' as (A1 & A2), I2 as (B1 & B2). destruct q, q2. cbn in *. congruence.
Qed.
Theorem C47_two_dots s1 s2 p d nm a b : good_path p -> in_dir d nm p -> split_name nm a b -> a_suffix s1 -> a_suffix s2 -> no_char "/" (s1 ++ s2) ->
  exists q q', change_suffix (s1 ++ s2) p = Ok q /\ change_suffix (s1 ++ s2) q = Ok q' /\ in_dir d (a ++ s1 ++ s1 ++ s2) q' /\ q' <> q.
Proof.
  intros G I S X1 X2 NS. destruct (located_parent d nm p (or_introl I)) as (NM & RT & RL). assert (P : p_parts p <> []) by (destruct I as (_ & ->); destruct (p_parts d); discriminate).
  assert (GN : good_part nm) by (rewrite <- NM; apply name_good; assumption).
  assert (V : valid_ext (s1 ++ s2)). { destruct X1 as (r & -> & N & _). split; [exact NS |]. right. eexists. split; [reflexivity |]. destruct r; [congruence | discriminate]. }
  destruct (C47_change_suffix _ p _ _ _ _ G I S V) as (q & E & IQ & GQ).
  assert (NE : (s1 ++ s2)%string <> ""%string) by (destruct X1 as (r & -> & _); discriminate). specialize (GQ NE).
  assert (NA : a <> ""%string) by (destruct S as [(_ & _ & N) | (-> & _)]; [exact N | apply GN]).
  assert (SQ : split_name (a ++ s1 ++ s2) (a ++ s1) s2).
  { left. split; [rewrite append_assoc'; reflexivity |]. split; [exact X2 |]. intros Q. apply append_empty in Q. destruct Q as (Q & _). exact (NA Q). }
  destruct (C47_change_suffix _ q _ _ _ _ GQ IQ SQ V) as (q' & E' & IQ' & _). exists q, q'. split; [exact E |]. split; [exact E' |]. rewrite append_assoc' in IQ'. split; [exact IQ' |].
  intros ->. destruct IQ as (_ & A), IQ' as (_ & B). rewrite A in B. apply app_inv_head in B. injection B as B. apply append_inv_head in B. apply append_inv_head in B.
  destruct X1 as (r & -> & _). clear -B. apply (f_equal (fun s => List.length (chars s))) in B. cbn [append] in B. cbn [chars List.length] in B. rewrite chars_app, app_length in B. lia.
Qed.
Print Assumptions C47_change_dir.
Print Assumptions C47_remove_dir.
Print Assumptions C47_change_suffix.
Print Assumptions C47_refused.
Print Assumptions C47_refused_error.
Print Assumptions C47_idempotent.
Print Assumptions C47_two_dots.
(** Every path of the program satisfies the condition on paths used above, and its text stands for it. *)
Theorem C47_paths s p : good_path (path_of s) /\ (good_path p -> path_of (path_str p) = p).
Proof. split; [apply path_of_good | apply path_str_of]. Qed.
Print Assumptions C47_paths.

(** ** Concrete cases *)
Definition ex_files (s : string) : bool := existsb (String.eqb s) ["run/mesh.ic3"; "run/mesh(1).ic3"; "run/mesh(3).ic3"]%string.
Example c45_case : let p := path_of "run//./mesh.ic3" in
  good_path p /\ located_at (path_of "run") "mesh.ic3" p /\ split_name "mesh.ic3" "mesh" ".ic3" /\
  (forall s, ex_files s = true -> In s ["run/mesh.ic3"; "run/mesh(1).ic3"; "run/mesh(3).ic3"]%string) /\
  find_safe_newfile 4 ex_files p = Ok (path_of "run/mesh(2).ic3", true).
Proof.
  cbv zeta. split; [apply path_of_good |]. split; [left; split; reflexivity |]. split; [exact (name_split_ok "mesh.ic3") |]. split; [| reflexivity].
  intros s H. apply existsb_exists in H. destruct H as (t & I & E). apply String.eqb_eq in E. subst t. exact I.
Qed.
Example c47_case : path_str (change_dir "/out/x/" (path_of "a/b.tar.gz")) = "/out/x/b.tar.gz"%string /\
  change_suffix ".ic3" (path_of "a/b.tar.gz") = Ok (path_of "a/b.tar.ic3") /\ change_suffix "ic3" (path_of "a/b") = Err ValueError /\
  in_dir (path_of "a") "b.tar.gz" (path_of "a/b.tar.gz") /\ valid_ext ".ic3" /\ a_suffix ".ic3".
Proof.
  split; [reflexivity |]. split; [reflexivity |]. split; [reflexivity |]. split; [split; reflexivity |].
  split; [split; [nochars | right; eexists; split; [reflexivity | discriminate]] |]. exists "ic3"%string. split; [reflexivity |]. split; [discriminate | nochars].
Qed.
