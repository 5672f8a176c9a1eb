(** * Proofs about command lines *)
From Verif Require Export CmdLineSpec.
From Coq Require Import Ascii Lia.
Local Open Scope string_scope.

Lemma obind_done {A B} (x : outcome A) (k : A -> outcome B) b : obind x k = Done b -> exists a, x = Done a /\ k a = Done b.
Proof. destruct x; cbn; intros H; try discriminate. eauto. Qed.
Lemma obind_ext {A B} (x : outcome A) (k k' : A -> outcome B) : (forall a, x = Done a -> k a = k' a) -> obind x k = obind x k'.
Proof. destruct x; cbn; auto. Qed.

(** ** Words *)
Lemma digits_all s : digits s -> all_digits s = true /\ drop_digits s = "".
Proof.
  intros (_ & H). induction s as [|c s IH]; [split; reflexivity|]. cbn in *.
  assert (Hc : is_digit c = true). { unfold is_digit. specialize (H c (or_introl eq_refl)). apply andb_true_intro. split; apply Nat.leb_le; lia. }
  rewrite Hc. apply IH. intros c' Hc'. apply H. now right.
Qed.
Lemma digits_app a r : (a = "" \/ digits a) -> drop_digits (a ++ String "." r) = String "." r.
Proof.
  intros [->|(_ & H)]; [reflexivity|]. induction a as [|c s IH]; [reflexivity|]. cbn in *.
  assert (Hc : is_digit c = true). { unfold is_digit. specialize (H c (or_introl eq_refl)). apply andb_true_intro. split; apply Nat.leb_le; lia. }
  rewrite Hc. apply IH. intros c' Hc'. apply H. now right.
Qed.
Lemma nonempty_digits s : digits s -> nonempty s = true.
Proof. intros (H & _). destruct s; [congruence|reflexivity]. Qed.
Lemma negative_number_true s : negative s -> negative_number s = true.
Proof.
  intros [(d & -> & H)|(a & b & -> & Ha & Hb)]; cbn.
  - rewrite (nonempty_digits d H), (proj1 (digits_all d H)). reflexivity.
  - rewrite (digits_app a b Ha). cbn. rewrite (nonempty_digits b Hb), (proj1 (digits_all b Hb)). now rewrite orb_true_r.
Qed.
Lemma is_digit_range c : is_digit c = true -> (48 <= nat_of_ascii c <= 57)%nat.
Proof. unfold is_digit. intros H. apply andb_prop in H. destruct H as (H1 & H2). apply Nat.leb_le in H1, H2. lia. Qed.
Lemma all_digits_digits s : nonempty s = true -> all_digits s = true -> digits s.
Proof.
  intros Hn H. split; [destruct s; [discriminate|congruence]|]. clear Hn. induction s as [|c s IH]; cbn in *; [tauto|].
  apply andb_prop in H. destruct H as (H1 & H2). intros c' [<-|Hc']; [now apply is_digit_range|now apply IH].
Qed.
Lemma drop_digits_split s : exists a, s = a ++ drop_digits s /\ (a = "" \/ digits a).
Proof.
  induction s as [|c s IH]; [exists ""; split; [reflexivity|now left]|]. cbn. destruct (is_digit c) eqn:E; [|exists ""; split; [reflexivity|now left]].
  destruct IH as (a & Ha & Hd). exists (String c a). split; [cbn; now rewrite <- Ha|]. right. split; [discriminate|].
  intros c' [<-|Hc']; [now apply is_digit_range|]. destruct Hd as [->|(_ & Hd)]; [destruct Hc'|now apply Hd].
Qed.
Lemma negative_number_iff s : negative_number s = true <-> negative s.
Proof.
  split; [|apply negative_number_true]. destruct s as [|c r]; [discriminate|]. cbn. intros H. apply andb_prop in H. destruct H as (Hc & H).
  apply Ascii.eqb_eq in Hc. subst c. apply orb_prop in H. destruct H as [H|H].
  - apply andb_prop in H. destruct H as (H1 & H2). left. exists r. split; [reflexivity|now apply all_digits_digits].
  - destruct (drop_digits_split r) as (a & Ha & Hd). destruct (drop_digits r) as [|d q]; [discriminate|].
    apply andb_prop in H. destruct H as (H1 & H2). apply andb_prop in H2. destruct H2 as (H2 & H3). apply Ascii.eqb_eq in H1. subst d.
    right. exists a, q. split; [rewrite Ha; reflexivity|]. split; [exact Hd|now apply all_digits_digits].
Qed.

(** No '=' in a negative number. *)
Lemma partition_none s : ~ In "="%char (list_ascii_of_string s) -> partition_eq s = (s, None).
Proof.
  induction s as [|c s IH]; [reflexivity|]. cbn. intros H. destruct (Ascii.eqb_spec c "="%char) as [->|]; [exfalso; apply H; now left|].
  rewrite IH; [reflexivity|tauto].
Qed.
Lemma list_ascii_app a b : list_ascii_of_string (a ++ b) = (list_ascii_of_string a ++ list_ascii_of_string b)%list.
Proof. induction a; cbn; congruence. Qed.
Lemma digits_no_eq s : s = "" \/ digits s -> ~ In "="%char (list_ascii_of_string s).
Proof. intros [->|(_ & H)] Hin; [destruct Hin|]. specialize (H _ Hin). cbn in H. lia. Qed.
Lemma negative_no_eq s : negative s -> ~ In "="%char (list_ascii_of_string s).
Proof.
  intros [(d & -> & H)|(a & b & -> & Ha & Hb)]; cbn; intros [E|Hin]; try discriminate.
  - now apply (digits_no_eq d (or_intror H)).
  - rewrite list_ascii_app in Hin. cbn in Hin. apply in_app_or in Hin. destruct Hin as [Hin|[E|Hin]]; [now apply (digits_no_eq a Ha)|discriminate|now apply (digits_no_eq b (or_intror Hb))].
Qed.
(** The second character of a negative number is a digit or a dot. *)
Definition numeric (c : ascii) : bool := is_digit c || Ascii.eqb c "."%char.
Lemma negative_second s : negative s -> exists c r, s = String dash (String c r) /\ numeric c = true.
Proof.
  intros [(d & -> & (Hn & H))|(a & b & -> & Ha & _)].
  - destruct d as [|c d]; [congruence|]. exists c, d. split; [reflexivity|]. unfold numeric, is_digit. specialize (H c (or_introl eq_refl)).
    apply orb_true_intro. left. apply andb_true_intro. split; apply Nat.leb_le; lia.
  - destruct a as [|c a]; [exists "."%char, b; now split|]. destruct Ha as [Ha|(_ & H)]; [discriminate|]. exists c, (a ++ "." ++ b). split; [reflexivity|].
    unfold numeric, is_digit. specialize (H c (or_introl eq_refl)). apply orb_true_intro. left. apply andb_true_intro. split; apply Nat.leb_le; lia.
Qed.

Lemma skipn_skipn' {A} (a b : nat) (l : list A) : skipn a (skipn b l) = skipn (a + b) l.
Proof. revert l. induction b as [|b IH]; intros l; [now rewrite Nat.add_0_r|]. rewrite Nat.add_succ_r. destruct l as [|x l]; [now rewrite !skipn_nil|]. cbn [skipn]. apply IH. Qed.
Lemma partition_split s : forall o e, partition_eq s = (o, e) -> match e with None => s = o | Some e => s = o ++ "=" ++ e end.
Proof.
  induction s as [|c s IH]; intros o e H; cbn in H; [now injection H as <- <-|]. destruct (Ascii.eqb_spec c "="%char) as [->|_]; [now injection H as <- <-|].
  destruct (partition_eq s) as (o', e') eqn:E. injection H as <- <-. specialize (IH _ _ eq_refl). destruct e' as [e'|]; cbn; now rewrite IH.
Qed.
Lemma prefix_begins p : forall s, String.prefix p s = true -> begins p s.
Proof.
  induction p as [|c p IH]; intros s H; [now exists s|]. destruct s as [|d s]; [discriminate|]. cbn in H. destruct (ascii_dec c d) as [->|]; [|discriminate].
  destruct (IH s H) as (r & ->). now exists r.
Qed.

Section Parser.
  Context (int_of float_of : string -> option Z) (options : list action) (positional : action).
  Notation parse_optional := (parse_optional options).
  Notation classify := (classify options).
  Notation loop := (loop int_of float_of options positional).
  Notation consume_optional := (consume_optional int_of float_of options).
  Notation consume_positionals := (consume_positionals int_of float_of positional).
  Notation take_action := (take_action int_of float_of).

  (** Names of options are no numbers, and no dash alone. *)
  Definition key_ok (o : string) : bool :=
    match o with String c (String d _) => Ascii.eqb c dash && negb (numeric d) | _ => false end.
  Definition keys_ok : Prop := forallb key_ok (List.map fst (omap options)) = true.

  Lemma find_keys s a : keys_ok -> find_option options s = Some a -> key_ok s = true.
  Proof.
    unfold keys_ok, find_option. intros H E. apply (proj1 (forallb_forall _ _) H). clear H.
    induction (omap options) as [|(k, v) l IH]; cbn in *; [discriminate|]. destruct (String.eqb_spec s k) as [->|]; [now left|right; auto].
  Qed.
  Lemma parse_plain s : keys_ok -> plain s -> parse_optional s = Done None.
  Proof.
    intros K [H|[->|H]].
    - destruct s as [|c r]; [reflexivity|]. cbn. destruct (Ascii.eqb_spec c dash) as [->|]; [|reflexivity]. exfalso. apply H. now exists r.
    - cbn. destruct (find_option options "-") eqn:E; [|reflexivity]. now apply find_keys in E.
    - destruct (negative_second s H) as (c & r & -> & Hc). pose proof (partition_none _ (negative_no_eq _ H)) as Hp. pose proof (negative_number_true _ H) as Hneg.
      unfold CmdLine.parse_optional. change (Ascii.eqb dash dash) with true. cbn [negb].
      destruct (find_option options (String dash (String c r))) as [a|] eqn:E. { apply (find_keys _ _ K) in E. cbn in E. now rewrite Hc in E. }
      cbn [nonempty negb]. rewrite Hp.
      assert (Ho : option_tuples options (String dash (String c r)) = []).
      { unfold option_tuples. cbn [second_dash]. destruct (Ascii.eqb_spec c dash) as [->|_]; [discriminate|].
        unfold keys_ok in K. induction (omap options) as [|(k, v) l IH]; [reflexivity|]. cbn [List.map forallb fst] in K. apply andb_prop in K. destruct K as (K1 & K2).
        cbn [flat_map]. rewrite (IH K2), app_nil_r. destruct k as [|k1 [|k2 k]]; try discriminate. cbn in K1. apply andb_prop in K1. destruct K1 as (_ & K1).
        cbn [substring]. destruct (String.eqb_spec (String k1 (String k2 k)) (String dash (String c (substring 0 0 r)))) as [E'|_]. { injection E' as _ -> _. now rewrite Hc in K1. }
        cbn [String.prefix]. destruct (ascii_dec dash k1); [|reflexivity]. destruct (ascii_dec c k2) as [->|]; [now rewrite Hc in K1|reflexivity]. }
      rewrite Ho, Hneg. reflexivity.
  Qed.
  Lemma plain_not_dd s : plain s -> s <> "--".
  Proof.
    intros [H|[H|H]] E; subst s; [apply H; now exists "-"|discriminate|]. apply negative_number_iff in H. discriminate.
  Qed.
  Lemma classify_plain s l : keys_ok -> plain s -> classify (s :: l) = (t <<- classify l ;; Done (TA s :: t)).
  Proof.
    intros K H. cbn [CmdLine.classify]. destruct (String.eqb_spec s "--") as [E|_]; [now apply plain_not_dd in E|]. now rewrite (parse_plain s K H).
  Qed.
  Lemma classify_plains ss l : keys_ok -> Forall plain ss -> classify (ss ++ l) = (t <<- classify l ;; Done (List.map TA ss ++ t)%list).
  Proof.
    intros K H. induction H as [|s ss Hs _ IH]; [cbn [app List.map]; destruct (classify l); reflexivity|].
    cbn [app List.map]. rewrite (classify_plain _ _ K Hs), IH. destruct (classify l); reflexivity.
  Qed.

  (** ** The loop does not depend on its fuel *)
  Lemma leading_le p l : (leading p l <= List.length l)%nat.
  Proof. induction l as [|t l IH]; cbn; [lia|]. destruct (p t); lia. Qed.
  Lemma take_words_len a l acts l' x : take_words a l = Done (acts, l', x) -> (List.length l' <= List.length l)%nat.
  Proof. unfold take_words. intros H. apply obind_done in H. destruct H as (n & _ & H). injection H as _ <- _. rewrite skipn_length. lia. Qed.
  Lemma explicit_len e : forall a d s l acts l' x, explicit options a d s e l = Done (acts, l', x) -> (List.length l' <= List.length l)%nat.
  Proof.
    enough (H : forall n e a d s l acts l' x, (String.length e <= n)%nat -> explicit options a d s e l = Done (acts, l', x) -> (List.length l' <= List.length l)%nat) by (intros; eapply H; [reflexivity|eassumption]).
    clear e. induction n as [|n IH]; intros e a d s l acts l' x He; destruct e as [|c e]; cbn in He; try lia.
    1, 2: cbn; destruct (ac_nargs a); try discriminate; intros [= <- <- <-]; lia.
    cbn [explicit]. destruct (ac_nargs a); try discriminate; try (intros [= <- <- <-]; lia).
    destruct d; [discriminate|]. destruct (s || Ascii.eqb c dash); [discriminate|]. destruct (find_option options _) as [b|]; [|intros [= <- <- <-]; lia].
    intros H. apply obind_done in H. destruct H as (((acts', l2), x') & H & E). injection E as _ -> _.
    destruct e as [|c' e]; [now apply take_words_len in H|]. destruct (Ascii.eqb c' "="%char); apply IH in H; cbn in *; lia.
  Qed.
  Lemma consume_optional_len o l ns ns' l' x : consume_optional o l ns = Done (ns', l', x) -> (List.length l' <= List.length l)%nat.
  Proof.
    destruct o as [s|a name ex]; cbn; [intros [= _ <- _]; lia|]. intros H. apply obind_done in H. destruct H as (((acts, l2), x2) & H & H2).
    apply obind_done in H2. destruct H2 as (ns2 & _ & E). injection E as _ -> _. destruct ex as [(sep, e)|]; [now apply explicit_len in H|now apply take_words_len in H].
  Qed.
  Lemma loop_fuel : forall n m wanted extras ns l, (List.length l < n)%nat -> (List.length l < m)%nat -> loop n wanted extras ns l = loop m wanted extras ns l.
  Proof.
    induction n as [|n IH]; intros m wanted extras ns l Hn Hm; [lia|]. destruct m as [|m]; [lia|]. cbn [CmdLine.loop].
    destruct (existsb is_opt l) eqn:E; [|reflexivity].
    assert (Hpos : forall t r, l = t :: r -> is_opt t = false ->
      ('(n0, wanted0, ns0) <<- consume_positionals wanted l ns ;;
       match n0 with
       | O => let k := leading (fun t => negb (is_opt t)) l in loop n wanted0 (extras ++ List.map word (firstn k l))%list ns0 (skipn k l)
       | S _ => loop n wanted0 extras ns0 (skipn n0 l)
       end) =
      ('(n0, wanted0, ns0) <<- consume_positionals wanted l ns ;;
       match n0 with
       | O => let k := leading (fun t => negb (is_opt t)) l in loop m wanted0 (extras ++ List.map word (firstn k l))%list ns0 (skipn k l)
       | S _ => loop m wanted0 extras ns0 (skipn n0 l)
       end)).
    { intros t r -> Ht. apply obind_ext. intros ((k, w), ns') _. destruct k as [|k].
      - cbv zeta. cbn [leading]. rewrite Ht. cbn [negb skipn]. pose proof (skipn_length (leading (fun t => negb (is_opt t)) r) r). cbn in Hn, Hm. apply IH; lia.
      - cbn [skipn]. pose proof (skipn_length k r). cbn in Hn, Hm. apply IH; lia. }
    destruct l as [|t r]; [discriminate|]. destruct t as [o|s|]; [|apply (Hpos _ _ eq_refl eq_refl)|apply (Hpos _ _ eq_refl eq_refl)].
    apply obind_ext. intros ((ns', l'), x) H. apply consume_optional_len in H. cbn in Hn, Hm. apply IH; lia.
  Qed.

  Definition run (wanted : bool) (extras : list string) (ns : namespace) (l : list tok) : outcome namespace :=
    loop (S (List.length l)) wanted extras ns l.
  Lemma run_parse argv : parse_args int_of float_of options positional argv = (l <<- classify argv ;; run true [] (defaults options positional) l).
  Proof. reflexivity. Qed.
  Lemma run_opt wanted extras ns o l :
    run wanted extras ns (TO o :: l) = ('(ns, l', x) <<- consume_optional o l ns ;; run wanted (extras ++ x)%list ns l').
  Proof.
    unfold run at 1. cbn [CmdLine.loop existsb is_opt orb]. apply obind_ext. intros ((ns', l'), x) H. apply consume_optional_len in H.
    apply loop_fuel; cbn; lia.
  Qed.
  Lemma run_nil wanted extras ns : run wanted extras ns [] = if wanted then Exit 2 else match extras with [] => Done ns | _ => Exit 2 end.
  Proof. unfold run. cbn. destruct wanted; cbn; [reflexivity|]. now rewrite app_nil_r. Qed.

  (** ** Nothing gets stuck *)
  Lemma get_value_unstuck a s : get_value int_of float_of a s <> Stuck.
  Proof. unfold get_value. destruct (ac_type a). - destruct (ac_choices a) as [l|]; [destruct (existsb _ l)|]; discriminate. - destruct (int_of s); discriminate. - destruct (float_of s); discriminate. Qed.
  Lemma get_list_unstuck a l : get_list int_of float_of a l <> Stuck.
  Proof.
    induction l as [|s l IH]; cbn; [discriminate|]. pose proof (get_value_unstuck a s). destruct (get_value int_of float_of a s); cbn; try congruence.
    destruct (get_list int_of float_of a l); cbn; congruence.
  Qed.
  Lemma take_action_unstuck a l ns : take_action a l ns <> Stuck.
  Proof.
    unfold CmdLine.take_action. set (l' := match ac_opts a with [] => _ | _ => _ end). destruct (ac_kind a); try discriminate.
    assert (H : obind (get_list int_of float_of a l') (fun vs => Done (dset String.eqb (ac_dest a) (VList vs) ns)) <> Stuck).
    { pose proof (get_list_unstuck a l'). destruct (get_list int_of float_of a l'); cbn; congruence. }
    destruct (ac_nargs a); try exact H. destruct l' as [|s [|]]; try exact H. pose proof (get_value_unstuck a s). destruct (get_value int_of float_of a s); cbn; congruence.
  Qed.
  Lemma take_all_unstuck l : forall ns, take_all int_of float_of l ns <> Stuck.
  Proof.
    induction l as [|(a, x) l IH]; intros ns; cbn; [discriminate|]. pose proof (take_action_unstuck a x ns). destruct (take_action a x ns); cbn; auto; congruence.
  Qed.
  Lemma take_words_unstuck a l : take_words a l <> Stuck.
  Proof. unfold take_words, match_argument. destruct (ac_nargs a); [| | |]; try destruct (Nat.leb _ _); discriminate. Qed.
  Lemma explicit_unstuck e : forall a d s l, explicit options a d s e l <> Stuck.
  Proof.
    enough (H : forall n e a d s l, (String.length e <= n)%nat -> explicit options a d s e l <> Stuck) by (intros; eapply H; reflexivity).
    clear e. induction n as [|n IH]; intros e a d s l He; destruct e as [|c e]; cbn in He; try lia.
    1, 2: cbn; destruct (ac_nargs a); discriminate.
    cbn [explicit]. destruct (ac_nargs a); try discriminate.
    destruct d; [discriminate|]. destruct (s || Ascii.eqb c dash); [discriminate|]. destruct (find_option options _) as [b|]; [|discriminate].
    assert (H : match e with EmptyString => take_words b l | String c' e'' => if Ascii.eqb c' "="%char then explicit options b false true e'' l else explicit options b false false e l end <> Stuck).
    { destruct e as [|c' e]; [apply take_words_unstuck|]. destruct (Ascii.eqb c' "="%char); apply IH; cbn in *; lia. }
    destruct e as [|c' e]; [destruct (take_words b l) as [((?, ?), ?)| |]; cbn; congruence|].
    destruct (if Ascii.eqb c' "="%char then _ else _) as [((?, ?), ?)| |]; cbn; congruence.
  Qed.
  Lemma consume_optional_unstuck o l ns : consume_optional o l ns <> Stuck.
  Proof.
    destruct o as [s|a name ex]; cbn; [discriminate|].
    assert (H : match ex with None => take_words a l | Some (sep, e) => explicit options a (second_dash name) sep e l end <> Stuck) by (destruct ex as [(?, ?)|]; [apply explicit_unstuck|apply take_words_unstuck]).
    destruct (match ex with None => _ | Some _ => _ end) as [((acts, l'), x)| |]; cbn; try congruence.
    pose proof (take_all_unstuck acts ns). destruct (take_all int_of float_of acts ns); cbn; congruence.
  Qed.
  Lemma consume_positionals_unstuck w l ns : consume_positionals w l ns <> Stuck.
  Proof.
    unfold CmdLine.consume_positionals. destruct w; [|discriminate]. destruct (match_positional positional l); [|discriminate].
    pose proof (take_action_unstuck positional (List.map word (firstn n l)) ns). destruct (take_action positional _ ns); cbn; congruence.
  Qed.
  Lemma loop_unstuck : forall n wanted extras ns l, (List.length l < n)%nat -> loop n wanted extras ns l <> Stuck.
  Proof.
    induction n as [|n IH]; intros wanted extras ns l Hn; [lia|]. cbn [CmdLine.loop].
    destruct (existsb is_opt l) eqn:E.
    - assert (Hpos : forall t r, l = t :: r -> is_opt t = false ->
        ('(n0, wanted0, ns0) <<- consume_positionals wanted l ns ;;
         match n0 with
         | O => let k := leading (fun t => negb (is_opt t)) l in loop n wanted0 (extras ++ List.map word (firstn k l))%list ns0 (skipn k l)
         | S _ => loop n wanted0 extras ns0 (skipn n0 l)
         end) <> Stuck).
      { intros t r -> Ht. pose proof (consume_positionals_unstuck wanted (t :: r) ns) as Hc. destruct (consume_positionals wanted (t :: r) ns) as [((k, w), ns')| |]; cbn [obind]; try congruence.
        destruct k as [|k].
        - cbv zeta. cbn [leading]. rewrite Ht. cbn [negb skipn]. pose proof (skipn_length (leading (fun t => negb (is_opt t)) r) r). cbn in Hn. apply IH; lia.
        - cbn [skipn]. pose proof (skipn_length k r). cbn in Hn. apply IH; lia. }
      destruct l as [|t r]; [discriminate|]. destruct t as [o|s|]; [|apply (Hpos _ _ eq_refl eq_refl)|apply (Hpos _ _ eq_refl eq_refl)].
      pose proof (consume_optional_unstuck o r ns) as Hc. destruct (consume_optional o r ns) as [((ns', l'), x)| |] eqn:Ec; cbn [obind]; try congruence.
      apply consume_optional_len in Ec. cbn in Hn. apply IH; lia.
    - pose proof (consume_positionals_unstuck wanted l ns) as Hc. destruct (consume_positionals wanted l ns) as [((k, w), ns')| |]; cbn [obind]; try congruence.
      destruct w; [discriminate|]. destruct (extras ++ _)%list; discriminate.
  Qed.
  Lemma parse_optional_unstuck s : parse_optional s <> Stuck.
  Proof.
    destruct s as [|c r]; [discriminate|]. unfold CmdLine.parse_optional. destruct (negb _); [discriminate|]. destruct (find_option options _); [discriminate|].
    destruct (negb (nonempty r)); [discriminate|]. destruct (match partition_eq _ with (_, _) => _ end); [discriminate|].
    destruct (option_tuples options _) as [|? [|]]; try discriminate. destruct (negative_number _); [discriminate|]. destruct (has_space _); discriminate.
  Qed.
  Lemma classify_unstuck argv : classify argv <> Stuck.
  Proof.
    induction argv as [|s l IH]; cbn [CmdLine.classify]; [discriminate|]. destruct (String.eqb s "--"); [discriminate|].
    pose proof (parse_optional_unstuck s). destruct (parse_optional s); cbn [obind]; try congruence. destruct (classify l); cbn; congruence.
  Qed.
  Lemma parse_unstuck argv : parse_args int_of float_of options positional argv <> Stuck.
  Proof.
    rewrite run_parse. pose proof (classify_unstuck argv). destruct (classify argv); cbn [obind]; try congruence. unfold run. apply loop_unstuck. lia.
  Qed.

  Lemma classify_exit argv c : classify argv = Exit c -> c = 2.
  Proof.
    revert c. induction argv as [|s l IH]; intros c; cbn [CmdLine.classify]; [discriminate|]. destruct (String.eqb s "--"); [discriminate|].
    destruct (parse_optional s) as [o| |] eqn:E; cbn [obind].
    - destruct (classify l); cbn; intros [= <-]. now apply IH.
    - intros [= <-]. destruct s as [|k r]; [discriminate|]. unfold CmdLine.parse_optional in E. destruct (negb _); [discriminate|]. destruct (find_option options _); [discriminate|].
      destruct (negb (nonempty r)); [discriminate|]. destruct (match partition_eq _ with (_, _) => _ end); [discriminate|].
      destruct (option_tuples options _) as [|? [|]]; try discriminate; [destruct (negative_number _); [discriminate|]; destruct (has_space _); discriminate|now injection E as <-].
    - discriminate.
  Qed.
  (** ** What ends the command: status 0 only for an option of help *)
  Definition tok_ok (t : tok) : Prop := match t with TO (Found a name _) => In (name, a) (omap options) | _ => True end.
  Definition asked (l : list tok) : Prop := exists a name ex, In (TO (Found a name ex)) l /\ ac_kind a = Help.
  Lemma asked_incl l l' : incl l' l -> asked l' -> asked l.
  Proof. intros H (a & n & ex & Hi & Ha). exists a, n, ex. split; [now apply H|exact Ha]. Qed.
  Lemma obind_exit {A B} (x : outcome A) (k : A -> outcome B) c : obind x k = Exit c -> x = Exit c \/ exists a, x = Done a /\ k a = Exit c.
  Proof. destruct x; cbn; intros H; [right; now exists a|left; congruence|discriminate]. Qed.
  Lemma get_value_exit a s c : get_value int_of float_of a s = Exit c -> c = 2.
  Proof. unfold get_value. destruct (ac_type a). - destruct (ac_choices a) as [l|]; [destruct (existsb _ l)|]; congruence. - destruct (int_of s); congruence. - destruct (float_of s); congruence. Qed.
  Lemma get_list_exit a l c : get_list int_of float_of a l = Exit c -> c = 2.
  Proof.
    revert c. induction l as [|s l IH]; intros c; cbn [get_list]; [discriminate|]. intros H. apply obind_exit in H. destruct H as [H|(v & _ & H)]; [now apply get_value_exit in H|].
    apply obind_exit in H. destruct H as [H|(vs & _ & H)]; [now apply IH|discriminate].
  Qed.
  Lemma take_action_exit a l ns c : take_action a l ns = Exit c -> c = 2 \/ (c = 0 /\ ac_kind a = Help).
  Proof.
    unfold CmdLine.take_action. set (l' := match ac_opts a with [] => _ | _ => _ end). destruct (ac_kind a); [|discriminate|intros [= <-]; now right].
    assert (H : obind (get_list int_of float_of a l') (fun vs => Done (dset String.eqb (ac_dest a) (VList vs) ns)) = Exit c -> c = 2 \/ (c = 0 /\ Store = Help)).
    { intros H. apply obind_exit in H. destruct H as [H|(vs & _ & H)]; [left; now apply get_list_exit in H|discriminate]. }
    destruct (ac_nargs a); try exact H. destruct l' as [|s [|]]; try exact H. intros K. apply obind_exit in K. destruct K as [K|(vs & _ & K)]; [left; now apply get_value_exit in K|discriminate].
  Qed.
  Lemma take_all_exit l : forall ns c, take_all int_of float_of l ns = Exit c -> c = 2 \/ (c = 0 /\ exists a x, In (a, x) l /\ ac_kind a = Help).
  Proof.
    induction l as [|(a, x) l IH]; intros ns c; cbn [take_all]; [discriminate|]. intros H. apply obind_exit in H. destruct H as [H|(ns' & _ & H)].
    - apply take_action_exit in H. destruct H as [H|(H & K)]; [now left|right]. split; [exact H|]. exists a, x. split; [now left|exact K].
    - apply IH in H. destruct H as [H|(H & b & y & Hi & K)]; [now left|right]. split; [exact H|]. exists b, y. split; [now right|exact K].
  Qed.
  Lemma skipn_incl {A} n (l : list A) : incl (skipn n l) l.
  Proof. intros x Hx. rewrite <- (firstn_skipn n l). apply in_or_app. now right. Qed.
  Lemma take_words_exit a l c : take_words a l = Exit c -> c = 2.
  Proof. unfold take_words, match_argument. destruct (ac_nargs a); [|destruct (Nat.leb _ _) ..]; cbn; congruence. Qed.
  Lemma take_words_in a l acts l' x : take_words a l = Done (acts, l', x) -> incl l' l /\ forall b y, In (b, y) acts -> b = a.
  Proof.
    unfold take_words. intros H. apply obind_done in H. destruct H as (n & _ & H). injection H as <- <- _. split; [apply skipn_incl|]. intros b y [[= <- <-]|[]]. reflexivity.
  Qed.
  Lemma explicit_exit e : forall a d s l c, explicit options a d s e l = Exit c -> c = 2.
  Proof.
    enough (H : forall n e a d s l c, (String.length e <= n)%nat -> explicit options a d s e l = Exit c -> c = 2) by (intros a d s l c; apply (H _ e a d s l c (le_n _))).
    clear e. induction n as [|n IH]; intros e a d s l c He; destruct e as [|k e]; cbn in He; try lia.
    1, 2: cbn; destruct (ac_nargs a); congruence.
    cbn [explicit]. destruct (ac_nargs a); try congruence.
    destruct d; [congruence|]. destruct (s || Ascii.eqb k dash); [congruence|]. destruct (find_option options _) as [b|]; [|discriminate].
    intros H. apply obind_exit in H. destruct H as [H|(((? & ?) & ?) & _ & H)]; [|discriminate].
    destruct e as [|c' e]; [now apply take_words_exit in H|]. destruct (Ascii.eqb c' "="%char); eapply IH; [|exact H| |exact H]; cbn in *; lia.
  Qed.
  Lemma explicit_incl e : forall a d s l acts l' x, explicit options a d s e l = Done (acts, l', x) -> incl l' l.
  Proof.
    enough (H : forall n e a d s l acts l' x, (String.length e <= n)%nat -> explicit options a d s e l = Done (acts, l', x) -> incl l' l) by (intros a d s l acts l' x; apply (H _ e a d s l acts l' x (le_n _))).
    clear e. induction n as [|n IH]; intros e a d s l acts l' x He; destruct e as [|k e]; cbn in He; try lia.
    1, 2: cbn; destruct (ac_nargs a); try discriminate; intros H; injection H as _ <- _; apply incl_refl.
    cbn [explicit]. destruct (ac_nargs a); try discriminate; try (intros H; injection H as _ <- _; apply incl_refl).
    destruct d; [discriminate|]. destruct (s || Ascii.eqb k dash); [discriminate|]. destruct (find_option options _) as [b|]; [|intros H; injection H as _ <- _; apply incl_refl].
    intros H. apply obind_done in H. destruct H as (((acts1, l1), x1) & H & E). injection E as _ -> _.
    destruct e as [|c' e]; [now apply take_words_in in H|]. destruct (Ascii.eqb c' "="%char); eapply IH; [|exact H| |exact H]; cbn in *; lia.
  Qed.
  (** With two dashes there is one action, that of the option. *)
  Lemma explicit_double e a s l acts l' x : explicit options a true s e l = Done (acts, l', x) -> forall b y, In (b, y) acts -> b = a.
  Proof. destruct e; cbn; destruct (ac_nargs a); try discriminate; intros [= <- <- <-] b y [[= <- <-]|[]]; reflexivity. Qed.
  Lemma consume_optional_incl o l ns ns' l' x : consume_optional o l ns = Done (ns', l', x) -> incl l' l.
  Proof.
    destruct o as [s|a name ex]; cbn [CmdLine.consume_optional]; [intros [= _ <- _]; apply incl_refl|]. intros H. apply obind_done in H. destruct H as (((acts, l1), x1) & H & K).
    apply obind_done in K. destruct K as (ns1 & _ & K). injection K as _ <- _. destruct ex as [(sep, e)|]; [now apply explicit_incl in H|now apply take_words_in in H].
  Qed.
  Definition long_only : Prop := forall name a, In (name, a) (omap options) -> ac_kind a <> Help -> second_dash name = true.
  Lemma kind_dec (a : action) : ac_kind a = Help \/ ac_kind a <> Help.
  Proof. destruct (ac_kind a); (now left) || (right; discriminate). Qed.
  Lemma consume_optional_exit o l ns c : long_only -> tok_ok (TO o) -> consume_optional o l ns = Exit c ->
    c = 2 \/ (c = 0 /\ exists a name ex, o = Found a name ex /\ ac_kind a = Help).
  Proof.
    intros L Ho. destruct o as [s|a name ex]; cbn [CmdLine.consume_optional]; [discriminate|]. intros H. apply obind_exit in H. destruct H as [H|(((acts, l'), x) & E & H)].
    - left. destruct ex as [(sep, e)|]; [now apply explicit_exit in H|now apply take_words_exit in H].
    - apply obind_exit in H. destruct H as [H|(ns' & _ & H)]; [|discriminate]. apply take_all_exit in H. destruct H as [H|(H & b & y & Hi & K)]; [now left|right]. split; [exact H|].
      destruct (kind_dec a) as [Ka|Ka]; [now exists a, name, ex|]. exfalso. apply Ka. specialize (L name a Ho Ka). rewrite L in E.
      assert (b = a) as <-; [|exact K]. destruct ex as [(sep, e)|]; [exact (explicit_double _ _ _ _ _ _ _ E _ _ Hi)|exact (proj2 (take_words_in _ _ _ _ _ E) _ _ Hi)].
  Qed.
  Lemma consume_positionals_exit w l ns c : ac_kind positional <> Help -> consume_positionals w l ns = Exit c -> c = 2.
  Proof.
    intros P. unfold CmdLine.consume_positionals. destruct w; [|discriminate]. destruct (match_positional positional l); [|discriminate].
    intros H. apply obind_exit in H. destruct H as [H|(ns' & _ & H)]; [|discriminate]. apply take_action_exit in H. destruct H as [H|(_ & H)]; [exact H|contradiction].
  Qed.
  Lemma loop_exit : long_only -> ac_kind positional <> Help -> forall n wanted extras ns l c, Forall tok_ok l -> loop n wanted extras ns l = Exit c -> c = 2 \/ (c = 0 /\ asked l).
  Proof.
    intros L P. induction n as [|n IH]; intros wanted extras ns l c F; [discriminate|]. cbn [CmdLine.loop].
    assert (Sub : forall w x ns' l', incl l' l -> loop n w x ns' l' = Exit c -> c = 2 \/ (c = 0 /\ asked l)).
    { intros w x ns' l' Hi H. apply IH in H; [|apply Forall_forall; intros t Ht; exact (proj1 (Forall_forall _ _) F t (Hi t Ht))]. destruct H as [H|(H & K)]; [now left|right]. split; [exact H|now apply (asked_incl l l')]. }
    destruct (existsb is_opt l) eqn:E.
    - assert (Hpos : ('(n0, wanted0, ns0) <<- consume_positionals wanted l ns ;;
         match n0 with
         | O => let k := leading (fun t => negb (is_opt t)) l in loop n wanted0 (extras ++ List.map word (firstn k l))%list ns0 (skipn k l)
         | S _ => loop n wanted0 extras ns0 (skipn n0 l)
         end) = Exit c -> c = 2 \/ (c = 0 /\ asked l)).
      { intros H. apply obind_exit in H. destruct H as [H|(((k, w), ns') & _ & H)]; [left; now apply consume_positionals_exit in H|].
        destruct k as [|k]; cbv zeta in H; (eapply Sub; [|exact H]); apply skipn_incl. }
      destruct l as [|t r]; [discriminate|]. destruct t as [o|s|]; [|exact Hpos|exact Hpos]. clear Hpos.
      intros H. apply obind_exit in H. destruct H as [H|(((ns', l'), x) & H1 & H)].
      + apply consume_optional_exit in H; [|exact L|now inversion F]. destruct H as [H|(H & a & name & ex & -> & K)]; [now left|right]. split; [exact H|]. exists a, name, ex. split; [now left|exact K].
      + eapply Sub; [|exact H]. apply consume_optional_incl in H1. now apply incl_tl.
    - intros H. apply obind_exit in H. destruct H as [H|(((k, w), ns') & _ & H)]; [left; now apply consume_positionals_exit in H|]. left.
      destruct w; [congruence|]. destruct (extras ++ _)%list; congruence.
  Qed.
  (** How a word named_by an option. *)
  Inductive named_by (s : string) (a : action) (name : string) : Prop :=
  | NExact : s = name -> named_by s a name
  | NEqual o e : partition_eq s = (o, Some e) -> o = name -> named_by s a name
  | NPrefix p e : second_dash s = true -> partition_eq s = (p, e) -> String.prefix p name = true -> (List.length (filter (fun '(o, _) => String.prefix p o) (omap options)) <= 1)%nat -> named_by s a name
  | NLetters : name = String.substring 0 2 s -> named_by s a name
  | NShort : second_dash s = false -> String.prefix s name = true -> (2 <= String.length s)%nat -> named_by s a name.
  Lemma find_in s a : find_option options s = Some a -> In (s, a) (omap options).
  Proof.
    unfold find_option. induction (omap options) as [|(k, v) l IH]; cbn; [discriminate|]. destruct (String.eqb_spec s k) as [->|]; [intros [= ->]; now left|intros H; right; now apply IH].
  Qed.
  Lemma parse_names s a name ex : parse_optional s = Done (Some (Found a name ex)) -> In (name, a) (omap options) /\ named_by s a name.
  Proof.
    destruct s as [|c r]; [discriminate|]. unfold CmdLine.parse_optional. destruct (negb _); [discriminate|].
    destruct (find_option options (String c r)) as [b|] eqn:E1; [intros [= -> <- _]; split; [now apply find_in|now apply NExact]|].
    destruct (nonempty r) eqn:Er; [cbn [negb]|discriminate].
    assert (H2 : (2 <= String.length (String c r))%nat) by (destruct r; [discriminate|cbn; lia]).
    destruct (partition_eq (String c r)) as (o, e) eqn:Ep.
    assert (Hd : match option_tuples options (String c r) with
                 | [] => if negative_number (String c r) then Done None else if has_space (String c r) then Done None else Done (Some (Unknown (String c r)))
                 | [t] => Done (Some t)
                 | _ :: _ :: _ => Exit 2
                 end = Done (Some (Found a name ex)) -> In (name, a) (omap options) /\ named_by (String c r) a name).
    { destruct (option_tuples options (String c r)) as [|t [|]] eqn:Et; [destruct (negative_number _); [discriminate|]; destruct (has_space _); discriminate| |discriminate].
      intros [= ->]. unfold option_tuples in Et. destruct (second_dash (String c r)) eqn:Es.
      - rewrite Ep in Et. assert (Hl : List.length (filter (fun '(o0, _) => String.prefix o o0) (omap options)) = 1%nat) by (rewrite <- (map_length (fun '(o0, a0) => Found a0 o0 (option_map (fun x => (true, x)) e))), Et; reflexivity).
        assert (Hi : In (Found a name ex) (List.map (fun '(o0, a0) => Found a0 o0 (option_map (fun x => (true, x)) e)) (filter (fun '(o0, _) => String.prefix o o0) (omap options)))) by (rewrite Et; now left).
        apply in_map_iff in Hi. destruct Hi as ((n1, a1) & [= -> -> _] & Hi). apply filter_In in Hi. destruct Hi as (Hi & Hp). split; [exact Hi|]. apply (NPrefix _ _ _ o e); auto. now rewrite Hl.
      - assert (Hi : In (Found a name ex) [Found a name ex]) by now left. rewrite <- Et in Hi. apply in_flat_map in Hi. destruct Hi as ((n1, a1) & Hi & K).
        destruct (String.eqb_spec n1 (String.substring 0 2 (String c r))) as [En|_].
        + destruct K as [[= -> -> _]|[]]. split; [exact Hi|now apply NLetters].
        + destruct (String.prefix (String c r) n1) eqn:Epr; [|destruct K]. destruct K as [[= -> -> _]|[]]. split; [exact Hi|now apply NShort]. }
    destruct e as [e|]; [|exact Hd]. destruct (find_option options o) as [b|] eqn:E2; [|exact Hd]. intros [= -> -> _]. split; [now apply find_in|now apply (NEqual _ _ _ name e)].
  Qed.
  Lemma classify_names argv l : classify argv = Done l -> Forall tok_ok l /\ (asked l -> exists s a name, (exists before after, argv = (before ++ s :: after)%list /\ ~ In "--" before) /\ s <> "--" /\ In (name, a) (omap options) /\ ac_kind a = Help /\ named_by s a name).
  Proof.
    revert l. induction argv as [|s argv IH]; intros l; cbn [CmdLine.classify]; [intros [= <-]; split; [constructor|intros (? & ? & ? & [] & _)]|].
    destruct (String.eqb_spec s "--") as [|Ns].
    - intros [= <-]. split; [constructor; [exact I|]; apply Forall_forall; intros t Ht; apply in_map_iff in Ht; destruct Ht as (? & <- & _); exact I|].
      intros (a & n & ex & [H|H] & _); [discriminate|]. apply in_map_iff in H. destruct H as (? & ? & _). discriminate.
    - intros H. apply obind_done in H. destruct H as (o & Ho & H). apply obind_done in H. destruct H as (t & Ht & H). injection H as <-. destruct (IH t Ht) as (F & K). split.
      + constructor; [|exact F]. destruct o as [[|a name ex]|]; try exact I. now apply parse_names in Ho.
      + intros (a & name & ex & [H|H] & Ka).
        * destruct o as [o|]; [|discriminate]. injection H as ->. apply parse_names in Ho. exists s, a, name. repeat split; try tauto. exists [], argv. split; [reflexivity|intros []].
        * destruct K as (s' & a' & n' & (before & after & -> & Kb) & K2); [now exists a, name, ex|]. exists s', a', n'. split; [|exact K2].
          exists (s :: before), after. split; [reflexivity|]. intros [E|E]; [now apply Ns|now apply Kb].
  Qed.
  Lemma parse_exit argv c : long_only -> ac_kind positional <> Help -> parse_args int_of float_of options positional argv = Exit c ->
    c = 2 \/ (c = 0 /\ exists s a name, (exists before after, argv = (before ++ s :: after)%list /\ ~ In "--" before) /\ s <> "--" /\ In (name, a) (omap options) /\ ac_kind a = Help /\ named_by s a name).
  Proof.
    intros L P H. unfold parse_args in H. apply obind_exit in H. destruct H as [H|(l & Hl & H)]; [left; now apply classify_exit in H|].
    destruct (classify_names _ _ Hl) as (F & K). apply loop_exit in H; auto. destruct H as [H|(H & Hk)]; [now left|right]. split; [exact H|now apply K].
  Qed.
  (** ** Words that are not recognised: nothing can follow *)
  Lemma leading_drop p (t : tok) : forall l n, (n <= leading p l)%nat -> p t = false -> In t l -> In t (skipn n l).
  Proof.
    induction l as [|x l IH]; intros n Hn Hp H; [destruct H|]. destruct n as [|n]; [exact H|]. cbn [leading] in Hn. destruct (p x) eqn:Ex; [|lia].
    destruct H as [->|H]; [congruence|]. cbn [skipn]. apply IH; auto. lia.
  Qed.
  Lemma leading_args_drop o : forall l n, (n <= leading_args l)%nat -> In (TO o) l -> In (TO o) (skipn n l).
  Proof.
    induction l as [|x l IH]; intros n Hn H; [destruct H|]. destruct n as [|n]; [exact H|]. destruct x; cbn [leading_args] in Hn; try lia.
    destruct H as [H|H]; [discriminate|]. cbn [skipn]. apply IH; auto. lia.
  Qed.
  Lemma take_words_keep o a l acts l' x : take_words a l = Done (acts, l', x) -> In (TO o) l -> In (TO o) l'.
  Proof.
    unfold take_words. intros H Hi. apply obind_done in H. destruct H as (n & Hn & H). injection H as _ <- _. apply leading_args_drop; [|exact Hi].
    unfold match_argument in Hn. destruct (ac_nargs a); [injection Hn as <-; lia|..];
      match type of Hn with (if ?b then _ else _) = _ => destruct b eqn:Eb; [|discriminate] end; injection Hn as <-; try apply Nat.leb_le in Eb; lia.
  Qed.
  Lemma explicit_keep o e : forall a d s l acts l' x, explicit options a d s e l = Done (acts, l', x) -> In (TO o) l -> In (TO o) l'.
  Proof.
    assert (G : forall k, forall e, (String.length e <= k)%nat -> forall a d s l acts l' x, explicit options a d s e l = Done (acts, l', x) -> In (TO o) l -> In (TO o) l').
    { induction k as [|k IH]; intros e' Hk a d s l acts l' x H Hi.
      - destruct e'; [|cbn in Hk; lia]. cbn in H. destruct (ac_nargs a); try discriminate; now injection H as _ <- _.
      - destruct e' as [|c e']; cbn [explicit] in H; destruct (ac_nargs a); try discriminate; try (now injection H as _ <- _).
        destruct d; [discriminate|]. destruct (s || Ascii.eqb c dash); [discriminate|]. destruct (find_option options _) as [b|]; [|now injection H as _ <- _].
        apply obind_done in H. destruct H as (((acts0, l0), x0) & H1 & H). injection H as _ <- _.
        destruct e' as [|c' e'']; [now apply (take_words_keep o) in H1|]. cbn in Hk.
        destruct (Ascii.eqb c' "="%char); (apply IH in H1; [exact H1|cbn; lia|exact Hi]). }
    intros a d s l acts l' x. now apply (G (String.length e)).
  Qed.
  Lemma consume_optional_keep o o' l ns ns' l' x : consume_optional o' l ns = Done (ns', l', x) -> In (TO o) l -> In (TO o) l'.
  Proof.
    unfold CmdLine.consume_optional. destruct o' as [s|a name ex]; [now intros [= _ <- _]|]. intros H Hi.
    apply obind_done in H. destruct H as (((acts, l0), x0) & H1 & H). apply obind_done in H. destruct H as (ns0 & _ & H). injection H as _ <- _.
    destruct ex as [(sep, e)|]; [now apply (explicit_keep o) in H1|now apply (take_words_keep o) in H1].
  Qed.
  Lemma positionals_keep o w l ns k w' ns' : consume_positionals w l ns = Done (k, w', ns') -> In (TO o) l -> In (TO o) (skipn k l).
  Proof.
    unfold CmdLine.consume_positionals. destruct w; [|now intros [= <- _ _]]. destruct (match_positional positional l) as [n|] eqn:E; [|now intros [= <- _ _]].
    intros H Hi. apply obind_done in H. destruct H as (ns0 & _ & H). injection H as <- _ _. unfold match_positional in E.
    assert (Hd : In (TO o) (skipn (leading is_dd l) l)) by (apply (leading_drop is_dd); auto).
    destruct (skipn (leading is_dd l) l) as [|[?|s|] r] eqn:Es; try discriminate.
    apply (f_equal (fun x => match x with Some n => n | None => O end)) in E. subst n.
    assert (Hr : In (TO o) r) by (destruct Hd as [Hd|Hd]; [discriminate|exact Hd]).
    rewrite <- Nat.add_assoc, (Nat.add_comm (leading is_dd l)), <- skipn_skipn', Es. cbn [Nat.add skipn].
    destruct (ac_nargs positional); (eapply leading_drop; [apply Nat.le_refl|reflexivity|exact Hr]).
  Qed.
  Lemma loop_extras : forall n wanted extras ns l ns', (extras <> [] \/ exists s, In (TO (Unknown s)) l) -> loop n wanted extras ns l <> Done ns'.
  Proof.
    induction n as [|n IH]; intros wanted extras ns l ns' Hx H; [discriminate|]. cbn [CmdLine.loop] in H.
    assert (App : forall y : list string, extras <> [] -> (extras ++ y)%list <> []) by (intros y Hne E; apply Hne; now apply app_eq_nil in E).
    destruct (existsb is_opt l) eqn:E.
    - assert (Hpos : ('(n0, wanted0, ns0) <<- consume_positionals wanted l ns ;;
         match n0 with
         | O => let k := leading (fun t => negb (is_opt t)) l in loop n wanted0 (extras ++ List.map word (firstn k l))%list ns0 (skipn k l)
         | S _ => loop n wanted0 extras ns0 (skipn n0 l)
         end) <> Done ns').
      { clear H. intros H. apply obind_done in H. destruct H as (((k, w), ns0) & Hk & H).
        destruct k as [|k]; cbv zeta in H; revert H; apply IH; (destruct Hx as [Hx|(s & Hs)]; [left|right; exists s]); auto.
        - apply (leading_drop (fun t => negb (is_opt t))); auto.
        - now apply (positionals_keep (Unknown s)) in Hk. }
      destruct l as [|t r]; [discriminate|]. destruct t as [o|s|]; [|now apply Hpos|now apply Hpos]. clear Hpos.
      apply obind_done in H. destruct H as (((ns0, l'), x) & Hc & H). revert H. apply IH. destruct Hx as [Hx|(s & [Hs|Hs])]; [left; now apply App| |right; exists s; now apply (consume_optional_keep (Unknown s)) in Hc].
      left. injection Hs as ->. cbn in Hc. injection Hc as _ _ <-. intros Z. apply app_eq_nil in Z. destruct Z. discriminate.
    - apply obind_done in H. destruct H as (((k, w), ns0) & _ & H). destruct w; [discriminate|].
      destruct Hx as [Hx|(s & Hs)].
      + destruct (extras ++ List.map word (skipn k l))%list eqn:Ex; [|discriminate]. now apply (App (List.map word (skipn k l))) in Hx.
      + assert (T : existsb is_opt l = true) by (apply existsb_exists; eexists; split; [exact Hs|reflexivity]). congruence.
  Qed.
  Lemma classify_has before s o after l : classify (before ++ s :: after) = Done l -> parse_optional s = Done (Some o) -> s <> "--" -> ~ In "--" before -> In (TO o) l.
  Proof.
    revert l. induction before as [|b before IH]; intros l H Ho Ns Hb; cbn [app CmdLine.classify] in H.
    - apply String.eqb_neq in Ns. rewrite Ns, Ho in H. cbn [obind] in H. apply obind_done in H. destruct H as (t & _ & H). injection H as <-. now left.
    - destruct (String.eqb_spec b "--") as [->|_]; [exfalso; apply Hb; now left|]. apply obind_done in H. destruct H as (o' & _ & H). apply obind_done in H. destruct H as (t & Ht & H).
      injection H as <-. right. apply IH; auto. intros X. apply Hb. now right.
  Qed.
  Lemma unknown_not_done before s after ns : parse_optional s = Done (Some (Unknown s)) -> s <> "--" -> ~ In "--" before ->
    parse_args int_of float_of options positional (before ++ s :: after) <> Done ns.
  Proof.
    intros Ho Ns Hb H. unfold parse_args in H. apply obind_done in H. destruct H as (l & Hl & H). revert H. apply loop_extras. right. exists s. now apply (classify_has _ _ _ _ _ Hl).
  Qed.
  (** ** One positional word *)
  Definition starts_arg (l : list tok) : bool := match l with TA _ :: _ => true | _ => false end.
  Lemma run_positional extras ns s l : ac_nargs positional = N1 -> ac_opts positional = [] -> s <> "--" ->
    (l = [] \/ exists o r, l = TO o :: r) ->
    run true extras ns (TA s :: l) = (ns <<- take_action positional [s] ns ;; run false extras ns l).
  Proof.
    intros HN HO Hs Hl. unfold run at 1. cbn [CmdLine.loop].
    assert (Hm : match_positional positional (TA s :: l) = Some 1%nat).
    { unfold match_positional. cbn [leading is_dd skipn]. rewrite HN. destruct Hl as [->|(o & r & ->)]; reflexivity. }
    assert (Hr : take_action positional (List.map word (firstn 1 (TA s :: l))) ns = take_action positional [s] ns) by reflexivity.
    destruct Hl as [->|(o & r & ->)].
    - cbn [existsb is_opt orb]. unfold CmdLine.consume_positionals. rewrite Hm, Hr. destruct (take_action positional [s] ns); cbn [obind]; try reflexivity.
    - cbn [existsb is_opt orb]. unfold CmdLine.consume_positionals. rewrite Hm, Hr. destruct (take_action positional [s] ns) as [ns'| |]; cbn [obind]; reflexivity.
  Qed.
End Parser.

(** ** The namespace *)
Lemma ns_get_dset k k' v ns : ns_get k (dset String.eqb k' v ns) = if String.eqb k k' then v else ns_get k ns.
Proof.
  unfold ns_get. induction ns as [|(k0, v0) ns IH]; cbn.
  - destruct (String.eqb k k'); reflexivity.
  - destruct (String.eqb_spec k' k0) as [->|N]; cbn.
    + destruct (String.eqb k k0); reflexivity.
    + destruct (String.eqb_spec k k0) as [->|N']; [|exact IH]. destruct (String.eqb_spec k0 k') as [->|]; [congruence|reflexivity].
Qed.

(** ** The parser of the converters *)
Section Generic.
  Context (int_of float_of : string -> option Z) (readers : list string).
  Notation opts := (generic_options readers).
  Notation classify := (classify opts).
  Notation run := (run int_of float_of opts pos_filename).
  Notation good := (good int_of float_of readers).
  Notation effect := (effect int_of float_of).

  Lemma generic_keys : keys_ok opts.
  Proof. reflexivity. Qed.

  (** Status 0: a word that begins with the letter of the help, with one dash or two. *)
  Lemma generic_long : long_only opts.
  Proof. intros name a H N. cbn in H. repeat (destruct H as [[= <- <-]|H]; [try reflexivity; exfalso; apply N; reflexivity|]). destruct H. Qed.
  Lemma app_empty s : s ++ "" = s.
  Proof. induction s as [|c s IH]; cbn; congruence. Qed.
  Lemma help_names s a name : In (name, a) (omap opts) -> ac_kind a = Help -> named_by opts s a name -> s <> "--" -> begins "-h" s \/ begins "--h" s.
  Proof.
    intros H K N Ns. assert (Hn : name = "-h" \/ name = "--help").
    { cbn in H. repeat (destruct H as [[= <- <-]|H]; [auto; discriminate K|]). destruct H. }
    clear H K.
    assert (Pre : forall p r, String.prefix p name = true -> (2 <= String.length p)%nat -> p <> "--" -> begins "-h" (p ++ r) \/ begins "--h" (p ++ r)).
    { intros p r Hp Hl Hd. destruct p as [|c1 [|c2 p]]; cbn in Hl; try lia. destruct Hn as [->| ->]; cbn in Hp.
      - destruct (ascii_dec c1 "-"); [|discriminate]. destruct (ascii_dec c2 "h"); [|discriminate]. subst. left. now exists (p ++ r).
      - destruct (ascii_dec c1 "-"); [|discriminate]. destruct (ascii_dec c2 "-"); [|discriminate]. subst. destruct p as [|c3 p]; [now elim Hd|]. cbn in Hp. destruct (ascii_dec c3 "h"); [|discriminate]. subst. right. now exists (p ++ r). }
    assert (Sp : forall o e, partition_eq s = (o, e) -> exists r, s = o ++ r).
    { clear. intros o e. revert o. induction s as [|c s IH]; intros o; cbn; [intros [= <- _]; now exists ""|]. destruct (Ascii.eqb c "="); [intros [= <- _]; now eexists|].
      destruct (partition_eq s) as (o', e'). intros [= <- ->]. destruct (IH _ eq_refl) as (r & E). exists r. cbn. now rewrite E at 1. }
    assert (Pn : forall r, begins "-h" (name ++ r) \/ begins "--h" (name ++ r)) by (intros r; destruct Hn as [->| ->]; [left|right]; now eexists).
    destruct N as [->|o e Ep <-|p e Sd Ep Hp Hl|E|Sd Hp Hl].
    - specialize (Pn ""). now rewrite app_empty in Pn.
    - destruct (Sp _ _ Ep) as (r & ->). apply Pn.
    - destruct (Sp _ _ Ep) as (r & Es).
      assert (H2 : (2 <= String.length p)%nat).
      { clear - Sd Ep Hl. destruct s as [|c1 [|c2 s]]; cbn in Sd; try discriminate. apply Ascii.eqb_eq in Sd. subst c2. cbn in Ep. destruct (Ascii.eqb c1 "=") eqn:E1.
        - injection Ep as <- _. revert Hl. cbn. lia.
        - destruct (partition_eq s) as (p', e'). injection Ep as <- _. cbn. lia. }
      rewrite Es. apply Pre; auto. intros ->. revert Hl. cbn. lia.
    - destruct s as [|c1 [|c2 s]]; cbn in E; [destruct Hn; subst; discriminate ..|]. assert (E' : name = String c1 (String c2 "")) by (rewrite E; now destruct s). clear E. destruct Hn as [->| ->]; [|discriminate]. injection E' as <- <-. left. now exists s.
    - specialize (Pre s "" Hp Hl Ns). now rewrite app_empty in Pre.
  Qed.
  Lemma generic_exit argv c : parse_args int_of float_of opts pos_filename argv = Exit c ->
    c = 2 \/ (c = 0 /\ exists before s after, argv = (before ++ s :: after)%list /\ ~ In "--" before /\ (begins "-h" s \/ begins "--h" s)).
  Proof.
    intros H. apply parse_exit in H; [|apply generic_long|discriminate]. destruct H as [H|(H & s & a & name & (before & after & -> & Hb) & Ns & Hi & Ha & Hn)]; [now left|right]. split; [exact H|].
    exists before, s, after. repeat split; auto. now apply (help_names s a name).
  Qed.

  Definition act_fmt : action := Action ["--fmt"] "fmt" N1 Store Tstr (Some readers) VNone.
  Definition act_log : action := Action ["--log"] "log" N1 Store Tstr None (VStr "info").
  Definition act_remove (k : where_) : action := opt_store (remove_name k) ("remove_" ++ where_name k ++ "_data") Nplus Tstr.
  Definition pair_toks (a : action) (name : string) (j : form) (v : string) : list tok :=
    match j with Apart => [TO (Found a name None); TA v] | Joined => [TO (Found a name (Some (true, v)))] end.
  Definition item_toks (i : item) : list tok :=
    match i with
    | Fmt j f => pair_toks act_fmt "--fmt" j f
    | Outpath j d => pair_toks (opt_store "--outpath" "outpath" N1 Tstr) "--outpath" j d
    | Check => [TO (Found (opt_flag "--check" "check") "--check" None)]
    | Info => [TO (Found (opt_flag "--info" "info") "--info" None)]
    | Log j l => pair_toks act_log "--log" j l
    | Remove k names => TO (Found (act_remove k) (remove_name k) None) :: List.map TA names
    | RemoveOne k name => pair_toks (act_remove k) (remove_name k) Joined name
    | Extrude j n => pair_toks (opt_store "--extrude" "extrude" N1 Tint) "--extrude" j n
    | Scale x y z => [TO (Found (opt_store "--scale" "scale" N3 Tfloat) "--scale" None); TA x; TA y; TA z]
    | Blank v => pair_toks (opt_store "--" "" N1 Tstr) "--" Joined v
    end.
  Lemma classify_name s o l : String.eqb s "--" = false -> parse_optional opts s = Done (Some o) -> classify (s :: l) = (t <<- classify l ;; Done (TO o :: t)).
  Proof. intros E H. cbn [CmdLine.classify]. now rewrite E, H. Qed.
  Lemma bind_app (x : outcome (list tok)) a b : obind (obind x (fun t => Done (b ++ t)%list)) (fun t => Done (a ++ t)%list) = obind x (fun t => Done ((a ++ b) ++ t)%list).
  Proof. destruct x; cbn; [|reflexivity..]. now rewrite app_assoc. Qed.
  Lemma classify_item i l : good i -> classify (render i ++ l) = (t <<- classify l ;; Done (item_toks i ++ t)%list).
  Proof.
    destruct i; cbn [CmdLineSpec.good render item_toks]; intros G; cbn [app pair pair_toks].
    1, 2, 5, 8: destruct j; cbn [app pair pair_toks]; (erewrite classify_name by reflexivity); [rewrite (classify_plain _ _ _ generic_keys) by (apply G; reflexivity)|]; destruct (classify l); reflexivity.
    1, 2: erewrite classify_name by reflexivity; destruct (classify l); reflexivity.
    - destruct G as (_ & G). destruct k; (erewrite classify_name by reflexivity); rewrite (classify_plains _ _ _ generic_keys G); destruct (classify l); reflexivity.
    - destruct k; (erewrite classify_name by reflexivity); destruct (classify l); reflexivity.
    - erewrite classify_name by reflexivity. do 3 rewrite (classify_plain _ _ _ generic_keys) by tauto. destruct (classify l); reflexivity.
    - erewrite classify_name by reflexivity. destruct (classify l); reflexivity.
  Qed.
  Lemma classify_items items l : Forall good items -> classify (words items ++ l) = (t <<- classify l ;; Done (flat_map item_toks items ++ t)%list).
  Proof.
    intros H. induction H as [|i items Hi _ IH]; [cbn; destruct (classify l); reflexivity|]. cbn [words flat_map]. unfold words in IH. rewrite <- !app_assoc, (classify_item _ _ Hi), IH.
    apply bind_app.
  Qed.

  Lemma leading_map ss l : starts_arg l = false -> leading_args (List.map TA ss ++ l) = List.length ss.
  Proof. intros H. induction ss as [|s ss IH]; cbn; [destruct l as [|[| |]]; reflexivity || discriminate|now rewrite IH]. Qed.
  Lemma explicit_one a d j e l : ac_nargs a = N1 -> explicit opts a d j e l = Done ([(a, [e])], l, []).
  Proof. intros H. destruct e; cbn; now rewrite H. Qed.
  Lemma get_list_str a ss : ac_type a = Tstr -> ac_choices a = None -> get_list int_of float_of a ss = Done (List.map VStr ss).
  Proof. intros H1 H2. induction ss as [|s ss IH]; cbn; [reflexivity|]. unfold get_value. rewrite H1, H2. cbn. now rewrite IH. Qed.
  Lemma str_list_map ss : str_list (VList (List.map VStr ss)) = ss.
  Proof. cbn. induction ss; cbn; congruence. Qed.

  (** One option: the rest is parsed with the effect of the option. *)
  Lemma run_item i w x ns l : good i -> (open_ended i -> starts_arg l = false) ->
    exists ns', run w x ns (item_toks i ++ l) = run w x ns' l /\ args_of ns' = effect (args_of ns) i.
  Proof.
    intros G HL.
    assert (E : exists ns', consume_optional int_of float_of opts (match item_toks i with TO o :: _ => o | _ => Unknown "" end) (List.tl (item_toks i) ++ l) ns = Done (ns', l, []) /\ args_of ns' = effect (args_of ns) i).
    { destruct i; cbn [item_toks List.tl app CmdLineSpec.good] in *.
      - destruct G as (Hin & _). exists (dset String.eqb "fmt" (VStr f) ns). split; [|unfold args_of; rewrite !ns_get_dset; reflexivity].
        assert (Hg : existsb (String.eqb f) readers = true) by (apply existsb_exists; exists f; split; [exact Hin|apply String.eqb_refl]).
        destruct j; cbn -[explicit]; [unfold take_words|rewrite explicit_one by reflexivity]; cbn; unfold get_value; cbn; rewrite Hg; reflexivity.
      - eexists. split; [destruct j; [reflexivity|destruct d; reflexivity]|]. unfold args_of. rewrite !ns_get_dset. reflexivity.
      - eexists. split; [reflexivity|]. unfold args_of. rewrite !ns_get_dset. reflexivity.
      - eexists. split; [reflexivity|]. unfold args_of. rewrite !ns_get_dset. reflexivity.
      - eexists. split; [destruct j; [reflexivity|destruct level; reflexivity]|]. unfold args_of. rewrite !ns_get_dset. reflexivity.
      - destruct G as (Hne & _). exists (dset String.eqb ("remove_" ++ where_name k ++ "_data") (VList (List.map VStr names)) ns). split.
        + unfold consume_optional, take_words, match_argument. cbn [act_remove opt_store ac_nargs]. rewrite (leading_map names l (HL I)).
          replace (Nat.leb 1 (List.length names)) with true by (destruct names; [congruence|reflexivity]). cbn [obind].
          rewrite firstn_app, skipn_app, List.map_length, Nat.sub_diag. cbn [firstn skipn]. rewrite app_nil_r.
          rewrite <- (List.map_length TA names), firstn_all, skipn_all. cbn [app].
          rewrite List.map_map. cbn [word]. rewrite List.map_id. cbn [take_all]. unfold take_action. cbn [act_remove opt_store ac_opts ac_kind ac_nargs ac_dest].
          rewrite (get_list_str (act_remove k) names eq_refl eq_refl). cbn [obind]. destruct names as [|? [|]]; reflexivity.
        + unfold args_of. rewrite !ns_get_dset. destruct k; cbn [where_name String.append String.eqb Ascii.eqb Bool.eqb]; try reflexivity. cbn [CmdLineSpec.effect]. f_equal. apply str_list_map.
      - exists (dset String.eqb ("remove_" ++ where_name k ++ "_data") (VList [VStr name]) ns). split; [destruct k, name; reflexivity|].
        unfold args_of. rewrite !ns_get_dset. destruct k; reflexivity.
      - destruct G as (_ & Hn). destruct (int_of n) as [v|] eqn:Ev; [|congruence]. exists (dset String.eqb "extrude" (VInt v) ns). split.
        + destruct j; cbn -[explicit]; [unfold take_words|rewrite explicit_one by reflexivity]; cbn; unfold get_value; cbn; rewrite Ev; reflexivity.
        + unfold args_of. rewrite !ns_get_dset. cbn. now rewrite Ev.
      - destruct G as (_ & _ & _ & Hx & Hy & Hz). destruct (float_of x0) as [vx|] eqn:Ex; [|congruence]. destruct (float_of y) as [vy|] eqn:Ey; [|congruence]. destruct (float_of z) as [vz|] eqn:Ez; [|congruence]. eexists. split.
        + cbn. unfold take_words. cbn. unfold get_value. cbn. rewrite Ex. cbn. rewrite Ey. cbn. rewrite Ez. reflexivity.
        + unfold args_of. rewrite !ns_get_dset. cbn. now rewrite Ex, Ey, Ez.
      - eexists. split; [destruct v; reflexivity|]. unfold args_of. rewrite !ns_get_dset. reflexivity. }
    destruct E as (ns' & E & Ea). exists ns'. split; [|exact Ea].
    assert (Ht : item_toks i = TO (match item_toks i with TO o :: _ => o | _ => Unknown "" end) :: List.tl (item_toks i)) by (destruct i; try destruct j; reflexivity).
    rewrite Ht. cbn [app]. rewrite run_opt, E. cbn [obind]. now rewrite app_nil_r.
  Qed.

  (** ** Options one after the other *)
  Lemma toks_start items l : starts_arg l = false -> starts_arg (flat_map item_toks items ++ l) = false.
  Proof. destruct items as [|i items]; cbn [flat_map app]; [auto|]. intros _. destruct i; try destruct j; reflexivity. Qed.
  Lemma run_items items : forall w x ns l, Forall good items -> (open_end items -> starts_arg l = false) ->
    exists ns', run w x ns (flat_map item_toks items ++ l) = run w x ns' l /\ args_of ns' = fold_left effect items (args_of ns).
  Proof.
    induction items as [|i items IH]; intros w x ns l G HL; [exists ns; split; reflexivity|].
    inversion G as [|? ? Gi Gs]; subst. cbn [flat_map]. rewrite <- app_assoc.
    destruct (run_item i w x ns (flat_map item_toks items ++ l)%list Gi) as (ns1 & E1 & A1).
    { intros Ho. destruct items as [|i' items']. { cbn. apply HL. exists [], i. split; [reflexivity|exact Ho]. } clear. cbn [flat_map app]. destruct i'; try destruct j; reflexivity. }
    destruct (IH w x ns1 l Gs) as (ns2 & E2 & A2). { intros (before & i' & -> & Ho). apply HL. exists (i :: before), i'. split; [reflexivity|exact Ho]. }
    exists ns2. split; [now rewrite E1, E2|]. cbn [fold_left]. now rewrite A2, A1.
  Qed.
  Definition with_file (f : string) (a : args) : args := let 'Args _ fmt out rm ex sc info := a in Args f fmt out rm ex sc info.
  Lemma effect_file f a i : effect (with_file f a) i = with_file f (effect a i).
  Proof. destruct a, i; try destruct k; cbn; try reflexivity; repeat match goal with |- context [match ?x with Some _ => _ | None => _ end] => destruct x end; reflexivity. Qed.
  Lemma effects_file f items : forall a, fold_left effect items (with_file f a) = with_file f (fold_left effect items a).
  Proof. induction items as [|i items IH]; intros a; cbn; [reflexivity|]. now rewrite effect_file, IH. Qed.
  Lemma args_file f ns : args_of (dset String.eqb "filename" (VStr f) ns) = with_file f (args_of ns).
  Proof. unfold args_of. rewrite !ns_get_dset. reflexivity. Qed.
  Lemma args_defaults : args_of (defaults opts pos_filename) = Args "" None None [] 0 None false.
  Proof. reflexivity. Qed.
  Lemma toks_opt items : flat_map item_toks items = [] \/ exists o r, flat_map item_toks items = TO o :: r.
  Proof. destruct items as [|i items]; [now left|]. right. cbn [flat_map]. destruct i; try destruct j; cbn; eauto. Qed.

  Lemma take_file f ns : f <> "--" -> take_action int_of float_of pos_filename [f] ns = Done (dset String.eqb "filename" (VStr f) ns).
  Proof. intros H. unfold take_action. cbn [pos_filename ac_opts remove_first]. destruct (String.eqb_spec f "--"); [contradiction|reflexivity]. Qed.
  Lemma parse_file before f after : Forall good before -> Forall good after -> ~ open_end before -> plain f ->
    exists ns, parse_args int_of float_of opts pos_filename (words before ++ f :: words after) = Done ns /\ args_of ns = meaning int_of float_of f (before ++ after).
  Proof.
    intros Gb Ga Ho Hf. rewrite run_parse, (classify_items _ _ Gb), (classify_plain _ _ _ generic_keys Hf).
    rewrite <- (app_nil_r (words after)), (classify_items _ _ Ga). cbn [CmdLine.classify obind]. rewrite app_nil_r.
    destruct (run_items before true [] (defaults opts pos_filename) (TA f :: flat_map item_toks after) Gb) as (ns1 & E1 & A1); [tauto|]. rewrite E1.
    rewrite run_positional by (reflexivity || (apply plain_not_dd; exact Hf) || apply toks_opt).
    rewrite (take_file f ns1 (plain_not_dd f Hf)). cbn [obind].
    destruct (run_items after false [] (dset String.eqb "filename" (VStr f) ns1) [] Ga) as (ns2 & E2 & A2); [reflexivity|]. rewrite app_nil_r in E2. rewrite E2, run_nil.
    exists ns2. split; [reflexivity|]. rewrite A2, args_file, A1, args_defaults. unfold meaning. rewrite fold_left_app.
    change (Args f None None [] 0 None false) with (with_file f (Args "" None None [] 0 None false)). now rewrite !effects_file.
  Qed.
  Lemma parse_dashes items f : Forall good items ->
    exists ns, parse_args int_of float_of opts pos_filename (words items ++ ["--"; f]) = Done ns /\ args_of ns = meaning int_of float_of f items.
  Proof.
    intros G. rewrite run_parse, (classify_items _ _ G). cbn [CmdLine.classify obind String.eqb Ascii.eqb Bool.eqb List.map].
    destruct (run_items items true [] (defaults opts pos_filename) [TD; TA f] G) as (ns1 & E1 & A1); [reflexivity|]. rewrite E1.
    exists (dset String.eqb "filename" (VStr f) ns1). split; [reflexivity|]. rewrite args_file, A1, args_defaults. unfold meaning.
    change (Args f None None [] 0 None false) with (with_file f (Args "" None None [] 0 None false)). now rewrite effects_file.
  Qed.
  Lemma parse_no_file items : Forall good items -> parse_args int_of float_of opts pos_filename (words items) = Exit 2.
  Proof.
    intros G. rewrite run_parse, <- (app_nil_r (words items)), (classify_items _ _ G). cbn [CmdLine.classify obind].
    destruct (run_items items true [] (defaults opts pos_filename) [] G) as (ns1 & E1 & A1); [reflexivity|]. rewrite E1. apply run_nil.
  Qed.
  (** What follows does not matter once an option is refused. *)
  Lemma parse_refused items bad toks rest : Forall good items -> ~ open_end items \/ starts_arg toks = false ->
    (forall l, classify (bad ++ l) = (t <<- classify l ;; Done (toks ++ t)%list)) ->
    (forall w x ns l, run w x ns (toks ++ l) = Exit 2) -> toks <> [] ->
    parse_args int_of float_of opts pos_filename (words items ++ bad ++ rest) = Exit 2.
  Proof.
    intros G Ho Hc Hr Hn. rewrite run_parse, (classify_items _ _ G), Hc. destruct (classify rest) as [t| |] eqn:E; cbn [obind].
    - destruct (run_items items true [] (defaults opts pos_filename) (toks ++ t) G) as (ns1 & E1 & _); [|now rewrite E1].
      intros Hop. destruct Ho as [Ho|Ho]; [contradiction|]. destruct toks as [|[| |]]; [congruence|reflexivity|discriminate|reflexivity].
    - apply classify_exit in E. now subst.
    - now apply classify_unstuck in E.
  Qed.

  (** ** Refused options *)
  Lemma run_opt_exit o w x ns l : consume_optional int_of float_of opts o l ns = Exit 2 -> run w x ns (TO o :: l) = Exit 2.
  Proof. intros H. now rewrite run_opt, H. Qed.
  Lemma existsb_not f : ~ In f readers -> existsb (String.eqb f) readers = false.
  Proof. intros H. destruct (existsb (String.eqb f) readers) eqn:E; [|reflexivity]. apply existsb_exists in E. destruct E as (y & Hy & E). apply String.eqb_eq in E. subst. contradiction. Qed.
  Lemma parse_bad items b rest : Forall good items -> refused int_of float_of readers b ->
    parse_args int_of float_of opts pos_filename (words items ++ b ++ rest) = Exit 2.
  Proof.
    intros G H. destruct H as [j f Hp Hf|j n Hp Hn|x y z Hx Hy Hz Hno|v|o v Ho].
    - apply (parse_refused items _ (pair_toks act_fmt "--fmt" j f)); [exact G|right; destruct j; reflexivity| | |destruct j; discriminate].
      + intros l. destruct j; cbn [pair pair_toks app]; (erewrite classify_name by reflexivity); [rewrite (classify_plain _ _ _ generic_keys) by auto|]; destruct (classify l); reflexivity.
      + intros w x ns l. apply existsb_not in Hf. destruct j; cbn [pair_toks app]; apply run_opt_exit; cbn -[explicit]; [unfold take_words|rewrite explicit_one by reflexivity]; cbn; unfold get_value; cbn; rewrite Hf; reflexivity.
    - apply (parse_refused items _ (pair_toks (opt_store "--extrude" "extrude" N1 Tint) "--extrude" j n)); [exact G|right; destruct j; reflexivity| | |destruct j; discriminate].
      + intros l. destruct j; cbn [pair pair_toks app]; (erewrite classify_name by reflexivity); [rewrite (classify_plain _ _ _ generic_keys) by auto|]; destruct (classify l); reflexivity.
      + intros w x ns l. destruct j; cbn [pair_toks app]; apply run_opt_exit; cbn -[explicit]; [unfold take_words|rewrite explicit_one by reflexivity]; cbn; unfold get_value; cbn; rewrite Hn; reflexivity.
    - apply (parse_refused items _ [TO (Found (opt_store "--scale" "scale" N3 Tfloat) "--scale" None); TA x; TA y; TA z]); [exact G|right; reflexivity| | |discriminate].
      + intros l. cbn [app]. erewrite classify_name by reflexivity. do 3 rewrite (classify_plain _ _ _ generic_keys) by assumption. destruct (classify l); reflexivity.
      + intros w x0 ns l. cbn [app]. apply run_opt_exit. cbn. unfold take_words. cbn. unfold get_value. cbn.
        destruct (float_of x); [|reflexivity]. cbn. destruct (float_of y); [|reflexivity]. cbn. destruct (float_of z); [|reflexivity]. destruct Hno as [|[|]]; discriminate.
    - apply (parse_refused items _ [TO (Found (opt_store "--scale" "scale" N3 Tfloat) "--scale" (Some (true, v)))]); [exact G|right; reflexivity| | |discriminate].
      + intros l. cbn [pair app]. erewrite classify_name by reflexivity. destruct (classify l); reflexivity.
      + intros w x0 ns l. cbn [app]. apply run_opt_exit. destruct v; reflexivity.
    - assert (exists a, ac_nargs a = N0 /\ forall l, classify (pair Joined o v ++ l) = (t <<- classify l ;; Done (TO (Found a o (Some (true, v))) :: t))) as (a & Ha & Hc).
      { destruct Ho as [<-|[<-|[<-|[]]]]; (eexists; split; [|intros l; cbn [pair app]; erewrite classify_name by reflexivity; reflexivity]); reflexivity. }
      apply (parse_refused items _ [TO (Found a o (Some (true, v)))]); [exact G|right; reflexivity|exact Hc| |discriminate].
      intros w x0 ns l. cbn [app]. apply run_opt_exit. unfold consume_optional. destruct v; cbn; rewrite Ha; [reflexivity|].
      destruct Ho as [<-|[<-|[<-|[]]]]; reflexivity.
  Qed.
  Lemma option_like_tok s rest : option_like s -> (exists t, classify (s :: rest) = Done t /\ starts_arg t = false) \/ classify (s :: rest) = Exit 2.
  Proof.
    intros ((r & ->) & Hp & Hs). cbn [CmdLine.classify]. destruct (String.eqb ("-" ++ r) "--"); [left; eexists; split; reflexivity|].
    assert (H : (exists o, parse_optional opts ("-" ++ r) = Done (Some o)) \/ parse_optional opts ("-" ++ r) = Exit 2).
    { cbn [String.append]. unfold CmdLine.parse_optional. change (negb (Ascii.eqb "-"%char dash)) with false. cbn iota.
      destruct (find_option opts _); [left; eauto|]. destruct r as [|c r]. { exfalso. apply Hp. right. now left. }
      cbn [nonempty negb]. destruct (match partition_eq _ with (_, _) => _ end); [left; eauto|]. destruct (option_tuples opts _) as [|? [|]]; [|left; eauto|right; reflexivity].
      destruct (negative_number (String "-" (String c r))) eqn:E. { exfalso. apply Hp. right. right. now apply negative_number_iff. }
      replace (has_space (String "-" (String c r))) with false; [left; eauto|]. symmetry. apply Bool.not_true_is_false. intros Hsp. apply Hs.
      clear -Hsp. cbn [String.append] in *. remember (String "-" (String c r)) as s. clear -Hsp. induction s as [|c s IH]; cbn in *; [discriminate|]. destruct (Ascii.eqb_spec c " "%char) as [->|]; [now left|right; auto]. }
    destruct H as [(o & ->)| ->]; [|right; reflexivity]. cbn [obind]. destruct (classify rest) as [t| |] eqn:E; cbn [obind].
    - left. eexists. split; reflexivity.
    - right. apply classify_exit in E. now subst.
    - now apply classify_unstuck in E.
  Qed.
  Lemma parse_short items b rest : Forall good items -> short b -> (rest = [] \/ exists s l, rest = s :: l /\ option_like s) ->
    parse_args int_of float_of opts pos_filename (words items ++ b ++ rest) = Exit 2.
  Proof.
    intros G Hb Hrest.
    assert (HR : (exists t, classify rest = Done t /\ starts_arg t = false) \/ classify rest = Exit 2).
    { destruct Hrest as [->|(s & l & -> & Hs)]; [left; exists []; split; reflexivity|now apply option_like_tok]. }
    assert (HB : exists o xs, (forall l, classify (b ++ l) = (t <<- classify l ;; Done (TO o :: List.map TA xs ++ t)%list)) /\
                 forall ns t, starts_arg t = false -> consume_optional int_of float_of opts o (List.map TA xs ++ t) ns = Exit 2).
    { destruct Hb as [o Ho|xs Hxs Hlen].
      - exists (match parse_optional opts o with Done (Some o) => o | _ => Unknown "" end), []. split.
        + intros l. cbn [app List.map]. apply classify_name; destruct Ho as [<-|[<-|[<-|[<-|[<-|[<-|[<-|[]]]]]]]]; reflexivity.
        + intros ns t Ht. cbn [app List.map]. destruct Ho as [<-|[<-|[<-|[<-|[<-|[<-|[<-|[]]]]]]]]; destruct t as [|[| |]]; reflexivity || discriminate.
      - exists (Found (opt_store "--scale" "scale" N3 Tfloat) "--scale" None), xs. split.
        + intros l. cbn [app]. erewrite classify_name by reflexivity. rewrite (classify_plains _ _ _ generic_keys Hxs). destruct (classify l); reflexivity.
        + intros ns t Ht. unfold consume_optional, take_words, match_argument. cbn [opt_store ac_nargs]. rewrite (leading_map xs t Ht).
          destruct (Nat.leb_spec 3 (List.length xs)); [lia|reflexivity]. }
    destruct HB as (o & xs & Hc & Hx). rewrite run_parse, (classify_items _ _ G), Hc. destruct HR as [(t & -> & Ht)| ->]; [|reflexivity]. cbn [obind].
    destruct (run_items items true [] (defaults opts pos_filename) (TO o :: List.map TA xs ++ t) G) as (ns1 & E1 & _); [reflexivity|]. rewrite E1. apply run_opt_exit. auto.
  Qed.
  Lemma parse_two before f middle g after : Forall good before -> Forall good middle -> Forall good after -> ~ open_end before -> ~ open_end middle -> plain f -> plain g ->
    parse_args int_of float_of opts pos_filename (words before ++ f :: words middle ++ g :: words after) = Exit 2.
  Proof.
    intros Gb Gm Ga Ho Ho' Hf Hg. rewrite run_parse, (classify_items _ _ Gb), (classify_plain _ _ _ generic_keys Hf), (classify_items _ _ Gm), (classify_plain _ _ _ generic_keys Hg).
    rewrite <- (app_nil_r (words after)), (classify_items _ _ Ga). cbn [CmdLine.classify obind]. rewrite app_nil_r.
    destruct (run_items before true [] (defaults opts pos_filename) (TA f :: flat_map item_toks middle ++ TA g :: flat_map item_toks after) Gb) as (ns1 & E1 & _); [tauto|]. rewrite E1.
    assert (HE : forall ns, run false [] ns (TA g :: flat_map item_toks after) = Exit 2).
    { intros ns. destruct after as [|i after]; [reflexivity|]. destruct (toks_opt (i :: after)) as [E|(o & r & E)]; [destruct i; try destruct j; discriminate|].
      rewrite E. unfold CmdLineProofs.run. cbn [CmdLine.loop existsb is_opt orb]. cbn [CmdLine.consume_positionals obind leading is_opt negb firstn skipn List.map app word].
      destruct (run_items (i :: after) false [g] ns [] Ga) as (ns' & E' & _); [reflexivity|]. rewrite app_nil_r, E, run_nil in E'. exact E'. }
    destruct middle as [|i middle].
    - cbn [flat_map app]. unfold CmdLineProofs.run. cbn [CmdLine.loop existsb is_opt orb]. unfold CmdLine.consume_positionals.
      cbn [match_positional leading is_dd skipn pos_filename ac_nargs firstn List.map word]. fold pos_filename. change (0 + 1 + 0)%nat with 1%nat. cbn [firstn List.map word].
      rewrite (take_file f ns1 (plain_not_dd f Hf)). cbn [obind skipn].
      destruct (existsb is_opt (flat_map item_toks after)) eqn:E; [|reflexivity].
      rewrite <- (HE (dset String.eqb "filename" (VStr f) ns1)). reflexivity.
    - assert (HT : exists o r, (flat_map item_toks (i :: middle) ++ TA g :: flat_map item_toks after)%list = TO o :: r).
      { destruct (toks_opt (i :: middle)) as [E|(o & r & E)]; [destruct i; try destruct j; discriminate|]. rewrite E. cbn. eauto. }
      rewrite run_positional; [|reflexivity|reflexivity|now apply plain_not_dd|right; exact HT].
      rewrite (take_file f ns1 (plain_not_dd f Hf)). cbn [obind].
      destruct (run_items (i :: middle) false [] (dset String.eqb "filename" (VStr f) ns1) (TA g :: flat_map item_toks after) Gm) as (ns2 & E2 & _); [tauto|]. rewrite E2. apply HE.
  Qed.
  Lemma substring_all s : String.substring 0 (String.length s) s = s.
  Proof. induction s; cbn; congruence. Qed.
  Lemma help_word h : asks_help h -> String.eqb h "--" = false /\ exists n x, parse_optional opts h = Done (Some (Found opt_help n x)) /\
    forall l ns, consume_optional int_of float_of opts (Found opt_help n x) l ns = Exit 0.
  Proof.
    intros [ | |c r N].
    - split; [reflexivity|]. exists "-h", None. split; reflexivity.
    - split; [reflexivity|]. exists "--help", None. split; reflexivity.
    - split; [reflexivity|]. exists "-h", (Some (false, String c r)). cbn [In] in N.
      assert (N1 : Ascii.eqb c "="%char = false) by (apply Ascii.eqb_neq; intuition).
      assert (N2 : Ascii.eqb c dash = false) by (apply Ascii.eqb_neq; intuition).
      assert (N3 : Ascii.eqb c "h"%char = false) by (apply Ascii.eqb_neq; intuition).
      assert (F : find_option opts ("-h" ++ String c r) = None) by reflexivity.
      split.
      + unfold CmdLine.parse_optional. cbn [String.append Ascii.eqb dash Bool.eqb negb]. cbn [String.append] in F. rewrite F. cbn [nonempty negb].
        assert (P : match partition_eq ("-h" ++ String c r) with (o, Some e) => option_map (fun a => Found a o (Some (true, e))) (find_option opts o) | (_, None) => None end = None).
        { cbn [partition_eq String.append Ascii.eqb Bool.eqb]. rewrite N1. destruct (partition_eq r) as (a, [b|]); reflexivity. }
        cbn [String.append] in P. rewrite P. unfold option_tuples. cbn [String.append second_dash Ascii.eqb Bool.eqb dash].
        assert (S : String.substring 2 (String.length (String "-" (String "h" (String c r))) - 2) (String "-" (String "h" (String c r))) = String c r).
        { cbn [String.length Nat.sub String.substring]. f_equal. apply substring_all. }
        rewrite S. reflexivity.
      + intros l ns. change (second_dash "-h") with false. cbn -[find_option]. rewrite N2. cbn [orb].
        assert (G : find_option opts (String dash (String c "")) = None).
        { unfold find_option. cbn -[Ascii.eqb]. unfold dash in *. cbn [Ascii.eqb Bool.eqb]. rewrite N3, N2. reflexivity. }
        rewrite G. reflexivity.
  Qed.
  Lemma parse_help items h after : Forall good items -> Forall good after -> asks_help h ->
    parse_args int_of float_of opts pos_filename (words items ++ h :: words after) = Exit 0.
  Proof.
    intros G Ga Hh. rewrite run_parse, (classify_items _ _ G). destruct (help_word h Hh) as (Hd & n & x & P & Q). rewrite (classify_name h _ _ Hd P).
    rewrite <- (app_nil_r (words after)), (classify_items _ _ Ga). cbn [CmdLine.classify obind]. rewrite app_nil_r.
    destruct (run_items items true [] (defaults opts pos_filename) (TO (Found opt_help n x) :: flat_map item_toks after) G) as (ns1 & E1 & _); [reflexivity|]. rewrite E1, run_opt, Q. reflexivity.
  Qed.


  (** ** Abbreviations *)
  Lemma classify_swap pre s s' rest : parse_optional opts s = parse_optional opts s' -> (exists o, parse_optional opts s = Done (Some o)) -> s <> "--" -> s' <> "--" -> ~ In "--" pre ->
    classify (pre ++ s :: rest) = classify (pre ++ s' :: rest).
  Proof.
    intros H (o & Ho) N N' Hpre. induction pre as [|x pre IH]; cbn [app].
    - rewrite (classify_name s o), (classify_name s' o); [reflexivity|now apply String.eqb_neq|congruence|now apply String.eqb_neq|exact Ho].
    - cbn [CmdLine.classify]. destruct (String.eqb_spec x "--") as [E|_]; [exfalso; apply Hpre; now left|]. rewrite IH; [reflexivity|]. intros Hin. apply Hpre. now right.
  Qed.
  Lemma classify_stop pre s rest : parse_optional opts s = Exit 2 -> s <> "--" -> ~ In "--" pre -> classify (pre ++ s :: rest) = Exit 2.
  Proof.
    intros H N Hpre. induction pre as [|x pre IH]; cbn [app CmdLine.classify].
    - apply String.eqb_neq in N. now rewrite N, H.
    - destruct (String.eqb_spec x "--") as [E|_]; [exfalso; apply Hpre; now left|]. rewrite IH by (intros Hin; apply Hpre; now right).
      destruct (parse_optional opts x) as [o| |] eqn:E; cbn [obind]; [reflexivity| |].
      + assert (Hx : classify [x] = Exit status). { cbn [CmdLine.classify]. destruct (String.eqb_spec x "--"); [exfalso; apply Hpre; now left|]. now rewrite E. }
        apply classify_exit in Hx. now subst.
      + now apply parse_optional_unstuck in E.
  Qed.
  Fixpoint prefixes (s : string) : list string := "" :: match s with EmptyString => [] | String c r => List.map (String c) (prefixes r) end.
  Lemma begins_prefixes p s : begins p s -> In p (prefixes s).
  Proof.
    intros (r & ->). induction p as [|c p IH]; cbn; [destruct r; now left|]. right. apply in_map. exact IH.
  Qed.
  Lemma abbreviated n p : In n long_names -> begins p n -> p <> "" -> p <> "-" -> p <> "--" -> (forall m, In m long_names -> begins p m -> m = n) ->
    exists a, parse_optional opts p = Done (Some (Found a n None)) /\ parse_optional opts n = Done (Some (Found a n None)).
  Proof.
    intros Hn Hp N0 N1 N2 Hu. apply begins_prefixes in Hp.
    assert (Hr : forall r, "--remove-node-data" = p ++ r -> n = "--remove-node-data") by (intros r E; symmetry; apply Hu; [cbn; tauto|exists r; exact E]).
    assert (Hr' : forall r, "--remove-face-data" = p ++ r -> n = "--remove-face-data") by (intros r E; symmetry; apply Hu; [cbn; tauto|exists r; exact E]).
    clear Hu. unfold long_names in Hn. cbn [In] in Hn.
    repeat match type of Hn with _ \/ _ => destruct Hn as [<-|Hn] end; [..|destruct Hn];
      cbn [prefixes List.map In] in Hp; repeat match type of Hp with _ \/ _ => destruct Hp as [<-|Hp] end;
      try contradiction; try (exfalso; now apply N0); try (exfalso; now apply N1); try (exfalso; now apply N2);
      try (eexists; split; reflexivity);
      exfalso; first [specialize (Hr _ eq_refl); discriminate Hr|specialize (Hr' _ eq_refl); discriminate Hr'].
  Qed.
  Lemma ambiguous m m' p : In m long_names -> In m' long_names -> m <> m' -> begins p m -> begins p m' -> ~ In p long_names -> p <> "" -> p <> "-" -> p <> "--" ->
    parse_optional opts p = Exit 2.
  Proof.
    intros Hm Hm' Hd Hp Hp' Hno N0 N1 N2. apply begins_prefixes in Hp, Hp'.
    assert (H : In p (filter (fun q => existsb (String.eqb q) (prefixes m')) (prefixes m))).
    { apply filter_In. split; [exact Hp|]. apply existsb_exists. exists p. split; [exact Hp'|apply String.eqb_refl]. }
    clear Hp Hp' Hno. unfold long_names in Hm, Hm'. cbn [In] in Hm, Hm'.
    repeat match type of Hm with _ \/ _ => destruct Hm as [<-|Hm] end; [..|destruct Hm];
      repeat match type of Hm' with _ \/ _ => destruct Hm' as [<-|Hm'] end; try contradiction;
      vm_compute in H; repeat match type of H with _ \/ _ => destruct H as [<-|H] end; try contradiction;
      try (exfalso; now apply N0); try (exfalso; now apply N1); try (exfalso; now apply N2); reflexivity.
  Qed.
  (** The names of the options are the long ones, the short one of the help, and the empty one. *)
  Lemma generic_names o a : In (o, a) (omap opts) -> o = "-h" \/ o = "--" \/ In o long_names.
  Proof. intros H. cbn in H. unfold long_names. cbn [In]. repeat (destruct H as [[= <- _]|H]; [tauto|]). destruct H. Qed.
End Generic.

(** ** Words that look like options and are none, for any parser with the option of help *)
Section UnknownWord.
  Context (options : list action) (names : list string).
  Hypothesis Hnames : forall o a, In (o, a) (omap options) -> o = "-h" \/ o = "--" \/ In o names.
  Hypothesis Hhelp : In "--help" names.
  Hypothesis Hlong : forall o, In o names -> (3 <= String.length o)%nat.
  Lemma unknown_prefix s p o a : unknown names s -> (s = p \/ exists e, s = p ++ "=" ++ e) -> In (o, a) (omap options) -> ~ begins p o.
  Proof.
    intros (_ & Hh & Hu) Hp Ho Hb. apply Hnames in Ho. destruct Ho as [->|[->|Ho]]; [| |exact (Hu p o Hp Ho Hb)].
    - apply begins_prefixes in Hb. cbn in Hb. destruct Hb as [<-|[<-|[<-|[]]]].
      + apply (Hu "" "--help" Hp); [exact Hhelp|now exists "--help"].
      + apply (Hu "-" "--help" Hp); [exact Hhelp|now exists "-help"].
      + apply Hh. destruct Hp as [->|(e & ->)]; [now exists ""|now exists ("=" ++ e)].
    - apply (Hu p "--help" Hp); [exact Hhelp|]. destruct Hb as (r & Hb). exists (r ++ "help"). change "--help" with ("--" ++ "help"). rewrite Hb.
      clear. induction p as [|c p IH]; cbn; [reflexivity|now rewrite IH].
  Qed.
  Lemma unknown_tok s : unknown names s -> s <> "--" /\ parse_optional options s = Done (Some (Unknown s)).
  Proof.
    intros U. pose proof U as ((Hd & Hn & Hs) & Hh & Hu). split.
    - intros ->. apply (Hu "--" "--help"); [now left|exact Hhelp|now exists "help"].
    - destruct Hd as (r & ->). cbn [append] in *. set (s := String "-" r) in *. unfold CmdLine.parse_optional. unfold s at 1.
      change (Ascii.eqb "-" dash) with true. cbn [negb].
      assert (F : forall o, (s = o \/ exists e, s = o ++ "=" ++ e) -> find_option options o = None).
      { intros o Ho. destruct (find_option options o) as [a|] eqn:E; [|reflexivity]. apply find_in in E. exfalso. apply (unknown_prefix s o o a U Ho E). exists "". now rewrite app_empty. }
      rewrite (F s) by now left. destruct r as [|c r]; [exfalso; apply Hn; right; now left|]. cbn [nonempty negb].
      destruct (partition_eq s) as (o, e) eqn:Ep. pose proof (partition_split _ _ _ Ep) as Hp.
      assert (Ho : s = o \/ exists e, s = o ++ "=" ++ e) by (destruct e as [e|]; [right; now exists e|now left]).
      replace (match e with Some e0 => option_map (fun a => Found a o (Some (true, e0))) (find_option options o) | None => None end) with (@None otuple)
        by (destruct e; [rewrite (F o Ho)|]; reflexivity).
      assert (T : option_tuples options s = []).
      { destruct (option_tuples options s) as [|t l] eqn:Et; [reflexivity|]. exfalso. assert (Hi : In t (option_tuples options s)) by (rewrite Et; now left). clear Et.
        unfold option_tuples in Hi. destruct (second_dash s) eqn:Es.
        - rewrite Ep in Hi. apply in_map_iff in Hi. destruct Hi as ((n1, a1) & _ & Hi). apply filter_In in Hi. destruct Hi as (Hi & Hpre). apply prefix_begins in Hpre.
          exact (unknown_prefix s o n1 a1 U Ho Hi Hpre).
        - apply in_flat_map in Hi. destruct Hi as ((n1, a1) & Hi & K). destruct (String.eqb_spec n1 (String.substring 0 2 s)) as [En|_].
          + unfold s in En. cbn in En. apply Hnames in Hi. destruct Hi as [->|[->|Hi]].
            * destruct r; injection En as <-; apply Hh; eexists; reflexivity.
            * destruct r; injection En as <-; discriminate Es.
            * apply Hlong in Hi. subst n1. destruct r; cbn in Hi; lia.
          + destruct (String.prefix s n1) eqn:Epr; [|destruct K]. apply prefix_begins in Epr. exact (unknown_prefix s s n1 a1 U (or_introl eq_refl) Hi Epr). }
      rewrite T. destruct (negative_number s) eqn:En; [exfalso; apply Hn; right; right; now apply negative_number_iff|].
      destruct (has_space s) eqn:Eh; [|reflexivity]. exfalso. apply Hs. clear - Eh. induction s as [|k s IH]; [discriminate|]. cbn in Eh. apply orb_prop in Eh.
      destruct Eh as [Eh|Eh]; [left; now apply Ascii.eqb_eq in Eh|right; auto].
  Qed.
End UnknownWord.

(** ** The files of vtkpack *)
Lemma remove_first_plain l : Forall plain l -> remove_first l = l.
Proof. intros H. induction H as [|s l Hs _ IH]; cbn; [reflexivity|]. destruct (String.eqb_spec s "--") as [E|_]; [now apply plain_not_dd in E|now rewrite IH]. Qed.
Lemma leading_all (p : tok -> bool) l : forallb p l = true -> leading p l = List.length l.
Proof. induction l as [|t l IH]; cbn; [reflexivity|]. destruct (p t); [|discriminate]. intros H. now rewrite IH. Qed.
Lemma word_TA l : List.map word (List.map TA l) = l.
Proof. induction l; cbn; congruence. Qed.
Lemma no_opt l : existsb is_opt (List.map TA l) = false.
Proof. induction l; cbn; auto. Qed.
Lemma no_opt' l : forallb (fun t => negb (is_opt t)) (List.map TA l) = true.
Proof. induction l; cbn; auto. Qed.
Lemma get_strings int_of float_of ss : get_list int_of float_of pos_filelist ss = Done (List.map VStr ss).
Proof. induction ss as [|s ss IH]; cbn; [reflexivity|]. unfold get_value. cbn. now rewrite IH. Qed.
Lemma pack_plain int_of float_of l : Forall plain l -> l <> [] -> pack_files int_of float_of l = Done l.
Proof.
  intros H Hne. unfold pack_files. rewrite run_parse. rewrite <- (app_nil_r l) at 1. rewrite (classify_plains [opt_help] l [] eq_refl H). cbn [CmdLine.classify obind]. rewrite app_nil_r.
  unfold run. cbn [CmdLine.loop]. rewrite no_opt. unfold CmdLine.consume_positionals.
  assert (Hm : match_positional pos_filelist (List.map TA l) = Some (List.length (List.map TA l))).
  { destruct l as [|s l]; [congruence|]. unfold match_positional. cbn [List.map leading is_dd skipn pos_filelist ac_nargs]. rewrite (leading_all _ _ (no_opt' l)). reflexivity. }
  rewrite Hm, firstn_all, word_TA. unfold take_action. cbn [pos_filelist ac_opts ac_kind ac_nargs]. rewrite (remove_first_plain l H). fold pos_filelist. rewrite get_strings.
  cbn [obind pos_filelist ac_dest skipn]. rewrite skipn_all. cbn [List.map app obind]. rewrite ns_get_dset. cbn [String.eqb Ascii.eqb Bool.eqb]. now rewrite str_list_map.
Qed.
Lemma pack_dashes int_of float_of l : l <> [] -> pack_files int_of float_of ("--" :: l) = Done l.
Proof.
  intros Hne. unfold pack_files. rewrite run_parse. cbn [CmdLine.classify String.eqb Ascii.eqb Bool.eqb obind].
  unfold run. cbn [CmdLine.loop existsb is_opt orb]. rewrite no_opt. unfold CmdLine.consume_positionals.
  assert (Hm : match_positional pos_filelist (TD :: List.map TA l) = Some (S (List.length (List.map TA l)))).
  { destruct l as [|s l]; [congruence|]. unfold match_positional. cbn [List.map leading is_dd skipn pos_filelist ac_nargs]. rewrite (leading_all _ _ (no_opt' l)). reflexivity. }
  rewrite Hm. cbn [firstn List.map word]. rewrite firstn_all, word_TA. unfold take_action. cbn [pos_filelist ac_opts ac_kind ac_nargs remove_first String.eqb Ascii.eqb Bool.eqb]. fold pos_filelist. rewrite get_strings.
  cbn [obind pos_filelist ac_dest skipn]. rewrite skipn_all. cbn [List.map app obind]. rewrite ns_get_dset. cbn [String.eqb Ascii.eqb Bool.eqb]. now rewrite str_list_map.
Qed.

(** ** The parser of the cubes *)
Section CubeParser.
  Context (int_of float_of : string -> option Z) (readers : list string).
  Notation opts := (cube_options readers).
  Notation classify := (classify opts).
  Notation run := (run int_of float_of opts pos_filename).
  Notation good := (cgood int_of readers).
  Notation effect := (ceffect int_of).
  Definition act_size (a : axis) : action :=
    match a with
    | AxisX => Action ["--nx"] "nx" N1 Store Tint None (VInt 10)
    | AxisY => Action ["--ny"] "ny" N1 Store Tint None (VInt 10)
    | AxisZ => Action ["--nz"] "nz" N1 Store Tint None (VInt 10)
    end.
  Definition citem_toks (i : citem) : list tok :=
    match i with
    | CFmt j f => pair_toks (act_fmt readers) "--fmt" j f
    | COutpath j d => pair_toks (opt_store "--outpath" "outpath" N1 Tstr) "--outpath" j d
    | CCheck => [TO (Found (opt_flag "--check" "check") "--check" None)]
    | CInfo => [TO (Found (opt_flag "--info" "info") "--info" None)]
    | CLog j l => pair_toks act_log "--log" j l
    | CSize a j n => pair_toks (act_size a) (axis_name a) j n
    end.
  Lemma cclassify_name s o l : String.eqb s "--" = false -> parse_optional opts s = Done (Some o) -> classify (s :: l) = (t <<- classify l ;; Done (TO o :: t)).
  Proof. intros E H. cbn [CmdLine.classify]. now rewrite E, H. Qed.
  Lemma cclassify_item i l : good i -> classify (crender i ++ l) = (t <<- classify l ;; Done (citem_toks i ++ t)%list).
  Proof.
    assert (K : keys_ok opts) by reflexivity.
    destruct i; cbn [cgood crender citem_toks]; intros G; cbn [app pair pair_toks].
    1, 2, 5: destruct j; cbn [app pair pair_toks]; (erewrite cclassify_name by reflexivity); [rewrite (classify_plain _ _ _ K) by (apply G; reflexivity)|]; destruct (classify l); reflexivity.
    1, 2: erewrite cclassify_name by reflexivity; destruct (classify l); reflexivity.
    destruct a, j; cbn [app pair pair_toks axis_name]; (erewrite cclassify_name by reflexivity); try (rewrite (classify_plain _ _ _ K) by (apply G; reflexivity)); destruct (classify l); reflexivity.
  Qed.
  Lemma cclassify_items items l : Forall good items -> classify (cwords items ++ l) = (t <<- classify l ;; Done (flat_map citem_toks items ++ t)%list).
  Proof.
    intros H. induction H as [|i items Hi _ IH]; [cbn; destruct (classify l); reflexivity|]. cbn [cwords flat_map]. unfold cwords in IH. rewrite <- !app_assoc, (cclassify_item _ _ Hi), IH.
    apply bind_app.
  Qed.
  Lemma cexplicit_one a d j e l : ac_nargs a = N1 -> explicit opts a d j e l = Done ([(a, [e])], l, []).
  Proof. intros H. destruct e; cbn; now rewrite H. Qed.
  (** What the command looks at: the file name, the format and the sizes. *)
  Definition cargs (ns : namespace) : string * (option string * (Z * Z * Z)) :=
    (ar_filename (args_of ns), (ar_fmt (args_of ns), (size_of "nx" ns, size_of "ny" ns, size_of "nz" ns))).
  Lemma crun_item i w x ns l : good i ->
    exists ns', run w x ns (citem_toks i ++ l) = run w x ns' l /\ cargs ns' = (fst (cargs ns), effect (snd (cargs ns)) i).
  Proof.
    intros G.
    assert (E : exists ns', consume_optional int_of float_of opts (match citem_toks i with TO o :: _ => o | _ => Unknown "" end) (List.tl (citem_toks i) ++ l) ns = Done (ns', l, []) /\ cargs ns' = (fst (cargs ns), effect (snd (cargs ns)) i)).
    { unfold cargs, args_of, size_of. cbn [ar_filename ar_fmt fst snd].
      destruct i; cbn [citem_toks List.tl app cgood] in *.
      - destruct G as (Hin & _). exists (dset String.eqb "fmt" (VStr f) ns). split; [|rewrite !ns_get_dset; reflexivity].
        assert (Hg : existsb (String.eqb f) readers = true) by (apply existsb_exists; exists f; split; [exact Hin|apply String.eqb_refl]).
        destruct j; cbn -[explicit]; [unfold take_words|rewrite cexplicit_one by reflexivity]; cbn; unfold get_value; cbn; rewrite Hg; reflexivity.
      - exists (dset String.eqb "outpath" (VStr d) ns). split; [destruct j; [reflexivity|destruct d; reflexivity]|]. rewrite !ns_get_dset. reflexivity.
      - exists (dset String.eqb "check" (VBool true) ns). split; [reflexivity|]. rewrite !ns_get_dset. reflexivity.
      - exists (dset String.eqb "info" (VBool true) ns). split; [reflexivity|]. rewrite !ns_get_dset. reflexivity.
      - exists (dset String.eqb "log" (VStr l0) ns). split; [destruct j; [reflexivity|destruct l0; reflexivity]|]. rewrite !ns_get_dset. reflexivity.
      - destruct G as (_ & Hn). destruct (int_of n) as [v|] eqn:Ev; [|congruence].
        exists (dset String.eqb (ac_dest (act_size a)) (VInt v) ns). split.
        + destruct a, j; cbn -[explicit]; try unfold take_words; try (rewrite cexplicit_one by reflexivity); cbn; unfold get_value; cbn; rewrite Ev; reflexivity.
        + rewrite !ns_get_dset. cbn [ceffect]. rewrite Ev. destruct a; reflexivity. }
    destruct E as (ns' & E & Ea). exists ns'. split; [|exact Ea].
    assert (Ht : citem_toks i = TO (match citem_toks i with TO o :: _ => o | _ => Unknown "" end) :: List.tl (citem_toks i)) by (destruct i; try destruct j; reflexivity).
    rewrite Ht. cbn [app]. rewrite run_opt, E. cbn [obind]. now rewrite app_nil_r.
  Qed.
  Lemma crun_items items : forall w x ns l, Forall good items ->
    exists ns', run w x ns (flat_map citem_toks items ++ l) = run w x ns' l /\ cargs ns' = (fst (cargs ns), fold_left effect items (snd (cargs ns))).
  Proof.
    induction items as [|i items IH]; intros w x ns l G; [exists ns; split; reflexivity|].
    inversion G as [|? ? Gi Gs]; subst. cbn [flat_map]. rewrite <- app_assoc.
    destruct (crun_item i w x ns (flat_map citem_toks items ++ l)%list Gi) as (ns1 & E1 & A1).
    destruct (IH w x ns1 l Gs) as (ns2 & E2 & A2). exists ns2. split; [now rewrite E1, E2|]. cbn [fold_left]. now rewrite A2, A1.
  Qed.
  Lemma ctoks_opt items : flat_map citem_toks items = [] \/ exists o r, flat_map citem_toks items = TO o :: r.
  Proof. destruct items as [|i items]; [now left|]. right. cbn [flat_map]. destruct i; try destruct j; cbn; eauto. Qed.
  Lemma cparse_file before f after : Forall good before -> Forall good after -> plain f ->
    exists ns, parse_args int_of float_of opts pos_filename (cwords before ++ f :: cwords after) = Done ns /\ cargs ns = (f, cmeaning int_of (before ++ after)).
  Proof.
    intros Gb Ga Hf. assert (K : keys_ok opts) by reflexivity. rewrite run_parse, (cclassify_items _ _ Gb), (classify_plain _ _ _ K Hf).
    rewrite <- (app_nil_r (cwords after)), (cclassify_items _ _ Ga). cbn [CmdLine.classify obind]. rewrite app_nil_r.
    destruct (crun_items before true [] (defaults opts pos_filename) (TA f :: flat_map citem_toks after) Gb) as (ns1 & E1 & A1). rewrite E1.
    rewrite run_positional by (reflexivity || (apply plain_not_dd; exact Hf) || apply ctoks_opt).
    rewrite (take_file int_of float_of f ns1 (plain_not_dd f Hf)). cbn [obind].
    destruct (crun_items after false [] (dset String.eqb "filename" (VStr f) ns1) [] Ga) as (ns2 & E2 & A2). rewrite app_nil_r in E2. rewrite E2, run_nil.
    exists ns2. split; [reflexivity|]. rewrite A2.
    assert (HF : cargs (dset String.eqb "filename" (VStr f) ns1) = (f, snd (cargs ns1))) by (unfold cargs, args_of, size_of; rewrite !ns_get_dset; reflexivity).
    rewrite HF, A1. cbn [fst snd]. unfold cmeaning. now rewrite fold_left_app.
  Qed.
  (** A word is needed for the file, here too, and the format is one of the readers. *)
  Lemma cparse_bad items j f rest : Forall good items -> (j = Apart -> plain f) -> ~ In f readers ->
    parse_args int_of float_of opts pos_filename (cwords items ++ pair j "--fmt" f ++ rest) = Exit 2.
  Proof.
    intros G Hp Hf. assert (K : keys_ok opts) by reflexivity. rewrite run_parse, (cclassify_items _ _ G).
    assert (Hc : classify (pair j "--fmt" f ++ rest) = (t <<- classify rest ;; Done (pair_toks (act_fmt readers) "--fmt" j f ++ t)%list)).
    { destruct j; cbn [pair pair_toks app]; (erewrite cclassify_name by reflexivity); [rewrite (classify_plain _ _ _ K) by auto|]; destruct (classify rest); reflexivity. }
    rewrite Hc. destruct (classify rest) as [t|c|] eqn:Et; [|apply classify_exit in Et; now subst|now apply classify_unstuck in Et].
    cbn [obind]. destruct (crun_items items true [] (defaults opts pos_filename) (pair_toks (act_fmt readers) "--fmt" j f ++ t) G) as (ns1 & E1 & _). rewrite E1.
    apply existsb_not in Hf. destruct j; cbn [pair_toks app]; rewrite run_opt; cbn -[explicit]; [unfold take_words|rewrite cexplicit_one by reflexivity]; cbn; unfold get_value; cbn; rewrite Hf; reflexivity.
  Qed.
End CubeParser.
