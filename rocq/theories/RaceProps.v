(** * Property C46 (safe names are not reserved). *)
From Coq Require Import Lia List.
From Verif Require Import Py PyFacts Files FilesSpec FilesProofs Race.

Lemma seqb_eq' a b : String.eqb a b = true <-> a = b. Proof. apply String.eqb_eq. Qed.

Lemma nth_upd {A} (l : list A) : forall k v j, nth_error (upd_nat l k v) j = if Nat.eqb j k then match nth_error l k with Some _ => Some v | None => None end else nth_error l j.
Proof. induction l as [| x l IH]; intros [| k] v [| j]; cbn; try reflexivity; [destruct (Nat.eqb j k); reflexivity | apply IH]. Qed.

Section Race.
  Context {C : Type}.
  Implicit Types (fs : files C) (w : world C) (pr : proc C).

  Lemma fexists_some fs s : fexists fs s = true <-> exists c, dget String.eqb s fs = Some c.
  Proof. unfold fexists, dmem. destruct (dget String.eqb s fs) as [c |]; split; [eauto | reflexivity | discriminate | intros (c & H); discriminate]. Qed.
  Lemma fexists_dset fs s t c : fexists (dset String.eqb t c fs) s = String.eqb s t || fexists fs s.
  Proof.
    unfold fexists, dmem. destruct (String.eqb s t) eqn:E.
    - apply String.eqb_eq in E. subst t. rewrite (dget_dset_eq _ seqb_eq'). reflexivity.
    - apply String.eqb_neq in E. rewrite (dget_dset_neq _ seqb_eq') by exact E. reflexivity.
  Qed.
  Lemma run_app w a b : run w (a ++ b) = run (run w a) b.
  Proof. apply fold_left_app. Qed.
  Lemma run_inv (P : world C -> Prop) : (forall w k, P w -> P (wstep w k)) -> forall s w, P w -> P (run w s).
  Proof. intros H s. induction s as [| k s IH]; intros w W; [exact W |]. apply IH, H, W. Qed.
  Lemma wstep_cases w k : wstep w k = w \/
    exists pr, nth_error (snd w) k = Some pr /\ wstep w k = (fst (pstep (fst w) pr), upd_nat (snd w) k (snd (pstep (fst w) pr))).
  Proof.
    unfold wstep. destruct (nth_error (snd w) k) as [pr |] eqn:E; [| left; reflexivity]. right. exists pr. split; [reflexivity |]. destruct (pstep (fst w) pr). reflexivity.
  Qed.

  (** Whatever the order of the steps, the files that exist at the start are left as they are. *)
  Theorem C46_existing_kept fs0 (ps : list (path * C)) schedule s c :
    dget String.eqb s fs0 = Some c ->
    dget String.eqb s (fst (run (fs0, List.map (fun '(p, c) => start p c) ps) schedule)) = Some c.
  Proof.
    intros D.
    pose (P := fun w : world C => dget String.eqb s (fst w) = Some c /\ forall k pr, nth_error (snd w) k = Some pr -> forall q, pr_state pr = Named q -> path_str q <> s).
    enough (H : P (run (fs0, List.map (fun '(p, c) => start p c) ps) schedule)) by apply H. apply run_inv.
    - intros w k (F & N). destruct (wstep_cases w k) as [-> | (pr & K & ->)]; [split; assumption |].
      split; cbn [fst snd].
      + unfold pstep. destruct (pr_state pr) as [i cur | cur | cur] eqn:ST; [destruct (fexists (fst w) (path_str cur)); exact F | | exact F].
        cbn [fst]. rewrite (dget_dset_neq _ seqb_eq'); [exact F |]. intros Q. exact (N k pr K cur ST (eq_sym Q)).
      + intros j pr' J q ST'. rewrite nth_upd in J. destruct (Nat.eqb j k) eqn:E; [| exact (N j pr' J q ST')].
        apply Nat.eqb_eq in E. subst j. rewrite K in J. injection J as <-. unfold pstep in ST'. destruct (pr_state pr) as [i cur | cur | cur] eqn:ST.
        * destruct (fexists (fst w) (path_str cur)) eqn:X; cbn [snd pr_state] in ST'; [discriminate |]. injection ST' as ->. intros Q. rewrite Q in X. apply Bool.not_true_iff_false in X. apply X. apply fexists_some. eauto.
        * discriminate.
        * cbn [snd] in ST'. congruence.
    - split; [exact D |]. cbn [snd]. intros k pr K q ST. apply nth_error_In in K. apply in_map_iff in K. destruct K as ((p, c') & <- & _). discriminate ST.
  Qed.

  (** *** One process alone *)
  Lemma alone fs p names : good_path p -> (forall s, fexists fs s = true -> In s names) ->
    exists n, (n <= List.length names + 1)%nat /\ fexists fs (path_str (candidate p n)) = false /\ forall k, (k < n)%nat -> fexists fs (path_str (candidate p k)) = true.
  Proof. intros G F. destruct (free_number (fexists fs) names p G F) as (n0 & L & E). destruct (least_free (fexists fs) p n0 E) as (n & A & B & D). exists n. repeat split; auto; lia. Qed.
  Lemma names_exist fs s : fexists fs s = true -> In s (dkeys fs).
  Proof. apply (dmem_in _ seqb_eq'). Qed.

  Lemma upd_same {A} (l : list A) k a : nth_error l k = Some a -> upd_nat l k a = l.
  Proof. revert k. induction l as [| x l IH]; intros [| k] H; cbn in *; try discriminate; [injection H as ->; reflexivity | f_equal; auto]. Qed.
  Lemma upd_twice {A} (l : list A) k a b : upd_nat (upd_nat l k a) k b = upd_nat l k b.
  Proof. revert k. induction l as [| x l IH]; intros [| k]; cbn; [reflexivity | reflexivity | reflexivity | f_equal; auto]. Qed.
  Lemma nth_upd_same {A} (l : list A) k a b : nth_error l k = Some a -> nth_error (upd_nat l k b) k = Some b.
  Proof. intros H. rewrite nth_upd, Nat.eqb_refl, H. reflexivity. Qed.

  Lemma run_cons w k s : run w (k :: s) = run (wstep w k) s. Proof. reflexivity. Qed.
  Lemma wstep_at fs ps k pr : nth_error ps k = Some pr -> wstep (fs, ps) k = (fst (pstep fs pr), upd_nat ps k (snd (pstep fs pr))).
  Proof. intros K. unfold wstep. cbn [snd]. rewrite K. cbn [fst]. destruct (pstep fs pr). reflexivity. Qed.
  Lemma done_stays fs ps k pr q m : nth_error ps k = Some pr -> pr_state pr = Done q -> run (fs, ps) (repeat k m) = (fs, ps).
  Proof.
    intros K S. induction m as [| m IH]; [reflexivity |]. cbn [repeat]. rewrite run_cons, (wstep_at _ _ _ _ K). unfold pstep. rewrite S. cbn [fst snd]. rewrite upd_same by exact K. exact IH.
  Qed.
  Lemma tries fs k p c : forall m i ps, nth_error ps k = Some (Proc p c (Trying i (candidate p i))) ->
    (forall j, (i <= j < i + m)%nat -> fexists fs (path_str (candidate p j)) = true) ->
    run (fs, ps) (repeat k m) = (fs, upd_nat ps k (Proc p c (Trying (i + m) (candidate p (i + m))))).
  Proof.
    induction m as [| m IH]; intros i ps K T.
    - rewrite Nat.add_0_r. cbn. rewrite upd_same by exact K. reflexivity.
    - cbn [repeat]. rewrite run_cons, (wstep_at _ _ _ _ K). unfold pstep. cbn [pr_state pr_path pr_content]. rewrite (T i) by lia. cbn [fst snd].
      change (numbered p (S i)) with (candidate p (S i)).
      rewrite (IH (S i) (upd_nat ps k (Proc p c (Trying (S i) (candidate p (S i)))))).
      + rewrite upd_twice. replace (S i + m)%nat with (i + S m)%nat by lia. reflexivity.
      + apply (nth_upd_same _ _ _ _ K).
      + intros j J. apply T. lia.
  Qed.
  Lemma two_steps fs ps k p c i cur : nth_error ps k = Some (Proc p c (Trying i cur)) -> fexists fs (path_str cur) = false ->
    wstep (fs, ps) k = (fs, upd_nat ps k (Proc p c (Named cur))).
  Proof. intros K F. rewrite (wstep_at _ _ _ _ K). unfold pstep. cbn [pr_state pr_path pr_content]. rewrite F. reflexivity. Qed.
  Lemma write_step fs ps k p c cur : nth_error ps k = Some (Proc p c (Named cur)) ->
    wstep (fs, ps) k = (dset String.eqb (path_str cur) c fs, upd_nat ps k (Proc p c (Done cur))).
  Proof. intros K. rewrite (wstep_at _ _ _ _ K). reflexivity. Qed.
  (** The process moves alone, from its first test to its writing, and some steps more. *)
  Lemma solo fs ps k p c m : good_path p -> nth_error ps k = Some (start p c) -> (List.length fs + 3 <= m)%nat ->
    exists n, fexists fs (path_str (candidate p n)) = false /\ (forall j, (j < n)%nat -> fexists fs (path_str (candidate p j)) = true) /\
      run (fs, ps) (repeat k m) = (dset String.eqb (path_str (candidate p n)) c fs, upd_nat ps k (Proc p c (Done (candidate p n)))).
  Proof.
    intros G K M. destruct (alone fs p (dkeys fs) G (names_exist fs)) as (n & L & F & T). exists n. split; [exact F |]. split; [exact T |].
    unfold dkeys in L. rewrite map_length in L. replace m with (n + S (S (m - n - 2)))%nat by lia. rewrite repeat_app, run_app. cbn [repeat].
    rewrite (tries fs k p c n 0 ps) by (try exact K; intros j J; apply T; lia). cbn [Nat.add].
    rewrite !run_cons, (two_steps _ _ _ p c n (candidate p n)); [| apply (nth_upd_same _ _ _ _ K) | exact F]. rewrite upd_twice.
    rewrite (write_step _ _ _ p c (candidate p n)) by apply (nth_upd_same _ _ _ _ K). rewrite upd_twice.
    eapply done_stays; [apply (nth_upd_same _ _ _ _ K) | reflexivity].
  Qed.

  (** Two processes that ask for the same name, each testing before the other writes, take the same
      file: what the first one wrote is lost. *)
  Theorem C46_race fs p c1 c2 : good_path p ->
    exists schedule q, fexists fs (path_str q) = false /\
      run (fs, [start p c1; start p c2]) schedule = (dset String.eqb (path_str q) c2 (dset String.eqb (path_str q) c1 fs), [Proc p c1 (Done q); Proc p c2 (Done q)]) /\
      dget String.eqb (path_str q) (fst (run (fs, [start p c1; start p c2]) schedule)) = Some c2.
  Proof.
    intros G. destruct (alone fs p (dkeys fs) G (names_exist fs)) as (n & L & F & T).
    exists (repeat 0%nat n ++ repeat 1%nat n ++ [0; 1; 0; 1]%nat), (candidate p n). split; [exact F |].
    assert (E : run (fs, [start p c1; start p c2]) (repeat 0%nat n ++ repeat 1%nat n ++ [0; 1; 0; 1]%nat) =
                (dset String.eqb (path_str (candidate p n)) c2 (dset String.eqb (path_str (candidate p n)) c1 fs), [Proc p c1 (Done (candidate p n)); Proc p c2 (Done (candidate p n))])).
    { rewrite !run_app. rewrite (tries fs 0 p c1 n 0) by (try reflexivity; intros j J; apply T; lia). cbn [upd_nat Nat.add].
      rewrite (tries fs 1 p c2 n 0) by (try reflexivity; intros j J; apply T; lia). cbn [upd_nat Nat.add].
      rewrite !run_cons. erewrite (two_steps _ _ 0 p c1); [| reflexivity | exact F]. cbn [upd_nat]. erewrite (two_steps _ _ 1 p c2); [| reflexivity | exact F]. cbn [upd_nat].
      erewrite (write_step _ _ 0 p c1) by reflexivity. cbn [upd_nat]. erewrite (write_step _ _ 1 p c2) by reflexivity. reflexivity. }
    split; [exact E |]. rewrite E. cbn [fst]. apply (dget_dset_eq _ seqb_eq').
  Qed.

  (** Processes that move one after the other, in any order, never take the same file: each one ends
      with a file of its own, that did not exist, with what it wrote. *)
  Record serial_inv fs0 (ps : list (path * C)) (done : list nat) w : Prop := {
    si_len : (List.length (fst w) <= List.length fs0 + List.length done)%nat;
    si_rest : forall k, ~ In k done -> nth_error (snd w) k = nth_error (List.map (fun '(p, c) => start p c) ps) k;
    si_grow : forall s, fexists fs0 s = true -> fexists (fst w) s = true;
    si_done : forall k p c, In k done -> nth_error ps k = Some (p, c) ->
      exists q, nth_error (snd w) k = Some (Proc p c (Done q)) /\ fexists fs0 (path_str q) = false /\ dget String.eqb (path_str q) (fst w) = Some c;
    si_diff : forall k p c q k' p' c' q', In k done -> In k' done -> nth_error (snd w) k = Some (Proc p c (Done q)) ->
      nth_error (snd w) k' = Some (Proc p' c' (Done q')) -> k' <> k -> path_str q' <> path_str q }.

  Lemma serial_next fs0 ps done k m w : Forall (fun '(p, _) => good_path p) ps -> ~ In k done -> (k < List.length ps)%nat ->
    Forall (fun j => j < List.length ps)%nat done -> (List.length fs0 + List.length done + 3 <= m)%nat ->
    serial_inv fs0 ps done w -> serial_inv fs0 ps (done ++ [k]) (run w (repeat k m)).
  Proof.
    intros G NK KB DB M [W0 W1 W2 W3 W4].
    destruct (nth_error ps k) as [(p, c) |] eqn:KP; [| apply nth_error_None in KP; lia].
    assert (GP : good_path p). { rewrite Forall_forall in G. apply (G (p, c)). eapply nth_error_In. exact KP. }
    assert (ST : nth_error (snd w) k = Some (start p c)). { rewrite W1 by exact NK. rewrite nth_error_map, KP. reflexivity. }
    destruct w as [fs1 ps1]. cbn [fst snd] in *.
    destruct (solo fs1 ps1 k p c m GP ST ltac:(lia)) as (n & F & T & R). rewrite R.
    assert (F0 : fexists fs0 (path_str (candidate p n)) = false) by (destruct (fexists fs0 (path_str (candidate p n))) eqn:X; [rewrite (W2 _ X) in F; discriminate | reflexivity]).
    assert (OLD : forall i pi ci qi, In i done -> nth_error (upd_nat ps1 k (Proc p c (Done (candidate p n)))) i = Some (Proc pi ci (Done qi)) -> nth_error ps1 i = Some (Proc pi ci (Done qi)) /\ path_str qi <> path_str (candidate p n)).
    { intros i pi ci qi II NI. rewrite nth_upd in NI. destruct (Nat.eqb i k) eqn:JK; [apply Nat.eqb_eq in JK; subst i; contradiction |]. split; [exact NI |].
      rewrite Forall_forall in DB. specialize (DB i II). destruct (nth_error ps i) as [(pi0, ci0) |] eqn:PI; [| apply nth_error_None in PI; lia].
      destruct (W3 i pi0 ci0 II PI) as (q & Q1 & Q2 & Q3). rewrite Q1 in NI. injection NI as -> -> ->. intros X. assert (Y : fexists fs1 (path_str qi) = true) by (apply fexists_some; eauto). rewrite X in Y. congruence. }
    assert (NEW : forall pi ci qi, nth_error (upd_nat ps1 k (Proc p c (Done (candidate p n)))) k = Some (Proc pi ci (Done qi)) -> qi = candidate p n).
    { intros pi ci qi NI. rewrite (nth_upd_same _ _ _ _ ST) in NI. congruence. }
    constructor; cbn [fst snd].
    - assert (KN : ~ In (path_str (candidate p n)) (dkeys fs1)) by (intros I; apply (dmem_in _ seqb_eq') in I; unfold fexists in F; congruence).
      rewrite (dset_notin _ seqb_eq' _ _ _ KN), !app_length. cbn. lia.
    - intros j J. rewrite nth_upd. destruct (Nat.eqb j k) eqn:JK; [apply Nat.eqb_eq in JK; subst j; destruct J; apply in_or_app; right; left; reflexivity |]. apply W1. intros I. apply J. apply in_or_app. left. exact I.
    - intros s S. rewrite fexists_dset, (W2 s S). apply orb_true_r.
    - intros j pj cj IJ PJ. apply in_app_or in IJ. destruct IJ as [IJ | [<- | []]].
      + destruct (W3 j pj cj IJ PJ) as (q & Q1 & Q2 & Q3). exists q. split; [| split; [exact Q2 |]].
        * rewrite nth_upd. destruct (Nat.eqb j k) eqn:JK; [apply Nat.eqb_eq in JK; subst j; contradiction | exact Q1].
        * rewrite (dget_dset_neq _ seqb_eq'); [exact Q3 |]. intros X. assert (Y : fexists fs1 (path_str q) = true) by (apply fexists_some; eauto). rewrite X in Y. congruence.
      + rewrite KP in PJ. injection PJ as <- <-. exists (candidate p n). split; [apply (nth_upd_same _ _ _ _ ST) |]. split; [exact F0 | apply (dget_dset_eq _ seqb_eq')].
    - intros j pj cj qj j' pj' cj' qj' IJ IJ' NJ NJ' DJ.
      apply in_app_or in IJ. apply in_app_or in IJ'. destruct IJ as [IJ | [<- | []]], IJ' as [IJ' | [<- | []]].
      + destruct (OLD _ _ _ _ IJ NJ) as (A & _). destruct (OLD _ _ _ _ IJ' NJ') as (B & _). exact (W4 _ _ _ _ _ _ _ _ IJ IJ' A B DJ).
      + destruct (OLD _ _ _ _ IJ NJ) as (_ & A). apply NEW in NJ'. subst qj'. congruence.
      + destruct (OLD _ _ _ _ IJ' NJ') as (_ & A). apply NEW in NJ. subst qj. exact A.
      + congruence.
  Qed.
  Theorem C46_serial fs0 (ps : list (path * C)) order m : Forall (fun '(p, _) => good_path p) ps ->
    NoDup order -> Forall (fun k => k < List.length ps)%nat order -> (List.length fs0 + List.length order + 3 <= m)%nat ->
    let w := run (fs0, List.map (fun '(p, c) => start p c) ps) (flat_map (fun k => repeat k m) order) in
    forall k p c, In k order -> nth_error ps k = Some (p, c) ->
      exists q, nth_error (snd w) k = Some (Proc p c (Done q)) /\ fexists fs0 (path_str q) = false /\ dget String.eqb (path_str q) (fst w) = Some c /\
        (forall k' p' c' q', In k' order -> nth_error (snd w) k' = Some (Proc p' c' (Done q')) -> k' <> k -> path_str q' <> path_str q).
  Proof.
    intros G ND OB M w.
    assert (Q : serial_inv fs0 ps order w).
    { assert (Q : forall done rest, order = done ++ rest -> serial_inv fs0 ps done (run (fs0, List.map (fun '(p, c) => start p c) ps) (flat_map (fun k => repeat k m) done))).
      { induction done as [| k done IH] using rev_ind; intros rest E.
        - constructor; cbn; [lia | reflexivity | auto | intros ? ? ? [] | intros ? ? ? ? ? ? ? ? []].
        - rewrite <- app_assoc in E. specialize (IH _ E). rewrite flat_map_app, run_app. cbn [flat_map]. rewrite app_nil_r.
          assert (OB' := OB). rewrite E in OB'. apply Forall_app in OB'. destruct OB' as (DB & KB). apply Forall_cons_iff in KB.
          apply serial_next; try assumption; [| apply KB |].
          + rewrite E in ND. apply NoDup_remove_2 in ND. intros I. apply ND. apply in_or_app. left. exact I.
          + rewrite E, app_length in M. lia. }
      apply (Q order []). rewrite app_nil_r. reflexivity. }
    intros k p c IK PK. destruct (si_done _ _ _ _ Q k p c IK PK) as (q & Q1 & Q2 & Q3). exists q. split; [exact Q1 |]. split; [exact Q2 |]. split; [exact Q3 |].
    intros k' p' c' q' IK' N' DK. exact (si_diff _ _ _ _ Q _ _ _ _ _ _ _ _ IK IK' Q1 N' DK).
  Qed.

  (** Processes whose names cannot meet may move in any order. *)
  Theorem C46_apart fs0 (ps : list (path * C)) schedule :
    (forall k k' p c p' c' i i', nth_error ps k = Some (p, c) -> nth_error ps k' = Some (p', c') -> k <> k' ->
       path_str (candidate p i) <> path_str (candidate p' i')) ->
    let w := run (fs0, List.map (fun '(p, c) => start p c) ps) schedule in
    forall k p c q, nth_error (snd w) k = Some (Proc p c (Done q)) -> dget String.eqb (path_str q) (fst w) = Some c.
  Proof.
    intros AP w.
    pose (P := fun w : world C => forall k pr, nth_error (snd w) k = Some pr -> nth_error ps k = Some (pr_path pr, pr_content pr) /\
      match pr_state pr with
      | Trying i cur => cur = candidate (pr_path pr) i
      | Named cur => exists i, cur = candidate (pr_path pr) i
      | Done cur => (exists i, cur = candidate (pr_path pr) i) /\ dget String.eqb (path_str cur) (fst w) = Some (pr_content pr)
      end).
    enough (H : P w) by (intros k p c q K; destruct (H k _ K) as (_ & _ & D); exact D). apply run_inv.
    - intros v k H j pr' J. destruct (wstep_cases v k) as [E | (pr & K & E)]; rewrite E in J |- *; [exact (H j pr' J) |]. cbn [fst snd] in J |- *. rewrite nth_upd in J.
      destruct (H k pr K) as (PK & SK). destruct (Nat.eqb j k) eqn:JK.
      + apply Nat.eqb_eq in JK. subst j. rewrite K in J. injection J as <-. unfold pstep. destruct (pr_state pr) as [i cur | cur | cur] eqn:ST.
        * destruct (fexists (fst v) (path_str cur)); cbn [fst snd pr_path pr_content pr_state]; (split; [exact PK |]); [reflexivity | eauto].
        * cbn [fst snd pr_path pr_content pr_state]. split; [exact PK |]. split; [exact SK | apply (dget_dset_eq _ seqb_eq')].
        * cbn [fst snd]. rewrite ST. auto.
      + apply Nat.eqb_neq in JK. destruct (H j pr' J) as (PJ & SJ). split; [exact PJ |]. destruct (pr_state pr') as [i cur | cur | cur] eqn:ST; [exact SJ | exact SJ |]. destruct SJ as ((i & EI) & D). split; [eauto |].
        unfold pstep. destruct (pr_state pr) as [i' cur' | cur' | cur'] eqn:ST'; [destruct (fexists (fst v) (path_str cur')); exact D | | exact D].
        cbn [fst]. rewrite (dget_dset_neq _ seqb_eq'); [exact D |]. destruct SK as (i' & ->). subst cur. exact (AP j k _ _ _ _ i i' PJ PK JK).
    - intros k pr K. cbn [snd] in K. rewrite nth_error_map in K. destruct (nth_error ps k) as [(p, c) |] eqn:E; [| discriminate]. injection K as <-. cbn. auto.
  Qed.
End Race.
Print Assumptions C46_existing_kept.
Print Assumptions C46_race.
Print Assumptions C46_serial.
Print Assumptions C46_apart.

(** ** Concrete cases: the race, and the same two processes one after the other. *)
Definition ex_world (s : list nat) : world nat := run ([("a.ic3"%string, 7%nat)], [start (path_of "a.ic3") 1%nat; start (path_of "a.ic3") 2%nat]) s.
Example c46_race_run : fst (ex_world [0; 1; 0; 1; 0; 1]%nat) = [("a.ic3"%string, 7%nat); ("a(1).ic3"%string, 2%nat)].
Proof. reflexivity. Qed.
Example c46_serial_run : fst (ex_world [0; 0; 0; 1; 1; 1; 1]%nat) = [("a.ic3"%string, 7%nat); ("a(1).ic3"%string, 1%nat); ("a(2).ic3"%string, 2%nat)].
Proof. reflexivity. Qed.
Example c46_serial_case : Forall (fun '((p, _) : path * nat) => good_path p) [(path_of "a.ic3", 1%nat); (path_of "a.ic3", 2%nat)] /\ NoDup [1; 0]%nat /\ Forall (fun k => k < 2)%nat [1; 0]%nat /\ (1 + 2 + 3 <= 6)%nat.
Proof.
  split; [apply Forall_cons; [apply path_of_good |]; apply Forall_cons; [apply path_of_good | apply Forall_nil] |]. split; [repeat constructor; cbn; intuition discriminate |]. split; [repeat constructor | lia].
Qed.
(** Names in different folders cannot meet. *)
Example c46_apart_case : forall i i', path_str (candidate (path_of "x/a.ic3") i) <> path_str (candidate (path_of "y/a.ic3") i').
Proof.
  intros i i' H. apply path_str_inj in H.
  - destruct i as [| i], i' as [| i']; cbn [candidate] in H; try (rewrite numbered_eq in H by apply path_of_good); try (rewrite numbered_eq in H by apply path_of_good); discriminate H.
  - destruct i; [apply path_of_good | apply numbered_good, path_of_good].
  - destruct i'; [apply path_of_good | apply numbered_good, path_of_good].
Qed.
