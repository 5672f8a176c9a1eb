(** * The words of the commands that only read. *)
From Coq Require Import ZArith List Bool String Ascii Lia.
From Verif Require Import InfoWhole Py PyFacts Files Cli CmdLine CmdLineSpec CmdLineProofs InfoWholeSpec.
Local Open Scope string_scope.

Section InfoParser.
  Context (int_of float_of : string -> option Z) (readers : list string) (format : option string).
  Notation opts := (info_options readers format).
  Notation classify := (CmdLine.classify opts).
  Notation run := (CmdLineProofs.run int_of float_of opts pos_filename).
  Definition good i := CmdLineSpec.good int_of float_of readers i /\ info_item i.
  Definition iact_fmt : action := Action ["--fmt"] "fmt" N1 Store Tstr (Some readers) (match format with Some f => VStr f | None => VNone end).
  Definition iitem_toks (i : item) : list tok :=
    match i with
    | Fmt j f => pair_toks iact_fmt "--fmt" j f
    | Outpath j d => pair_toks (opt_store "--outpath" "outpath" N1 Tstr) "--outpath" j d
    | Check => [TO (Found (opt_flag "--check" "check") "--check" None)]
    | CmdLineSpec.Info => [TO (Found (opt_flag "--info" "info") "--info" None)]
    | Log j l => pair_toks act_log "--log" j l
    | _ => []
    end.
  Definition ieffect (x : option string * bool) (i : item) : option string * bool :=
    match i with Fmt _ s => (Some s, snd x) | Check => (fst x, true) | _ => x end.
  Lemma iclassify_name s o l : String.eqb s "--" = false -> parse_optional opts s = Done (Some o) -> classify (s :: l) = (t <<- classify l ;; Done (TO o :: t)).
  Proof. intros E H. cbn [CmdLine.classify]. now rewrite E, H. Qed.
  Lemma iclassify_item i l : good i -> classify (render i ++ l) = (t <<- classify l ;; Done (iitem_toks i ++ t)%list).
  Proof.
    assert (K : keys_ok opts) by reflexivity. intros (G & II). destruct i; try destruct II; cbn [CmdLineSpec.good render iitem_toks] in *; cbn [app pair pair_toks].
    1, 2, 5: destruct j; cbn [app pair pair_toks]; (erewrite iclassify_name by reflexivity); [rewrite (classify_plain _ _ _ K) by (apply G; reflexivity)|]; destruct (classify l); reflexivity.
    1, 2: erewrite iclassify_name by reflexivity; destruct (classify l); reflexivity.
  Qed.
  Lemma iclassify_items items l : Forall good items -> classify (words items ++ l) = (t <<- classify l ;; Done (flat_map iitem_toks items ++ t)%list).
  Proof.
    intros H. induction H as [|i items Hi _ IH]; [cbn; destruct (classify l); reflexivity|]. cbn [words flat_map]. unfold words in IH. rewrite <- !app_assoc, (iclassify_item _ _ Hi), IH.
    apply bind_app.
  Qed.
  Lemma iexplicit_one a d j e l : ac_nargs a = N1 -> explicit opts a d j e l = Done ([(a, [e])], l, []).
  Proof. intros H. destruct e; cbn; now rewrite H. Qed.
  (** What the commands look at: the file name, the format and the checks. *)
  Definition iargs (ns : namespace) : string * (option string * bool) := (ar_filename (args_of ns), (ar_fmt (args_of ns), checked ns)).
  Lemma irun_item i w x ns l : good i ->
    exists ns', run w x ns (iitem_toks i ++ l) = run w x ns' l /\ iargs ns' = (fst (iargs ns), ieffect (snd (iargs ns)) i).
  Proof.
    intros (G & II).
    assert (E : exists ns', consume_optional int_of float_of opts (match iitem_toks i with TO o :: _ => o | _ => Unknown "" end) (List.tl (iitem_toks i) ++ l) ns = Done (ns', l, []) /\ iargs ns' = (fst (iargs ns), ieffect (snd (iargs ns)) i)).
    { unfold iargs, args_of, checked. cbn [ar_filename ar_fmt fst snd].
      destruct i; try destruct II; cbn [iitem_toks List.tl app CmdLineSpec.good] in *.
      - destruct G as (Hin & _). exists (dset String.eqb "fmt" (VStr f) ns). split; [|rewrite !ns_get_dset; reflexivity].
        assert (Hg : existsb (String.eqb f) readers = true) by (apply existsb_exists; exists f; split; [exact Hin|apply String.eqb_refl]).
        destruct j; cbn -[explicit]; [unfold take_words|rewrite iexplicit_one by reflexivity]; cbn; unfold get_value; cbn; rewrite Hg; reflexivity.
      - exists (dset String.eqb "outpath" (VStr d) ns). split; [destruct j; [reflexivity|destruct d; reflexivity]|]. rewrite !ns_get_dset. reflexivity.
      - exists (dset String.eqb "check" (VBool true) ns). split; [reflexivity|]. rewrite !ns_get_dset. reflexivity.
      - exists (dset String.eqb "info" (VBool true) ns). split; [reflexivity|]. rewrite !ns_get_dset. reflexivity.
      - exists (dset String.eqb "log" (VStr level) ns). split; [destruct j; [reflexivity|destruct level; reflexivity]|]. rewrite !ns_get_dset. reflexivity. }
    destruct E as (ns' & E & Ea). exists ns'. split; [|exact Ea].
    assert (Ht : iitem_toks i = TO (match iitem_toks i with TO o :: _ => o | _ => Unknown "" end) :: List.tl (iitem_toks i)) by (destruct i; try destruct II; try destruct j; reflexivity).
    rewrite Ht. cbn [app]. rewrite run_opt, E. cbn [obind]. now rewrite app_nil_r.
  Qed.
  Lemma irun_items items : forall w x ns l, Forall good items ->
    exists ns', run w x ns (flat_map iitem_toks items ++ l) = run w x ns' l /\ iargs ns' = (fst (iargs ns), fold_left ieffect items (snd (iargs ns))).
  Proof.
    induction items as [|i items IH]; intros w x ns l G; [exists ns; split; reflexivity|].
    inversion G as [|? ? Gi Gs]; subst. cbn [flat_map]. rewrite <- app_assoc.
    destruct (irun_item i w x ns (flat_map iitem_toks items ++ l)%list Gi) as (ns1 & E1 & A1).
    destruct (IH w x ns1 l Gs) as (ns2 & E2 & A2). exists ns2. split; [now rewrite E1, E2|]. cbn [fold_left]. now rewrite A2, A1.
  Qed.
  Lemma itoks_opt items : Forall good items -> flat_map iitem_toks items = [] \/ exists o r, flat_map iitem_toks items = TO o :: r.
  Proof. intros [|i items' (_ & II) _]; [now left|]. right. cbn [flat_map]. destruct i; try destruct II; try destruct j; cbn; eauto. Qed.
  Lemma iparse_file before f after : Forall good before -> Forall good after -> CmdLineSpec.plain f ->
    exists ns, parse_args int_of float_of opts pos_filename (words before ++ f :: words after) = Done ns /\ iargs ns = (f, fold_left ieffect (before ++ after) (format, false)).
  Proof.
    intros Gb Ga Hf. assert (K : keys_ok opts) by reflexivity. rewrite run_parse, (iclassify_items _ _ Gb), (classify_plain _ _ _ K Hf).
    rewrite <- (app_nil_r (words after)), (iclassify_items _ _ Ga). cbn [CmdLine.classify obind]. rewrite app_nil_r.
    destruct (irun_items before true [] (defaults opts pos_filename) (TA f :: flat_map iitem_toks after) Gb) as (ns1 & E1 & A1). rewrite E1.
    rewrite run_positional by (reflexivity || (apply plain_not_dd; exact Hf) || (apply itoks_opt; exact Ga)).
    rewrite (take_file int_of float_of f ns1 (plain_not_dd f Hf)). cbn [obind].
    destruct (irun_items after false [] (dset String.eqb "filename" (VStr f) ns1) [] Ga) as (ns2 & E2 & A2). rewrite app_nil_r in E2. rewrite E2, run_nil.
    exists ns2. split; [reflexivity|]. rewrite A2.
    assert (HF : iargs (dset String.eqb "filename" (VStr f) ns1) = (f, snd (iargs ns1))) by (unfold iargs, args_of, checked; rewrite !ns_get_dset; reflexivity).
    rewrite HF, A1. cbn [fst snd]. rewrite fold_left_app. destruct format; reflexivity.
  Qed.
  Lemma iparse_bad items j f rest : Forall good items -> (j = Apart -> CmdLineSpec.plain f) -> ~ In f readers ->
    parse_args int_of float_of opts pos_filename (words items ++ pair j "--fmt" f ++ rest) = Exit 2.
  Proof.
    intros G Hp Hf. assert (K : keys_ok opts) by reflexivity. rewrite run_parse, (iclassify_items _ _ G).
    assert (Hc : classify (pair j "--fmt" f ++ rest) = (t <<- classify rest ;; Done (pair_toks iact_fmt "--fmt" j f ++ t)%list)).
    { destruct j; cbn [pair pair_toks app]; (erewrite iclassify_name by reflexivity); [rewrite (classify_plain _ _ _ K) by auto|]; destruct (classify rest); reflexivity. }
    rewrite Hc. destruct (classify rest) as [t|c|] eqn:Et; [|apply classify_exit in Et; now subst|now apply classify_unstuck in Et].
    cbn [obind]. destruct (irun_items items true [] (defaults opts pos_filename) (pair_toks iact_fmt "--fmt" j f ++ t) G) as (ns1 & E1 & _). rewrite E1.
    apply existsb_not in Hf. destruct j; cbn [pair_toks app]; rewrite run_opt; cbn -[explicit]; [unfold take_words|rewrite iexplicit_one by reflexivity]; cbn; unfold get_value; cbn; rewrite Hf; reflexivity.
  Qed.
  Lemma iparse_unknown before s after ns : unknown info_names s -> ~ In "--"%string before ->
    parse_args int_of float_of opts pos_filename (before ++ s :: after) <> Done ns.
  Proof.
    intros U Hb.
    destruct (unknown_tok opts info_names
      ltac:(intros o a H; cbn in H; unfold info_names; cbn [In]; repeat (destruct H as [[= <- _]|H]; [tauto|]); destruct H) (or_introl eq_refl)
      ltac:(intros o Ho; cbn in Ho; repeat (destruct Ho as [<-|Ho]; [cbn; lia|]); destruct Ho) s U) as (N & T).
    exact (unknown_not_done int_of float_of _ _ before s after ns T N Hb).
  Qed.
End InfoParser.

(** What the words say. *)
Lemma effect_check l : forall x, snd (fold_left ieffect l x) = true <-> snd x = true \/ says_check l.
Proof.
  unfold says_check. induction l as [|i l IH]; intros x; cbn [fold_left In]; [tauto|]. rewrite IH. destruct i; cbn [ieffect snd]; intuition congruence.
Qed.
Lemma effect_none l : no_format l -> forall x, fst (fold_left ieffect l x) = fst x.
Proof.
  unfold no_format. induction l as [|i l IH]; intros N x; [reflexivity|]. cbn [fold_left]. rewrite IH by (intros k t I; apply (N k t); right; exact I).
  destruct i; try reflexivity. destruct (N j f). left; reflexivity.
Qed.
Lemma effect_format l s : says_format l s -> forall x, fst (fold_left ieffect l x) = Some s.
Proof. intros (b & j & a & -> & N) x. rewrite fold_left_app. cbn [fold_left]. now rewrite (effect_none a N). Qed.
Lemma effect_either l : no_format l \/ exists s j, says_format l s /\ In (Fmt j s) l.
Proof.
  induction l as [|i l IH]; [left; intros k t []|]. destruct IH as [N | (s & j & (b & j' & a & E & N) & I)].
  - destruct i; try (left; intros ? ? [E | I]; [discriminate E | exact (N _ _ I)]). right. exists f, j. split; [exists [], j, l; split; [reflexivity | exact N] | left; reflexivity].
  - right. exists s, j. split; [exists (i :: b), j', a; split; [rewrite E; reflexivity | exact N] | right; exact I].
Qed.

(** A word without '='. *)
Lemma unknown_simple names s : option_like s -> ~ begins "-h" s -> ~ In "="%char (list_ascii_of_string s) -> (forall n, In n names -> ~ begins s n) -> unknown names s.
Proof.
  intros Ho Hh He Hn. split; [exact Ho|split; [exact Hh|]]. intros p n [<-|(e & ->)] Hin; [now apply Hn|]. exfalso. apply He.
  rewrite list_ascii_app. apply in_or_app. right. now left.
Qed.
