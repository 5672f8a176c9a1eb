(** * The words of the command ic3probe_plotline. *)
From Coq Require Import ZArith List Bool String Ascii Lia.
From Verif Require Import ProbeWhole Py PyFacts Cli CmdLine CmdLineSpec CmdLineProofs ProbeWholeSpec.
Local Open Scope string_scope.

Section ProbeParser.
  Context (int_of float_of : string -> option Z).
  Notation opts := probe_options.
  Notation classify := (CmdLine.classify opts).
  Notation run := (CmdLineProofs.run int_of float_of opts pos_prefix).
  Notation good := (pgood int_of).
  Definition act_data : action := Action ["--data"] "datalist" N1 Store Tstr None (VStr "P").
  Definition act_axis : action := Action ["--axis"] "axis" N1 Store Tstr None (VStr "X").
  Definition act_map : action := Action ["--map"] "map" N1 Store Tstr (Some ["time"; "freq"]) (VStr "time").
  Definition act_cmap : action := Action ["--cmap"] "cmap" N1 Store Tstr None (VStr "turbo").
  Definition act_levels : action := Action ["--cmaplevels"] "nlevels" N1 Store Tint None (VInt 30).
  Definition pitem_toks (i : pitem) : list tok :=
    match i with
    | PVerbose => [TO (Found (opt_flag "-v" "verbose") "-v" None)]
    | PCheck => [TO (Found (opt_flag "--check" "check") "--check" None)]
    | PData j v => pair_toks act_data "--data" j v
    | PAxis j v => pair_toks act_axis "--axis" j v
    | PMap j v => pair_toks act_map "--map" j v
    | PColors j v => pair_toks act_cmap "--cmap" j v
    | PLevels j v => pair_toks act_levels "--cmaplevels" j v
    end.
  Lemma pclassify_name s o l : String.eqb s "--" = false -> parse_optional opts s = Done (Some o) -> classify (s :: l) = (t <<- classify l ;; Done (TO o :: t)).
  Proof. intros E H. cbn [CmdLine.classify]. now rewrite E, H. Qed.
  Lemma pkeys : keys_ok opts.
  Proof. reflexivity. Qed.
  Lemma map_plain v : v = "time" \/ v = "freq" -> CmdLineSpec.plain v.
  Proof. intros [-> | ->]; left; intros (r & E); discriminate E. Qed.
  Lemma pclassify_item i l : good i -> classify (prender i ++ l) = (t <<- classify l ;; Done (pitem_toks i ++ t)%list).
  Proof.
    intros G. destruct i; cbn [pgood prender pitem_toks] in *; cbn [app pair pair_toks].
    1, 2: erewrite pclassify_name by reflexivity; destruct (classify l); reflexivity.
    3: apply map_plain in G.
    all: destruct j; cbn [app pair pair_toks]; (erewrite pclassify_name by reflexivity); [rewrite (classify_plain _ _ _ pkeys) by (exact G || apply G; reflexivity)|]; destruct (classify l); reflexivity.
  Qed.
  Lemma pclassify_items items l : Forall good items -> classify (pwords items ++ l) = (t <<- classify l ;; Done (flat_map pitem_toks items ++ t)%list).
  Proof.
    intros H. induction H as [|i items Hi _ IH]; [cbn; destruct (classify l); reflexivity|]. cbn [pwords flat_map]. unfold pwords in IH. rewrite <- !app_assoc, (pclassify_item _ _ Hi), IH.
    apply bind_app.
  Qed.
  Lemma pexplicit_one a d j e l : ac_nargs a = N1 -> explicit opts a d j e l = Done ([(a, [e])], l, []).
  Proof. intros H. destruct e; cbn; now rewrite H. Qed.
  (** What the command looks at. *)
  Record settings : Type := Settings { s_prefix : string; s_verbose : bool; s_data : string; s_axis : string; s_map : string; s_colors : string; s_levels : Z }.
  Definition settings_of (ns : namespace) : settings :=
    Settings (ns_str "prefix" ns) (ns_bool "verbose" ns) (ns_str "datalist" ns) (ns_str "axis" ns) (ns_str "map" ns) (ns_str "cmap" ns) (ns_int "nlevels" ns).
  Definition peffect (s : settings) (i : pitem) : settings :=
    let 'Settings p vb d a m c n := s in
    match i with
    | PVerbose => Settings p true d a m c n
    | PCheck => s
    | PData _ v => Settings p vb v a m c n
    | PAxis _ v => Settings p vb d v m c n
    | PMap _ v => Settings p vb d a v c n
    | PColors _ v => Settings p vb d a m v n
    | PLevels _ v => Settings p vb d a m c (match int_of v with Some n => n | None => n end)
    end.
  Lemma prun_item i w x ns l : good i -> exists ns', run w x ns (pitem_toks i ++ l) = run w x ns' l /\ settings_of ns' = peffect (settings_of ns) i.
  Proof.
    intros G.
    assert (E : exists ns', consume_optional int_of float_of opts (match pitem_toks i with TO o :: _ => o | _ => Unknown "" end) (List.tl (pitem_toks i) ++ l) ns = Done (ns', l, []) /\ settings_of ns' = peffect (settings_of ns) i).
    { unfold settings_of, ns_str, ns_bool, ns_int. cbn [peffect].
      destruct i; cbn [pitem_toks List.tl app pgood] in *.
      - exists (dset String.eqb "verbose" (VBool true) ns). split; [reflexivity|]. rewrite !ns_get_dset. reflexivity.
      - exists (dset String.eqb "check" (VBool true) ns). split; [reflexivity|]. rewrite !ns_get_dset. reflexivity.
      - exists (dset String.eqb "datalist" (VStr v) ns). split; [destruct j; [reflexivity|destruct v; reflexivity]|]. rewrite !ns_get_dset. reflexivity.
      - exists (dset String.eqb "axis" (VStr v) ns). split; [destruct j; [reflexivity|destruct v; reflexivity]|]. rewrite !ns_get_dset. reflexivity.
      - exists (dset String.eqb "map" (VStr v) ns). split; [|rewrite !ns_get_dset; reflexivity]. destruct G as [-> | ->]; destruct j; reflexivity.
      - exists (dset String.eqb "cmap" (VStr v) ns). split; [destruct j; [reflexivity|destruct v; reflexivity]|]. rewrite !ns_get_dset. reflexivity.
      - destruct G as (_ & Hn). destruct (int_of v) as [n|] eqn:Ev; [|congruence].
        exists (dset String.eqb "nlevels" (VInt n) ns). split; [|rewrite !ns_get_dset; reflexivity].
        destruct j; cbn -[explicit]; try unfold take_words; try (rewrite pexplicit_one by reflexivity); cbn; unfold get_value; cbn; rewrite Ev; reflexivity. }
    destruct E as (ns' & E & Ea). exists ns'. split; [|exact Ea].
    assert (Ht : pitem_toks i = TO (match pitem_toks i with TO o :: _ => o | _ => Unknown "" end) :: List.tl (pitem_toks i)) by (destruct i; try destruct j; reflexivity).
    rewrite Ht. cbn [app]. rewrite run_opt, E. cbn [obind]. now rewrite app_nil_r.
  Qed.
  Lemma prun_items items : forall w x ns l, Forall good items ->
    exists ns', run w x ns (flat_map pitem_toks items ++ l) = run w x ns' l /\ settings_of ns' = fold_left peffect items (settings_of ns).
  Proof.
    induction items as [|i items IH]; intros w x ns l G; [exists ns; split; reflexivity|].
    inversion G as [|? ? Gi Gs]; subst. cbn [flat_map]. rewrite <- app_assoc.
    destruct (prun_item i w x ns (flat_map pitem_toks items ++ l)%list Gi) as (ns1 & E1 & A1).
    destruct (IH w x ns1 l Gs) as (ns2 & E2 & A2). exists ns2. split; [now rewrite E1, E2|]. cbn [fold_left]. now rewrite A2, A1.
  Qed.
  Lemma ptoks_opt items : flat_map pitem_toks items = [] \/ exists o r, flat_map pitem_toks items = TO o :: r.
  Proof. destruct items as [|i items]; [now left|]. right. cbn [flat_map]. destruct i; try destruct j; cbn; eauto. Qed.
  Lemma take_prefix f ns : f <> "--" -> take_action int_of float_of pos_prefix [f] ns = Done (dset String.eqb "prefix" (VStr f) ns).
  Proof. intros H. unfold take_action. cbn [pos_prefix ac_opts remove_first]. destruct (String.eqb_spec f "--"); [contradiction|reflexivity]. Qed.
  Definition start (f : string) : settings := Settings f false "P" "X" "time" "turbo" 30.
  Definition with_prefix (f : string) (s : settings) : settings := let 'Settings _ vb d a m c n := s in Settings f vb d a m c n.
  Lemma effect_prefix f l : forall s, with_prefix f (fold_left peffect l s) = fold_left peffect l (with_prefix f s).
  Proof. induction l as [|i l IH]; intros s; [reflexivity|]. cbn [fold_left]. rewrite IH. f_equal. destruct s, i; reflexivity. Qed.
  Lemma pparse before f after : Forall good before -> Forall good after -> CmdLineSpec.plain f ->
    exists ns, parse_args int_of float_of opts pos_prefix (pwords before ++ f :: pwords after) = Done ns /\ settings_of ns = fold_left peffect (before ++ after) (start f).
  Proof.
    intros Gb Ga Hf. rewrite run_parse, (pclassify_items _ _ Gb), (classify_plain _ _ _ pkeys Hf).
    rewrite <- (app_nil_r (pwords after)), (pclassify_items _ _ Ga). cbn [CmdLine.classify obind]. rewrite app_nil_r.
    destruct (prun_items before true [] (defaults opts pos_prefix) (TA f :: flat_map pitem_toks after) Gb) as (ns1 & E1 & A1). rewrite E1.
    rewrite run_positional by (reflexivity || (apply plain_not_dd; exact Hf) || apply ptoks_opt).
    rewrite (take_prefix f ns1 (plain_not_dd f Hf)). cbn [obind].
    destruct (prun_items after false [] (dset String.eqb "prefix" (VStr f) ns1) [] Ga) as (ns2 & E2 & A2). rewrite app_nil_r in E2. rewrite E2, run_nil.
    exists ns2. split; [reflexivity|]. rewrite A2.
    assert (HF : settings_of (dset String.eqb "prefix" (VStr f) ns1) = with_prefix f (settings_of ns1)) by (unfold settings_of, ns_str, ns_bool, ns_int; rewrite !ns_get_dset; reflexivity).
    rewrite HF, A1, effect_prefix, fold_left_app. reflexivity.
  Qed.
  (** Words that end the command. *)
  Definition prefused (i : pitem) : Prop :=
    match i with
    | PMap j v => (j = Apart -> CmdLineSpec.plain v) /\ ~ In v ["time"; "freq"]
    | PLevels j v => (j = Apart -> CmdLineSpec.plain v) /\ int_of v = None
    | _ => False
    end.
  Lemma pparse_bad items i rest : Forall good items -> prefused i -> parse_args int_of float_of opts pos_prefix (pwords items ++ prender i ++ rest) = Exit 2.
  Proof.
    intros G B. rewrite run_parse, (pclassify_items _ _ G).
    assert (Hc : classify (prender i ++ rest) = (t <<- classify rest ;; Done (pitem_toks i ++ t)%list)).
    { destruct i; cbn [prefused] in B; try contradiction; destruct B as (B & _); cbn [prender pitem_toks]; destruct j; cbn [pair pair_toks app]; (erewrite pclassify_name by reflexivity); try (rewrite (classify_plain _ _ _ pkeys) by auto); destruct (classify rest); reflexivity. }
    rewrite Hc. destruct (classify rest) as [t|c|] eqn:Et; [|apply classify_exit in Et; now subst|now apply classify_unstuck in Et].
    cbn [obind]. destruct (prun_items items true [] (defaults opts pos_prefix) (pitem_toks i ++ t) G) as (ns1 & E1 & _). rewrite E1.
    destruct i; cbn [prefused] in B; try contradiction; destruct B as (_ & B); cbn [pitem_toks].
    - assert (Hf := existsb_not _ _ B). destruct j; cbn [pair_toks app]; rewrite run_opt; cbn -[explicit existsb]; [unfold take_words|rewrite pexplicit_one by reflexivity]; cbn -[existsb]; unfold get_value; cbn -[existsb]; rewrite Hf; reflexivity.
    - destruct j; cbn [pair_toks app]; rewrite run_opt; cbn -[explicit]; [unfold take_words|rewrite pexplicit_one by reflexivity]; cbn; unfold get_value; cbn; rewrite B; reflexivity.
  Qed.
  Lemma pparse_none items : Forall good items -> parse_args int_of float_of opts pos_prefix (pwords items) = Exit 2.
  Proof.
    intros G. rewrite run_parse. rewrite <- (app_nil_r (pwords items)), (pclassify_items _ _ G). cbn [CmdLine.classify obind].
    destruct (prun_items items true [] (defaults opts pos_prefix) [] G) as (ns1 & E1 & _). rewrite E1. reflexivity.
  Qed.
  (** What was said last. *)
  Lemma last_snoc {A} (said : pitem -> option A) d l i : last_said said d (l ++ [i]) = match said i with Some a => a | None => last_said said d l end.
  Proof. unfold last_said. rewrite rev_app_distr. cbn [rev app flat_map]. destruct (said i); reflexivity. Qed.
  Lemma said_last f l : Forall good l -> fold_left peffect l (start f) =
    Settings f (existsb (fun i => match i with PVerbose => true | _ => false end) l) (said_data l) (said_axis l) (said_map l) (said_colors l) (said_levels int_of l).
  Proof.
    intros G. induction l as [|i l IH] using rev_ind; [reflexivity|]. apply Forall_app in G. destruct G as (G & Gi). inversion Gi as [|? ? Gi' _]; subst.
    rewrite fold_left_app. cbn [fold_left]. rewrite (IH G). unfold said_data, said_axis, said_map, said_colors, said_levels. rewrite existsb_app, !last_snoc.
    destruct i; cbn [peffect existsb]; rewrite ?orb_false_r, ?orb_true_r; try reflexivity.
  Qed.
End ProbeParser.
