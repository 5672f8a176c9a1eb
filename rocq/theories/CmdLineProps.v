(** * C86: the command lines of the tools. *)
From Verif Require Import CmdLine CmdLineSpec CmdLineProofs.
From Coq Require Import Ascii Lia.
Local Open Scope string_scope.

Section C86.
  Context (int_of float_of : string -> option Z) {C W : Type}.
  Context (extruded : Z -> fmesh -> res fmesh) (scaled : Z * Z * Z -> fmesh -> res fmesh) (shown : fmesh -> res unit) (write : W -> fmesh -> option C * res unit).
  Notation command := (cfdwrite int_of float_of extruded scaled shown write (C := C)).
  Notation convert := (write_generic extruded scaled shown write (C := C)).
  Notation good m := (good int_of float_of (available_readers m)).
  Notation means := (meaning int_of float_of).

  (** Options in any order around the file name: the command converts with what they mean. *)
  Theorem C86_parsed : forall m fuel before f after ext writer fs,
    Forall (good m) before -> Forall (good m) after -> plain f -> ~ open_end before ->
    command m fuel (words before ++ f :: words after) ext writer fs =
    (let '(r, fs') := convert m fuel (means f (before ++ after)) ext writer fs in (Done r, fs')).
  Proof.
    intros m fuel before f after ext writer fs Gb Ga Hf Ho. unfold cfdwrite.
    destruct (parse_file _ _ _ before f after Gb Ga Ho Hf) as (ns & -> & ->). reflexivity.
  Qed.

  (** After '--' any word is the file name, even after a list of names and even if it begins with a dash. *)
  Theorem C86_dashes : forall m fuel items f ext writer fs, Forall (good m) items ->
    command m fuel (words items ++ ["--"; f]) ext writer fs = (let '(r, fs') := convert m fuel (means f items) ext writer fs in (Done r, fs')).
  Proof.
    intros m fuel items f ext writer fs G. unfold cfdwrite. destruct (parse_dashes _ _ _ items f G) as (ns & -> & ->). reflexivity.
  Qed.

  (** Without file name, nothing is done. *)
  Theorem C86_no_file : forall m fuel items ext writer fs, Forall (good m) items -> command m fuel (words items) ext writer fs = (Exit 2, fs).
  Proof. intros m fuel items ext writer fs G. unfold cfdwrite. now rewrite (parse_no_file _ _ _ items G). Qed.
  (** In particular a file name that follows a list of names without '--' is one of the names. *)
  Theorem C86_swallowed : forall m fuel items k names f ext writer fs, Forall (good m) items -> names <> [] -> Forall plain names -> plain f ->
    command m fuel (words items ++ remove_name k :: names ++ [f]) ext writer fs = (Exit 2, fs).
  Proof.
    intros m fuel items k names f ext writer fs G Hne Hn Hf.
    replace (words items ++ remove_name k :: names ++ [f])%list with (words (items ++ [Remove k (names ++ [f])])) by (unfold words; rewrite flat_map_app; cbn; now rewrite app_nil_r).
    apply C86_no_file. apply Forall_app. split; [exact G|]. constructor; [|constructor]. split; [destruct names; discriminate|]. apply Forall_app. split; [exact Hn|constructor; [exact Hf|constructor]].
  Qed.
  (** Two file names are refused. *)
  Theorem C86_one_file : forall m fuel before f middle g after ext writer fs,
    Forall (good m) before -> Forall (good m) middle -> Forall (good m) after -> ~ open_end before -> ~ open_end middle -> plain f -> plain g ->
    command m fuel (words before ++ f :: words middle ++ g :: words after) ext writer fs = (Exit 2, fs).
  Proof. intros m fuel before f middle g after ext writer fs Gb Gm Ga Ho Ho' Hf Hg. unfold cfdwrite. now rewrite (parse_two _ _ _ before f middle g after Gb Gm Ga Ho Ho' Hf Hg). Qed.

  (** The formats admitted are those registered with a reader: for the tools IC3, GMSH and CGNS. *)
  Theorem C86_formats : forall (m : registry (readfun (C := C)) W) f, In f (available_readers m) <-> exists e, In (f, e) m /\ en_reader e <> None.
  Proof.
    intros m f. unfold available_readers. rewrite in_map_iff. split.
    - intros ((g, e) & <- & H). apply filter_In in H. destruct H as (H & R). exists e. split; [exact H|]. destruct (en_reader e); discriminate.
    - intros (e & H & R). exists (f, e). split; [reflexivity|]. apply filter_In. split; [exact H|]. destruct (en_reader e); [reflexivity|congruence].
  Qed.

  (** A value that is not admitted is refused whatever follows: an unknown format, a number that is not one, a value
      given to a flag. *)
  Theorem C86_refused : forall m fuel items b rest ext writer fs, Forall (good m) items -> refused int_of float_of (available_readers m) b ->
    command m fuel (words items ++ b ++ rest) ext writer fs = (Exit 2, fs).
  Proof. intros m fuel items b rest ext writer fs G Hb. unfold cfdwrite. now rewrite (parse_bad _ _ _ items b rest G Hb). Qed.
  (** An option that lacks an argument is refused, even if the next word, beginning with a dash, was meant as its argument. *)
  Theorem C86_lacking : forall m fuel items b rest ext writer fs, Forall (good m) items -> short b ->
    (rest = [] \/ exists s l, rest = s :: l /\ option_like s) ->
    command m fuel (words items ++ b ++ rest) ext writer fs = (Exit 2, fs).
  Proof. intros m fuel items b rest ext writer fs G Hb Hr. unfold cfdwrite. now rewrite (parse_short _ _ _ items b rest G Hb Hr). Qed.
  (** The help does nothing else. *)
  Theorem C86_help : forall m fuel items h after ext writer fs, Forall (good m) items -> Forall (good m) after -> asks_help h ->
    command m fuel (words items ++ h :: words after) ext writer fs = (Exit 0, fs).
  Proof. intros m fuel items h after ext writer fs G Ga Hh. unfold cfdwrite. now rewrite (parse_help _ _ _ items h after G Ga Hh). Qed.

  (** A word that begins the name of only one option is this option; one that begins several names is refused. *)
  Theorem C86_abbreviation : forall m fuel before p n rest ext writer fs, In n long_names -> begins p n -> p <> "" -> p <> "-" -> p <> "--" ->
    (forall n', In n' long_names -> begins p n' -> n' = n) -> ~ In "--" before ->
    command m fuel (before ++ p :: rest) ext writer fs = command m fuel (before ++ n :: rest) ext writer fs.
  Proof.
    intros m fuel before p n rest ext writer fs Hn Hp N0 N1 N2 Hu Hb. unfold cfdwrite. rewrite !run_parse.
    destruct (abbreviated int_of float_of (available_readers m) n p Hn Hp N0 N1 N2 Hu) as (a & E & E').
    rewrite (classify_swap _ before p n rest); [reflexivity|congruence|eauto|exact N2| |exact Hb]. intros ->. cbn in Hn. repeat destruct Hn as [Hn|Hn]; discriminate || contradiction.
  Qed.
  Theorem C86_ambiguous : forall m fuel before p n n' rest ext writer fs, In n long_names -> In n' long_names -> n <> n' -> begins p n -> begins p n' ->
    ~ In p long_names -> p <> "" -> p <> "-" -> p <> "--" -> ~ In "--" before ->
    command m fuel (before ++ p :: rest) ext writer fs = (Exit 2, fs).
  Proof.
    intros m fuel before p n n' rest ext writer fs Hn Hn' Hd Hp Hp' Hno N0 N1 N2 Hb. unfold cfdwrite. rewrite run_parse.
    rewrite (classify_stop _ before p rest (ambiguous _ n n' p Hn Hn' Hd Hp Hp' Hno N0 N1 N2) N2 Hb). reflexivity.
  Qed.

  (** A word that looks like an option and is none is never passed over: wherever it is before '--', and whatever the
      other words, no file is touched (the status is 2 unless the help is asked for too). *)
  Theorem C86_unknown : forall m fuel before s after ext writer fs, unknown long_names s -> ~ In "--" before ->
    exists c, command m fuel (before ++ s :: after) ext writer fs = (Exit c, fs) /\
      (c = 2 \/ c = 0 /\ exists before' s' after', (before ++ s :: after)%list = (before' ++ s' :: after')%list /\ ~ In "--" before' /\ (begins "-h" s' \/ begins "--h" s')).
  Proof.
    intros m fuel before s after ext writer fs U Hb.
    destruct (unknown_tok (generic_options (available_readers m)) long_names (generic_names (available_readers m)) (or_introl eq_refl)
      ltac:(intros o Ho; cbn in Ho; repeat (destruct Ho as [<-|Ho]; [cbn; lia|]); destruct Ho) s U) as (N & T). unfold cfdwrite.
    destruct (parse_args _ _ _ _ (before ++ s :: after)) as [ns|c|] eqn:E; [|exists c; split; [reflexivity|now apply (generic_exit int_of float_of (available_readers m))]|now apply parse_unstuck in E].
    now apply (unknown_not_done int_of float_of _ _ before s after ns T N Hb) in E.
  Qed.

  (** Any command line is converted or ends with a message, and then no file is touched; the status is 2 unless the help
      is asked for, by a word before any '--' that begins with -h or --h. *)
  Theorem C86_total : forall m fuel argv ext writer fs,
    (exists a, command m fuel argv ext writer fs = (let '(r, fs') := convert m fuel a ext writer fs in (Done r, fs'))) \/
    (exists c, command m fuel argv ext writer fs = (Exit c, fs) /\
       (c = 2 \/ c = 0 /\ exists before s after, argv = (before ++ s :: after)%list /\ ~ In "--" before /\ (begins "-h" s \/ begins "--h" s))).
  Proof.
    intros m fuel argv ext writer fs. unfold cfdwrite. destruct (parse_args _ _ _ _ argv) as [ns|c|] eqn:E; [left; now exists (args_of ns)|right; exists c; split; [reflexivity|now apply (generic_exit int_of float_of (available_readers m))]|].
    now apply parse_unstuck in E.
  Qed.

  (** cfdwritecube: the format and the sizes given, whatever the order; a format without reader is refused, even if it
      has a writer. *)
  Theorem C86_cube : forall cube m before f after fs, Forall (cgood int_of (available_readers m)) before -> Forall (cgood int_of (available_readers m)) after -> plain f ->
    cube_command int_of float_of write cube m (cwords before ++ f :: cwords after) fs =
    (let '(fmt, sizes) := cmeaning int_of (before ++ after) in
     let '(r, fs') := cfdwritecube write m (Args f fmt None [] 0 None false) (cube sizes) fs in (Done r, fs')).
  Proof.
    intros cube m before f after fs Gb Ga Hf. unfold cube_command. destruct (cparse_file int_of float_of _ before f after Gb Ga Hf) as (ns & -> & E).
    unfold cargs in E. destruct (cmeaning int_of (before ++ after)) as (fmt, sizes). injection E as E1 E2 E3. unfold cfdwritecube. cbn [ar_fmt ar_filename]. now rewrite <- E1, <- E2, <- E3.
  Qed.
  Theorem C86_cube_refused : forall cube m items j f rest fs, Forall (cgood int_of (available_readers m)) items -> (j = Apart -> plain f) -> ~ In f (available_readers m) ->
    cube_command int_of float_of write cube m (cwords items ++ pair j "--fmt" f ++ rest) fs = (Exit 2, fs).
  Proof. intros cube m items j f rest fs G Hp Hf. unfold cube_command. now rewrite (cparse_bad int_of float_of _ items j f rest G Hp Hf). Qed.

  (** The same for cfdwritecube. *)
  Theorem C86_cube_unknown : forall cube m before s after fs, unknown cube_names s -> ~ In "--" before ->
    exists c, cube_command int_of float_of write cube m (before ++ s :: after) fs = (Exit c, fs).
  Proof.
    intros cube m before s after fs U Hb.
    destruct (unknown_tok (cube_options (available_readers m)) cube_names
      ltac:(intros o a H; cbn in H; unfold cube_names; cbn [In]; repeat (destruct H as [[= <- _]|H]; [tauto|]); destruct H) (or_introl eq_refl)
      ltac:(intros o Ho; cbn in Ho; repeat (destruct Ho as [<-|Ho]; [cbn; lia|]); destruct Ho) s U) as (N & T). unfold cube_command.
    destruct (parse_args _ _ _ _ (before ++ s :: after)) as [ns|c|] eqn:E; [|now exists c|now apply parse_unstuck in E].
    now apply (unknown_not_done int_of float_of _ _ before s after ns T N Hb) in E.
  Qed.
  (** vtkpack: the files given, in their order; at least one. *)
  Theorem C86_filelist : forall l, l <> [] -> Forall plain l -> pack_files int_of float_of l = Done l.
  Proof. intros l Hne H. now apply pack_plain. Qed.
  Theorem C86_filelist_dashes : forall l, l <> [] -> pack_files int_of float_of ("--" :: l) = Done l.
  Proof. intros l Hne. now apply pack_dashes. Qed.
  Theorem C86_filelist_unknown : forall before s after, unknown ["--help"] s -> ~ In "--" before -> exists c, pack_files int_of float_of (before ++ s :: after) = Exit c.
  Proof.
    intros before s after U Hb.
    destruct (unknown_tok [opt_help] ["--help"]
      ltac:(intros o a H; cbn in H; cbn [In]; repeat (destruct H as [[= <- _]|H]; [tauto|]); destruct H) (or_introl eq_refl)
      ltac:(intros o Ho; cbn in Ho; repeat (destruct Ho as [<-|Ho]; [cbn; lia|]); destruct Ho) s U) as (N & T). unfold pack_files.
    destruct (parse_args _ _ _ _ (before ++ s :: after)) as [ns|c|] eqn:E; [|now exists c|now apply parse_unstuck in E].
    now apply (unknown_not_done int_of float_of _ _ before s after ns T N Hb) in E.
  Qed.
  Theorem C86_filelist_empty : pack_files int_of float_of [] = Exit 2.
  Proof. reflexivity. Qed.
End C86.

Print Assumptions C86_parsed.
Print Assumptions C86_dashes.
Print Assumptions C86_no_file.
Print Assumptions C86_swallowed.
Print Assumptions C86_one_file.
Print Assumptions C86_formats.
Print Assumptions C86_refused.
Print Assumptions C86_lacking.
Print Assumptions C86_help.
Print Assumptions C86_abbreviation.
Print Assumptions C86_ambiguous.
Print Assumptions C86_unknown.
Print Assumptions C86_cube_unknown.
Print Assumptions C86_filelist_unknown.
Print Assumptions C86_total.
Print Assumptions C86_cube.
Print Assumptions C86_cube_refused.
Print Assumptions C86_filelist.
Print Assumptions C86_filelist_dashes.
Print Assumptions C86_filelist_empty.

(** ** Cases *)
Section Cases.
  Let ints (s : string) : option Z := if String.eqb s "3" then Some 3 else None.
  Let floats (s : string) : option Z := if String.eqb s "1" then Some 10 else if String.eqb s "-2.5" then Some (-25) else None.
  Let readers := ["IC3"; "GMSH"; "CGNS"].
  Let parsed argv := match parse_args ints floats (generic_options readers) pos_filename argv with Done ns => inl (args_of ns) | Exit c => inr c | Stuck => inr (-1) end.

  Example case_parsed : Forall (good ints floats readers) [Fmt Joined "GMSH"; Remove Cells ["P"; "-"; "-7"]; Scale "1" "-2.5" "1"] /\
    ~ open_end [Fmt Joined "GMSH"; Remove Cells ["P"; "-"; "-7"]; Scale "1" "-2.5" "1"] /\
    words [Fmt Joined "GMSH"; Remove Cells ["P"; "-"; "-7"]; Scale "1" "-2.5" "1"] = ["--fmt=GMSH"; "--remove-cell-data"; "P"; "-"; "-7"; "--scale"; "1"; "-2.5"; "1"] /\
    parsed ["--fmt=GMSH"; "--remove-cell-data"; "P"; "-"; "-7"; "--scale"; "1"; "-2.5"; "1"; "a.msh"; "--extrude"; "3"] =
    inl (Args "a.msh" (Some "GMSH") None ["P"; "-"; "-7"] 3 (Some (10, -25, 10)) false).
  Proof.
    assert (P1 : plain "1") by (left; intros (r & E); discriminate).
    assert (PP : plain "P") by (left; intros (r & E); discriminate).
    assert (P7 : plain "-7") by (right; right; apply negative_number_iff; reflexivity).
    assert (P2 : plain "-2.5") by (right; right; apply negative_number_iff; reflexivity).
    assert (Pd : plain "-") by (right; now left).
    split; [|split; [|split; reflexivity]].
    - constructor; [split; [cbn; tauto|discriminate]|]. constructor; [split; [discriminate|repeat (apply Forall_cons; [assumption|]); apply Forall_nil]|].
      constructor; [|constructor]. cbn. repeat split; assumption || discriminate.
    - intros (before & i & E & Ho). change [Fmt Joined "GMSH"; Remove Cells ["P"; "-"; "-7"]; Scale "1" "-2.5" "1"] with (List.app [Fmt Joined "GMSH"; Remove Cells ["P"; "-"; "-7"]] [Scale "1" "-2.5" "1"]) in E.
      apply app_inj_tail in E. destruct E as (_ & <-). exact Ho.
  Qed.
  (** The name of the file is taken for one of the data to remove; '--' prevents it. *)
  Example case_swallowed : parsed ["--remove-cell-data"; "P"; "a.msh"] = inr 2 /\
    parsed ["--remove-cell-data"; "P"; "--"; "a.msh"] = inl (Args "a.msh" None None ["P"] 0 None false).
  Proof. split; reflexivity. Qed.
  (** '-1e3' and '-1.' are not taken as numbers. *)
  Example case_lacking : option_like "-1e3" /\ option_like "-1." /\ parsed ["--scale"; "1"; "1"; "-1e3"; "a.msh"] = inr 2.
  Proof.
    assert (H : forall s, dashed s -> negative_number s = false -> s <> "-" -> ~ In " "%char (list_ascii_of_string s) -> option_like s).
    { intros s Hd Hn N Hs. split; [exact Hd|split; [|exact Hs]]. intros [H|[H|H]]; [auto|auto|]. apply negative_number_iff in H. congruence. }
    split; [|split; [|reflexivity]]; apply H; try reflexivity; try discriminate; try (eexists; reflexivity); cbn; intros E; repeat destruct E as [E|E]; discriminate || contradiction.
  Qed.
  Example case_formats : available_readers (registry_of cli_registrations) = readers.
  Proof. reflexivity. Qed.
  Example case_refused : refused ints floats readers ["--fmt"; "VTK"] /\ parsed ["--fmt"; "VTK"; "a.vtu"] = inr 2 /\ parsed ["--info=yes"; "a.msh"] = inr 2.
  Proof.
    split; [|split; reflexivity]. apply (RFmt ints floats readers Apart). - intros _. left. intros (r & E). discriminate. - cbn. intros [|[|[|]]]; discriminate || contradiction.
  Qed.
  (** A misspelt option is not passed over; neither is a short one. *)
  Example case_unknown : unknown long_names "--outptah" /\ unknown long_names "-o" /\ unknown cube_names "--format=GMSH" /\
    parsed ["--outptah"; "x"; "a.msh"] = inr 2 /\ parsed ["a.msh"; "-o"] = inr 2 /\ parse_args ints floats (cube_options readers) pos_filename ["--format=GMSH"; "box"] = Exit 2.
  Proof.
    assert (H : forall s, dashed s -> negative_number s = false -> s <> "-" -> ~ In " "%char (list_ascii_of_string s) -> option_like s).
    { intros s Hd Hn N Hs. split; [exact Hd|split; [|exact Hs]]. intros [H|[H|H]]; [auto|auto|]. apply negative_number_iff in H. congruence. }
    assert (G : forall names s, option_like s -> ~ begins "-h" s ->
      (forall p, (s = p \/ exists e, s = p ++ "=" ++ e) -> In p [s; fst (partition_eq s)]) ->
      (forall n, In n names -> ~ begins s n /\ ~ begins (fst (partition_eq s)) n) -> unknown names s).
    { intros names s Ho Hh Hp Hn. split; [exact Ho|split; [exact Hh|]]. intros p n E Hin. destruct (Hn n Hin) as (N1 & N2). destruct (Hp p E) as [<-|[<-|[]]]; assumption. }
    assert (L : forall s, (forall p, In p (prefixes s) -> (exists e, s = p ++ "=" ++ e) -> p = fst (partition_eq s)) ->
      forall p, (s = p \/ exists e, s = p ++ "=" ++ e) -> In p [s; fst (partition_eq s)]).
    { intros s Hs p [->|(e & E)]; [now left|]. right. left. symmetry. apply Hs; [|now exists e]. apply begins_prefixes. now exists ("=" ++ e). }
    split; [|split; [|split; [|split; [reflexivity|split; reflexivity]]]];
      (apply G; [apply H; try reflexivity; try discriminate; try (eexists; reflexivity); cbn; intros E; repeat destruct E as [E|E]; discriminate || contradiction
        |intros (r & E); discriminate
        |apply L; intros p Hp (e & E); cbn in Hp; repeat (destruct Hp as [<-|Hp]; [first [reflexivity|discriminate E]|]); destruct Hp
        |intros n Hn; cbn in Hn; split; intros (r & E); repeat (destruct Hn as [<-|Hn]; [discriminate E|]); destruct Hn]).
  Qed.
  Example case_abbreviation : (forall n', In n' long_names -> begins "--remove-c" n' -> n' = "--remove-cell-data") /\
    parsed ["a.msh"; "--remove-c"; "P"] = parsed ["a.msh"; "--remove-cell-data"; "P"] /\ parsed ["a.msh"; "--remove"; "P"] = inr 2.
  Proof.
    split; [|split; reflexivity]. intros n' Hn (r & E). cbn in Hn. repeat destruct Hn as [<-|Hn]; try discriminate; try contradiction. reflexivity.
  Qed.
  (** The last value counts; the data of the nodes are not looked at. *)
  Example case_last : parsed ["--remove-cell-data"; "P"; "T"; "--remove-cell-data=U"; "--remove-node-data"; "X"; "--info"; "a.msh"; "--log"; "debug"] =
    inl (Args "a.msh" None None ["U"] 0 None true).
  Proof. reflexivity. Qed.
  Example case_cube : cmeaning ints ([CSize AxisY Joined "3"; CFmt Apart "IC3"] ++ [CInfo]) = (Some "IC3", (10, 3, 10)) /\
    cwords [CSize AxisY Joined "3"; CFmt Apart "IC3"] = ["--ny=3"; "--fmt"; "IC3"] /\
    match parse_args ints floats (cube_options readers) pos_filename ["--ny=3"; "--fmt"; "IC3"; "box"; "--info"] with
    | Done ns => (ar_filename (args_of ns), ar_fmt (args_of ns), size_of "nx" ns, size_of "ny" ns) = ("box", Some "IC3", 10, 3) | _ => False end /\
    parse_args ints floats (cube_options readers) pos_filename ["box.vtu"; "--fmt"; "VTK"] = Exit 2.
  Proof. repeat split; reflexivity. Qed.
  Example case_filelist : pack_files ints floats ["b.vtu"; "a.vtu"] = Done ["b.vtu"; "a.vtu"] /\ pack_files ints floats ["--"; "-a"; "--"] = Done ["-a"; "--"].
  Proof. split; reflexivity. Qed.
End Cases.
