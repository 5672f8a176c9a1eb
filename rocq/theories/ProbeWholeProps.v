(** * Property C94: the command ic3probe_plotline as a whole program. *)
From Coq Require Import ZArith List Bool String Ascii Lia.
From Verif Require Import ProbeWhole Py PyFacts Cli CmdLine CmdLineSpec CmdLineProofs Probes ProbesProps ProbePlot ProbePlotProps ProbeWholeSpec ProbeWholeProofs.
Local Open Scope string_scope.

Section C94.
  Context {F : Type} (mag : values (F := F) -> values (F := F) -> values (F := F) -> res (values (F := F)))
          (quot sound invp invm entropy : values (F := F) -> values (F := F) -> res (values (F := F)))
          (steady : list F -> list (list F) -> bool) (files : string -> option (rdata (F := F))).
  Context (dtavg : values (F := F) -> F) (fftfreq : Z -> F -> list F) (psd : list (list F) -> list (list F)).
  Context (int_of float_of : string -> option Z).
  Notation check := (check_data mag quot sound invp invm entropy steady files 2).
  Notation plot := (plotline dtavg fftfreq psd check).
  Notation command := (probe_command int_of float_of dtavg fftfreq psd check).
  Notation good := (pgood int_of).

  (** The command draws, in the colours asked for, the map asked for of the variable and the axis asked for; what is said last
      counts, wherever it stands, and --check is not looked at. *)
  Theorem C94_words before p after : Forall good before -> Forall good after -> CmdLineSpec.plain p ->
    let l := (before ++ after)%list in
    exists kind verbose, (said_map l = "time" /\ kind = TimeMap \/ said_map l = "freq" /\ kind = FreqMap) /\ (verbose = true <-> In PVerbose l) /\
      command (pwords before ++ p :: pwords after) = Done (plot verbose kind p (said_data l) (said_axis l), (said_colors l, said_levels int_of l)).
  Proof.
    intros Gb Ga Pp l. destruct (pparse int_of float_of before p after Gb Ga Pp) as (ns & PA & SE). fold l in SE.
    assert (G : Forall good l) by (apply Forall_app; split; assumption). rewrite (said_last int_of p l G) in SE.
    assert (E1 := f_equal s_prefix SE). assert (E2 := f_equal s_verbose SE). assert (E3 := f_equal s_data SE). assert (E4 := f_equal s_axis SE). assert (E5 := f_equal s_map SE). assert (E6 := f_equal s_colors SE). assert (E7 := f_equal s_levels SE).
    cbn [s_prefix s_verbose s_data s_axis s_map s_colors s_levels settings_of] in *. clear SE.
    assert (M : said_map l = "time" \/ said_map l = "freq").
    { clear - G. unfold said_map. induction l as [|i l IH] using rev_ind; [left; reflexivity |]. apply Forall_app in G. destruct G as (G & Gi). inversion Gi as [|? ? Gi' _]; subst.
      rewrite last_snoc. destruct i; cbn [pgood] in Gi'; auto. }
    exists (if String.eqb (said_map l) "time" then TimeMap else FreqMap), (existsb (fun i => match i with PVerbose => true | _ => false end) l).
    split; [destruct M as [M | M]; rewrite M; [left | right]; split; reflexivity |]. split.
    { rewrite existsb_exists. split; [intros (i & I & E); destruct i; try discriminate E; exact I | intros I; exists PVerbose; auto]. }
    unfold probe_command. rewrite PA. cbn [obind]. rewrite E1, E2, E3, E4, E5, E6, E7. destruct M as [M | M]; rewrite M; reflexivity.
  Qed.

  (** With -v or without, the same figure is drawn; only the exception may change. *)
  Theorem C94_verbose kind p d a fig : plot true kind p d a = Ok fig <-> plot false kind p d a = Ok fig.
  Proof.
    unfold plotline. destruct (check d p []) as [[b | e] d1]; [| reflexivity]. destruct (check a p d1) as [[b' | e] d2]; [| reflexivity].
    destruct kind; [| reflexivity]. unfold plot_timemap. destruct (first_letter d) as [v |]; cbn [bind]; [| reflexivity].
    destruct (get d2 a) as [x |]; cbn [bind]; [| reflexivity]. destruct (get d2 "time") as [t |], (get d2 v) as [z |]; cbn [bind]; try reflexivity; destruct (check_axis x); cbn [bind]; split; discriminate.
  Qed.

  (** Without a word for the prefix, with an unknown map or a number of levels that is not a number: status 2. *)
  Theorem C94_usage items rest : Forall good items ->
    command (pwords items) = Exit 2 /\
    (forall j v, (j = Apart -> CmdLineSpec.plain v) -> v <> "time" -> v <> "freq" -> command (pwords items ++ pair j "--map" v ++ rest) = Exit 2) /\
    (forall j v, (j = Apart -> CmdLineSpec.plain v) -> int_of v = None -> command (pwords items ++ pair j "--cmaplevels" v ++ rest) = Exit 2).
  Proof.
    intros G. split; [| split]; unfold probe_command.
    - rewrite (pparse_none int_of float_of items G). reflexivity.
    - intros j v P N1 N2. change (pair j "--map" v) with (prender (PMap j v)). rewrite (pparse_bad int_of float_of items (PMap j v) rest G); [reflexivity |]. split; [exact P |]. intros [E | [E | []]]; congruence.
    - intros j v P N. change (pair j "--cmaplevels" v) with (prender (PLevels j v)). rewrite (pparse_bad int_of float_of items (PLevels j v) rest G); [reflexivity |]. split; [exact P | exact N].
  Qed.

  (** A variable with a name of several letters is never drawn along a coordinate, whatever the other words; with a name of one
      letter, the time map shows the values of its file against the coordinate and the times. *)
  Theorem C94_long_names before p after r colors : Forall good before -> Forall good after -> CmdLineSpec.plain p ->
    In (said_axis (before ++ after)) ["X"; "Y"; "Z"] -> String.length (said_data (before ++ after)) <> 1%nat ->
    command (pwords before ++ p :: pwords after) = Done (r, colors) -> exists e, r = Err e.
  Proof.
    intros Gb Ga Pp AX L H. destruct (C94_words before p after Gb Ga Pp) as (kind & vb & _ & _ & E). rewrite E in H. injection H as <- _.
    destruct (plot vb kind p _ _) as [fig | e] eqn:PL; [| eauto]. apply C73_long_names in PL; [contradiction | exact AX].
  Qed.
  Theorem C94_time_map before p after c rows row : Forall good before -> Forall good after -> CmdLineSpec.plain p ->
    let l := (before ++ after)%list in let v := said_data l in let axis := said_axis l in
    said_map l = "time" -> String.length v = 1%nat -> ~ In v ["X"; "Y"; "Z"] -> In axis ["X"; "Y"; "Z"] ->
    table files p v c rows -> line steady files p axis row -> zlen row = 3 + c -> 2 <= c -> 2 <= zlen rows ->
    exists t, Forall2 (fun r y => nth_error r 1 = Some y) rows t /\
      command (pwords before ++ p :: pwords after) = Done (Ok (Figure (p ++ "." ++ v ++ ".time.png") (skipn 3 row) t (List.map (skipn 3) rows)), (said_colors l, said_levels int_of l)).
  Proof.
    intros Gb Ga Pp l v axis M ONE NOT AX TB LI LR C2 R2. destruct (C94_words before p after Gb Ga Pp) as (kind & vb & K & _ & E).
    assert (KT : kind = TimeMap) by (destruct K as [(_ & K) | (K & _)]; [exact K | fold l in K; rewrite M in K; discriminate K]). subst kind.
    destruct (C73_time_map mag quot sound invp invm entropy steady files dtavg fftfreq psd p v axis c rows row ONE NOT AX TB LI LR C2 R2 vb) as (t & T & PL). exists t. split; [exact T |]. rewrite E. fold l v axis. rewrite PL. reflexivity.
  Qed.
  (** The map of frequencies needs 600 samples: it shows the modes 1 to n // 200 - 1. *)
  Theorem C94_freq_map before p after c rows row : Forall good before -> Forall good after -> CmdLineSpec.plain p ->
    let l := (before ++ after)%list in let v := said_data l in let axis := said_axis l in let n := zlen rows in
    said_map l = "freq" -> String.length v = 1%nat -> ~ In v ["X"; "Y"; "Z"] -> In axis ["X"; "Y"; "Z"] ->
    table files p v c rows -> line steady files p axis row -> zlen row = 3 + c -> 2 <= c -> 2 <= n ->
    (forall x, List.map zlen (psd x) = List.map zlen x) -> (forall n dt, 0 <= n -> zlen (fftfreq n dt) = n) ->
    exists r t, command (pwords before ++ p :: pwords after) = Done (r, (said_colors l, said_levels int_of l)) /\ Forall2 (fun r y => nth_error r 1 = Some y) rows t /\
      (n < 600 -> r = Err TypeError) /\
      (600 <= n -> exists f z, r = Ok (Figure (p ++ "." ++ v ++ ".freq.png") (skipn 3 row) f z) /\ zlen f = n / 200 - 1 /\ zlen z = n / 200 - 1 /\
         forall k, 1 <= k < n / 200 -> nth_error f (Z.to_nat (k - 1)) = nth_error (fftfreq n (dtavg (V1 t))) (Z.to_nat k) /\
                                       nth_error z (Z.to_nat (k - 1)) = nth_error (psd (List.map (skipn 3) rows)) (Z.to_nat k)).
  Proof.
    intros Gb Ga Pp l v axis n M ONE NOT AX TB LI LR C2 R2 PS FQ. destruct (C94_words before p after Gb Ga Pp) as (kind & vb & K & _ & E).
    assert (KT : kind = FreqMap) by (destruct K as [(K & _) | (_ & K)]; [fold l in K; rewrite M in K; discriminate K | exact K]). subst kind.
    destruct (C73_freq_map mag quot sound invp invm entropy steady files dtavg fftfreq psd p v axis c rows row ONE NOT AX TB LI LR C2 R2 PS FQ vb) as (t & T & PL). eexists. exists t. split; [exact E |]. split; [exact T |]. exact PL.
  Qed.
End C94.

(** ** Concrete cases: the files of C73 *)
Section Cases.
  Let ints (s : string) : option Z := if String.eqb s "12" then Some 12 else None.
  Let op (x y : values (F := Z)) : res (values (F := Z)) := Ok x.
  Let run (n : Z) := probe_command ints ints (fun _ => 10) (fun n dt => List.map (fun k => k * dt) (zrange 0 n)) (fun x => x)
    (check_data (fun x _ _ => Ok x) op op op op op (fun _ _ => true) (ex_files n) 2).
  Example c94_run :
    run 3 ["run"] = Done (Ok (Figure "run.P.time.png" [5; 6; 7] [0; 10; 20] [[100; 200; 300]; [101; 201; 301]; [102; 202; 302]]), ("turbo", 30)) /\
    run 3 ["--ax=Y"; "--cmap"; "jet"; "-v"; "run"; "--cmaplevels=12"] = Done (Ok (Figure "run.P.time.png" [5; 6; 7] [0; 10; 20] [[100; 200; 300]; [101; 201; 301]; [102; 202; 302]]), ("jet", 12)) /\
    run 600 ["run"; "--map"; "time"; "--map=freq"] = Done (Ok (Figure "run.P.freq.png" [5; 6; 7] [10; 20] [[101; 201; 301]; [102; 202; 302]]), ("turbo", 30)) /\
    run 3 ["--data"; "RHO"; "run"] = Done (Err KeyError, ("turbo", 30)) /\
    run 3 ["run"; "--data=RHO"; "--axis=S"] = Done (Err TypeError, ("turbo", 30)) /\ run 3 ["run"; "-v"; "--data=RHO"; "--axis=S"] = Done (Err KeyError, ("turbo", 30)) /\
    run 3 ["run"; "--map"; "space"] = Exit 2 /\ run 3 ["--cmaplevels"; "many"; "run"] = Exit 2 /\ run 3 ["-v"] = Exit 2 /\ run 3 ["run"; "--cma"; "jet"] = Exit 2.
  Proof. vm_compute. repeat split. Qed.
  Example c94_case : exists t, Forall2 (fun r y => nth_error r 1 = Some y) (ex_rows 3) t /\
    run 3 (pwords [PAxis Joined "Y"; PVerbose] ++ "run" :: pwords [PLevels Apart "12"])%list = Done (Ok (Figure "run.P.time.png" (skipn 3 ex_line) t (List.map (skipn 3) (ex_rows 3))), ("turbo", 12)).
  Proof.
    assert (PL : forall s, (exists c r, s = String c r /\ c <> "-"%char) -> CmdLineSpec.plain s) by (intros s (c & r & -> & N); left; intros (x & E); cbn in E; congruence).
    apply (C94_time_map (fun x _ _ => Ok x) op op op op op (fun _ _ => true) (ex_files 3) (fun _ => 10) (fun n dt => List.map (fun k => k * dt) (zrange 0 n)) (fun x => x) ints ints
      [PAxis Joined "Y"; PVerbose] "run" [PLevels Apart "12"] 3 (ex_rows 3) ex_line).
    - repeat constructor. discriminate.
    - constructor; [| constructor]. split; [intros _; apply PL; exists "1"%char, "2"; split; [reflexivity | discriminate] | discriminate].
    - apply PL. exists "r"%char, "un". split; [reflexivity | discriminate].
    - reflexivity.
    - reflexivity.
    - vm_compute. intuition discriminate.
    - vm_compute. auto.
    - split; [reflexivity |]. repeat constructor.
    - right. exists [ex_line]. split; reflexivity.
    - reflexivity.
    - lia.
    - vm_compute. discriminate.
  Qed.
End Cases.

Print Assumptions C94_words.
Print Assumptions C94_verbose.
Print Assumptions C94_usage.
Print Assumptions C94_long_names.
Print Assumptions C94_time_map.
Print Assumptions C94_freq_map.
