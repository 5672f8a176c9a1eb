(** * C98: what [printinfo] of the IC3 readers shows. *)
From Coq Require Import Lia Ascii.
From Verif Require Import Py PyFacts IndexList Conn Mesh Data Ic3Bytes Ic3BytesProofs Ic3 Ic3V4 Ic3HeaderSpec Ic3FuelProofs Ic3LayoutSpec
  Elements Ic3FileProps Ic3V4Props CgnsProps ReaderInfo ReaderInfoSpec ReaderInfoProofs.
Local Open Scope string_scope.

(** ** Lines *)
Lemma array_shown label shape vals n : size_of_shape shape = n -> printreadable label (PArr shape vals) = array_line label n shape vals.
Proof. intros E. unfold printreadable, array_line. rewrite E. destruct (n <=? 10)%Z; reflexivity. Qed.
Lemma size2 n k : size_of_shape [n; k] = (k * n)%Z.
Proof. unfold size_of_shape. cbn [fold_left]. lia. Qed.
Lemma size1 n : size_of_shape [n] = n.
Proof. unfold size_of_shape. cbn [fold_left]. lia. Qed.
Lemma second_where g rows : count_if g (second_cells rows) = faces_where g rows.
Proof.
  unfold count_if, second_cells, faces_where, zlen. f_equal. induction rows as [| row rows IH]; [reflexivity |]. cbn [List.map filter].
  assert (E : g (nth 1 row 0%Z) = match row with _ :: c :: _ => g c | _ => g 0%Z end) by (destruct row as [| a [| b row]]; reflexivity).
  rewrite E. destruct (match row with _ :: c :: _ => g c | _ => g 0%Z end); cbn [List.length]; rewrite IH; reflexivity.
Qed.
Lemma shown_place place o f n d : Forall (shown_from o f n) d ->
  variable_lines [(place, arrays d)] = place_lines place n d.
Proof.
  intros H. unfold variable_lines. cbn [flat_map]. rewrite app_nil_r. induction H as [| (k, (shape, vals)) d S _ IH]; [reflexivity |].
  cbn [arrays List.map place_lines]. f_equal; [| exact IH]. destruct S as (q & code & _ & [(_ & -> & _) | (_ & -> & _)]); apply array_shown; [apply size1 | apply size2].
Qed.
Lemma variables_three d1 d2 : variable_lines [("nodes", arrays d1); ("cells", []); ("faces", arrays d2)] =
  (variable_lines [("nodes", arrays d1)] ++ variable_lines [("faces", arrays d2)])%list.
Proof. unfold variable_lines. cbn [flat_map List.map app]. rewrite !app_nil_r. reflexivity. Qed.
Lemma mesh_lines_cons kv d : mesh_lines (kv :: d) = (mesh_lines [kv] ++ mesh_lines d)%list.
Proof. unfold mesh_lines. cbn [flat_map]. rewrite app_nil_r. reflexivity. Qed.
Lemma params_shown d : mesh_lines [("params", pv_params d)] = state_lines d.
Proof.
  unfold mesh_lines, pv_params. cbn [flat_map]. rewrite app_nil_r. induction d as [| (k, v) d IH]; [reflexivity |]. cbn [List.map flat_map state_lines].
  unfold state_lines in IH. rewrite IH. f_equal. destruct v as [x | w]; cbn [pv_of]; [reflexivity |]. rewrite map_map. apply map_ext. intros (j, x). reflexivity.
Qed.
Lemma state_app a b : state_lines (a ++ b)%list = (state_lines a ++ state_lines b)%list.
Proof. apply flat_map_app. Qed.
Lemma counts_shown r : state_lines (params_of r) = counts_lines (r_no r) (r_fa r) (r_cv r) (r_noofa r) (zlen (r_bocos r)) (r_cvofa r).
Proof. unfold params_of. rewrite !second_where. reflexivity. Qed.
Lemma counts_shown4 r : state_lines (params4 r) = counts_lines (r4_no r) (r4_fa r) (r4_cv r) (r4_noofa r) (zlen (r4_bocos r)) (r4_cvofa r).
Proof. unfold params4. rewrite !second_where. reflexivity. Qed.
Lemma grid_shown no fa rows coords rest :
  mesh_lines (("connectivity", PDict [("noofa", PObj csr_class); ("cvofa", PDict [("cvofa", PArr [fa; 2%Z] (List.concat rows))]); ("nkeys", int_ 0)])
              :: ("coordinates", PArr [no; 3%Z] (List.concat coords)) :: ("bocos", PObj "list") :: rest) =
  (grid_lines no fa rows coords ++ mesh_lines rest)%list.
Proof.
  rewrite mesh_lines_cons, (mesh_lines_cons ("coordinates", _)), (mesh_lines_cons ("bocos", _)), !app_assoc. f_equal.
  unfold mesh_lines. cbn [flat_map app List.map]. rewrite (array_shown _ [fa; 2%Z] _ (2 * fa) (size2 fa 2)), (array_shown _ [no; 3%Z] _ (3 * no) (size2 no 3)). reflexivity.
Qed.

(** Names of the simulation state are distinct. *)
Lemma info_distinct f o d : read_info f o = Ok d -> NoDup (dkeys d).
Proof.
  unfold read_info, scan_file. assert (G : forall k s p d, NoDup (dkeys s) -> scan k f o [I0; D0] info_step s p = Ok d -> NoDup (dkeys d)).
  { induction k as [| k IH]; intros s p d' N H; [discriminate |]. cbn [scan] in H. apply bind_ok in H. destruct H as (([h |], q) & _ & H); [| injection H as <-; exact N].
    apply bind_ok in H. destruct H as ((s1, q1) & E & H). eapply IH; [| exact H]. unfold info_step in E. injection E as <- _. apply dset_distinct. exact N. }
  intros H. eapply G; [| exact H]. cbn. repeat constructor; cbn; intuition discriminate.
Qed.
Lemma put_distinct (l : dict string num) : forall d : dict string sval, NoDup (dkeys d) -> NoDup (dkeys (fold_left (fun d '(k, x) => dset String.eqb k (SNum x) d) l d)).
Proof. induction l as [| (k, x) l IH]; intros d N; [exact N |]. cbn [fold_left]. apply IH, dset_distinct, N. Qed.
Lemma info4_distinct s : NoDup (dkeys (read_info4 s)).
Proof.
  unfold read_info4. assert (N : NoDup (dkeys [("step", SNum (NInt 0)); ("time", SNum (NInt 0))])) by (cbn; repeat constructor; cbn; intuition discriminate).
  destruct (s4_stats s) as [(w, v) |]; repeat apply put_distinct; exact N.
Qed.

Definition counts_names : list string := ["no_count"; "fa_count"; "cv_count"; "noofa_count"; "nboco"; "nfa_b"; "nfa_bp"].
Lemma update_app (d d' : dict string sval) : NoDup (dkeys d) -> NoDup (dkeys d') -> (forall k, In k (dkeys d') -> ~ In k (dkeys d)) -> Ic3.dupdate d d' = (d ++ d')%list.
Proof.
  unfold Ic3.dupdate. revert d. induction d' as [| (k, v) l IH]; intros d N N' S; [rewrite app_nil_r; reflexivity |]. cbn [fold_left].
  rewrite (dset_notin _ String.eqb_eq) by (apply S; left; reflexivity). cbn in N'. inversion N' as [| x y NI ND]; subst. rewrite IH.
  - rewrite <- app_assoc. reflexivity.
  - unfold dkeys in *. rewrite map_app. cbn. apply NoDup_app. split; [exact N |]. split; [constructor; [intros [] | constructor] |]. intros x I [<- | []]. exact (S k (or_introl eq_refl) I).
  - exact ND.
  - intros j I. unfold dkeys. rewrite map_app, in_app_iff. cbn. intros [A | [<- | []]]; [exact (S j (or_intror I) A) | exact (NI I)].
Qed.

(** ** The reader of versions 1 to 3 *)
(** The last lines on the mesh: the number of parts and the part of each cell. *)
Definition part_lines (npart : Z) (icvpart : option (list Z)) : list line :=
  [count_line "  mesh.partition.npart" npart;
   match icvpart with Some l => array_line "  mesh.partition.icvpart" (zlen l) [zlen l] l | None => Lval "  mesh.partition.icvpart" Sarr0 end].
(** All the lines: [more] are those of the parameters added when a mesh has been exported. *)
Definition legacy_report (name : string) (r : rstate) (more : list line) (ns fs : dict string (list Z * list Z)) : list line :=
  ([Ltext ("    filename: " ++ name); Lkeys "   simulation: " (List.map fst (r_sim r)); Lkeys "    mesh keys: " mesh_keys; Lkeys "variable keys: " variable_keys;
    Llog "- mesh properties"]
   ++ counts_lines (r_no r) (r_fa r) (r_cv r) (r_noofa r) (zlen (r_bocos r)) (r_cvofa r) ++ more
   ++ grid_lines (r_no r) (r_fa r) (r_cvofa r) (r_coords r) ++ part_lines (r_npart r) (r_icvpart r)
   ++ [Llog "- variable properties"] ++ place_lines "nodes" (r_no r) ns ++ place_lines "faces" (r_fa r) fs)%list.

Lemma read_data_seen i f r : Forall is_byte f -> read_data i f = Ok r ->
  (exists ns fs, read_seen (r_version r) (r_no r) (r_fa r) (r_cv r) f (r_order r) = Ok (ns, fs) /\
     (forall k, In k (dkeys (ds_data (r_nodes r))) -> In k (dkeys ns)) /\ NoDup (dkeys ns) /\ NoDup (dkeys fs) /\
     Forall (shown_from (r_order r) f (r_no r)) ns /\ Forall (shown_from (r_order r) f (r_fa r)) fs) /\ NoDup (dkeys (r_sim r)).
Proof.
  intros B H. unfold read_data in H. apply bind_ok in H. destruct H as ((o, version) & _ & H). apply bind_ok in H. destruct H as ((h, q) & _ & H).
  apply bind_ok in H. destruct H as (u & _ & H). apply bind_ok in H. destruct H as (z & _ & H). apply bind_ok in H. destruct H as ((cvofa, p) & _ & H).
  apply bind_ok in H. destruct H as (bocos & _ & H). apply bind_ok in H. destruct H as ((npart, icv) & _ & H). apply bind_ok in H. destruct H as (coords & _ & H).
  apply bind_ok in H. destruct H as (sim & SI & H). apply bind_ok in H. destruct H as (cells & _ & H). apply bind_ok in H. destruct H as (nodes & ND & H).
  apply bind_ok in H. destruct H as ((cells', nodes') & RV & H). injection H as <-. cbn [r_version r_no r_fa r_cv r_order r_nodes r_sim].
  split; [| eapply info_distinct; exact SI].
  destruct (vars_seen f o B version _ _ _ _ _ RV) as ((ns, fs) & S & A); [vm_compute in ND; injection ND as <-; reflexivity |].
  exists ns, fs. split; [exact S | exact A].
Qed.

(** A reader that has not read its file yet cannot print anything. *)
Theorem C98_created name i f : printinfo_legacy name Created i f = Err AttributeError.
Proof. reflexivity. Qed.

(** Once the file is read: its name, the names of the simulation state, the counts, the shapes of the arrays, and the
    variables of nodes and faces.  Every variable shown is a section of the file; all the node data that the mesh receives are
    shown.  No variable of cells is. *)
Theorem C98_loaded name i f r : Forall is_byte f -> read_data i f = Ok r ->
  exists ns fs, printinfo_legacy name Loaded i f = Ok (legacy_report name r [] ns fs) /\
    (forall k, In k (dkeys (ds_data (r_nodes r))) -> In k (List.map fst ns)) /\ NoDup (List.map fst ns) /\ NoDup (List.map fst fs) /\
    Forall (shown_from (r_order r) f (r_no r)) ns /\ Forall (shown_from (r_order r) f (r_fa r)) fs.
Proof.
  intros B H. destruct (read_data_seen i f r B H) as ((ns & fs & S & A1 & A2 & A3 & A4 & A5) & _). exists ns, fs. split; [| auto].
  unfold printinfo_legacy. rewrite H. cbn [bind]. rewrite S. cbn [bind]. cbv zeta. unfold mesh_dict.
  rewrite (mesh_lines_cons ("params", _)), params_shown, counts_shown, grid_shown, variables_three.
  rewrite (shown_place "nodes" _ _ _ _ A4), (shown_place "faces" _ _ _ _ A5). unfold legacy_report, part_lines. destruct (r_icvpart r) as [l |]; [rewrite <- (array_shown _ [zlen l] l (zlen l) (size1 _)) |]; cbn [app]; rewrite <- ?app_assoc; reflexivity.
Qed.

(** After [export_mesh], the parameters of the reader are those of the mesh: the simulation state is shown among them. *)
Theorem C98_exported name i f r fm : Forall is_byte f -> read_data i f = Ok r -> Ic3.export_mesh r = Ok fm ->
  (forall k, In k (dkeys (r_sim r)) -> ~ In k counts_names) ->
  exists ns fs, printinfo_legacy name Exported i f = Ok (legacy_report name r (state_lines (r_sim r)) ns fs) /\
    printinfo_legacy name Loaded i f = Ok (legacy_report name r [] ns fs) /\
    state_lines (fm_params fm) = (counts_lines (r_no r) (r_fa r) (r_cv r) (r_noofa r) (zlen (r_bocos r)) (r_cvofa r) ++ state_lines (r_sim r))%list.
Proof.
  intros B H X D. destruct (read_data_seen i f r B H) as ((ns & fs & S & A1 & A2 & A3 & A4 & A5) & N). exists ns, fs.
  assert (U : Ic3.dupdate (params_of r) (r_sim r) = (params_of r ++ r_sim r)%list).
  { apply update_app; [cbn; repeat constructor; cbn; intuition discriminate | exact N | exact D]. }
  split; [| split].
  - unfold printinfo_legacy. rewrite H. cbn [bind]. rewrite S. cbn [bind]. cbv zeta. unfold mesh_dict.
    rewrite (mesh_lines_cons ("params", _)), params_shown, U, state_app, counts_shown, grid_shown, variables_three.
    rewrite (shown_place "nodes" _ _ _ _ A4), (shown_place "faces" _ _ _ _ A5). unfold legacy_report, part_lines.
    destruct (r_icvpart r) as [l |]; [rewrite <- (array_shown _ [zlen l] l (zlen l) (size1 _)) |]; cbn [app]; rewrite <- ?app_assoc; reflexivity.
  - destruct (C98_loaded name i f r B H) as (ns' & fs' & P & _). rewrite P. unfold printinfo_legacy in P. rewrite H in P. cbn [bind] in P. rewrite S in P. cbn [bind] in P.
    cbv zeta in P. unfold mesh_dict in P. rewrite (mesh_lines_cons ("params", _)), params_shown, counts_shown, grid_shown, variables_three in P.
    rewrite (shown_place "nodes" _ _ _ _ A4), (shown_place "faces" _ _ _ _ A5) in P. rewrite <- P. unfold legacy_report, part_lines.
    destruct (r_icvpart r) as [l |]; [rewrite <- (array_shown _ [zlen l] l (zlen l) (size1 _)) |]; cbn [app]; rewrite <- ?app_assoc; reflexivity.
  - unfold Ic3.export_mesh in X. destruct (set_coords_nd _ _ _) as (e1, m1). apply bind_ok in X. destruct X as (u1 & _ & X). apply bind_ok in X. destruct X as (f2c & _ & X).
    apply bind_ok in X. destruct X as (f2n & _ & X). destruct (add_faces _ _ _ _) as (e2, m2). apply bind_ok in X. destruct X as (u2 & _ & X). injection X as <-.
    cbn [fm_params]. rewrite U, state_app, counts_shown. reflexivity.
Qed.

(** ** The reader of version 4 *)
Definition report4 (name : string) (sol : string) (sim : list string) (mesh : list line) : list line :=
  ([Ltext ("       mesh filename: " ++ name); Ltext ("   solution filename: " ++ sol); Lkeys "          simulation: " sim;
    Lkeys "           mesh keys: " mesh_keys; Lkeys "       variable keys: " variable_keys; Llog "- mesh properties"]
   ++ mesh ++ [Llog "- variable properties"])%list.
Definition name_or_none (s : option string) : string := match s with Some s => s | None => "None" end.

(** Before reading, the report has zeros, no array, and the two counts that only this state has. *)
Theorem C98_created4 name sname f sol : printinfo4 name sname Created f sol =
  Ok (report4 name (name_or_none sname) ["step"; "time"]
      [count_line "  mesh.params.no_count" 0; count_line "  mesh.params.fa_count" 0; count_line "  mesh.params.cv_count" 0;
       count_line "  mesh.params.noofa_count" 0; count_line "  mesh.params.nboco" 0; count_line "  mesh.connectivity.nkeys" 0;
       Lval "  mesh.coordinates" (Stype "<class 'NoneType'>"); count_line "  mesh.bocos.nfa_b" 0; count_line "  mesh.bocos.nfa_bp" 0;
       Lval "  mesh.partition" (Stype "<class 'NoneType'>")]).
Proof. reflexivity. Qed.

(** After reading: counts and shapes of what was read, and no variable at all, even of a solution. *)
Theorem C98_loaded4 name sname f sol r : read_data4 f sol = Ok r ->
  printinfo4 name sname Loaded f sol =
  Ok (report4 name (name_or_none sname) (List.map fst (r4_sim r))
      (counts_lines (r4_no r) (r4_fa r) (r4_cv r) (r4_noofa r) (zlen (r4_bocos r)) (r4_cvofa r)
       ++ grid_lines (r4_no r) (r4_fa r) (r4_cvofa r) (r4_coords r) ++ [Lval "  mesh.partition" (Stype "<class 'NoneType'>")])%list).
Proof.
  intros H. unfold printinfo4. rewrite H. cbn [bind]. cbv zeta. unfold mesh_dict4.
  rewrite (mesh_lines_cons ("params", _)), params_shown, counts_shown4, grid_shown. unfold report4. cbn [app]. rewrite <- !app_assoc. reflexivity.
Qed.
Theorem C98_exported4 name sname f sol r fm : read_data4 f sol = Ok r -> export_mesh4 r = Ok fm ->
  (forall k, In k (dkeys (r4_sim r)) -> ~ In k counts_names) ->
  printinfo4 name sname Exported f sol =
  Ok (report4 name (name_or_none sname) (List.map fst (r4_sim r))
      (counts_lines (r4_no r) (r4_fa r) (r4_cv r) (r4_noofa r) (zlen (r4_bocos r)) (r4_cvofa r) ++ state_lines (r4_sim r)
       ++ grid_lines (r4_no r) (r4_fa r) (r4_cvofa r) (r4_coords r) ++ [Lval "  mesh.partition" (Stype "<class 'NoneType'>")])%list) /\
  state_lines (fm_params fm) = (counts_lines (r4_no r) (r4_fa r) (r4_cv r) (r4_noofa r) (zlen (r4_bocos r)) (r4_cvofa r) ++ state_lines (r4_sim r))%list.
Proof.
  intros H X D. assert (N : NoDup (dkeys (r4_sim r))).
  { unfold read_data4 in H. apply bind_ok in H. destruct H as (z & _ & H). apply bind_ok in H. destruct H as (rows & _ & H). apply bind_ok in H. destruct H as (bs & _ & H).
    apply bind_ok in H. destruct H as (cs & _ & H). apply bind_ok in H. destruct H as (c0 & _ & H). apply bind_ok in H. destruct H as (c1 & _ & H). injection H as <-. cbn [r4_sim].
    destruct sol as [s |]; [apply info4_distinct |]. cbn. repeat constructor; cbn; intuition discriminate. }
  assert (U : Ic3.dupdate (params4 r) (r4_sim r) = (params4 r ++ r4_sim r)%list).
  { apply update_app; [cbn; repeat constructor; cbn; intuition discriminate | exact N | exact D]. }
  split.
  - unfold printinfo4. rewrite H. cbn [bind]. cbv zeta. unfold mesh_dict4.
    rewrite (mesh_lines_cons ("params", _)), params_shown, U, state_app, counts_shown4, grid_shown. unfold report4. cbn [app]. rewrite <- !app_assoc. reflexivity.
  - unfold export_mesh4 in X. destruct (set_coords_nd _ _ _) as (e1, m1). apply bind_ok in X. destruct X as (u1 & _ & X). apply bind_ok in X. destruct X as (f2c & _ & X).
    apply bind_ok in X. destruct X as (f2n & _ & X). destruct (add_faces _ _ _ _) as (e2, m2). apply bind_ok in X. destruct X as (u2 & _ & X). apply bind_ok in X. destruct X as (nd & _ & X). injection X as <-.
    cbn [fm_params]. rewrite U, state_app, counts_shown4. reflexivity.
Qed.

(** Every scalar and vector on nodes or on faces that the file holds is shown, if sections have the size of their numbers. *)
Theorem C98_complete name i f r x k code size n m : Forall is_byte f -> read_data i f = Ok r ->
  tidy (r_order r) (r_version r) (r_no r) (r_fa r) f ->
  leads (r_order r) f 8 x -> head_at (r_order r) f x k code size n m -> In code [32; 34; 24; 42; 45; 33; 25; 43]%Z ->
  exists lines, printinfo_legacy name Loaded i f = Ok lines /\
    (n = r_no r -> exists v, In (Lval ("variables.nodes." ++ k) v) lines) /\
    (n <> r_no r -> n = r_fa r -> exists v, In (Lval ("variables.faces." ++ k) v) lines).
Proof.
  intros B H T LX HX I. destruct (read_data_seen i f r B H) as ((ns & fs & S & _) & _).
  destruct (seen_all _ _ _ _ _ _ _ _ _ _ _ _ _ S T LX HX I) as (PN & PF). cbn [fst snd] in PN, PF.
  unfold printinfo_legacy. rewrite H. cbn [bind]. rewrite S. cbn [bind]. cbv zeta. eexists. split; [reflexivity |].
  assert (SHOW : forall place d, In k (dkeys d) -> exists v, In (Lval ("variables." ++ place ++ "." ++ k) v) (variable_lines [(place, arrays d)])).
  { intros place d K. apply in_map_iff in K. destruct K as ((k', (shape, vals)) & E & K). cbn [fst] in E. subst k'. unfold variable_lines, printreadable. cbn [flat_map].
    eexists. rewrite app_nil_r. apply in_map_iff. exists (k, PArr shape vals). split; [reflexivity |]. apply in_map_iff. exists (k, (shape, vals)). auto. }
  split.
  - intros E. destruct (SHOW "nodes" ns (PN E)) as (v & V). exists v. rewrite variables_three. do 4 (apply in_or_app; right). apply in_or_app. left. exact V.
  - intros NE E. destruct (SHOW "faces" fs (PF NE E)) as (v & V). exists v. rewrite variables_three. do 5 (apply in_or_app; right). exact V.
Qed.

(** No variable on cells is shown; the reader of version 4 shows no variable. *)
Lemma printed_label l x : exists v, printreadable l x = Lval l v.
Proof. unfold printreadable. eauto. Qed.
Lemma mesh_labels d l v : In (Lval l v) (mesh_lines d) -> String.prefix "  mesh." l = true.
Proof.
  intros I. unfold mesh_lines in I. apply in_flat_map in I. destruct I as ((key, item) & _ & I).
  assert (ONE : forall s x, In (Lval l v) [printreadable ("  mesh." ++ s) x] -> String.prefix "  mesh." l = true).
  { intros s x [E | []]. destruct (printed_label ("  mesh." ++ s) x) as (v' & E'). rewrite E' in E. injection E as <- _. clear. destruct s; reflexivity. }
  destruct item as [| | | | d2]; try (eapply ONE; exact I). apply in_flat_map in I. destruct I as ((key2, item2) & _ & I).
  destruct item2 as [| | | | d3]; try (eapply ONE; exact I). apply in_map_iff in I. destruct I as ((key3, item3) & E & _). eapply ONE. left. exact E.
Qed.
Lemma not_variable l : String.prefix "  mesh." l = true -> String.prefix "variables" l = false.
Proof. destruct l as [| [[] [] [] [] [] [] [] []] l]; cbn; congruence. Qed.
Lemma not_cells l : String.prefix "variables" l = false -> String.prefix "variables.cells" l = false.
Proof.
  intros H. destruct (String.prefix "variables.cells" l) eqn:E; [| reflexivity]. rewrite <- H. clear H.
  do 9 (destruct l as [| ? l]; [discriminate E |]; cbn [String.prefix] in E |- *; destruct (Ascii.ascii_dec _ _); [| discriminate E]). destruct l; reflexivity.
Qed.
Theorem C98_hidden name st i f lines l v : printinfo_legacy name st i f = Ok lines -> In (Lval l v) lines -> String.prefix "variables.cells" l = false.
Proof.
  intros H I. assert (G : exists d ns fs a b, lines = (a ++ mesh_lines d ++ b ++ variable_lines [("nodes", arrays ns); ("cells", []); ("faces", arrays fs)])%list /\
    (forall l v, ~ In (Lval l v) a) /\ (forall l v, ~ In (Lval l v) b)).
  { unfold printinfo_legacy in H. destruct st; [discriminate | |]; (apply bind_ok in H; destruct H as (r & _ & H); apply bind_ok in H; destruct H as ((ns, fs) & _ & H); apply (f_equal (fun x => match x with Ok l => l | Err _ => lines end)) in H; cbv beta iota zeta in H; rewrite <- H;
      eexists _, ns, fs, [_; _; _; _; _], [_]; split; [reflexivity |]; split; intros l0 v0; cbn; intuition discriminate). }
  destruct G as (d & ns & fs & a & b & -> & NA & NB). apply in_app_or in I. destruct I as [I | I]; [destruct (NA _ _ I) |].
  apply in_app_or in I. destruct I as [I | I]; [apply not_cells, not_variable; eapply mesh_labels; exact I |].
  apply in_app_or in I. destruct I as [I | I]; [destruct (NB _ _ I) |]. rewrite variables_three in I. unfold variable_lines in I. cbn [flat_map] in I. rewrite !app_nil_r in I.
  apply in_app_or in I. destruct I as [I | I]; (apply in_map_iff in I; destruct I as ((k, x) & E & _); injection E as <- _; reflexivity).
Qed.
Theorem C98_hidden4 name sname st f sol lines l v : printinfo4 name sname st f sol = Ok lines -> In (Lval l v) lines -> String.prefix "variables" l = false.
Proof.
  intros H I. assert (G : exists d a b, lines = (a ++ mesh_lines d ++ b)%list /\ (forall l v, ~ In (Lval l v) a) /\ (forall l v, ~ In (Lval l v) b)).
  { unfold printinfo4 in H. apply bind_ok in H. destruct H as ((mesh, sim) & _ & H). apply (f_equal (fun x => match x with Ok l => l | Err _ => lines end)) in H. cbv beta iota zeta in H. rewrite <- H. eexists mesh, [_; _; _; _; _; _], [_]. split; [reflexivity |].
    split; intros l0 v0; cbn; intuition discriminate. }
  destruct G as (d & a & b & -> & NA & NB). apply in_app_or in I. destruct I as [I | I]; [destruct (NA _ _ I) |].
  apply in_app_or in I. destruct I as [I | I]; [apply not_variable; eapply mesh_labels; exact I | destruct (NB _ _ I)].
Qed.

Print Assumptions C98_created.
Print Assumptions C98_loaded.
Print Assumptions C98_exported.
Print Assumptions C98_created4.
Print Assumptions C98_loaded4.
Print Assumptions C98_exported4.
Print Assumptions C98_complete.
Print Assumptions C98_hidden.
Print Assumptions C98_hidden4.

(** ** Concrete cases *)
Definition ex98 : list Z := match fst (ex_write V3 (ex_fm ex_marks "A" "B")) with Ok f => f | Err _ => [] end.
Example c98_file : forallb (fun b => (0 <=? b) && (b <? 256))%Z ex98 = true /\ (exists r fm, read_data true ex98 = Ok r /\ Ic3.export_mesh r = Ok fm /\
  forallb (fun k => negb (existsb (String.eqb k) counts_names)) (dkeys (r_sim r)) = true).
Proof.
  assert (E : ex98 = ltac:(let x := eval vm_compute in ex98 in exact x)) by (vm_compute; reflexivity). rewrite E. split; [vm_compute; reflexivity |].
  eexists. eexists. split; [vm_compute; reflexivity |]. split; vm_compute; reflexivity.
Qed.
Example c98_loaded_case : printinfo_legacy "a.ic3" Loaded true ex98 = Ok
  [Ltext "    filename: a.ic3"; Lkeys "   simulation: " ["step"; "dt"; "time"; "wgt"];
   Lkeys "    mesh keys: " ["params"; "connectivity"; "coordinates"; "bocos"; "partition"]; Lkeys "variable keys: " ["nodes"; "cells"; "faces"];
   Llog "- mesh properties"; Lval "  mesh.params.no_count" (Snum (NInt 4)); Lval "  mesh.params.fa_count" (Snum (NInt 5));
   Lval "  mesh.params.cv_count" (Snum (NInt 2)); Lval "  mesh.params.noofa_count" (Snum (NInt 10)); Lval "  mesh.params.nboco" (Snum (NInt 3));
   Lval "  mesh.params.nfa_b" (Snum (NInt 4)); Lval "  mesh.params.nfa_bp" (Snum (NInt 0));
   Lval "  mesh.connectivity.noofa" (Stype "<class 'cfdtools.meshbase._connectivity.compressed_listofindex'>");
   Lval "  mesh.connectivity.cvofa.cvofa" (Sarr [5; 2]%Z (Some [0; -1; 0; -1; 1; -1; 1; -1; 0; 1]%Z));
   Lval "  mesh.connectivity.nkeys" (Snum (NInt 0)); Lval "  mesh.coordinates" (Sarr [4; 3]%Z None); Lval "  mesh.bocos" (Stype "<class 'list'>");
   Lval "  mesh.partition.npart" (Snum (NInt 1)); Lval "  mesh.partition.icvpart" (Sarr [2%Z] (Some [0; 0]%Z));
   Llog "- variable properties"; Lval "variables.nodes.T" (Sarr [4%Z] (Some [20; 21; 22; 23]%Z));
   Lval "variables.nodes.A" (Sarr [4%Z] (Some [30; 31; 32; 33]%Z)); Lval "variables.nodes.S" (Sarr [4%Z] (Some [40; 41; 42; 43]%Z))].
Proof. vm_compute. reflexivity. Qed.
Example c98_exported_case : match printinfo_legacy "a.ic3" Exported true ex98 with Ok l => firstn 3 (skipn 12 l) | Err _ => [] end =
  [Lval "  mesh.params.step" (Snum (NInt 7)); Lval "  mesh.params.dt" (Snum (NFlt 5)); Lval "  mesh.params.time" (Snum (NFlt 0))].
Proof. vm_compute. reflexivity. Qed.
(** The reader of version 4 shows no variable, even when it has read a solution. *)
Example c98_v4_case : match printinfo4 "m.h5" (Some "s.h5") Loaded (ex4_mesh_file (ex4_fm ex4_tiles "RHO")) (Some (ex4_sol_file (ex4_fm ex4_tiles "RHO"))) with
  | Ok l => List.length l = 20%nat /\ last l (Ltext "") = Llog "- variable properties" /\ firstn 2 l = [Ltext "       mesh filename: m.h5"; Ltext "   solution filename: s.h5"]
  | Err _ => False end /\
  match printinfo4 "m.h5" None Exported (ex4_mesh_file (ex4_fm ex4_tiles "RHO")) None with Ok l => (20 <= List.length l)%nat | Err _ => False end /\
  (exists r fm, read_data4 (ex4_mesh_file (ex4_fm ex4_tiles "RHO")) (Some (ex4_sol_file (ex4_fm ex4_tiles "RHO"))) = Ok r /\ export_mesh4 r = Ok fm /\
     forallb (fun k => negb (existsb (String.eqb k) counts_names)) (dkeys (r4_sim r)) = true).
Proof.
  split; [vm_compute; repeat split |]. split; [vm_compute; repeat constructor |]. eexists. eexists. split; [vm_compute; reflexivity |]. split; vm_compute; reflexivity.
Qed.

(** A file with a scalar and a vector on its faces, before its last section. *)
Definition ex98_faces : list Z := (firstn (List.length ex98 - 256) ex98 ++ sect Big "FLUX" 24 [5%Z] [] (words8 Big [1; 2; 3; 4; 5]%Z)
  ++ sect Big "W" 25 [5%Z] [] (words8 Big (List.map Z.of_nat (List.seq 0 15))) ++ skipn (List.length ex98 - 256) ex98)%list.
Example c98_faces_case : match printinfo_legacy "a.ic3" Loaded true ex98_faces with Ok l => skipn 20 l | Err _ => [] end =
  [Lval "variables.nodes.T" (Sarr [4%Z] (Some [20; 21; 22; 23]%Z)); Lval "variables.nodes.A" (Sarr [4%Z] (Some [30; 31; 32; 33]%Z));
   Lval "variables.nodes.S" (Sarr [4%Z] (Some [40; 41; 42; 43]%Z)); Lval "variables.faces.FLUX" (Sarr [5%Z] (Some [1; 2; 3; 4; 5]%Z));
   Lval "variables.faces.W" (Sarr [5; 3]%Z None)].
Proof. vm_compute. reflexivity. Qed.
(** Its sections have the sizes of their numbers. *)
Definition head (o : order) (f : list Z) (q : nat) : header := hdr_of o "" (firstn 256 (skipn q f)).
Fixpoint starts (k : nat) (o : order) (f : list Z) (q : nat) : list nat :=
  match k with O => [q] | S k => q :: starts k o f (q + Z.to_nat (h_skip (head o f q))) end.
Definition closed (o : order) (f : list Z) (qs : list nat) : bool :=
  forallb (fun q => (h_id (head o f q) =? 51)%Z || existsb (Nat.eqb (q + Z.to_nat (h_skip (head o f q)))) qs) qs.
Definition sized (o : order) (version no fa : Z) (f : list Z) (q : nat) : bool :=
  let h := head o f q in let n := numbers version no fa (idata h 0) (idata h 1) in
  (negb (existsb (Z.eqb (h_id h)) [32; 34; 24; 42; 45]%Z) || (h_skip h =? 256 + 8 * n)%Z) &&
  (negb (existsb (Z.eqb (h_id h)) [33; 25; 43]%Z) || (h_skip h =? 256 + 24 * n)%Z).
Lemma head_numbers o f q name code size n m : head_at o f q name code size n m ->
  h_id (head o f q) = code /\ h_skip (head o f q) = size /\ idata (head o f q) 0 = n /\ idata (head o f q) 1 = m.
Proof. intros H. destruct (head_hdr _ _ _ _ _ _ _ _ H) as (_ & A). exact A. Qed.
Lemma leads_among o f qs : closed o f qs = true -> forall q x, leads o f q x -> In q qs -> In x qs.
Proof.
  intros C q x. induction 1 as [q | q x name code size n m HQ NE _ _ IH]; intros I; [exact I |]. apply IH. destruct (head_numbers _ _ _ _ _ _ _ _ HQ) as (E1 & E2 & _).
  unfold closed in C. rewrite forallb_forall in C. specialize (C q I). rewrite E1, E2 in C. apply orb_true_iff in C. destruct C as [C | C]; [apply Z.eqb_eq in C; contradiction |].
  apply existsb_exists in C. destruct C as (y & Y & E). apply Nat.eqb_eq in E. subst y. exact Y.
Qed.
Lemma tidy_check o version no fa f qs : closed o f qs = true -> In 8%nat qs -> forallb (sized o version no fa f) qs = true -> tidy o version no fa f.
Proof.
  intros C I8 S q name code size n m L HQ. assert (I := leads_among o f qs C _ _ L I8). rewrite forallb_forall in S. specialize (S q I).
  destruct (head_numbers _ _ _ _ _ _ _ _ HQ) as (E1 & E2 & E3 & E4). unfold sized in S. cbv zeta in S. rewrite E1, E2, E3, E4 in S. apply andb_true_iff in S. destruct S as (S1 & S2).
  assert (G : forall l w, (negb (existsb (Z.eqb code) l) || (size =? w)%Z) = true -> In code l -> size = w).
  { intros l w E IN. assert (T : existsb (Z.eqb code) l = true) by (apply existsb_exists; exists code; split; [exact IN | apply Z.eqb_refl]). rewrite T in E. apply Z.eqb_eq. exact E. }
  split; intros IN; eapply G; eauto.
Qed.
Example c98_complete_case : tidy Big 3 4 5 ex98_faces /\ match read_data true ex98_faces with
  | Ok r => r_order r = Big /\ r_version r = 3%Z /\ r_no r = 4%Z /\ r_fa r = 5%Z | Err _ => False end.
Proof.
  split; [| vm_compute; auto]. apply (tidy_check _ _ _ _ _ (starts 25 Big ex98_faces 8)); [vm_compute; reflexivity | left; reflexivity | vm_compute; reflexivity].
Qed.
