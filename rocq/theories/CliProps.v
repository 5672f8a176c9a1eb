(** * Properties C48 (formats), C52 (removing cell data) and C64 (existing files). *)
From Coq Require Import Lia List Ascii DecimalString.
From Verif Require Import Py PyFacts Data Ic3 Files FilesSpec FilesProofs FilesProps Race RaceProps Cli.

(** ** C48 *)
Section Registry.
  Context {R W : Type}.
  Definition reg_name (r : registration R W) : string := match r with RegReader n _ _ | RegWriter n _ _ => n end.
  Definition reg_ext (r : registration R W) : string := match r with RegReader _ _ e | RegWriter _ _ e => e end.
  (** The last of the registrations for [name] in [l] that is selected by [f]. *)
  Definition is_last {X} (f : registration R W -> option X) (name : string) (l : list (registration R W)) (x : option X) : Prop :=
    match x with
    | None => forall r, In r l -> reg_name r = name -> f r = None
    | Some v => exists a r b, l = a ++ r :: b /\ reg_name r = name /\ f r = Some v /\ forall r', In r' b -> reg_name r' = name -> f r' = None
    end.
  Definition as_reader (r : registration R W) : option R := match r with RegReader _ c _ => Some c | _ => None end.
  Definition as_writer (r : registration R W) : option W := match r with RegWriter _ c _ => Some c | _ => None end.

  Lemma is_last_snoc {X} (f : registration R W -> option X) name l r x : is_last f name l x ->
    is_last f name (l ++ [r]) (if String.eqb (reg_name r) name then match f r with Some v => Some v | None => x end else x).
  Proof.
    intros H. destruct (String.eqb (reg_name r) name && match f r with Some _ => true | None => false end) eqn:E.
    - apply andb_true_iff in E. destruct E as (E1 & E2). rewrite E1. destruct (f r) as [v |] eqn:F; [| discriminate]. exists l, r, []. apply String.eqb_eq in E1. repeat split; auto. intros r' [].
    - assert (Q : (if String.eqb (reg_name r) name then match f r with Some v => Some v | None => x end else x) = x /\ (reg_name r = name -> f r = None)).
      { destruct (String.eqb (reg_name r) name) eqn:N; cbn in E.
        - destruct (f r); [discriminate | auto].
        - apply String.eqb_neq in N. split; [reflexivity | intros X0; contradiction]. }
      destruct Q as (-> & Q). destruct x as [v |].
      + destruct H as (a & r0 & b & -> & N & F & B). exists a, r0, (b ++ [r]). split; [rewrite <- app_assoc; reflexivity |]. split; [exact N |]. split; [exact F |].
        intros r' I. apply in_app_or in I. destruct I as [I | [<- | []]]; auto.
      + intros r' I. apply in_app_or in I. destruct I as [I | [<- | []]]; auto.
  Qed.

  (** After any registrations, the format [name] is known iff it was registered, and has the last
      reader, the last writer and the last extension given for it. *)
  Theorem C48_registry (l : list (registration R W)) name :
    match dget String.eqb name (registry_of l) with
    | None => forall r, In r l -> reg_name r <> name
    | Some e => is_last as_reader name l (en_reader e) /\ is_last as_writer name l (en_writer e) /\ is_last (fun r => Some (reg_ext r)) name l (Some (en_ext e))
    end.
  Proof.
    induction l as [| r l IH] using rev_ind; [intros r [] |].
    unfold registry_of. rewrite fold_left_app. fold (registry_of l). cbn [fold_left].
    assert (Q : dget String.eqb name (register (registry_of l) r) =
      if String.eqb (reg_name r) name then
        Some (Entry (match as_reader r with Some c => Some c | None => match dget String.eqb name (registry_of l) with Some e => en_reader e | None => None end end)
                    (match as_writer r with Some c => Some c | None => match dget String.eqb name (registry_of l) with Some e => en_writer e | None => None end end) (reg_ext r))
      else dget String.eqb name (registry_of l)).
    { destruct (String.eqb (reg_name r) name) eqn:N.
      - apply String.eqb_eq in N. subst name. destruct r as [n c e | n c e]; cbn [register reg_name as_reader as_writer reg_ext]; destruct (dget String.eqb n (registry_of l)) as [e0 |]; apply (dget_dset_eq _ seqb_eq').
      - apply String.eqb_neq in N. destruct r as [n c e | n c e]; cbn [register reg_name] in *; destruct (dget String.eqb n (registry_of l)) as [e0 |]; apply (dget_dset_neq _ seqb_eq'); congruence. }
    rewrite Q. destruct (dget String.eqb name (registry_of l)) as [e |].
    - destruct IH as (H1 & H2 & H3). assert (L1 := is_last_snoc _ _ _ r _ H1). assert (L2 := is_last_snoc _ _ _ r _ H2). assert (L3 := is_last_snoc _ _ _ r _ H3).
      destruct (String.eqb (reg_name r) name); cbn [en_reader en_writer en_ext]; auto.
    - assert (H1 : is_last as_reader name l None) by (intros r' I N; destruct (IH r' I N)).
      assert (H2 : is_last as_writer name l None) by (intros r' I N; destruct (IH r' I N)).
      assert (L1 := is_last_snoc _ _ _ r _ H1). assert (L2 := is_last_snoc _ _ _ r _ H2).
      destruct (String.eqb (reg_name r) name) eqn:N; cbn [en_reader en_writer en_ext].
      + split; [exact L1 |]. split; [exact L2 |]. apply String.eqb_eq in N. exists l, r, []. repeat split; auto. intros r' [].
      + apply String.eqb_neq in N. intros r' I. apply in_app_or in I. destruct I as [I | [<- | []]]; auto.
  Qed.

  Lemma registry_keys (l : list (registration R W)) : NoDup (dkeys (registry_of l)).
  Proof.
    induction l as [| r l IH] using rev_ind; [constructor |]. unfold registry_of. rewrite fold_left_app. cbn [fold_left]. fold (registry_of l).
    destruct r; cbn [register]; destruct (dget String.eqb _ _); apply (dset_NoDup _ seqb_eq'); exact IH.
  Qed.

  (** Without a given format: the one registered with the suffix of the file, if there is exactly one;
      otherwise RuntimeError.  With a given format, that one. *)
  Theorem C48_detect (l : list (registration R W)) filename nm a ext : nm = path_name (path_of filename) -> split_name nm a ext ->
    let m := registry_of l in
    (forall f rd wr, parse_filenameformat m None filename = Ok (f, rd, wr) <->
       exists e, dget String.eqb f m = Some e /\ en_ext e = ext /\ en_reader e = rd /\ en_writer e = wr /\
         forall f' e', dget String.eqb f' m = Some e' -> en_ext e' = ext -> f' = f) /\
    (forall x, parse_filenameformat m None filename = Err x -> x = RuntimeError).
  Proof.
    intros NM S m. assert (S2 := name_split_ok nm). rewrite NM in S, S2. destruct (split_name_det _ _ _ _ _ S S2) as (_ & EX).
    assert (ND := registry_keys l). fold m in ND. unfold parse_filenameformat. assert (PS : path_suffix (path_of filename) = ext) by (unfold path_suffix; auto). rewrite PS.
    set (sel := filter (fun '(_, e) => String.eqb (en_ext e) ext) m).
    assert (SI : forall f e, In (f, e) sel <-> dget String.eqb f m = Some e /\ en_ext e = ext).
    { intros f e. unfold sel. rewrite filter_In. rewrite String.eqb_eq. split; intros (A & B); (split; [| exact B]); [apply (in_dget _ seqb_eq'); assumption | apply (dget_in _ seqb_eq'); exact A]. }
    assert (SN : NoDup (List.map fst sel)).
    { unfold sel. clear -ND. induction m as [| (k, e) m IH]; [constructor |]. cbn in ND |- *. apply NoDup_cons_iff in ND. destruct ND as (N & ND). destruct (String.eqb (en_ext e) ext); [| auto]. cbn. constructor; [| auto].
      intros I. apply N. apply in_map_iff in I. destruct I as (y & <- & I). apply filter_In in I. apply in_map. apply I. }
    destruct sel as [| (f0, e0) [| (f1, e1) sel']] eqn:SE; cbn [List.map].
    - split; [| congruence]. intros f rd wr. split; [discriminate |]. intros (e & D & X & _). destruct (proj2 (SI f e) (conj D X)).
    - cbn [fst]. destruct (proj1 (SI f0 e0) (or_introl eq_refl)) as (D0 & X0). unfold dget_err. rewrite D0. cbn [bind]. split; [| discriminate]. intros f rd wr. split.
      + intros H. injection H as <- <- <-. exists e0. repeat split; auto. intros f' e' D X. destruct (proj2 (SI f' e') (conj D X)) as [H | []]. congruence.
      + intros (e & D & X & <- & <- & U). assert (FF := U f0 e0 D0 X0). subst f0. rewrite D0 in D. congruence.
    - split; [| congruence]. intros f rd wr. split; [discriminate |]. intros (e & D & X & _ & _ & U).
      destruct (proj1 (SI f0 e0) (or_introl eq_refl)) as (D0 & X0). destruct (proj1 (SI f1 e1) (or_intror (or_introl eq_refl))) as (D1 & X1).
      cbn in SN. apply NoDup_cons_iff in SN. destruct SN as (SN & _). destruct SN. left. rewrite (U f0 e0 D0 X0), (U f1 e1 D1 X1). reflexivity.
  Qed.
  Theorem C48_explicit (l : list (registration R W)) filename f e : dget String.eqb f (registry_of l) = Some e ->
    parse_filenameformat (registry_of l) (Some f) filename = Ok (f, en_reader e, en_writer e).
  Proof. intros H. unfold parse_filenameformat, dget_err. rewrite H. reflexivity. Qed.
End Registry.
Print Assumptions C48_registry.
Print Assumptions C48_detect.
Print Assumptions C48_explicit.

(** The formats of the command line tools: the writer of IC3 files is that of version 3; meshes of GMSH
    and CGNS can only be read, VTK files only be written. *)
Example c48_case : registry_of cli_registrations =
  [("IC3", Entry (Some "ic3.reader_legacy.reader") (Some "ic3.writerV3.writer") ".ic3"); ("GMSH", Entry (Some "gmsh.reader.reader") None ".msh");
   ("CGNS", Entry (Some "cgns.cgns.cgnsMesh") None ".cgns"); ("VTK", Entry None (Some "vtk._vtk.vtkMesh") ".vtu")]%string /\
  parse_filenameformat (registry_of cli_registrations) None "dir.x/box.msh" = Ok ("GMSH", Some "gmsh.reader.reader", None)%string /\
  parse_filenameformat (registry_of cli_registrations) None "box" = Err RuntimeError /\
  parse_filenameformat (registry_of (cli_registrations ++ [RegReader "OTHER" "other.reader" ".ic3"]%string)) None "box.ic3" = Err RuntimeError.
Proof. repeat split. Qed.

(** The formats that the command line tools find from the suffix of a file, whatever its name and its
    folder; any other suffix is refused. *)
Theorem C48_cli_formats filename nm a ext : nm = path_name (path_of filename) -> split_name nm a ext ->
  (ext = ".ic3"%string -> parse_filenameformat (registry_of cli_registrations) None filename = Ok ("IC3", Some "ic3.reader_legacy.reader", Some "ic3.writerV3.writer")%string) /\
  (ext = ".msh"%string -> parse_filenameformat (registry_of cli_registrations) None filename = Ok ("GMSH", Some "gmsh.reader.reader", None)%string) /\
  (ext = ".cgns"%string -> parse_filenameformat (registry_of cli_registrations) None filename = Ok ("CGNS", Some "cgns.cgns.cgnsMesh", None)%string) /\
  (ext = ".vtu"%string -> parse_filenameformat (registry_of cli_registrations) None filename = Ok ("VTK", None, Some "vtk._vtk.vtkMesh")%string) /\
  (~ In ext [".ic3"; ".msh"; ".cgns"; ".vtu"]%string -> parse_filenameformat (registry_of cli_registrations) None filename = Err RuntimeError).
Proof.
  intros NM S. assert (S2 := name_split_ok nm). rewrite NM in S, S2. destruct (split_name_det _ _ _ _ _ S S2) as (_ & EX).
  unfold parse_filenameformat. assert (PS : path_suffix (path_of filename) = ext) by (unfold path_suffix; auto). rewrite PS.
  split; [intros ->; reflexivity |]. split; [intros ->; reflexivity |]. split; [intros ->; reflexivity |]. split; [intros ->; reflexivity |].
  intros N. change (registry_of cli_registrations) with
    [("IC3", Entry (Some "ic3.reader_legacy.reader") (Some "ic3.writerV3.writer") ".ic3"); ("GMSH", Entry (Some "gmsh.reader.reader") None ".msh");
     ("CGNS", Entry (Some "cgns.cgns.cgnsMesh") None ".cgns"); ("VTK", Entry None (Some "vtk._vtk.vtkMesh") ".vtu")]%string.
  assert (Q : forall s, In s [".ic3"; ".msh"; ".cgns"; ".vtu"]%string -> String.eqb s ext = false).
  { intros s I. apply String.eqb_neq. intros ->. exact (N I). }
  cbn [filter en_ext]. rewrite (Q ".ic3"%string), (Q ".msh"%string), (Q ".cgns"%string), (Q ".vtu"%string) by (cbn; tauto). reflexivity.
Qed.
(** A format given by its name: the four above, KeyError for any other name. *)
Theorem C48_cli_named filename f :
  parse_filenameformat (registry_of cli_registrations) (Some f) filename =
    if String.eqb f "IC3" then Ok ("IC3", Some "ic3.reader_legacy.reader", Some "ic3.writerV3.writer")%string
    else if String.eqb f "GMSH" then Ok ("GMSH", Some "gmsh.reader.reader", None)%string
    else if String.eqb f "CGNS" then Ok ("CGNS", Some "cgns.cgns.cgnsMesh", None)%string
    else if String.eqb f "VTK" then Ok ("VTK", None, Some "vtk._vtk.vtkMesh")%string
    else Err KeyError.
Proof.
  change (registry_of cli_registrations) with
    [("IC3", Entry (Some "ic3.reader_legacy.reader") (Some "ic3.writerV3.writer") ".ic3"); ("GMSH", Entry (Some "gmsh.reader.reader") None ".msh");
     ("CGNS", Entry (Some "cgns.cgns.cgnsMesh") None ".cgns"); ("VTK", Entry None (Some "vtk._vtk.vtkMesh") ".vtu")]%string.
  unfold parse_filenameformat, dget_err. cbn [dget].
  repeat match goal with |- context [String.eqb f ?s] => destruct (String.eqb_spec f s) as [-> | ?]; [reflexivity |] end. reflexivity.
Qed.
Print Assumptions C48_cli_formats.
Print Assumptions C48_cli_named.

(** ** C64 *)
Section Convert.
  Context {C W : Type} (extruded : Z -> fmesh -> res fmesh) (scaled : Z * Z * Z -> fmesh -> res fmesh) (shown : fmesh -> res unit) (write : W -> fmesh -> option C * res unit).
  Implicit Types (m : registry (@readfun C) W) (fs : files C).

  Lemma find_free fuel fs p q b : find_safe_newfile fuel (fexists fs) p = Ok (q, b) -> fexists fs (path_str q) = false.
  Proof.
    unfold find_safe_newfile. generalize 0%nat at 1. revert p q b. assert (G : forall fuel p cur i q b, safe_loop fuel (fexists fs) p cur i = Ok (q, b) -> fexists fs (path_str q) = false).
    { clear. induction fuel as [| fuel IH]; intros p cur i q b H; cbn [safe_loop] in H; destruct (fexists fs (path_str cur)) eqn:E; try discriminate; [injection H as <- _; exact E | exact (IH _ _ _ _ _ H) | injection H as <- _; exact E]. }
    intros p q b i H. exact (G _ _ _ _ _ _ H).
  Qed.

  (** A converter changes the files in at most one place, at a name that did not exist; so every file that
      existed, the input among them, is left as it was. *)
  Theorem C64_converter m fuel a ext w fs r fs' : write_generic extruded scaled shown write m fuel a ext w fs = (r, fs') ->
    (fs' = fs \/ exists s c, dget String.eqb s fs = None /\ fs' = fs ++ [(s, c)] /\ (forall name, r = Ok name -> name = s)) /\
    (forall s c, dget String.eqb s fs = Some c -> dget String.eqb s fs' = Some c).
  Proof.
    intros H. enough (G : fs' = fs \/ exists s c, dget String.eqb s fs = None /\ fs' = fs ++ [(s, c)] /\ (forall name, r = Ok name -> name = s)).
    { split; [exact G |]. intros s c D. destruct G as [-> | (s' & c' & N & -> & _)]; [exact D |]. clear H. induction fs as [| (k, v) fs IH]; [discriminate |]. cbn in *. destruct (String.eqb s k); [exact D |]. apply IH; [| exact D].
      destruct (String.eqb s' k); [discriminate | exact N]. }
    unfold write_generic in H. destruct (parse_filenameformat m (ar_fmt a) (ar_filename a)) as [((f, [rd |]), wr) | e]; [| injection H as <- <-; auto | injection H as <- <-; auto].
    destruct (rd fs (path_str (path_of (ar_filename a)))) as [(n, ex) | e]; [| injection H as <- <-; auto].
    destruct (_ <- per_elem n ;; ex) as [fm | e]; [| injection H as <- <-; auto].
    destruct (remove_cells (ar_remove a) fm) as [[u | e] fm1]; [| injection H as <- <-; auto].
    destruct (output_name fuel fs a ext) as [p | e] eqn:ON; [| injection H as <- <-; auto].
    match type of H with (match ?x with _ => _ end) = _ => destruct x as [fm2 | e]; [| injection H as <- <-; auto] end.
    unfold output_name in ON. apply bind_ok in ON. destruct ON as (p1 & _ & ON). apply bind_ok in ON. destruct ON as ((p2, b) & FS & ON). injection ON as ->. apply find_free in FS.
    unfold write_to in H. destruct (write w fm2) as [[c |] o]; cbn [fst snd] in H.
    - right. exists (path_str p), c. assert (N : dget String.eqb (path_str p) fs = None) by (unfold fexists, dmem in FS; destruct (dget String.eqb (path_str p) fs); [discriminate | reflexivity]).
      assert (NK : ~ In (path_str p) (dkeys fs)) by (apply (dget_None _ seqb_eq'); exact N). rewrite (dset_notin _ seqb_eq' _ _ _ NK) in H. split; [exact N |].
      destruct o as [u' | e]; injection H as <- <-; (split; [reflexivity |]); intros name Q; congruence.
    - left. destruct o; injection H as _ <-; reflexivity.
  Qed.

  (** The name of the output: the stem of the input with the extension of the format, in the output
      folder (by default the current one), with a number if that name is taken. *)
  Theorem C64_output_name fuel fs a ext d nm st sf : a_suffix ext -> no_char "/" ext ->
    in_dir d nm (path_of (ar_filename a)) -> split_name nm st sf -> (List.length fs + 1 <= fuel)%nat ->
    let o := match ar_outpath a with None => Path_ "" [] | Some x => path_of x end in
    exists q, output_name fuel fs a ext = Ok q /\ fexists fs (path_str q) = false /\
      (in_dir o (st ++ ext) q \/ exists n, (1 <= n)%nat /\ in_dir o (st ++ "(" ++ numeral n ++ ")" ++ ext) q /\
         forall r, in_dir o (st ++ ext) r -> fexists fs (path_str r) = true).
  Proof.
    intros SX NS I S B o. assert (G0 := path_of_good (ar_filename a)).
    assert (I1 : in_dir o nm (match ar_outpath a with None => remove_dir (path_of (ar_filename a)) | Some d => change_dir d (path_of (ar_filename a)) end)).
    { unfold o. destruct (ar_outpath a) as [x |]; [exact (C47_change_dir x _ d nm G0 I) | exact (proj1 (C47_remove_dir _ d nm G0 I))]. }
    set (p := match ar_outpath a with None => remove_dir (path_of (ar_filename a)) | Some d => change_dir d (path_of (ar_filename a)) end) in *.
    assert (GN : good_part nm). { destruct (located_parent d nm _ (or_introl I)) as (NM & _). rewrite <- NM. apply name_good; [exact G0 |]. destruct I as (_ & ->). destruct (p_parts d); discriminate. }
    assert (GO : good_path o) by (unfold o; destruct (ar_outpath a); [apply path_of_good | split; [left; reflexivity | constructor]]).
    assert (G : good_path p).
    { destruct I1 as (R1 & P1). split; [rewrite R1; apply GO |]. rewrite P1. apply Forall_app. split; [apply GO | constructor; [exact GN | constructor]]. }
    assert (V : valid_ext ext) by (destruct SX as (r & -> & NR & _); split; [exact NS | right; eauto]).
    destruct (C47_change_suffix ext p o nm st sf G I1 S V) as (p1 & CS & I2 & G1). assert (NE : ext <> ""%string) by (destruct SX as (r & -> & _); discriminate). specialize (G1 NE).
    assert (NST : st <> ""%string) by (destruct S as [(_ & _ & N) | (-> & _)]; [exact N | apply GN]).
    assert (S1 : split_name (st ++ ext) st ext) by (left; split; [reflexivity |]; split; [exact SX | exact NST]).
    destruct (C45_safe_name (fexists fs) (dkeys fs) fuel p1 o (st ++ ext) st ext G1 (or_introl I2) S1 (names_exist fs)) as (q & ch & FS & GQ & FR & E0 & E1 & E2); [unfold dkeys; rewrite map_length; exact B |].
    exists q. unfold output_name. fold p. rewrite CS. cbn [bind]. rewrite FS. cbn [bind]. split; [reflexivity |]. split; [exact FR |]. destruct ch.
    - right. destruct (E2 eq_refl) as (n & N1 & IN & _). exists n. split; [exact N1 |]. split; [exact IN |]. intros r (R1 & R2). destruct I2 as (A1 & A2). replace r with p1; [apply E1; reflexivity |]. destruct r, p1. cbn in *. congruence.
    - left. rewrite (E0 eq_refl). exact I2.
  Qed.

  (** A format without a reader is refused, and nothing is written. *)
  Theorem C64_no_reader m fuel a ext w fs f wr : parse_filenameformat m (ar_fmt a) (ar_filename a) = Ok (f, None, wr) ->
    write_generic extruded scaled shown write m fuel a ext w fs = (Err TypeError, fs).
  Proof. intros P. unfold write_generic. rewrite P. reflexivity. Qed.

  (** What a converter that succeeds has written: what the writer makes of the mesh read from the input,
      extruded if asked for, then scaled if asked for. *)
  Theorem C64_content m fuel a ext w fs name fs' : write_generic extruded scaled shown write m fuel a ext w fs = (Ok name, fs') ->
    exists f rd wr fm fm1 fm2,
      parse_filenameformat m (ar_fmt a) (ar_filename a) = Ok (f, Some rd, wr) /\ (exists n, rd fs (path_str (path_of (ar_filename a))) = Ok (n, Ok fm) /\ n <> PyInt 0) /\
      (ar_extrude a = 0 /\ fm1 = fm \/ ar_extrude a <> 0 /\ extruded (ar_extrude a) fm = Ok fm1) /\
      (ar_scale a = None /\ fm2 = fm1 \/ exists s, ar_scale a = Some s /\ scaled s fm1 = Ok fm2) /\
      (ar_info a = true -> shown fm2 = Ok tt) /\ snd (write w fm2) = Ok tt /\
      match fst (write w fm2) with Some c => dget String.eqb name fs' = Some c | None => fs' = fs end.
  Proof.
    intros H. unfold write_generic in H. destruct (parse_filenameformat m (ar_fmt a) (ar_filename a)) as [((f, [rd |]), wr) | e]; [| discriminate | discriminate].
    destruct (rd fs (path_str (path_of (ar_filename a)))) as [(n, ex) | e] eqn:RD; [| discriminate].
    destruct (_ <- per_elem n ;; ex) as [fm | e] eqn:EX; [| discriminate]. apply bind_ok in EX. destruct EX as (u0 & PE & ->).
    assert (N0 : n <> PyInt 0) by (intros ->; discriminate). clear PE u0.
    assert (RM : snd (remove_cells (ar_remove a) fm) = fm).
    { clear. induction (ar_remove a) as [| n l IH]; [reflexivity |]. cbn. assert (P : snd (pop_celldata n fm) = fm) by (unfold pop_celldata; destruct (fm_cells fm) as [[| x l0] | d]; reflexivity).
      destruct (pop_celldata n fm) as [[u | e] fm']; cbn in P; subst fm'; [exact IH | reflexivity]. }
    destruct (remove_cells (ar_remove a) fm) as [[u | e] fm']; [| discriminate]. cbn [snd] in RM. subst fm'.
    destruct (output_name fuel fs a ext) as [p | e]; [| discriminate].
    match type of H with (match ?x with _ => _ end) = _ => destruct x as [fm2 | e] eqn:X; [| discriminate] end.
    apply bind_ok in X. destruct X as (fm1 & X1 & X2). apply bind_ok in X2. destruct X2 as (fm2' & X2 & X3). apply bind_ok in X3. destruct X3 as (u1 & X3 & X4). injection X4 as X4. subst fm2'.
    exists f, rd, wr, fm, fm1, fm2. split; [reflexivity |]. split; [eauto |]. split.
    { destruct (Z.eqb_spec (ar_extrude a) 0) as [Q | Q]; [left; injection X1 as ->; auto | right; auto]. }
    split. { destruct (ar_scale a) as [s |]; [right; exists s; auto | left; injection X2 as ->; auto]. }
    split. { intros Q. rewrite Q in X3. destruct u1. exact X3. }
    unfold write_to in H. destruct (write w fm2) as [[c |] [[] | e]]; cbn [fst snd] in *; try discriminate; injection H as <- <-; (split; [reflexivity |]).
    - apply (dget_dset_eq _ seqb_eq').
    - reflexivity.
  Qed.

  (** A file without cells whose reader counts with an int of Python: the timing of the reading divides by
      zero, whatever the options. *)
  Theorem C64_no_cells m fuel a ext w fs f rd wr ex : parse_filenameformat m (ar_fmt a) (ar_filename a) = Ok (f, Some rd, wr) ->
    rd fs (path_str (path_of (ar_filename a))) = Ok (PyInt 0, ex) -> write_generic extruded scaled shown write m fuel a ext w fs = (Err ZeroDivisionError, fs).
  Proof. intros P R. unfold write_generic. rewrite P, R. reflexivity. Qed.
  (** The option [--info]: a mesh that cannot be shown is not written; otherwise nothing changes. *)
  Theorem C64_info m fuel a ext w fs :
    let with_info := Args (ar_filename a) (ar_fmt a) (ar_outpath a) (ar_remove a) (ar_extrude a) (ar_scale a) true in
    let without := Args (ar_filename a) (ar_fmt a) (ar_outpath a) (ar_remove a) (ar_extrude a) (ar_scale a) false in
    write_generic extruded scaled shown write m fuel with_info ext w fs = write_generic extruded scaled shown write m fuel without ext w fs \/
    exists fm e, shown fm = Err e /\ write_generic extruded scaled shown write m fuel with_info ext w fs = (Err e, fs).
  Proof.
    cbn zeta. unfold write_generic, output_name. cbn [ar_filename ar_fmt ar_outpath ar_remove ar_extrude ar_scale ar_info].
    destruct (parse_filenameformat m (ar_fmt a) (ar_filename a)) as [((f, [rd |]), wr) | e]; [| auto | auto].
    destruct (rd fs (path_str (path_of (ar_filename a)))) as [(n, ex) | e]; [| auto]. destruct (_ <- per_elem n ;; ex) as [fm | e]; [| auto].
    destruct (remove_cells (ar_remove a) fm) as ([u | e], fm1); [| auto].
    destruct (p <- change_suffix ext _ ;; _) as [p | e]; [| auto].
    destruct (if ar_extrude a =? 0 then Ok fm1 else extruded (ar_extrude a) fm1) as [fm2 | e]; cbn [bind]; [| auto].
    destruct (match ar_scale a with Some s => scaled s fm2 | None => Ok fm2 end) as [fm3 | e]; cbn [bind]; [| auto].
    destruct (shown fm3) as [u' | e] eqn:S; cbn [bind]; [left; reflexivity | right; exists fm3, e; auto].
  Qed.

  (** [cfdwritecube] writes to the name it is given, whether it exists or not. *)
  Theorem C64_cube m a fm fs f rd wr c : parse_filenameformat m (ar_fmt a) (ar_filename a) = Ok (f, rd, Some wr) ->
    fst (write wr fm) = Some c ->
    let s := path_str (path_of (ar_filename a)) in
    dget String.eqb s (snd (cfdwritecube write m a (Ok fm) fs)) = Some c /\
    (snd (write wr fm) = Ok tt -> fst (cfdwritecube write m a (Ok fm) fs) = Ok s).
  Proof.
    intros P F s. unfold cfdwritecube. rewrite P. unfold write_to. rewrite F. destruct (snd (write wr fm)) as [[] | e]; cbn [fst snd]; (split; [apply (dget_dset_eq _ seqb_eq') | intros H; first [reflexivity | discriminate H]]).
  Qed.

  (** A format without writer: TypeError and nothing written; a cube that cannot be exported: its error and
      nothing written. *)
  Theorem C64_cube_refused m a mesh fs f rd wr : parse_filenameformat m (ar_fmt a) (ar_filename a) = Ok (f, rd, wr) ->
    (forall fm, mesh = Ok fm -> wr = None -> cfdwritecube write m a mesh fs = (Err TypeError, fs)) /\
    (forall e, mesh = Err e -> cfdwritecube write m a mesh fs = (Err e, fs)).
  Proof. intros P. unfold cfdwritecube. rewrite P. split; [intros fm -> -> | intros e ->]; reflexivity. Qed.

  (** ** C52: whatever the names, removing cell data changes nothing in what is written; a name without
      data stops the converter before it writes, with KeyError. *)
  Theorem C52_pop name fm : snd (pop_celldata name fm) = fm.
  Proof. unfold pop_celldata. destruct (fm_cells fm) as [[| x l] | d]; reflexivity. Qed.
  Lemma remove_same names fm : snd (remove_cells names fm) = fm.
  Proof.
    induction names as [| n l IH]; [reflexivity |]. cbn. assert (P := C52_pop n fm). destruct (pop_celldata n fm) as [[u | e] fm']; cbn in P; subst fm'; [exact IH | reflexivity].
  Qed.
  Lemma remove_ok names fm d : fm_cells fm = FSet d ->
    (Forall (fun n => dget String.eqb n (ds_data d) <> None) names -> fst (remove_cells names fm) = Ok tt) /\
    (Exists (fun n => dget String.eqb n (ds_data d) = None) names -> fst (remove_cells names fm) = Err KeyError).
  Proof.
    intros E. induction names as [| n l (IH1 & IH2)]; [split; [reflexivity | intros H; inversion H] |]. cbn [remove_cells]. unfold pop_celldata. rewrite E. unfold dget_err.
    destruct (dget String.eqb n (ds_data d)) as [a |] eqn:D; cbn [bind].
    - split; [intros H; apply Forall_cons_iff in H; apply IH1, H | intros H; apply Exists_cons in H; destruct H as [H | H]; [congruence | exact (IH2 H)]].
    - split; [intros H; apply Forall_cons_iff in H; destruct H as (H & _); congruence | reflexivity].
  Qed.
  Theorem C52_written m fuel a ext w fs names f rd wr fm d :
    parse_filenameformat m (ar_fmt a) (ar_filename a) = Ok (f, Some rd, wr) ->
    (exists n, rd fs (path_str (path_of (ar_filename a))) = Ok (n, Ok fm) /\ n <> PyInt 0) -> fm_cells fm = FSet d -> ar_remove a = [] ->
    let a' := Args (ar_filename a) (ar_fmt a) (ar_outpath a) names (ar_extrude a) (ar_scale a) (ar_info a) in
    (Forall (fun n => dget String.eqb n (ds_data d) <> None) names -> write_generic extruded scaled shown write m fuel a' ext w fs = write_generic extruded scaled shown write m fuel a ext w fs) /\
    (Exists (fun n => dget String.eqb n (ds_data d) = None) names -> write_generic extruded scaled shown write m fuel a' ext w fs = (Err KeyError, fs)).
  Proof.
    intros P (n & RD & N0) E NR a'. assert (PE : per_elem n = Ok tt) by (destruct n as [k | k]; [cbn; destruct (Z.eqb_spec k 0); [subst k; destruct (N0 eq_refl) | reflexivity] | reflexivity]).
    unfold write_generic. cbn [ar_fmt ar_filename ar_remove ar_extrude ar_scale ar_info a']. rewrite P, RD, PE, NR. cbn [bind remove_cells].
    destruct (remove_ok names fm d E) as (K1 & K2). assert (Q := remove_same names fm). destruct (remove_cells names fm) as [r fm']. cbn [fst snd] in *. subst fm'. split; intros H.
    - rewrite (K1 H). reflexivity.
    - rewrite (K2 H). reflexivity.
  Qed.
End Convert.
Print Assumptions C64_converter.
Print Assumptions C64_output_name.
Print Assumptions C64_cube.
Print Assumptions C64_cube_refused.
Print Assumptions C64_no_reader.
Print Assumptions C64_content.
Print Assumptions C64_no_cells.
Print Assumptions C64_info.
Print Assumptions C52_pop.
Print Assumptions C52_written.

(** ** Concrete cases: a converter that stores the number of cell variables. *)
Definition ex_reader : @readfun nat := fun fs s => if fexists fs s then Ok (PyInt 2, Ok (FM (Mesh Z 0 0 0 None [] [] []) (FSet (DS "instant" "cellaverage" 1 [] [("P"%string, Arr [2] false [10; 11])])) (FDict []) [] None)) else Err RuntimeError.
Definition ex_writer (w : unit) (fm : fmesh) : option nat * res unit := (Some (List.length (fd_items (fm_cells fm))), Ok tt).
Definition ex_reg : registry (@readfun nat) unit := registry_of [RegReader "IC3" ex_reader ".ic3"; RegWriter "IC3" tt ".ic3"]%string.
Definition ex_args (names : list string) : args := Args "in/box.ic3" None None names 0 None false.
Definition ex_fs : files nat := [("in/box.ic3", 100%nat); ("box.ic3", 200%nat)]%string.
Definition ex_run (names : list string) := write_generic (fun _ fm => Ok fm) (fun _ fm => Ok fm) (fun _ => Ok tt) ex_writer ex_reg 9 (ex_args names) ".ic3" tt ex_fs.
Example c64_run : ex_run [] = (Ok "box(1).ic3"%string, ex_fs ++ [("box(1).ic3"%string, 1%nat)]) /\
  cfdwritecube ex_writer ex_reg (ex_args []) (Ok (FM (Mesh Z 0 0 0 None [] [] []) (FDict []) (FDict []) [] None)) ex_fs = (Ok "in/box.ic3"%string, [("in/box.ic3", 0%nat); ("box.ic3", 200%nat)]%string).
Proof. split; reflexivity. Qed.
Example c52_run : ex_run ["P"%string] = ex_run [] /\ ex_run ["Q"%string] = (Err KeyError, ex_fs).
Proof. split; reflexivity. Qed.
(** A file without cells; a mesh that cannot be shown. *)
Definition ex_reg0 : registry (@readfun nat) unit := registry_of [RegReader "IC3" (fun _ _ => Ok (PyInt 0, Err ValueError)) ".ic3"]%string.
Example c64_no_cells_case : write_generic (fun _ fm => Ok fm) (fun _ fm => Ok fm) (fun _ => Ok tt) ex_writer ex_reg0 9 (ex_args []) ".ic3" tt ex_fs = (Err ZeroDivisionError, ex_fs).
Proof. reflexivity. Qed.
Example c64_info_case : write_generic (fun _ fm => Ok fm) (fun _ fm => Ok fm) (fun fm => if me_nnode (fm_mesh fm) =? 0 then Err ValueError else Ok tt) ex_writer ex_reg 9 (Args "in/box.ic3" None None [] 0 None true) ".ic3" tt ex_fs = (Err ValueError, ex_fs).
Proof. reflexivity. Qed.
