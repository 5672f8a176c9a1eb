(** * Property C92: converters to IC3 that fail, as whole programs. *)
From Coq Require Import ZArith List Bool String Ascii Lia.
From Verif Require Import Py PyFacts Elements IndexList Conn ConnSpec ConnProofs FaceSpec FaceProps Mesh MeshSpec Files FilesSpec FilesProofs Race Cli CliProps CmdLine CmdLineSpec CmdLineProofs CmdLineProps.
From Verif Require Import Gmsh Cgns Ic3Bytes Ic3BytesProofs Ic3 Ic3Fail Ic3HeaderSpec GmshSpec GroupFacts GmshProofs GmshFileProofs GmshProps ConvSpec ConvProofs ConvProps GmshIc3Spec CgnsProps VtkConvProps GmshIc3Props WholeProps Ic3FileSpec Ic3FileProps Ic3WriteProofs Ic3BodyProofs Ic3FailProps Ic3BriefSpec Ic3BriefProps Whole WholeSpec WholeProofs VtkWholeProofs WholeFailSpec WholeFailProofs.

(** The names of the sections of a mesh with proper names. *)
Lemma all_shown l : (forall k id, In (k, id) l -> ~ deof k) -> before_deof l = l.
Proof.
  induction l as [| (k, id) l IH]; intros D; [reflexivity |]. cbn [before_deof]. assert (K := D k id (or_introl eq_refl)). unfold deof in K. destruct (String.prefix "DEOF" k); [destruct (K eq_refl) |]. rewrite IH; [reflexivity |]. intros k' id' I. apply (D k' id'). right; exact I.
Qed.
Lemma sections_shown v fm : safe_names fm -> before_deof (file_sections v fm) = file_sections v fm.
Proof.
  intros S. apply all_shown. intros k id I. unfold file_sections in I.
  assert (VN : forall p c d, In (k, id) (var_names p c d) -> In k (List.map fst d)).
  { intros p c d J. unfold var_names in J. apply in_map_iff in J. destruct J as ((k', a) & E & J). injection E as <- _. apply filter_In in J. destruct J as (J & _). apply (in_map fst) in J. exact J. }
  assert (ST : forall l : list (string * Z), In (k, id) l -> Forall (fun s => String.prefix "DEOF" (fst s) = false) l -> ~ deof k).
  { intros l J F. rewrite Forall_forall in F. specialize (F _ J). unfold deof. cbn in F. congruence. }
  repeat match type of I with In _ (_ ++ _) => apply in_app_or in I; destruct I as [I | I] end.
  - revert I. intros I. eapply ST; [exact I |]. repeat constructor.
  - eapply ST; [exact I |]. destruct v; repeat constructor.
  - eapply ST; [exact I |]. repeat constructor.
  - apply S. apply in_or_app. left. apply in_map_iff in I. destruct I as ((k', b) & E & I). injection E as <- _. apply filter_In in I. destruct I as (I & _). apply (in_map fst) in I. exact I.
  - eapply ST; [exact I |]. repeat constructor.
  - apply S. apply in_or_app. right. apply in_or_app. left. apply in_map_iff in I. destruct I as (k' & E & I). injection E as <- _. exact I.
  - apply VN in I. apply S. apply in_or_app. right. apply in_or_app. right. apply in_or_app. left. exact I.
  - apply VN in I. apply S. apply in_or_app. right. apply in_or_app. right. apply in_or_app. left. exact I.
  - apply VN in I. apply S. apply in_or_app. right. apply in_or_app. right. apply in_or_app. right. exact I.
  - apply VN in I. apply S. apply in_or_app. right. apply in_or_app. right. apply in_or_app. right. exact I.
  - apply VN in I. apply S. apply in_or_app. right. apply in_or_app. right. apply in_or_app. right. exact I.
  - eapply ST; [exact I |]. repeat constructor.
Qed.

Section C92.
  Context {C : Type} (bytes : C -> list Z) (text : C -> list (list string)) (tree : C -> cgnode Z) (of_bytes : list Z -> C).
  Context (ints floats : string -> option Z) (int_of float_of ver_of : string -> res Z).
  Context (fadd fmul : Z -> Z -> Z) (linspace : nat -> list Z) (unread : Z) (enum : list Z -> list Z).
  Context (i2d : Z -> Z) (f2i : Z -> res Z) (host : order) (shown : fmesh -> res unit) (vtk : fmesh -> option C * res unit).
  (** Floating point numbers are 64-bit patterns. *)
  Hypothesis doubles : forall n, pattern (i2d n).
  Hypothesis reals : forall s v, float_of s = Ok v -> pattern v.
  Hypothesis sums : forall a b, pattern (fadd a b).
  Hypothesis products : forall a b, pattern (fmul a b).
  Hypothesis blank : pattern unread.
  Notation formats := (formats bytes text tree int_of float_of ver_of unread enum).
  Notation command := (cfdwrite_ic3 bytes text tree of_bytes ints floats int_of float_of ver_of fadd fmul linspace unread enum i2d f2i host shown vtk).
  Notation all_proper fs := (forall s c, dget String.eqb s fs = Some c -> proper bytes text tree c).

  Lemma reader_sound fs fmt name f rd wr s n fm : all_proper fs -> parse_filenameformat formats fmt name = Ok (f, Some rd, wr) -> rd fs s = Ok (n, Ok fm) -> wsound fm.
  Proof using reals blank.
    intros P PF RD. unfold parse_filenameformat in PF. match type of PF with match ?x with _ => _ end = _ => destruct x as [| f0 [|]]; try discriminate end. apply bind_ok in PF. destruct PF as (en & D & PF).
    injection PF as _ ER _. unfold dget_err in D. destruct (dget String.eqb f0 formats) as [en' |] eqn:DG; [| discriminate]. injection D as ->. apply (PyFacts.dget_in _ seqb_eq) in DG. rewrite formats_are in DG.
    cbn in DG. destruct DG as [E | [E | [E | [E | []]]]]; injection E as <- <-; cbn in ER; try discriminate; injection ER as <-.
    - unfold read_ic3 in RD. destruct (dget _ s fs) as [c |] eqn:G; [| discriminate]. apply bind_ok in RD. destruct RD as (r & R & E). injection E as _ E. destruct (P _ _ G) as (B & _). eapply ic3_sound; eauto.
    - unfold read_gmsh in RD. destruct (dget _ s fs) as [c |] eqn:G; [| discriminate]. cbv zeta in RD. apply bind_ok in RD. destruct RD as (g & R & E). injection E as _ E. apply bind_ok in E. destruct E as (m & X & E). injection E as <-. destruct (P _ _ G) as (_ & T & _). eapply gmsh_sound; eauto.
    - unfold read_cgns in RD. destruct (dget _ s fs) as [c |] eqn:G; [| discriminate]. apply bind_ok in RD. destruct RD as (z & R & E). apply bind_ok in E. destruct E as (k & _ & E). injection E as _ E. apply bind_ok in E. destruct E as (m & X & E). injection E as <-. destruct (P _ _ G) as (_ & _ & T). eapply cgns_sound; eauto.
  Qed.

  (** A command fails before a file is opened, or writes a sound mesh to a new file. *)
  Lemma command_write v argv fs x fs' : all_proper fs -> command v argv fs = (Done x, fs') ->
    (exists e, x = Err e /\ fs' = fs) \/
    exists tb fm name wf r fm', wsound fm /\ dget String.eqb name fs = None /\ write_file tb enum i2d f2i host v "native" fm = (wf, r, fm') /\
      x = match r with Ok _ => Ok name | Err e => Err e end /\ fs' = match wf with Some g => fs ++ [(name, of_bytes g)] | None => fs end.
  Proof using reals sums products blank.
    clear doubles. intros P H. unfold cfdwrite_ic3, cfdwrite in H. set (tb := elem2faces_after _) in H. destruct (parse_args _ _ _ _ _) as [ns | c |]; [| discriminate | discriminate].
    destruct (write_generic _ _ _ _ _ _ _ _ _ _) as (r0, fs1) eqn:W. injection H as <- <-. unfold write_generic in W.
    assert (NO : forall e, (Err e, fs) = (r0, fs1) -> exists e0, r0 = Err e0 /\ fs1 = fs) by (intros e Q; injection Q as <- <-; eauto).
    destruct (parse_filenameformat formats _ _) as [((f, [rd |]), wr) |] eqn:PF; [| left; eauto | left; eauto]. destruct (rd fs _) as [(n, ex) |] eqn:RD; [| left; eauto].
    destruct (_ <- per_elem n ;; ex) as [fm |] eqn:EX; [| left; eauto]. apply bind_ok in EX. destruct EX as (_ & _ & ->). assert (S := reader_sound _ _ _ _ _ _ _ _ _ P PF RD).
    assert (RS := remove_same (ar_remove (args_of ns)) fm). destruct (remove_cells _ fm) as ([u |], fm1); [| left; eauto]. cbn [snd] in RS. subst fm1.
    destruct (output_name _ _ _ _) as [p |] eqn:ON; [| left; eauto]. match type of W with match ?y with _ => _ end = _ => destruct y as [fm2 |] eqn:ET end; [| left; eauto].
    assert (S2 : wsound fm2).
    { apply bind_ok in ET. destruct ET as (fa & E1 & E2). apply bind_ok in E2. destruct E2 as (fb & E2 & E3). apply bind_ok in E3. destruct E3 as (_ & _ & E3). injection E3 as ->.
      assert (S1 : wsound fa) by (destruct (_ =? 0); [injection E1 as <-; exact S | exact (extruded_sound fadd fmul linspace enum sums _ _ _ S E1)]). destruct (ar_scale _) as [sc |]; [exact (scaled_sound fmul products _ _ _ S1 E2) | injection E2 as <-; exact S1]. }
    right. unfold write_to, write in W. apply output_free in ON. destruct (write_file tb enum i2d f2i host v "native" fm2) as ((wf, r), fm3) eqn:WF. exists tb, fm2, (path_str p), wf, r, fm3. split; [exact S2 |]. split; [exact ON |]. split; [exact WF |].
    cbn [fst snd] in W. assert (E : r0 = match r with Ok _ => Ok (path_str p) | Err e => Err e end /\ fs1 = match option_map of_bytes wf with Some c => dset String.eqb (path_str p) c fs | None => fs end) by (destruct r; injection W as <- <-; auto).
    destruct E as (-> & ->). split; [reflexivity |]. destruct wf as [g |]; [| reflexivity]. cbn [option_map]. apply (dset_notin _ seqb_eq). apply (dget_None _ seqb_eq). exact ON.
  Qed.

  (** A command that fails leaves the files as they were, or with one more, which the reader refuses. *)
  Theorem C92_failed v argv fs e fs' : all_proper fs -> command v argv fs = (Done (Err e), fs') ->
    fs' = fs \/ exists name g, dget String.eqb name fs = None /\ fs' = fs ++ [(name, of_bytes g)] /\ forall integrity, exists x, read_mesh integrity g = Err x /\ x <> OutOfFuel.
  Proof using doubles reals sums products blank.
    intros P H. destruct (command_write _ _ _ _ _ P H) as [(e0 & _ & ->) | (tb & fm & name & wf & r & fm' & ((T & S) & _) & FR & WF & X & ->)]; [left; reflexivity |]. destruct r as [u | e']; [discriminate |].
    destruct wf as [g |]; [| left; reflexivity]. right. exists name, g. split; [exact FR |]. split; [reflexivity |]. intros integrity. apply (C81_refused tb enum i2d f2i host doubles v "native"%string fm g e' fm' integrity T S WF).
  Qed.

  (** A command that ends with a name has written a whole file under that name: it begins with the version asked for, and the list
      of its sections is that of a mesh, up to the last one. *)
  Theorem C92_complete v argv fs name fs' : all_proper fs -> command v argv fs = (Done (Ok name), fs') ->
    exists g fm hs o, dget String.eqb name fs = None /\ fs' = fs ++ [(name, of_bytes g)] /\ read_restart_header g = Ok (o, version_number v) /\
      read_headers g = Ok hs /\ List.map (fun h => (h_name h, h_id h)) hs = List.map (fun '(k, id) => (cut_name k, id)) (file_sections v fm).
  Proof using doubles reals sums products blank.
    intros P H. destruct (command_write _ _ _ _ _ P H) as [(e0 & Q & _) | (tb & fm & nm & wf & r & fm' & ((T & S) & _) & FR & WF & X & ->)]; [discriminate |]. destruct r as [u | e']; [| discriminate]. injection X as ->.
    assert (OC := C81_outcome tb enum i2d f2i host doubles v "native"%string fm T). rewrite WF in OC. destruct OC as (g & -> & WM). destruct (after_prepare tb enum i2d f2i host "native"%string fm v _ _ _ T S WF) as (T' & S').
    destruct (C75_written i2d f2i doubles tb enum host v "native"%string fm g fm' WM T') as (hs & RH & L). rewrite (sections_shown v fm' S') in L.
    destruct (write_mesh_data _ _ _ _ _ _ _ _ _ _ WM) as (o & w & _ & W & WD). destruct (writer_state_typed i2d fm' w doubles T' W) as (TW & _). destruct (write_chain i2d f2i v o w g TW WD) as (_ & _ & _ & _ & _ & RH' & _).
    exists g, fm', hs, o. auto.
  Qed.
  (** A Gmsh file with a patch that covers no boundary face of the cells, or two patches that cover the same one: whatever the
      words but --extrude and --info, the command fails and writes nothing. *)
  Theorem C92_patches v before f after fs dir nm st sf ct names nnode elts d x y z : set_enum enum ->
    let a := meaning ints floats f (before ++ after) in let msh := text ct in let cells := elt_cells (GmshSpec.of_dim d elts) in let outside := GmshSpec.of_dim (d - 1) elts in
    Forall (CmdLineSpec.good ints floats (available_readers formats)) before -> Forall (CmdLineSpec.good ints floats (available_readers formats)) after -> CmdLineSpec.plain f -> ~ open_end before ->
    in_dir dir nm (path_of f) -> split_name nm st sf -> input_format a sf "GMSH" ".msh" -> ar_extrude a = 0 -> ar_info a = false ->
    dget String.eqb (path_str (path_of f)) fs = Some ct ->
    gmsh_file int_of float_of ver_of msh names nnode elts -> Forall felt_ok elts -> top_dim d elts -> 2 <= d <= 3 ->
    gmsh_conforms gmsh_elem2faces names nnode d elts -> zlen (GmshSpec.of_dim d elts) < 2 ^ 31 ->
    (forall m, load 0 int_of float_of ver_of (List.length msh) msh = Ok m -> nodescoord m = Ok (List.map Some x, List.map Some y, List.map Some z)) ->
    Forall pattern x -> Forall pattern y -> Forall pattern z ->
    (exists k, is_patch names outside k /\ forall ft s, outer gmsh_elem2faces cells ft s -> ~ patch_covers names outside k (fst s)) \/
    (exists ft s k k', outer gmsh_elem2faces cells ft s /\ k <> k' /\ is_patch names outside k /\ is_patch names outside k' /\
       patch_covers names outside k (fst s) /\ patch_covers names outside k' (fst s)) ->
    exists e, command v (words before ++ f :: words after) fs = (Done (Err e), fs).
  Proof using products.
    clear doubles reals sums blank. intros sets a msh cells outside Gb Ga Pf Ho ID SN IFM X0 I0 DG Hfile Hok Ht Hd GC BC XYm PX PY PZ BAD. unfold cells, outside in *.
    destruct (loaded_ok int_of float_of ver_of msh names nnode elts d (List.length msh) Hfile Hok Ht Hd (le_n _) GC BC) as (m0 & L & KE & SP & CMx & NC & NN & _).
    assert (XY := XYm m0 L). destruct (CMx x y z XY PX PY PZ) as (CM & NO'). unfold load in L. apply bind_ok in L. destruct L as (g & RG & EG).
    destruct (gmsh_facts unread g m0 x y z EG XY) as (PL & CNT).
    set (l := GmshSpec.of_dim d elts) in *. set (bl := GmshSpec.of_dim (d - 1) elts) in *.
    assert (L1 := cm_some _ _ _ _ CM). cbn [elt_cells ec_nelem] in L1.
    assert (XYD : nodescoord (defined m0) = Ok (x, y, z)) by (unfold nodescoord; rewrite NO'; reflexivity).
    assert (SC : exists m, transform fadd fmul linspace enum shown a (bare (defined m0)) = Ok (bare m) /\ cell_mesh gmsh_elem2faces gmsh_types m (elt_cells l) /\ me_bocos m = me_bocos (defined m0)).
    { unfold transform. rewrite X0, I0. cbn [Z.eqb bind]. destruct (ar_scale a) as [((sx, sy), sz) |].
      - destruct (scaled_mesh gmsh_elem2faces gmsh_types fmul (defined m0) (elt_cells l) x y z sx sy sz products CM XYD) as (m & SM & CM' & B & _).
        exists m. unfold scaled, bare. cbn [fm_mesh fm_cells fm_nodes fm_params fm_part]. rewrite SM. cbn [bind]. auto.
      - exists (defined m0). auto. }
    destruct SC as (m & TR & CM' & BO).
    assert (GETB : forall k, is_patch names bl k -> exists b, In (k, b) (me_bocos m)).
    { intros k P. apply KE in P. unfold dkeys in P. apply in_map_iff in P. destruct P as ((k', b) & <- & I). rewrite BO. eexists. cbn [defined me_bocos]. apply in_map_iff. exists (k', b). split; [reflexivity | exact I]. }
    assert (SPM : forall k b, In (k, b) (me_bocos m) -> forall nodes, spanned nodes b <-> patch_covers names bl k nodes) by (intros k b I; rewrite BO in I; apply (SP k b I)).
    assert (IF : in_force gmsh_elem2faces gmsh_types) by (right; auto).
    destruct (conv_unprepared gmsh_elem2faces gmsh_types enum IF sets m (elt_cells l) CM') as (e & m' & PR).
    { destruct BAD as [(k & P & N) | (ft & s & k & k' & O & NE & P & P' & S & S')].
      - left. destruct (GETB k P) as (b & I). exists k, b. split; [exact I |]. intros ft s O S. apply (N ft s O). apply (SPM k b I). exact S.
      - right. destruct (GETB k P) as (b & I). destruct (GETB k' P') as (b' & I'). exists ft, s, k, b, k', b'. split; [exact O |]. split; [exact I |]. split; [exact I' |]. split; [exact NE |].
        split; [apply (SPM k b I); exact S | apply (SPM k' b' I'); exact S']. }
    exists e. assert (AF : ar_filename a = f) by apply means_file.
    assert (PF := format_read bytes text tree int_of float_of ver_of unread enum a dir nm st sf "GMSH"%string (read_gmsh text int_of float_of ver_of unread) None ".msh"%string ltac:(rewrite formats_are; right; left; reflexivity) ltac:(rewrite AF; exact ID) SN IFM).
    destruct (parse_file ints floats (available_readers formats) before f after Gb Ga Ho Pf) as (ns & PA & AR). fold a in AR.
    assert (SX : a_suffix ".ic3") by (exists "ic3"%string; split; [reflexivity |]; split; [discriminate |]; vm_compute; intuition discriminate).
    destruct (C64_output_name (List.length fs + 1) fs a ".ic3" dir nm st sf SX) as (q & ON & _); [vm_compute; intuition discriminate | rewrite AF; exact ID | exact SN | lia |].
    unfold cfdwrite_ic3, cfdwrite. rewrite PA, AR. unfold write_generic. rewrite PF, AF. unfold read_gmsh. rewrite DG. fold msh. rewrite RG. cbn [bind]. rewrite EG. cbn [bind]. rewrite PL.
    assert (PE : per_elem (PyInt (gmsh_ncell g)) = Ok tt) by (cbn; destruct (Z.eqb_spec (gmsh_ncell g) 0); [lia | reflexivity]). rewrite PE. cbn [bind].
    assert (RM := bare_remove (ar_remove a) (defined m0)). assert (RS := remove_same (ar_remove a) (bare (defined m0))). destruct (remove_cells (ar_remove a) (bare (defined m0))) as (r, fm'). cbn [fst snd] in *. subst r fm'.
    rewrite ON. unfold transform in TR. rewrite TR. unfold write.
    assert (TB : elem2faces_after (calls bytes text tree ints floats int_of float_of ver_of unread enum (words before ++ f :: words after) fs) = gmsh_elem2faces).
    { unfold calls. rewrite PA, AR, PF, AF. unfold fexists, dmem. rewrite DG. reflexivity. }
    rewrite TB. unfold write_file. cbn [order_of]. cbn [fm_mesh bare]. rewrite PR. reflexivity.
  Qed.
End C92.

(** ** Concrete cases *)
(** Two triangles, in a file where the step is a real number; here no real number has a value as an integer. *)
Definition real_step : list Z :=
  match write_mesh cgns_elem2faces (nodup Z.eq_dec) ex_i2d ex_f2i Little V3 "native" (ex_fm ex_marks "A" "B"), ex_sec "STEP" D0 256 [] (Ok []), ex_sec "EOF" EOF 256 [] (Ok []) with
  | (Ok f, _), Ok s, Ok e => firstn (List.length f - List.length e) f ++ s ++ e
  | _, _, _ => []
  end.
Section Cases.
  Let ints (s : string) : option Z := match int10 s with Ok n => Some n | Err _ => None end.
  Let real (s : string) : res Z := n <- int10 s ;; Ok (n mod 2 ^ 64).
  Let add (a b : Z) : Z := (a + b) mod 2 ^ 64.
  Let mul (a b : Z) : Z := (a * b) mod 2 ^ 64.
  Let linspace (k : nat) : list Z := List.map Z.of_nat (seq 0 k).
  Let bytes (c : list (list string) + list Z) : list Z := match c with inl _ => [] | inr b => b end.
  Let text (c : list (list string) + list Z) : list (list string) := match c with inl t => t | inr _ => [] end.
  Let tree (c : list (list string) + list Z) : cgnode Z := leaf (PInts []).
  Let run := cfdwrite_ic3 bytes text tree (@inr (list (list string)) (list Z)) ints ints int10 real int10 add mul linspace 0 (nodup Z.eq_dec) ex_i2d ex_f2i Little (fun _ => Ok tt) (fun _ => (None, Ok tt)).
  Let disk := [("chan.msh"%string, inl ex_half_chan); ("real.ic3"%string, inr real_step); ("flat.ic3"%string, inr ex_flat_bytes)] : files (list (list string) + list Z).
  (** The outcome, the file added, its length and what the reader makes of it. *)
  Let left_by (o : outcome (res string) * files (list (list string) + list Z)) : outcome (res string) * list (string * (Z * res Z)) :=
    (fst o, List.map (fun '(k, c) => (k, (zlen (bytes c), fm <- read_mesh true (bytes c) ;; Ok (me_ncell (fm_mesh fm))))) (skipn 3 (snd o))).
  Open Scope string_scope.
  Example c92_run : left_by (run V3 ["chan.msh"] disk) = (Done (Ok "chan.ic3"), [("chan.ic3", (3884, Ok 2))]) /\
    left_by (run V3 ["real.ic3"] disk) = (Done (Err OverflowError), [("real(1).ic3", (2516, Err TypeError))]) /\
    left_by (run V2 ["real.ic3"] disk) = (Done (Err OverflowError), [("real(1).ic3", (3328, Err TypeError))]) /\
    left_by (run V3 ["flat.ic3"] disk) = (Done (Err ZeroDivisionError), []).
  Proof. vm_compute. repeat split. Qed.
  Close Scope string_scope.

  (** The hypotheses hold: the theorems apply to these commands. *)
  Lemma mod_pattern n : pattern (n mod 2 ^ 64).
  Proof. unfold pattern. apply Z.mod_pos_bound. reflexivity. Qed.
  Lemma bytes_ok l : forallb (fun b => (0 <=? b) && (b <? 256))%bool l = true -> Forall is_byte l.
  Proof. intros H. apply Forall_forall. intros x I. rewrite forallb_forall in H. apply H, andb_true_iff in I. destruct I as (A & B). unfold is_byte. lia. Qed.
  Lemma text_check t : forallb (forallb (fun w => negb (String.eqb (String.substring 1 4 w) "DEOF"))) t = true -> text_ok t.
  Proof. intros H l w I J E. rewrite forallb_forall in H. apply H in I. rewrite forallb_forall in I. apply I in J. rewrite E in J. discriminate. Qed.
  Lemma disk_proper s c : dget String.eqb s disk = Some c -> proper bytes text tree c.
  Proof.
    intros G. apply (PyFacts.dget_in _ seqb_eq) in G.
    assert (N : node_ok (leaf (PInts [] : payload Z))) by (constructor; [intros p E; injection E as <-; exact I | intros k n []]).
    destruct G as [E | [E | [E | []]]]; injection E as _ <-; (split; [| split; [| exact N]]); try (apply bytes_ok; vm_compute; reflexivity); apply text_check; vm_compute; reflexivity.
  Qed.
  Example c92_case : exists e name g, run V3 ["real.ic3"%string] disk = (Done (Err e), disk ++ [(name, inr g)]) /\ forall integrity, exists x, read_mesh integrity g = Err x /\ x <> OutOfFuel.
  Proof.
    destruct (run V3 ["real.ic3"%string] disk) as (r, fs') eqn:R. assert (O : r = Done (Err OverflowError) /\ List.length fs' = 4%nat).
    { assert (V : fst (run V3 ["real.ic3"%string] disk) = Done (Err OverflowError) /\ List.length (snd (run V3 ["real.ic3"%string] disk)) = 4%nat) by (vm_compute; split; reflexivity). rewrite R in V. exact V. }
    destruct O as (-> & L).
    destruct (C92_failed bytes text tree (@inr (list (list string)) (list Z)) ints ints int10 real int10 add mul linspace 0 (nodup Z.eq_dec) ex_i2d ex_f2i Little (fun _ => Ok tt) (fun _ => (None, Ok tt))) with (v := V3) (argv := ["real.ic3"%string]) (fs := disk) (e := OverflowError) (fs' := fs') as [-> | (name & g & _ & -> & RD)].
    - intros n. apply mod_pattern.
    - intros w v H. unfold real in H. apply bind_ok in H. destruct H as (n & _ & E). injection E as <-. apply mod_pattern.
    - intros a b. apply mod_pattern.
    - intros a b. apply mod_pattern.
    - split; [lia | reflexivity].
    - exact disk_proper.
    - exact R.
    - discriminate L.
    - exists OverflowError, name, g. split; [reflexivity | exact RD].
  Qed.
  (** A channel with its two walls and its inlet: the two nodes of the inlet are on the walls, so that both patches cover it. *)
  Let run10 := cfdwrite_ic3 bytes text tree (@inr (list (list string)) (list Z)) ints ints int10 int10 int10 add mul linspace 0 (nodup Z.eq_dec) ex_i2d ex_f2i Little (fun _ => Ok tt) (fun _ => (None, Ok tt)).
  Example c92_patches_case : exists e, run10 V3 (["chan.msh"; "--scale"; "3"; "2"; "1"]%string) [("chan.msh"%string, inl ex_full_chan)] = (Done (Err e), [("chan.msh"%string, inl ex_full_chan)]).
  Proof.
    destruct (ex_chan_conforms ex_upper (or_intror eq_refl)) as (GC & OK & TD). destruct (c74_files ex_full_chan ex_upper (or_intror (conj eq_refl eq_refl))) as (F1 & F2 & F3 & F4).
    destruct ex_in_place as (ID & SN). destruct c74_refused_case as (O & P1 & P2 & _).
    apply (C92_patches bytes text tree (@inr (list (list string)) (list Z)) ints ints int10 int10 int10 add mul linspace 0 (nodup Z.eq_dec) ex_i2d ex_f2i Little (fun _ => Ok tt) (fun _ => (None, Ok tt))
      ltac:(intros; apply Z.mod_pos_bound; lia) V3 [] "chan.msh" [Scale "3" "2" "1"] _ (Path_ "" []) "chan.msh" "chan" ".msh" (inl ex_full_chan) (Some ex_chan_names) 6 (ex_chan_elts ++ ex_upper) 2
      (List.map (fun p => fst (fst p)) ex_chan_nodes) (List.map (fun p => snd (fst p)) ex_chan_nodes) (List.map snd ex_chan_nodes)).
    - exact ex_set.
    - constructor.
    - constructor; [| constructor]. cbn. repeat split; try (left; intros (r & E); discriminate E); vm_compute; discriminate.
    - left. intros (r & E). discriminate E.
    - intros (l & i & E & _). destruct l; discriminate E.
    - exact ID.
    - exact SN.
    - right. split; reflexivity.
    - reflexivity.
    - reflexivity.
    - reflexivity.
    - apply (File2 int10 int10 int10 ex_full_chan 2 (Some ex_chan_names) ex_chan_nodes _ F1 ltac:(lia) F2 F3 F4).
    - exact OK.
    - exact TD.
    - lia.
    - exact GC.
    - vm_compute; reflexivity.
    - intros m L. vm_compute in L. injection L as <-. reflexivity.
    - repeat constructor; cbn; lia.
    - repeat constructor; cbn; lia.
    - repeat constructor; cbn; lia.
    - right. exists "bar2"%string, ([0; 3], 0), "wall"%string, "inlet"%string. split; [exact O |]. split; [discriminate |].
      split; [| split; [| split; [exact P1 | exact P2]]]; (split; [intros NM; vm_compute in NM; intuition discriminate |]).
      + eexists. split; [left; reflexivity | vm_compute; reflexivity].
      + eexists. split; [right; right; left; reflexivity | vm_compute; reflexivity].
  Qed.
End Cases.

Print Assumptions C92_failed.
Print Assumptions C92_complete.
Print Assumptions C92_patches.
