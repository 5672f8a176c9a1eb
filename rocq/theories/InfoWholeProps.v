(** * Property C93: the commands that only read, as whole programs, and what they show after a conversion. *)
From Coq Require Import ZArith List Bool String Ascii Lia.
From Verif Require Import InfoWhole Py PyFacts Elements IndexList Conn ConnSpec ConnProofs FaceSpec FaceProps Mesh MeshSpec Files FilesSpec FilesProofs Race Cli CliProps CmdLine CmdLineSpec CmdLineProofs CmdLineProps.
From Verif Require Import Gmsh Cgns Ic3Bytes Ic3BytesProofs Ic3 Ic3Fail Ic3HeaderSpec GmshSpec GroupFacts GmshProofs GmshFileProofs GmshProps ConvSpec ConvProofs ConvProps GmshIc3Spec CgnsProps GmshIc3Props WholeProps Ic3FileSpec Ic3FileProps Ic3BriefSpec Whole WholeSpec WholeProofs WholeFailSpec WholeFailProps Info InfoProps InfoWholeSpec InfoWholeProofs CmdLine.

Lemma shape_nodes t nm d n : shape_of t = Some (nm, d, n) -> n <> O.
Proof.
  unfold shape_of. intros H. destruct t as [| p | p]; try discriminate H.
  do 4 (destruct p as [p | p |]; try discriminate H; try (injection H as _ _ <-; discriminate)).
Qed.

Section C93.
  Context {C : Type} (bytes : C -> list Z) (text : C -> list (list string)) (tree : C -> cgnode Z) (of_bytes : list Z -> C).
  Context (ints floats : string -> option Z) (int_of float_of ver_of : string -> res Z).
  Context (fadd fmul : Z -> Z -> Z) (linspace : nat -> list Z) (unread : Z) (enum : list Z -> list Z).
  Context (i2d : Z -> Z) (f2i : Z -> res Z) (host : order) (shown : fmesh -> res unit) (vtk : fmesh -> option C * res unit).
  Context (leb : Z -> Z -> bool) (avg : list Z -> Z).
  Notation formats := (formats bytes text tree int_of float_of ver_of unread enum).
  Notation cfdinfo := (info_command bytes text tree ints floats int_of float_of ver_of unread enum leb avg).
  Notation ic3brief := (brief_command bytes text tree ints floats int_of float_of ver_of unread enum).
  Notation convert := (cfdwrite_ic3 bytes text tree of_bytes ints floats int_of float_of ver_of fadd fmul linspace unread enum i2d f2i host shown vtk).
  Notation option_ok i := (CmdLineSpec.good ints floats (available_readers formats) i /\ info_item i).
  Notation all_proper fs := (forall s c, dget String.eqb s fs = Some c -> proper bytes text tree c).

  Lemma info_readers fs : available_readers (info_formats bytes text tree int_of float_of ver_of unread enum fs) = available_readers formats.
  Proof. reflexivity. Qed.

  (** ic3brief lists the sections of the file, whatever the options. *)
  Theorem C93_brief before f after fs : Forall (fun i => option_ok i) before -> Forall (fun i => option_ok i) after -> CmdLineSpec.plain f ->
    ic3brief (words before ++ f :: words after) fs =
      Done (match dget String.eqb (path_str (path_of f)) fs with None => Err FileNotFoundError | Some c => read_headers (bytes c) end).
  Proof.
    intros Gb Ga Pf. destruct (iparse_file ints floats (available_readers formats) (Some "IC3"%string) before f after Gb Ga Pf) as (ns & PA & AR).
    unfold brief_command. rewrite info_readers, PA. cbn [obind]. unfold iargs in AR. assert (AF := f_equal fst AR). assert (AM := f_equal (fun p => fst (snd p)) AR). cbn [fst snd] in AF, AM. rewrite AF.
    assert (FM : exists s, ar_fmt (args_of ns) = Some s /\ In s (available_readers formats)).
    { rewrite AM. destruct (effect_either (before ++ after)) as [N | (s & j & S & I)].
      - exists "IC3"%string. rewrite (effect_none _ N). split; [reflexivity | left; reflexivity].
      - exists s. rewrite (effect_format _ s S). split; [reflexivity |]. apply in_app_or in I. rewrite !Forall_forall in *. destruct I as [I | I]; [apply Gb in I | apply Ga in I]; apply I. }
    destruct FM as (s & -> & I). assert (E : exists t, parse_filenameformat (info_formats bytes text tree int_of float_of ver_of unread enum fs) (Some s) f = Ok t).
    { destruct I as [<- | [<- | [<- | []]]]; eexists; reflexivity. }
    destruct E as (t & ->). reflexivity.
  Qed.

  (** A format that is not one of those that can be read stops both commands, whatever comes after. *)
  Theorem C93_usage items j s rest fs : Forall (fun i => option_ok i) items -> (j = Apart -> CmdLineSpec.plain s) -> ~ In s ["IC3"; "GMSH"; "CGNS"]%string ->
    cfdinfo (words items ++ pair j "--fmt" s ++ rest) fs = Exit 2 /\ ic3brief (words items ++ pair j "--fmt" s ++ rest) fs = Exit 2.
  Proof.
    intros G Hp N. split.
    - unfold info_command. rewrite info_readers, (iparse_bad ints floats (available_readers formats) None items j s rest G Hp N). reflexivity.
    - unfold brief_command. rewrite info_readers, (iparse_bad ints floats (available_readers formats) (Some "IC3"%string) items j s rest G Hp N). reflexivity.
  Qed.

  (** A word that looks like an option and is none of theirs stops both, wherever it is before '--'; nothing is read. *)
  Theorem C93_unknown before s after fs : unknown info_names s -> ~ In "--"%string before ->
    (exists c, cfdinfo (before ++ s :: after) fs = Exit c) /\ (exists c, ic3brief (before ++ s :: after) fs = Exit c).
  Proof.
    intros U Hb. split.
    - unfold info_command. rewrite info_readers. destruct (parse_args _ _ _ _ (before ++ s :: after)) as [ns|c|] eqn:E; [|now exists c|now apply parse_unstuck in E].
      now apply iparse_unknown in E.
    - unfold brief_command. rewrite info_readers. destruct (parse_args _ _ _ _ (before ++ s :: after)) as [ns|c|] eqn:E; [|now exists c|now apply parse_unstuck in E].
      now apply iparse_unknown in E.
  Qed.

  Lemma info_runs before f after fs : Forall (fun i => option_ok i) before -> Forall (fun i => option_ok i) after -> CmdLineSpec.plain f ->
    exists fmt check, (check = true <-> says_check (before ++ after)) /\ (forall s, says_format (before ++ after) s -> fmt = Some s) /\ (no_format (before ++ after) -> fmt = None) /\
      cfdinfo (words before ++ f :: words after) fs = Done (Info.cfdinfo leb avg (info_formats bytes text tree int_of float_of ver_of unread enum fs) fmt check f).
  Proof.
    intros Gb Ga Pf. destruct (iparse_file ints floats (available_readers formats) None before f after Gb Ga Pf) as (ns & PA & AR).
    unfold iargs in AR. assert (AF := f_equal fst AR). assert (AM := f_equal (fun p => fst (snd p)) AR). assert (AC := f_equal (fun p => snd (snd p)) AR). cbn [fst snd] in AF, AM, AC. exists (ar_fmt (args_of ns)), (checked ns). split; [| split; [| split]].
    - rewrite AC, effect_check. split; [intros [E | E]; [discriminate E | exact E] | intros E; right; exact E].
    - intros s S. rewrite AM. apply effect_format; exact S.
    - intros N. rewrite AM. apply (effect_none _ N).
    - unfold info_command. rewrite info_readers, PA. cbn [obind]. now rewrite AF.
  Qed.

  (** cfdinfo reads the file as the format said last, or that of its suffix: for IC3, the reader checks the file only if asked
      for; CGNS files are never read. *)
  Theorem C93_info before f after fs : Forall (fun i => option_ok i) before -> Forall (fun i => option_ok i) after -> CmdLineSpec.plain f ->
    let result r := match r with Ok m => printinfo leb avg m | Err e => ([], Err e) end in
    let file := dget String.eqb (path_str (path_of f)) fs in
    (read_as (before ++ after) f "IC3" ".ic3" -> exists check, (check = true <-> says_check (before ++ after)) /\
       cfdinfo (words before ++ f :: words after) fs =
         Done (result (match file with None => Err RuntimeError | Some c => fm <- read_mesh check (bytes c) ;; Ok (fm_mesh fm) end))) /\
    (read_as (before ++ after) f "GMSH" ".msh" -> cfdinfo (words before ++ f :: words after) fs =
         Done (result (match file with None => Err RuntimeError | Some c => m <- load 0 int_of float_of ver_of (List.length (text c)) (text c) ;; Ok (plain_mesh unread m) end))) /\
    (read_as (before ++ after) f "CGNS" ".cgns" -> cfdinfo (words before ++ f :: words after) fs = Done ([], Err TypeError)).
  Proof.
    intros Gb Ga Pf result file. destruct (info_runs before f after fs Gb Ga Pf) as (fmt & check & CK & FS & FN & ->).
    split; [| split].
    - intros R. exists check. split; [exact CK |]. f_equal.
      assert (E : Info.cfdinfo leb avg (info_formats bytes text tree int_of float_of ver_of unread enum fs) fmt check f = result (info_ic3 bytes fs check (path_str (path_of f)))).
      { destruct R as [S | (N & SF)]; [rewrite (FS _ S); reflexivity |]. rewrite (FN N). unfold info_formats. rewrite C79_formats. cbv zeta. rewrite SF. reflexivity. }
      rewrite E. unfold info_ic3. fold file. destruct file as [c |]; [| reflexivity]. unfold read_mesh. destruct (read_data check (bytes c)); reflexivity.
    - intros R. f_equal.
      assert (E : Info.cfdinfo leb avg (info_formats bytes text tree int_of float_of ver_of unread enum fs) fmt check f = result (info_gmsh text int_of float_of ver_of unread fs check (path_str (path_of f)))).
      { destruct R as [S | (N & SF)]; [rewrite (FS _ S); reflexivity |]. rewrite (FN N). unfold info_formats. rewrite C79_formats. cbv zeta. rewrite SF. reflexivity. }
      rewrite E. unfold info_gmsh, read_gmsh. fold file. destruct file as [c |]; [| reflexivity]. unfold load. cbv zeta.
      destruct (Gmsh.read_data _ _ _ _ _) as [g |]; cbn [bind]; [| reflexivity]. destruct (Gmsh.export_mesh _ g); reflexivity.
    - intros [S | (N & SF)]; [rewrite (FS _ S); reflexivity |]. rewrite (FN N). unfold info_formats. rewrite C79_formats. cbv zeta. rewrite SF. reflexivity.
  Qed.

  (** Floating point numbers are 64-bit patterns; a file that was written holds what was written. *)
  Hypothesis doubles : forall n, pattern (i2d n).
  Hypothesis reals : forall s v, float_of s = Ok v -> pattern v.
  Hypothesis sums : forall a b, pattern (fadd a b).
  Hypothesis products : forall a b, pattern (fmul a b).
  Hypothesis blank : pattern unread.
  Hypothesis stored : forall b, bytes (of_bytes b) = b.
  Hypothesis sets : set_enum enum.
  Hypothesis total : forall a b, leb a b = true \/ leb b a = true.
  Hypothesis trans : forall a b c, leb a b = true -> leb b c = true -> leb a c = true.

  Lemma last_file (fs : files C) name c : dget String.eqb name fs = None -> dget String.eqb name (fs ++ [(name, c)]) = Some c.
  Proof. clear. intros N. induction fs as [| (k, v) fs IH]; cbn in *; [now rewrite String.eqb_refl |]. destruct (String.eqb _ _); [discriminate | auto]. Qed.

  (** After a command that wrote a file, whatever it read, ic3brief of that file lists the sections of a mesh, to the last. *)
  Theorem C93_converted v argv fs name fs' before f after : all_proper fs -> convert v argv fs = (Done (Ok name), fs') ->
    Forall (fun i => option_ok i) before -> Forall (fun i => option_ok i) after -> CmdLineSpec.plain f -> path_str (path_of f) = name ->
    exists hs fm, ic3brief (words before ++ f :: words after) fs' = Done (Ok hs) /\
      List.map (fun h => (h_name h, h_id h)) hs = List.map (fun '(k, id) => (cut_name k, id)) (file_sections v fm).
  Proof using doubles reals sums products blank stored.
    clear leb avg sets total trans. intros P H Gb Ga Pf E.
    destruct (C92_complete bytes text tree of_bytes ints floats int_of float_of ver_of fadd fmul linspace unread enum i2d f2i host shown vtk doubles reals sums products blank v argv fs name fs' P H) as (g & fm & hs & o & FR & -> & _ & RH & L).
    exists hs, fm. split; [| exact L]. rewrite (C93_brief before f after _ Gb Ga Pf), E, (last_file _ _ _ FR), stored, RH. reflexivity.
  Qed.

  (** After a command that failed, either no file was added or cfdinfo shows nothing of the file added, and says so, with or
      without --check. *)
  Theorem C93_failed v argv fs e fs' : all_proper fs -> convert v argv fs = (Done (Err e), fs') ->
    fs' = fs \/ exists name c, dget String.eqb name fs = None /\ fs' = fs ++ [(name, c)] /\
      forall before f after, Forall (fun i => option_ok i) before -> Forall (fun i => option_ok i) after -> CmdLineSpec.plain f -> path_str (path_of f) = name ->
        read_as (before ++ after) f "IC3" ".ic3" -> exists x, cfdinfo (words before ++ f :: words after) fs' = Done ([], Err x).
  Proof using doubles reals sums products blank stored.
    clear sets total trans. intros P H.
    destruct (C92_failed bytes text tree of_bytes ints floats int_of float_of ver_of fadd fmul linspace unread enum i2d f2i host shown vtk doubles reals sums products blank v argv fs e fs' P H) as [-> | (name & g & FR & -> & RD)]; [left; reflexivity |].
    right. exists name, (of_bytes g). split; [exact FR |]. split; [reflexivity |]. intros before f after Gb Ga Pf E R.
    destruct (proj1 (C93_info before f after (fs ++ [(name, of_bytes g)]) Gb Ga Pf) R) as (check & _ & ->). rewrite E, (last_file _ _ _ FR), stored. destruct (RD check) as (x & -> & _). exists x. reflexivity.
  Qed.

  (** A conforming Gmsh file, converted then looked at: cfdinfo shows the number of nodes and of cells of the Gmsh file, the
      extent of the coordinates, scaled if asked for, the number of faces of the cells, and each patch with the range of the
      boundary faces that it covers. *)
  Theorem C93_gmsh v before f after fs dir nm st sf ct names nnode elts d x y z :
    let a := meaning ints floats f (before ++ after) in let msh := text ct in
    Forall (CmdLineSpec.good ints floats (available_readers formats)) before -> Forall (CmdLineSpec.good ints floats (available_readers formats)) after -> CmdLineSpec.plain f -> ~ open_end before ->
    in_dir dir nm (path_of f) -> split_name nm st sf -> input_format a sf "GMSH" ".msh" -> ar_extrude a = 0 -> ar_info a = false ->
    dget String.eqb (path_str (path_of f)) fs = Some ct ->
    gmsh_file int_of float_of ver_of msh names nnode elts -> Forall felt_ok elts -> top_dim d elts -> 2 <= d <= 3 ->
    gmsh_conforms gmsh_elem2faces names nnode d elts -> patches_apart gmsh_elem2faces names d elts ->
    nnode < 2 ^ 31 -> all_sides gmsh_elem2faces (elt_cells (GmshSpec.of_dim d elts)) < 2 ^ 31 -> zlen (GmshSpec.of_dim d elts) < 2 ^ 31 ->
    (forall m, load 0 int_of float_of ver_of (List.length msh) msh = Ok m -> nodescoord m = Ok (List.map Some x, List.map Some y, List.map Some z)) ->
    Forall pattern x -> Forall pattern y -> Forall pattern z ->
    exists q fs', convert v (words before ++ f :: words after) fs = (Done (Ok (path_str q)), fs') /\ output_file fs a st q /\
      forall opts g opts', Forall (fun i => option_ok i) opts -> Forall (fun i => option_ok i) opts' -> CmdLineSpec.plain g -> path_str (path_of g) = path_str q ->
        read_as (opts ++ opts') g "IC3" ".ic3" ->
        exists ls lb li rb ri, cfdinfo (words opts ++ g :: words opts') fs' = Done (ls, Ok tt) /\
          faces_from_cells gmsh_elem2faces (elt_cells (GmshSpec.of_dim d elts)) lb li rb ri /\
          In (Lnnode nnode) ls /\ In (Lncell (zlen (GmshSpec.of_dim d elts))) ls /\ In (Lnface (zlen lb + zlen li)) ls /\
          (forall c l, In (c, l) (let '(x, y, z) := times fmul (ar_scale a) (x, y, z) in [("x", x); ("y", y); ("z", z)]%string) ->
             exists mn mx, In (Lcoord c mn (avg l) mx) ls /\ In mn l /\ In mx l /\ forall w, In w l -> leb mn w = true /\ leb w mx = true) /\
          (forall k, is_patch names (GmshSpec.of_dim (d - 1) elts) k -> exists lo hi, In (Lmark k (Some Gbdface) (Drange lo hi)) ls /\ 0 <= lo <= hi /\ hi < zlen lb /\
             forall n nodes, nth_error lb n = Some nodes -> (lo <= Z.of_nat n <= hi <-> patch_covers names (GmshSpec.of_dim (d - 1) elts) k nodes)).
  Proof using doubles products stored sets total trans.
    clear reals sums blank. intros a msh Gb Ga Pf Ho ID SN IFM X0 I0 DG Hfile Hok Ht Hd GC PAP BN BS BC XYm PX PY PZ.
    destruct (C90_gmsh bytes text tree of_bytes ints floats int_of float_of ver_of fadd fmul linspace unread enum i2d f2i host shown vtk doubles products sets
      v before f after fs dir nm st sf ct names nnode elts d x y z Gb Ga Pf Ho ID SN IFM X0 I0 DG Hfile Hok Ht Hd GC PAP BN BS BC XYm PX PY PZ) as (q & b & m & fm2 & lb & li & rb & ri & CMD & OUT & RM & KE & SP & FC & CV & NC & NN & XY).
    assert (FR := proj1 OUT). exists q, (fs ++ [(path_str q, of_bytes b)]). split; [exact CMD |]. split; [exact OUT |]. intros opts g opts' Gb' Ga' Pg E R.
    destruct (proj1 (C93_info opts g opts' (fs ++ [(path_str q, of_bytes b)]) Gb' Ga' Pg) R) as (check & _ & ->). rewrite E, (last_file _ _ _ FR), stored, (RM check). cbn [bind].
    assert (NZ : nnode <> 0).
    { destruct Ht as ((e & I & D) & _). rewrite Forall_forall in Hok. destruct (Hok e I) as (nme & d0 & n & S & L). unfold felt_dim in D. rewrite S in D. subst d0.
      assert (IE : In e (GmshSpec.of_dim d elts)) by (unfold GmshSpec.of_dim; apply filter_In; split; [exact I |]; unfold felt_dim; rewrite S; apply Z.eqb_refl).
      assert (N0 : n <> O). { apply shape_nodes in S. exact S. }
      destruct (fe_nodes e) as [| w ws] eqn:EN; [cbn in L; congruence |]. assert (B := gc_nodes _ _ _ _ _ GC e w IE). rewrite EN in B. specialize (B (or_introl eq_refl)). lia. }
    rewrite <- NN in NZ. destruct (proj1 (C79_ic3 leb avg check b fm2 (RM check)) NZ) as (ls & PI). rewrite PI.
    destruct (C79_content leb avg total trans (fm_mesh fm2) ls PI) as (lx & ly & lz & cl & fl & ml & -> & _ & _ & MK & CO).
    exists ([Lnnode (me_nnode (fm_mesh fm2)); lx; ly; lz; Lncell (me_ncell (fm_mesh fm2))] ++ cl ++ [Lnface (me_nface (fm_mesh fm2))] ++ fl ++ [Lbocos (dkeys (me_bocos (fm_mesh fm2)))] ++ ml ++ [Lparams])%list, lb, li, rb, ri.
    split; [reflexivity |]. split; [exact FC |]. split; [left; rewrite NN; reflexivity |]. split; [right; right; right; right; left; rewrite NC; reflexivity |].
    split; [| split].
    - rewrite (cv_nface _ _ _ _ _ _ _ _ CV). apply in_or_app. right. apply in_or_app. right. left. reflexivity.
    - intros c l I. destruct (times fmul (ar_scale a) (x, y, z)) as ((xs, ys), zs) eqn:TM. fold a in XY. rewrite TM in XY. unfold nodescoord, dget_err in XY.
      destruct (dget String.eqb "x" (me_nodes (fm_mesh fm2))) as [x1 |] eqn:EX; [| discriminate]. destruct (dget String.eqb "y" (me_nodes (fm_mesh fm2))) as [y1 |] eqn:EY; [| discriminate]. destruct (dget String.eqb "z" (me_nodes (fm_mesh fm2))) as [z1 |] eqn:EZ; [| discriminate].
      cbn [bind] in XY. injection XY as -> -> ->.
      assert (K : exists l', In (c, l') [("x", lx); ("y", ly); ("z", lz)]%string /\ dget String.eqb c (me_nodes (fm_mesh fm2)) = Some l).
      { destruct I as [I | [I | [I | []]]]; injection I as <- <-; eexists; (split; [cbn; eauto | assumption]). }
      destruct K as (l' & I' & DL). destruct (CO c l' I') as (v0 & vs & mn & mx & D' & EL & In1 & In2 & EXT). rewrite DL in D'. injection D' as ->. exists mn, mx. split; [| auto].
      subst l'. destruct I' as [I' | [I' | [I' | []]]]; injection I' as <- <-; cbn; auto.
    - intros k P. apply KE in P. unfold dkeys in P. apply in_map_iff in P. destruct P as ((k', bk) & <- & IK). cbn [fst] in *.
      destruct (cv_marks _ _ _ _ _ _ _ _ CV) as (zones & rest & EB & ZF & _).
      assert (ZK : exists zk, In zk zones /\ zone_of lb (fun nodes => spanned nodes bk) k' (mk_type bk) (perio_back bk) zk).
      { clear - ZF IK. induction ZF as [| kb zk l1 l2 Hz _ IH]; [destruct IK |]. destruct IK as [-> | IK]; [exists zk; split; [left; reflexivity | exact Hz] |]. destruct (IH IK) as (z0 & I0 & Z0). exists z0. split; [right; exact I0 | exact Z0]. }
      destruct ZK as (zk & IZ & lo & hi & -> & B1 & B2 & COV). exists lo, hi. split; [| split; [exact B1 | split; [exact B2 |]]].
      + assert (IB : In (k', Mark Z k' (Some Gbdface) (mk_type bk) (Some (ILrange lo hi)) (Some (Some (perio_back bk)))) (me_bocos (fm_mesh fm2))) by (rewrite EB; apply in_or_app; left; exact IZ).
        assert (IL : In (Lmark k' (Some Gbdface) (Drange lo hi)) ml).
        { clear - MK IB. induction MK as [| kb l l1 l2 Hl _ IH]; [destruct IB |]. destruct IB as [-> | IB]; [| right; exact (IH IB)].
          left. destruct Hl as (il & dd & EI & DE & ->). cbn in *. injection EI as <-. destruct dd as [lo' hi' | mn mx n]; cbn in DE; [injection DE as <- <-; reflexivity | destruct DE as (l0 & [DE | DE] & _); discriminate DE]. }
        do 5 (apply in_or_app; right). apply in_or_app. left. exact IL.
      + intros n nodes N. rewrite (COV n nodes N). apply (SP k' bk IK).
  Qed.
End C93.

(** ** Concrete cases *)
(** An option of the converters is none of cfdinfo. *)
Example c93_unknown_case : unknown info_names "--scale".
Proof.
  apply unknown_simple.
  - split; [eexists; reflexivity|]. split; [|cbn; intros E; repeat destruct E as [E|E]; discriminate || contradiction].
    intros [H|[H|H]]; [apply H; eexists; reflexivity|discriminate|]. apply negative_number_iff in H. discriminate H.
  - intros (r & E). discriminate E.
  - cbn. intros E. repeat destruct E as [E|E]; discriminate || contradiction.
  - intros n Hn (r & E). cbn in Hn. repeat (destruct Hn as [<-|Hn]; [discriminate E|]). destruct Hn.
Qed.

Section Cases.
  Let ints (s : string) : option Z := match int10 s with Ok n => Some n | Err _ => None end.
  Let real (s : string) : res Z := n <- int10 s ;; Ok (n mod 2 ^ 64).
  Let add (a b : Z) : Z := (a + b) mod 2 ^ 64.
  Let mul (a b : Z) : Z := (a * b) mod 2 ^ 64.
  Let linspace (k : nat) : list Z := List.map Z.of_nat (seq 0 k).
  Let bytes (c : list (list string) + list Z) : list Z := match c with inl _ => [] | inr b => b end.
  Let text (c : list (list string) + list Z) : list (list string) := match c with inl t => t | inr _ => [] end.
  Let tree (c : list (list string) + list Z) : cgnode Z := leaf (PInts []).
  Let mean (l : list Z) : Z := zsum l / zlen l.
  Let convert := cfdwrite_ic3 bytes text tree (@inr (list (list string)) (list Z)) ints ints int10 real int10 add mul linspace 0 (nodup Z.eq_dec) ex_i2d ex_f2i Little (fun _ => Ok tt) (fun _ => (None, Ok tt)).
  Let info := info_command bytes text tree ints ints int10 real int10 0 (nodup Z.eq_dec) Z.leb mean.
  Let ic3brief := brief_command bytes text tree ints ints int10 real int10 0 (nodup Z.eq_dec).
  Let disk := [("chan.msh"%string, inl ex_half_chan); ("real.ic3"%string, inr real_step)] : files (list (list string) + list Z).
  Let after := snd (convert V3 ["chan.msh"; "--scale"; "3"; "2"; "1"]%string disk).
  Open Scope string_scope.
  (** The file converted, looked at with both commands; the Gmsh file itself, taken for an IC3 file, and a file that is not there. *)
  Example c93_run : info ["chan.ic3"; "--check"] after = Done
      ([Lnnode 6; Lcoord "x" 0 3 6; Lcoord "y" 0 1 2; Lcoord "z" 0 0 0; Lncell 2; Lnocell; Lnface 7; Lkind "mixed" ["bar2"]; Lelems "bar2" 7 (Some 2%nat) (Dlist 0 6 7);
        Lbocos ["wall"; "inlet"; "unmarked"; "internal-domain"]; Lmark "wall" (Some Gbdface) (Drange 0 1); Lmark "inlet" (Some Gbdface) (Drange 2 2);
        Lmark "unmarked" (Some Gbdface) (Drange 3 5); Lmark "internal-domain" (Some Gintface) (Drange 6 6); Lparams], Ok tt).
  Proof. vm_compute. reflexivity. Qed.
  Let listed (o : outcome (res (list header))) : outcome (res (list (string * Z))) :=
    match o with Done (Ok hs) => Done (Ok (List.map (fun h => (h_name h, h_id h)) hs)) | Done (Err e) => Done (Err e) | Exit n => Exit n | Stuck => Stuck end.
  Example c93_brief_run : listed (ic3brief ["--fmt=GMSH"; "chan.ic3"] after) =
      Done (Ok [("NO_FA_CV_NOOFA_COUNTS", 10); ("NOOFA_I_AND_V", 21); ("CVOFA", 22); ("wall", 23); ("inlet", 23); ("unmarked", 23); ("internal-domain", 23);
                ("CV_PART", 41); ("X_NO", 31); ("DATA", 50); ("STEP", 11); ("DT", 12); ("TIME", 12); ("EOF", 51)]) /\
    listed (ic3brief ["chan.vtu"] after) = Done (Err FileNotFoundError) /\ listed (ic3brief ["chan.ic3"; "--fmt"; "VTK"] after) = Exit 2.
  Proof. vm_compute. repeat split. Qed.
  (** What a failed command left, with a suffix that is kept and a format that is said. *)
  Example c93_failed_run : let left := snd (convert V3 ["real.ic3"] disk) in
    info ["real(1).ic3"] left = Done ([], Err TypeError) /\ info ["--check"; "real(1).ic3"; "--fmt"; "IC3"] left = Done ([], Err TypeError) /\
    info ["chan.msh"; "--fmt"; "CGNS"] left = Done ([], Err TypeError) /\ info ["chan"] left = Done ([], Err RuntimeError).
  Proof. vm_compute. repeat split. Qed.
  Close Scope string_scope.

  (** The hypotheses hold: the theorems apply to these commands. *)
  Lemma disk93_proper s c : dget String.eqb s disk = Some c -> proper bytes text tree c.
  Proof.
    intros G. apply (PyFacts.dget_in _ seqb_eq) in G.
    assert (N : node_ok (leaf (PInts [] : payload Z))) by (constructor; [intros p E; injection E as <-; exact I | intros k n []]).
    destruct G as [E | [E | []]]; injection E as _ <-; (split; [| split; [| exact N]]); try (apply bytes_ok; vm_compute; reflexivity); apply text_check; vm_compute; reflexivity.
  Qed.
  Lemma real_pattern w v : real w = Ok v -> pattern v.
  Proof. intros H. unfold real in H. apply bind_ok in H. destruct H as (n & _ & E). injection E as <-. apply mod_pattern. Qed.
  Lemma plain_word f : (exists c r, f = String c r /\ c <> "-"%char) -> CmdLineSpec.plain f.
  Proof. intros (c & r & -> & N). left. intros (x & E). cbn in E. congruence. Qed.
  Example c93_converted_case : exists hs fm, ic3brief (words [Fmt Joined "GMSH"] ++ "chan.ic3"%string :: words []) after = Done (Ok hs) /\
    List.map (fun h => (h_name h, h_id h)) hs = List.map (fun '(k, id) => (cut_name k, id)) (file_sections V3 fm).
  Proof.
    apply (C93_converted bytes text tree (@inr (list (list string)) (list Z)) ints ints int10 real int10 add mul linspace 0 (nodup Z.eq_dec) ex_i2d ex_f2i Little (fun _ => Ok tt) (fun _ => (None, Ok tt)))
      with (argv := ["chan.msh"; "--scale"; "3"; "2"; "1"]%string) (fs := disk) (name := "chan.ic3"%string).
    - intros n. apply mod_pattern.
    - exact real_pattern.
    - intros a b. apply mod_pattern.
    - intros a b. apply mod_pattern.
    - split; [lia | reflexivity].
    - reflexivity.
    - exact disk93_proper.
    - vm_compute. reflexivity.
    - constructor; [| constructor]. split; [split; [cbn; tauto | discriminate] | exact I].
    - constructor.
    - apply plain_word. exists "c"%char, "han.ic3"%string. split; [reflexivity | discriminate].
    - reflexivity.
  Qed.
  Example c93_failed_case : exists x, info (words [] ++ "real(1).ic3"%string :: words [Check]) (snd (convert V3 ["real.ic3"%string] disk)) = Done ([], Err x).
  Proof.
    destruct (convert V3 ["real.ic3"%string] disk) as (r, fs') eqn:R.
    assert (O : r = Done (Err OverflowError) /\ List.length fs' = 3%nat /\ nth 2 (List.map fst fs') ""%string = "real(1).ic3"%string).
    { assert (V : fst (convert V3 ["real.ic3"%string] disk) = Done (Err OverflowError) /\ List.length (snd (convert V3 ["real.ic3"%string] disk)) = 3%nat /\ nth 2 (List.map fst (snd (convert V3 ["real.ic3"%string] disk))) ""%string = "real(1).ic3"%string) by (vm_compute; repeat split). rewrite R in V. exact V. }
    destruct O as (-> & L & NM).
    destruct (C93_failed bytes text tree (@inr (list (list string)) (list Z)) ints ints int10 real int10 add mul linspace 0 (nodup Z.eq_dec) ex_i2d ex_f2i Little (fun _ => Ok tt) (fun _ => (None, Ok tt)) Z.leb mean)
      with (v := V3) (argv := ["real.ic3"%string]) (fs := disk) (e := OverflowError) (fs' := fs') as [-> | (name & c & _ & -> & RD)].
    - intros n. apply mod_pattern.
    - exact real_pattern.
    - intros a b. apply mod_pattern.
    - intros a b. apply mod_pattern.
    - split; [lia | reflexivity].
    - reflexivity.
    - exact disk93_proper.
    - exact R.
    - discriminate L.
    - cbn in NM. subst name. apply RD; [constructor | constructor; [split; exact I | constructor] | | reflexivity | right; split; [| reflexivity]].
      + apply plain_word. exists "r"%char, "eal(1).ic3"%string. split; [reflexivity | discriminate].
      + intros k t [E | []]. discriminate E.
  Qed.
  (** The channel, converted then looked at. *)
  Let convert10 := cfdwrite_ic3 bytes text tree (@inr (list (list string)) (list Z)) ints ints int10 int10 int10 add mul linspace 0 (nodup Z.eq_dec) ex_i2d ex_f2i Little (fun _ => Ok tt) (fun _ => (None, Ok tt)).
  Let info10 := info_command bytes text tree ints ints int10 int10 int10 0 (nodup Z.eq_dec) Z.leb mean.
  Let msh := [("chan.msh"%string, inl ex_half_chan)] : files (list (list string) + list Z).
  Example c93_gmsh_case : exists fs' ls, convert10 V3 (["chan.msh"; "--scale"; "3"; "2"; "1"]%string) msh = (Done (Ok "chan.ic3"%string), fs') /\
    info10 (["chan.ic3"%string]) fs' = Done (ls, Ok tt) /\ In (Lnnode 6) ls /\ exists lo hi, In (Lmark "wall" (Some Gbdface) (Drange lo hi)) ls.
  Proof.
    destruct (ex_chan_conforms [] (or_introl eq_refl)) as (GC & OK & TD). cbn [app] in *. destruct (c74_files ex_half_chan [] (or_introl (conj eq_refl eq_refl))) as (F1 & F2 & F3 & F4). rewrite app_nil_r in F4.
    destruct ex_in_place as (ID & SN).
    destruct (C93_gmsh bytes text tree (@inr (list (list string)) (list Z)) ints ints int10 int10 int10 add mul linspace 0 (nodup Z.eq_dec) ex_i2d ex_f2i Little (fun _ => Ok tt) (fun _ => (None, Ok tt)) Z.leb mean
      ltac:(intros n; apply Z.mod_pos_bound; lia) ltac:(intros; apply Z.mod_pos_bound; lia) ltac:(reflexivity) ex_set ltac:(intros a b; rewrite !Z.leb_le; lia) ltac:(intros a b c; rewrite !Z.leb_le; lia)
      V3 [] "chan.msh" [Scale "3" "2" "1"] msh (Path_ "" []) "chan.msh" "chan" ".msh" (inl ex_half_chan) (Some ex_chan_names) 6 ex_chan_elts 2
      (List.map (fun p => fst (fst p)) ex_chan_nodes) (List.map (fun p => snd (fst p)) ex_chan_nodes) (List.map snd ex_chan_nodes)) as (q & fs' & A & _ & B).
    - constructor.
    - constructor; [| constructor]. cbn. repeat split; try (left; intros (r & E); discriminate E); vm_compute; discriminate.
    - left. intros (r & E). discriminate E.
    - intros (l & i & E & _). destruct l; discriminate E.
    - exact ID.
    - exact SN.
    - right. split; reflexivity.
    - reflexivity.
    - reflexivity.
    - reflexivity.
    - apply (File2 int10 int10 int10 ex_half_chan 2 (Some ex_chan_names) ex_chan_nodes _ F1 ltac:(lia) F2 F3 F4).
    - exact OK.
    - exact TD.
    - lia.
    - exact GC.
    - exact c74_case.
    - vm_compute; reflexivity.
    - vm_compute; reflexivity.
    - vm_compute; reflexivity.
    - intros m L. vm_compute in L. injection L as <-. reflexivity.
    - repeat constructor; cbn; lia.
    - repeat constructor; cbn; lia.
    - repeat constructor; cbn; lia.
    - assert (Q : path_str q = "chan.ic3"%string).
      { assert (V : fst (convert10 V3 (["chan.msh"; "--scale"; "3"; "2"; "1"]%string) msh) = Done (Ok "chan.ic3"%string)) by (vm_compute; reflexivity). unfold convert10 in V. cbn [words flat_map render app] in A. rewrite A in V. cbn [fst] in V. congruence. }
      rewrite Q in A, B. destruct (B [] "chan.ic3"%string []) as (ls & lb & li & rb & ri & C1 & _ & N & _ & _ & _ & P).
      + constructor.
      + constructor.
      + apply plain_word. exists "c"%char, "han.ic3"%string. split; [reflexivity | discriminate].
      + reflexivity.
      + right. split; [intros k t [] | reflexivity].
      + exists fs', ls. split; [exact A |]. split; [exact C1 |]. split; [exact N |]. destruct (P "wall"%string) as (lo & hi & I & _); [| eauto]. split; [intros NM; vm_compute in NM; intuition discriminate |]. eexists. split; [left; reflexivity | vm_compute; reflexivity].
  Qed.
End Cases.

Print Assumptions C93_brief.
Print Assumptions C93_usage.
Print Assumptions C93_unknown.
Print Assumptions C93_info.
Print Assumptions C93_converted.
Print Assumptions C93_failed.
Print Assumptions C93_gmsh.
