(** * Property C96: vtkbrief as a whole program, alone and after a conversion to VTK. *)
From Coq Require Import ZArith List Bool String Lia.
From Verif Require Import Py PyFacts Elements IndexList Conn Mesh MeshSpec Files FilesSpec FilesProofs FilesProps Race Cli CliProps Ic3 Ic3FileProps Gmsh GmshSpec GroupFacts GmshProofs GmshProps GmshIc3Spec GmshIc3Props Cgns Simple SimpleSpec SimpleProofs Vtk VtkSpec VtkProofs VtkMeshProps VtkConvProps.
From Verif Require Import Whole WholeSpec WholeProofs VtkWhole VtkWholeSpec VtkWholeProofs VtkWholeProps VtkPack VtkPackProps InfoWholeSpec InfoWholeProofs CmdLine CmdLineSpec CmdLineProofs CmdLineProps PackWhole PackWholeProofs VtkBrief.
Local Open Scope Z_scope.

Definition vtk_readers : list string := ["IC3"; "GMSH"; "CGNS"]%string.

Section C96.
  Context {F V T : Type} (ints floats : string -> option Z) (bounds : list (list F) -> list F).
  Notation command := (vtkbrief (V := V) (T := T) ints floats bounds).
  Notation option_ok i := (CmdLineSpec.good ints floats vtk_readers i /\ info_item i).

  (** Whatever the options, the file is read by pyvista, even with --fmt and whatever its suffix; what is shown are its numbers
      of cells and points, their bounds and the names of its data. *)
  Theorem C96_brief before f after (fs : files (node F V T)) : Forall (fun i => option_ok i) before -> Forall (fun i => option_ok i) after -> CmdLineSpec.plain f ->
    (forall c cs, vtk_at fs f c -> grid_of (vc_grid c) cs ->
       exists field, command (words before ++ f :: words after) fs =
         Done (Ok (Brief (zlen cs) (zlen (g_points (vc_grid c))) (bounds (g_points (vc_grid c))) (List.map fst (vc_data c)) field)) /\
         (vc_time c = None -> field = []) /\ (forall t, vc_time c = Some t -> field = ["TimeValue"%string])) /\
    (dget String.eqb (path_str (path_of f)) fs = None -> command (words before ++ f :: words after) fs = Done (Err FileNotFoundError)) /\
    (forall e, dget String.eqb (path_str (path_of f)) fs = Some (NBad e) -> command (words before ++ f :: words after) fs = Done (Err e)).
  Proof.
    intros Gb Ga Pf. destruct (iparse_file ints floats vtk_readers (Some "VTK"%string) before f after Gb Ga Pf) as (ns & PA & AR).
    assert (R : command (words before ++ f :: words after) fs = Done (c <- pvread fs f ;; Ok (grid_brief bounds c))).
    { unfold vtkbrief. change (available_readers (registry_of cli_registrations)) with vtk_readers. rewrite PA. cbn [obind]. unfold iargs in AR.
      assert (AF := f_equal fst AR). assert (AM := f_equal (fun p => fst (snd p)) AR). cbn [fst snd] in AF, AM. rewrite AF.
      assert (FM : exists s, ar_fmt (args_of ns) = Some s /\ (s = "VTK"%string \/ In s vtk_readers)).
      { rewrite AM. destruct (effect_either (before ++ after)) as [N | (s & j & S & I)].
        - exists "VTK"%string. rewrite (effect_none _ N). split; [reflexivity | left; reflexivity].
        - exists s. rewrite (effect_format _ s S). split; [reflexivity |]. right. apply in_app_or in I. rewrite !Forall_forall in *. destruct I as [I | I]; [apply Gb in I | apply Ga in I]; apply I. }
      destruct FM as (s & -> & I). assert (E : exists t, parse_filenameformat (registry_of cli_registrations) (Some s) f = Ok t) by (destruct I as [-> | [<- | [<- | [<- | []]]]]; eexists; reflexivity).
      destruct E as (t & ->). reflexivity. }
    rewrite R. unfold pvread. split; [| split].
    - intros c cs A G. unfold vtk_at in A. rewrite A. cbn [bind]. unfold grid_brief, n_cells. rewrite (go_types _ _ G). unfold zlen at 1. rewrite map_length. eexists. split; [reflexivity |]. split; [intros -> | intros t ->]; reflexivity.
    - intros ->. reflexivity.
    - intros e ->. reflexivity.
  Qed.

  (** No file, or a format that is not one of the three that can be read, be it VTK: status 2.  The command always ends. *)
  Theorem C96_usage (fs : files (node F V T)) : command [] fs = Exit 2 /\ (forall argv, command argv fs <> Stuck) /\
    forall items j s rest, Forall (fun i => option_ok i) items -> (j = Apart -> CmdLineSpec.plain s) -> ~ In s ["IC3"; "GMSH"; "CGNS"]%string ->
      command (words items ++ pair j "--fmt" s ++ rest) fs = Exit 2.
  Proof.
    split; [reflexivity |]. split.
    - intros argv. unfold vtkbrief. destruct (parse_args _ _ _ _ argv) eqn:PA; cbn [obind]; try discriminate. now apply parse_unstuck in PA.
    - intros items j s rest G Hp N. unfold vtkbrief. change (available_readers (registry_of cli_registrations)) with vtk_readers. rewrite (iparse_bad ints floats vtk_readers (Some "VTK"%string) items j s rest G Hp N). reflexivity.
  Qed.
  (** A word that looks like an option and is none stops the command, wherever it is before '--'. *)
  Theorem C96_unknown (fs : files (node F V T)) before s after : unknown info_names s -> ~ In "--"%string before -> exists c, command (before ++ s :: after) fs = Exit c.
  Proof.
    intros U Hb. unfold vtkbrief. destruct (parse_args _ _ _ _ (before ++ s :: after)) as [ns|c|] eqn:E; [|now exists c|now apply parse_unstuck in E].
    now apply iparse_unknown in E.
  Qed.
End C96.

Section Converted.
  Context {C V T : Type} (bytes : C -> list Z) (text : C -> list (list string)) (tree : C -> cgnode Z) (of_bytes : list Z -> C) (save : grid (list Z) -> C).
  Context (ints floats : string -> option Z) (int_of float_of ver_of : string -> res Z).
  Context (fadd fmul fdiv : Z -> Z -> Z) (linspace : nat -> list Z) (unread : Z) (enum : list Z -> list Z).
  Context (i2d : Z -> Z) (f2i : Z -> res Z) (host : order) (shown : fmesh -> res unit) (bounds : list (list Z) -> list Z).
  (** Pyvista reads the grid that it saved. *)
  Context (seen : C -> node Z V T).
  Hypothesis saved : forall g, seen (save g) = NVtk (VtkC g [] None).
  Notation formats := (formats bytes text tree int_of float_of ver_of unread enum).
  Notation convert := (cfdwrite_vtk bytes text tree of_bytes save ints floats int_of float_of ver_of fadd fmul linspace unread enum i2d f2i host shown).
  Notation good := (CmdLineSpec.good ints floats (available_readers formats)).
  Notation means := (meaning ints floats).
  Notation loaded := (load 0 int_of float_of ver_of).
  Notation look := (vtkbrief (V := V) (T := T) ints floats bounds).
  Notation option_ok i := (CmdLineSpec.good ints floats vtk_readers i /\ info_item i).

  (** A Gmsh file, converted to VTK then looked at: the number of its elements of the highest dimension, the number of its nodes,
      the bounds of its coordinates, scaled if asked for, and no data. *)
  Theorem C96_gmsh before f after fs dir nm st sf ct names nnode elts d x y z :
    let a := means f (before ++ after) in let msh := text ct in let l := GmshSpec.of_dim d elts in
    Forall good before -> Forall good after -> CmdLineSpec.plain f -> ~ open_end before ->
    in_dir dir nm (path_of f) -> split_name nm st sf -> input_format a sf "GMSH" ".msh" -> ar_extrude a = 0 -> ar_info a = false ->
    dget String.eqb (path_str (path_of f)) fs = Some ct ->
    gmsh_file int_of float_of ver_of msh names nnode elts -> Forall felt_ok elts -> top_dim d elts -> 2 <= d <= 3 ->
    (forall e, In e (GmshSpec.of_dim (d - 1) elts) -> patch_name names (GmshSpec.of_dim (d - 1) elts) e <> None) ->
    (forall m, loaded (List.length msh) msh = Ok m -> nodescoord m = Ok (List.map Some x, List.map Some y, List.map Some z)) ->
    (forall e v, In e l -> In v (fe_nodes e) -> 1 <= v <= nnode) ->
    exists q fs', convert (words before ++ f :: words after) fs = (Done (Ok (path_str q)), fs') /\
      forall opts g opts', Forall (fun i => option_ok i) opts -> Forall (fun i => option_ok i) opts' -> CmdLineSpec.plain g -> path_str (path_of g) = path_str q ->
        look (words opts ++ g :: words opts') (view seen fs') = Done (Ok (Brief (zlen l) nnode (bounds (places fmul (ar_scale a) x y z)) [] [])).
  Proof using saved.
    clear fdiv. intros a msh l Gb Ga Pf Ho ID SN IFM X0 I0 DG Hfile Hok Ht Hd Hnm XYm V0.
    destruct (C91_gmsh bytes text tree of_bytes save ints floats int_of float_of ver_of fadd fmul linspace unread enum i2d f2i host shown before f after fs dir nm st sf ct names nnode elts d x y z Gb Ga Pf Ho ID SN IFM X0 I0 DG Hfile Hok Ht Hd Hnm XYm) as (CV & _).
    destruct (CV V0) as (q & g & E & _ & (cs & GO & VO & F2) & PT & NP). exists q, (fs ++ [(path_str q, save g)]). split; [exact E |]. intros opts w opts' Go Go' Pw Q.
    assert (FREE : dget String.eqb (path_str q) fs = None).
    { destruct (C91_safe bytes text tree of_bytes save ints floats int_of float_of ver_of fadd fmul linspace unread enum i2d f2i host shown _ _ _ _ E) as (A & _). destruct (A _ eq_refl) as (g' & A1 & _). exact A1. }
    assert (AT : vtk_at (view seen (fs ++ [(path_str q, save g)])) w (VtkC g [] None)).
    { unfold vtk_at. rewrite view_get, Q. replace (dget String.eqb (path_str q) (fs ++ [(path_str q, save g)])) with (Some (save g)); [cbn; now rewrite saved |].
      clear - FREE. induction fs as [| (k, v) fs IH]; cbn in *; [now rewrite String.eqb_refl |]. destruct (String.eqb _ _); [discriminate | auto]. }
    assert (LEN := two_length _ _ _ F2). unfold by_type in LEN. rewrite map_length, having_length in LEN.
    destruct (proj1 (C96_brief ints floats bounds opts w opts' _ Go Go' Pw) _ cs AT GO) as (fd & -> & FN & _). cbn [vc_grid vc_data vc_time List.map] in *. rewrite (FN eq_refl). unfold n_points in NP. rewrite NP, PT. unfold zlen. rewrite <- LEN. reflexivity.
  Qed.

  (** A cube. *)
  Theorem C96_cube before f after fs dir nm st nx ny nz :
    Forall (cgood ints (available_readers formats)) before -> Forall (cgood ints (available_readers formats)) after -> CmdLineSpec.plain f ->
    cmeaning ints (before ++ after) = (None, (nx, ny, nz)) -> in_dir dir nm (path_of f) -> split_name nm st ".vtu" -> 1 <= nx -> 1 <= ny -> 1 <= nz ->
    exists fs', cube_vtk bytes text tree of_bytes save ints floats int_of float_of ver_of fdiv unread enum i2d f2i host (cwords before ++ f :: cwords after) fs = (Done (Ok (path_str (path_of f))), fs') /\
      forall opts g opts', Forall (fun i => option_ok i) opts -> Forall (fun i => option_ok i) opts' -> CmdLineSpec.plain g -> path_str (path_of g) = path_str (path_of f) ->
        exists b, look (words opts ++ g :: words opts') (view seen fs') = Done (Ok (Brief (nx * ny * nz) ((nx + 1) * (ny + 1) * (nz + 1)) (bounds b) [] [])) /\
          forall p, in_box (nx + 1) (ny + 1) (nz + 1) p -> nth_error b (Z.to_nat (node_no ny nz p)) = Some [fdiv (pi p) nx; fdiv (pj p) ny; fdiv (pk p) nz].
  Proof using saved.
    clear fadd fmul linspace shown. intros Gb Ga Pf CME ID SN Hx Hy Hz.
    destruct (C91_cube bytes text tree of_bytes save ints floats int_of float_of ver_of fdiv unread enum i2d f2i host before f after fs dir nm st nx ny nz Gb Ga Pf CME ID SN Hx Hy Hz) as (g & cs & fs' & E & GET & _ & GO & L1 & L2 & CC & PP).
    exists fs'. split; [exact E |]. intros opts w opts' Go Go' Pw Q.
    assert (AT : vtk_at (view seen fs') w (VtkC g [] None)) by (unfold vtk_at; rewrite view_get, Q, GET; cbn; now rewrite saved).
    destruct (proj1 (C96_brief ints floats bounds opts w opts' _ Go Go' Pw) _ cs AT GO) as (fd & -> & FN & _). cbn [vc_grid vc_data vc_time List.map] in *. exists (g_points g). split; [| exact PP].
    rewrite (FN eq_refl), L1. fold (n_points g). rewrite L2. reflexivity.
  Qed.
End Converted.

Print Assumptions C96_brief.
Print Assumptions C96_usage.
Print Assumptions C96_unknown.
Print Assumptions C96_gmsh.
Print Assumptions C96_cube.

(** ** Cases: the bounds along x are the first and the last of the first coordinates. *)
Section Cases.
  Let content : Type := (list (list string) + list Z) + grid (list Z).
  Let ints (s : string) : option Z := match int10 s with Ok n => Some n | Err _ => None end.
  Let div (a b : Z) : Z := a * 100 + b.
  Let linspace (k : nat) : list Z := List.map Z.of_nat (seq 0 k).
  Let bytes (c : content) : list Z := match c with inl (inr b) => b | _ => [] end.
  Let text (c : content) : list (list string) := match c with inl (inl t) => t | _ => [] end.
  Let tree (c : content) : cgnode Z := CG "Root" None [].
  Let of_bytes (b : list Z) : content := inl (inr b).
  Let save (g : grid (list Z)) : content := inr g.
  Let seen (c : content) : node Z Z Z := match c with inr g => NVtk (VtkC g [] None) | _ => NBad ValueError end.
  Let run := cfdwrite_vtk bytes text tree of_bytes save ints ints int10 int10 int10 Z.add Z.mul linspace 0 (nodup Z.eq_dec) ex_i2d ex_f2i Little (fun _ => Ok tt).
  Let cube := cube_vtk bytes text tree of_bytes save ints ints int10 int10 int10 div 0 (nodup Z.eq_dec) ex_i2d ex_f2i Little.
  Let ends (p : list (list Z)) : list Z := [List.hd 0 (List.hd [] p); List.hd 0 (List.last p [])].
  Let look := vtkbrief (V := Z) (T := Z) ints ints ends.
  Let msh := [("tri.msh", inl (inl ex_v2))]%string : files content.
  Open Scope string_scope.
  Example c96_run : look ["--fmt=IC3"; "tri.vtu"; "--check"] (view seen (snd (run ["--scale"; "3"; "1"; "1"; "--"; "tri.msh"] msh))) = Done (Ok (Brief 3 5 [0; 6] [] [])) /\
    look ["c.vtu"] (view seen (snd (cube ["--nx"; "2"; "--ny=1"; "--nz"; "1"; "c.vtu"] msh))) = Done (Ok (Brief 2 12 [2; 202] [] [])) /\
    look ["tri.msh"] (view seen msh) = Done (Err ValueError) /\ look ["d.vtu"] (view seen msh) = Done (Err FileNotFoundError) /\
    look ["--fmt"; "VTK"; "tri.vtu"] (view seen msh) = Exit 2 /\ look ["-h"] (view seen msh) = Exit 0.
  Proof. vm_compute. repeat split. Qed.
  Example c96_data : look ["a.vtu"] [("a.vtu", NVtk file1)] = Done (Ok (Brief 2 5 [0; 20] ["rho"] ["TimeValue"])).
  Proof. reflexivity. Qed.
  Close Scope string_scope.

  (** The hypotheses hold: the theorem applies to two commands. *)
  Example c96_case : exists q fs', run ["tri.msh"%string] msh = (Done (Ok (path_str q)), fs') /\
    look ["--check"%string; "tri.vtu"%string] (view seen fs') = Done (Ok (Brief 3 5 [0; 2] [] [])).
  Proof.
    assert (S := name_split_ok "tri.msh"%string). vm_compute in S.
    destruct (C96_gmsh bytes text tree of_bytes save ints ints int10 int10 int10 Z.add Z.mul linspace 0 (nodup Z.eq_dec) ex_i2d ex_f2i Little (fun _ => Ok tt)
      ends seen (fun g => eq_refl) [] "tri.msh" [] msh (Path_ "" []) "tri.msh" "tri" ".msh"
      (inl (inl ex_v2)) (Some ex_names) 5 ex_elts 2 [0; 1; 1; 0; 2] [0; 0; 1; 1; 0] [0; 0; 0; 0; 0]) as (q & fs' & A & B).
    - constructor.
    - constructor.
    - left. intros (r & E). discriminate E.
    - intros (l & i & E & _). destruct l; discriminate E.
    - split; reflexivity.
    - exact S.
    - right. split; reflexivity.
    - reflexivity.
    - reflexivity.
    - reflexivity.
    - exact ex_v2_is_a_file.
    - exact (proj1 ex_elts_ok).
    - exact (proj1 (proj2 ex_elts_ok)).
    - lia.
    - intros e I. cbn in I. repeat (destruct I as [<- | I]; [vm_compute; discriminate |]). destruct I.
    - intros m H. vm_compute in H. injection H as <-. reflexivity.
    - intros e v I J. cbn in I. repeat (destruct I as [<- | I]; [cbn in J; lia |]). destruct I.
    - exists q, fs'. split; [exact A |]. assert (Q : path_str q = "tri.vtu"%string) by (apply (f_equal fst) in A; change (fst (run ["tri.msh"%string] msh) = Done (Ok (path_str q))) in A; assert (R : fst (run ["tri.msh"%string] msh) = Done (Ok "tri.vtu"%string)) by (vm_compute; reflexivity); rewrite R in A; congruence).
      apply (B [Check] "tri.vtu"%string []).
      + constructor; [| constructor]. split; exact I.
      + constructor.
      + left. intros (r & E). discriminate E.
      + rewrite Q. reflexivity.
  Qed.
End Cases.
