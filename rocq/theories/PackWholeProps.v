(** * Property C95: vtkpack as a whole program, alone and after a conversion to VTK. *)
From Coq Require Import ZArith List Bool String Lia Permutation.
From Verif Require Import Py PyFacts Elements IndexList Conn Mesh MeshSpec Files FilesSpec FilesProofs FilesProps Race Cli CliProps Ic3 Ic3FileProps Gmsh GmshSpec GroupFacts GmshProofs GmshProps GmshIc3Spec GmshIc3Props Cgns Simple SimpleSpec SimpleProofs Vtk VtkSpec VtkProofs VtkMeshProps VtkConvProps.
From Verif Require Import Whole WholeSpec WholeProofs VtkWhole VtkWholeSpec VtkWholeProofs VtkWholeProps VtkList VtkListProps Hdf5 Hdf5Spec Hdf5Proofs Hdf5Props VtkPack VtkPackProps CmdLine CmdLineSpec CmdLineProofs CmdLineProps PackWhole PackWholeSpec PackWholeProofs.
Local Open Scope Z_scope.

Section C95.
  Context {F P D V T : Type} (mdist kdist : P -> P -> D) (dle : D -> D -> bool)
          (nearest : list P -> P -> Z) (truth : T -> bool) (tol : D) (centers : grid (list F) -> list P).
  Context (ints floats : string -> option Z).
  Hypothesis dle_total : forall a b, dle a b = true \/ dle b a = true.
  Hypothesis dle_trans : forall a b c, dle a b = true -> dle b c = true -> dle a c = true.
  Hypothesis nearest_ok : forall ref p, ref <> [] ->
    0 <= nearest ref p /\ exists q, nth_error ref (Z.to_nat (nearest ref p)) = Some q /\ forall q', In q' ref -> dle (kdist q p) (kdist q' p) = true.
  Notation command := (pack_command (V := V) mdist kdist dle nearest truth tol centers ints floats).
  Notation fsys := (files (node F V T)).

  (** Whatever the words, no file is changed and at most one is added: dumped.h5 or the first free numbered name.  The name
      given back is that of the file added; a command line that is not understood adds nothing. *)
  Theorem C95_safe ver argv (fs : fsys) r fs' : command ver argv fs = (r, fs') -> r <> Stuck /\
    ((fs' = fs /\ (exists e, r = Done (Err e) \/ exists c, r = Exit c)) \/
     exists name x, ~ In name (dkeys fs) /\ fs' = dset String.eqb name x fs /\
       ((exists h, x = NH5 h /\ r = Done (Ok name)) \/ (x = NPartial /\ exists e, r = Done (Err e))) /\
       (name = "dumped.h5"%string \/
        exists n, (1 <= n)%nat /\ name = ("dumped" ++ "(" ++ numeral n ++ ")" ++ ".h5")%string /\ In "dumped.h5"%string (dkeys fs) /\
          forall k, (1 <= k < n)%nat -> In ("dumped" ++ "(" ++ numeral k ++ ")" ++ ".h5")%string (dkeys fs))).
  Proof using.
    clear. unfold pack_command. destruct (pack_files ints floats argv) as [names | c |] eqn:PF.
    - destruct (vtkpack _ _ _ _ _ _ _ _ _ _ _) as (x, fs1) eqn:E. intros H. injection H as <- <-. split; [discriminate |].
      destruct (C83_safe mdist kdist dle nearest truth tol centers _ _ _ _ _ _ (le_n _) E) as [(-> & e & ->) | (name & y & A & B & [(h & -> & ->) | (-> & e & ->)] & N)].
      + left. split; [reflexivity |]. exists e. left. reflexivity.
      + right. exists name, (NH5 h). split; [exact A |]. split; [exact B |]. split; [left; exists h; split; reflexivity | exact N].
      + right. exists name, NPartial. split; [exact A |]. split; [exact B |]. split; [right; split; [reflexivity | exists e; reflexivity] | exact N].
    - intros H. injection H as <- <-. split; [discriminate |]. left. split; [reflexivity |]. exists ValueError. right. exists c. reflexivity.
    - exfalso. unfold pack_files in PF. destruct (parse_args _ _ _ _ argv) eqn:PA; cbn [obind] in PF; try discriminate. now apply parse_unstuck in PA.
  Qed.

  (** Without a file: status 2.  With a file that does not exist, first or last: RuntimeError.  Nothing is written. *)
  Theorem C95_missing ver (fs : fsys) : command ver [] fs = (Exit 2, fs) /\
    forall names argv nm, naming names argv -> In nm names -> ~ In (path_str (path_of nm)) (dkeys fs) -> command ver argv fs = (Done (Err RuntimeError), fs).
  Proof using.
    clear. split; [reflexivity |]. intros names argv nm N I NI. unfold pack_command. rewrite (naming_parse ints floats _ _ N), (C83_missing mdist kdist dle nearest truth tol centers _ ver names fs nm I NI). reflexivity.
  Qed.

  (** The files are packed in the order of the words: the mesh of the first; step [k] is file [k], its arrays in the order
      of the cells of the first. *)
  Theorem C95_packed ver n0 names argv (fs : fsys) c0 cs : naming (n0 :: names) argv ->
    vtk_at fs n0 c0 -> centers (vc_grid c0) <> [] ->
    grid_of (vc_grid c0) cs -> Forall known_cell cs -> vertices_ok (vc_grid c0) cs -> cs <> [] ->
    Forall (fun p => List.length p = 3%nat) (g_points (vc_grid c0)) ->
    (forall n, In n (n0 :: names) -> exists c, vtk_at fs n c /\ matching kdist dle tol centers (centers (vc_grid c0)) c) ->
    exists name h, command ver argv fs = (Done (Ok name), dset String.eqb name (NH5 h) fs) /\ ~ In name (dkeys fs) /\
      (exists g', importhdfgroup h ["mesh"%string] = Ok g' /\ grid_of g' (by_types imported_order cs) /\ g_points g' = g_points (vc_grid c0)) /\
      forall k nm c, nth_error (n0 :: names) k = Some nm -> vtk_at fs nm c ->
        forall n data, In (n, data) (vc_data c) -> n <> "time"%string ->
          exists arr, h5_get h ("/datalist/" ++ step_name k ++ "/" ++ n) = Some (CVar (Var [zlen arr] (HArr arr))) /\ Permutation arr data /\
            forall j q v, nth_error (centers (vc_grid c0)) j = Some q -> nth_error arr j = Some v ->
              exists i p, nth_error (centers (vc_grid c)) i = Some p /\ nth_error data i = Some v /\ (dle (mdist q p) tol = true \/ dle (kdist q p) tol = true).
  Proof using dle_total dle_trans nearest_ok.
    intros N H0 Hne Hg Hk Hv Hcs Hp Hall. destruct (C83_packed mdist kdist dle nearest truth tol centers dle_total dle_trans nearest_ok _ ver n0 names fs c0 cs (le_n _) H0 Hne Hg Hk Hv Hcs Hp Hall) as (name & h & E & A & _ & B & K).
    exists name, h. unfold pack_command. rewrite (naming_parse ints floats _ _ N), E. split; [reflexivity |]. split; [exact A |]. split; [exact B |]. intros k nm c Q W. exact (proj1 (K k nm c Q W)).
  Qed.

  (** Two files whose numbers of cells differ (neither being 1): ValueError, and nothing is written. *)
  Theorem C95_counts ver n0 n1 rest argv (fs : fsys) c0 c1 : (forall p, dle (mdist p p) tol = true) -> naming (n0 :: n1 :: rest) argv ->
    (forall n, In n rest -> In (path_str (path_of n)) (dkeys fs)) ->
    vtk_at fs n0 c0 -> vtk_at fs n1 c1 -> vc_data c0 = [] -> zlen (centers (vc_grid c0)) <> zlen (centers (vc_grid c1)) -> zlen (centers (vc_grid c0)) > 1 -> zlen (centers (vc_grid c1)) <> 1 ->
    command ver argv fs = (Done (Err ValueError), fs).
  Proof using.
    clear. intros S N IN H0 H1 D0 NE G0 G1. unfold pack_command. rewrite (naming_parse ints floats _ _ N). unfold vtkpack.
    rewrite allexist_ok by (intros nm [<- | [<- | I]]; [exact (vtk_at_in _ _ _ H0) | exact (vtk_at_in _ _ _ H1) | auto]). unfold pack_read.
    replace (pvread fs n0) with (@Ok (vtkc F V T) c0) by (unfold pvread; rewrite H0; reflexivity). cbn [bind mapM].
    replace (pvread fs n0) with (@Ok (vtkc F V T) c0) by (unfold pvread; rewrite H0; reflexivity). replace (pvread fs n1) with (@Ok (vtkc F V T) c1) by (unfold pvread; rewrite H1; reflexivity). cbn [bind].
    assert (R0 : exists dl, read_file mdist kdist dle nearest truth (centers (vc_grid c0)) [] tol (vfile_of (V := V) centers c0) = Ok dl).
    { destruct (max_self mdist dle tol S (centers (vc_grid c0))) as (d & E1 & E2 & E3); [intros E; rewrite E in G0; cbn in G0; lia |]. unfold read_file. cbn [v_centers v_data v_time vfile_of]. rewrite D0. cbn [dkeys List.map]. rewrite E1. cbn [bind]. rewrite E2. cbn [bind]. rewrite E3. cbn [pick foldM bind]. eauto. }
    destruct R0 as (dl & ->). cbn [bind]. rewrite (C61_counts mdist kdist dle nearest truth); [reflexivity | | |]; cbn [v_centers vfile_of]; [congruence | exact G1 | lia].
  Qed.
End C95.

(** ** After a conversion to VTK *)
Section Converted.
  Context {C P D V T : Type} (bytes : C -> list Z) (text : C -> list (list string)) (tree : C -> cgnode Z) (of_bytes : list Z -> C) (save : grid (list Z) -> C).
  Context (ints floats : string -> option Z) (int_of float_of ver_of : string -> res Z).
  Context (fadd fmul fdiv : Z -> Z -> Z) (linspace : nat -> list Z) (unread : Z) (enum : list Z -> list Z).
  Context (i2d : Z -> Z) (f2i : Z -> res Z) (host : order) (shown : fmesh -> res unit).
  Context (mdist kdist : P -> P -> D) (dle : D -> D -> bool) (nearest : list P -> P -> Z) (truth : T -> bool) (tol : D) (centers : grid (list Z) -> list P).
  Hypothesis near_self : forall p, dle (mdist p p) tol = true.
  (** One centre per cell, and pyvista reads the grid that it saved. *)
  Hypothesis counted : forall g cs, grid_of g cs -> List.length (centers g) = List.length cs.
  Context (seen : C -> node Z V T).
  Hypothesis saved : forall g, seen (save g) = NVtk (VtkC g [] None).
  Notation formats := (formats bytes text tree int_of float_of ver_of unread enum).
  Notation convert := (cfdwrite_vtk bytes text tree of_bytes save ints floats int_of float_of ver_of fadd fmul linspace unread enum i2d f2i host shown).
  Notation good := (CmdLineSpec.good ints floats (available_readers formats)).
  Notation means := (meaning ints floats).
  Notation loaded := (load 0 int_of float_of ver_of).
  Notation pack := (pack_command (V := V) mdist kdist dle nearest truth tol centers ints floats).

  (** A Gmsh file, converted to VTK then packed: the HDF5 file has, type by type, the elements of the Gmsh file in its order,
      on its nodes, scaled if asked for. *)
  Theorem C95_gmsh before f after fs dir nm st sf ct names nnode elts d x y z :
    let a := means f (before ++ after) in let msh := text ct in let l := GmshSpec.of_dim d elts in
    Forall good before -> Forall good after -> CmdLineSpec.plain f -> ~ open_end before ->
    in_dir dir nm (path_of f) -> split_name nm st sf -> input_format a sf "GMSH" ".msh" -> ar_extrude a = 0 -> ar_info a = false ->
    dget String.eqb (path_str (path_of f)) fs = Some ct ->
    gmsh_file int_of float_of ver_of msh names nnode elts -> Forall felt_ok elts -> top_dim d elts -> 2 <= d <= 3 ->
    (forall e, In e (GmshSpec.of_dim (d - 1) elts) -> patch_name names (GmshSpec.of_dim (d - 1) elts) e <> None) ->
    (forall m, loaded (List.length msh) msh = Ok m -> nodescoord m = Ok (List.map Some x, List.map Some y, List.map Some z)) ->
    (forall e v, In e l -> In v (fe_nodes e) -> 1 <= v <= nnode) ->
    exists q fs', convert (words before ++ f :: words after) fs = (Done (Ok (path_str q)), fs') /\
      forall ver files argv, naming files argv -> (forall n, In n files -> path_str (path_of n) = path_str q) ->
        exists name h g cs, pack ver argv (view seen fs') = (Done (Ok name), dset String.eqb name (NH5 h) (view seen fs')) /\ ~ In name (dkeys fs') /\
          importhdfgroup h ["mesh"%string] = Ok g /\ grid_of g cs /\ holds_elements cs l /\ g_points g = places fmul (ar_scale a) x y z.
  Proof using near_self counted saved.
    clear fdiv. intros a msh l Gb Ga Pf Ho ID SN IFM X0 I0 DG Hfile Hok Ht Hd Hnm XYm V0.
    destruct (C91_gmsh bytes text tree of_bytes save ints floats int_of float_of ver_of fadd fmul linspace unread enum i2d f2i host shown before f after fs dir nm st sf ct names nnode elts d x y z Gb Ga Pf Ho ID SN IFM X0 I0 DG Hfile Hok Ht Hd Hnm XYm) as (CV & _).
    destruct (CV V0) as (q & g & E & _ & (cs & GO & VO & F2) & PT & NP). exists q, (fs ++ [(path_str q, save g)]). split; [exact E |]. intros ver nms argv N QS.
    assert (FREE : dget String.eqb (path_str q) fs = None).
    { destruct (C91_safe bytes text tree of_bytes save ints floats int_of float_of ver_of fadd fmul linspace unread enum i2d f2i host shown _ _ _ _ E) as (A & _). destruct (A _ eq_refl) as (g' & A1 & _). exact A1. }
    assert (AT : forall n, In n nms -> vtk_at (view seen (fs ++ [(path_str q, save g)])) n (VtkC g [] None)).
    { intros n I. unfold vtk_at. rewrite view_get, (QS n I). replace (dget String.eqb (path_str q) (fs ++ [(path_str q, save g)])) with (Some (save g)); [cbn; now rewrite saved |].
      clear - FREE. induction fs as [| (k, v) fs IH]; cbn in *; [now rewrite String.eqb_refl |]. destruct (String.eqb _ _); [discriminate | auto]. }
    assert (L1 : l <> []). { destruct Ht as ((e & I & De) & _). intros L0. assert (I' : In e l) by (apply filter_In; split; [exact I | lia]). rewrite L0 in I'. destruct I'. }
    assert (LEN := two_length _ _ _ F2). unfold by_type in LEN. rewrite map_length, having_length in LEN.
    assert (CS : cs <> []) by (intros X; rewrite X in LEN; apply length_zero_iff_nil in LEN; exact (L1 LEN)).
    assert (CN : centers g <> []) by (intros X; assert (Q := counted g cs GO); rewrite X in Q; destruct cs; [congruence | discriminate Q]).
    destruct (pack_same mdist kdist dle nearest truth tol centers near_self ver nms _ g cs (proj1 N) AT CN GO (gmsh_known l cs (GmshProofs.of_dim_ok _ _ Hok) F2) VO CS ltac:(rewrite PT; apply places_three)) as (name & h & g' & cs' & PK & NI & _ & IM & GO' & PT' & _ & FI).
    exists name, h, g', cs'. unfold pack_command. rewrite (naming_parse ints floats _ _ N), PK. split; [reflexivity |]. rewrite view_keys in NI. split; [exact NI |]. split; [exact IM |]. split; [exact GO' |]. split; [exact (gmsh_held l cs cs' F2 FI) | rewrite PT'; exact PT].
  Qed.

  (** A cube: the cells of the HDF5 file are those of the cube, in the same order. *)
  Theorem C95_cube before f after fs dir nm st nx ny nz :
    Forall (cgood ints (available_readers formats)) before -> Forall (cgood ints (available_readers formats)) after -> CmdLineSpec.plain f ->
    cmeaning ints (before ++ after) = (None, (nx, ny, nz)) -> in_dir dir nm (path_of f) -> split_name nm st ".vtu" -> 1 <= nx -> 1 <= ny -> 1 <= nz ->
    exists fs', cube_vtk bytes text tree of_bytes save ints floats int_of float_of ver_of fdiv unread enum i2d f2i host (cwords before ++ f :: cwords after) fs = (Done (Ok (path_str (path_of f))), fs') /\
      forall ver files argv, naming files argv -> (forall n, In n files -> path_str (path_of n) = path_str (path_of f)) ->
        exists name h g cs, pack ver argv (view seen fs') = (Done (Ok name), dset String.eqb name (NH5 h) (view seen fs')) /\ ~ In name (dkeys fs') /\
          importhdfgroup h ["mesh"%string] = Ok g /\ grid_of g cs /\ zlen cs = nx * ny * nz /\
          (forall p, cell_ok nx ny nz p -> nth_error cs (Z.to_nat (cell_no ny nz p)) = Some (12, hexa ny nz p)) /\
          forall p, in_box (nx + 1) (ny + 1) (nz + 1) p -> nth_error (g_points g) (Z.to_nat (node_no ny nz p)) = Some [fdiv (pi p) nx; fdiv (pj p) ny; fdiv (pk p) nz].
  Proof using near_self counted saved.
    clear fadd fmul linspace shown. intros Gb Ga Pf CME ID SN Hx Hy Hz.
    destruct (C91_cube bytes text tree of_bytes save ints floats int_of float_of ver_of fdiv unread enum i2d f2i host before f after fs dir nm st nx ny nz Gb Ga Pf CME ID SN Hx Hy Hz) as (g & cs & fs' & E & GET & _ & GO & L1 & L2 & CC & PP).
    exists fs'. split; [exact E |]. intros ver nms argv N QS.
    assert (AT : forall n, In n nms -> vtk_at (view seen fs') n (VtkC g [] None)) by (intros n I; unfold vtk_at; rewrite view_get, (QS n I), GET; cbn; now rewrite saved).
    assert (ALL : forall c, In c cs -> exists p, cell_ok nx ny nz p /\ c = (12, hexa ny nz p)).
    { intros c I. apply In_nth_error in I. destruct I as (n & I). assert (Hn : (n < List.length cs)%nat) by (apply nth_error_Some; congruence).
      destruct (rank3_onto nx ny nz (Z.of_nat n)) as (p & Hp & Q); [unfold zlen in L1; lia | lia | lia |]. exists p. split; [exact Hp |].
      specialize (CC p Hp). unfold cell_no in CC. rewrite Q, Nat2Z.id, I in CC. now injection CC. }
    assert (CS : cs <> []) by (intros ->; cbn in L1; nia).
    assert (CN : centers g <> []) by (intros X; assert (Q := counted g cs GO); rewrite X in Q; destruct cs; [congruence | discriminate Q]).
    assert (KN : Forall known_cell cs) by (apply Forall_forall; intros c I; destruct (ALL c I) as ([i j k] & _ & ->); exists "hexa8"%string; split; [cbn; tauto | reflexivity]).
    assert (VO : vertices_ok g cs).
    { intros c v I J. destruct (ALL c I) as (p & Hp & ->). fold (n_points g). rewrite L2. eapply (fun H => proj2 H v J). eapply (hexa_valid nx ny nz); eassumption. }
    assert (P3 : Forall (fun p => List.length p = 3%nat) (g_points g)).
    { apply Forall_forall. intros w I. apply In_nth_error in I. destruct I as (n & I). assert (Hn : (n < List.length (g_points g))%nat) by (apply nth_error_Some; congruence).
      destruct (rank3_onto (nx + 1) (ny + 1) (nz + 1) (Z.of_nat n)) as (p & Hp & Q); [unfold n_points, zlen in L2; lia | lia | lia |].
      specialize (PP p Hp). unfold node_no in PP. rewrite Q, Nat2Z.id, I in PP. now injection PP as ->. }
    destruct (pack_same mdist kdist dle nearest truth tol centers near_self ver nms _ g cs (proj1 N) AT CN GO KN VO CS P3) as (name & h & g' & cs' & PK & NI & _ & IM & GO' & PT' & BT & _).
    assert (SAME : cs' = cs).
    { rewrite BT. apply (one_type_same cs 12); [cbn; tauto | intros c I; destruct (ALL c I) as (p & _ & ->); reflexivity]. }
    subst cs'. rewrite SAME in GO'. exists name, h, g', cs. unfold pack_command. rewrite (naming_parse ints floats _ _ N), PK. split; [reflexivity |]. rewrite view_keys in NI. rewrite PT'. auto 10.
  Qed.
End Converted.

Print Assumptions C95_safe.
Print Assumptions C95_missing.
Print Assumptions C95_packed.
Print Assumptions C95_counts.
Print Assumptions C95_gmsh.
Print Assumptions C95_cube.

(** ** Cases: the place of a cell is the sum of the first coordinates of its vertices. *)
Section Cases.
  Let content : Type := (list (list string) + list Z) + grid (list Z).
  Let ints (s : string) : option Z := match int10 s with Ok n => Some n | Err _ => None end.
  Let div (a b : Z) : Z := a * 100 + b.
  Let linspace (k : nat) : list Z := List.map Z.of_nat (seq 0 k).
  Let bytes (c : content) : list Z := match c with inl (inr b) => b | _ => [] end.
  Let text (c : content) : list (list string) := match c with inl (inl t) => t | _ => [] end.
  Let tree (c : content) : cgnode Z := CG "Root" None [].
  Let of_bytes (b : list Z) : content := inl (inr b).
  Let save (g : grid (list Z)) : content := inr g.
  Let seen (c : content) : node Z Z Z := match c with inr g => NVtk (VtkC g [] None) | _ => NBad ValueError end.
  Let run := cfdwrite_vtk bytes text tree of_bytes save ints ints int10 int10 int10 Z.add Z.mul linspace 0 (nodup Z.eq_dec) ex_i2d ex_f2i Little (fun _ => Ok tt).
  Let cube := cube_vtk bytes text tree of_bytes save ints ints int10 int10 int10 div 0 (nodup Z.eq_dec) ex_i2d ex_f2i Little.
  Let zd (a b : Z) : Z := Z.abs (a - b).
  Let packz := pack_command (V := Z) (T := Z) zd zd Z.leb znear (fun t => negb (Z.eqb t 0)) 3 ctrs ints ints.
  Let msh := [("tri.msh", inl (inl ex_v2)); ("dumped.h5", inl (inr []))]%string : files content.
  (** What is in the file added: types, vertices and points of the mesh, names below /datalist. *)
  Let added (o : outcome (res string) * files (node Z Z Z)) :=
    (fst o, match List.rev (snd o) with (k, NH5 h) :: _ => Some (k, match importhdfgroup h ["mesh"%string] with Ok g => Some (g_types g, g_cells g, g_points g) | Err _ => None end) | _ => None end).
  Open Scope string_scope.
  (** Two triangles around a quadrangle, in the Gmsh file; type by type in the VTK file and in the HDF5 file. *)
  Example c95_run : added (packz "0.6" ["tri.vtu"; "tri.vtu"] (view seen (snd (run ["tri.msh"] msh)))) =
    (Done (Ok "dumped(1).h5"), Some ("dumped(1).h5", Some ([9; 5; 5], [4; 0; 1; 2; 3; 3; 1; 4; 2; 3; 4; 2; 1], [[0; 0; 0]; [1; 0; 0]; [1; 1; 0]; [0; 1; 0]; [2; 0; 0]]))).
  Proof. vm_compute. reflexivity. Qed.
  (** A cube, after "--"; no file, a missing one, a file of another kind, two files of different numbers of cells. *)
  Example c95_other :
    (let '(r, x) := added (packz "0.6" ["--"; "c.vtu"] (view seen (snd (cube ["--nx"; "2"; "--ny=1"; "--nz"; "1"; "c.vtu"] msh)))) in (r, option_map (fun '(k, g) => (k, option_map (fun '(t, c, p) => (t, zlen p)) g)) x)) =
      (Done (Ok "dumped(1).h5"), Some ("dumped(1).h5", Some ([12; 12], 12))) /\
    (let fs := view seen (snd (cube ["--nx"; "2"; "--ny=1"; "--nz"; "1"; "c.vtu"] (snd (run ["tri.msh"] msh)))) in
      packz "0.6" [] fs = (Exit 2, fs) /\ packz "0.6" ["c.vtu"; "d.vtu"] fs = (Done (Err RuntimeError), fs) /\ packz "0.6" ["tri.msh"] fs = (Done (Err ValueError), fs) /\
      packz "0.6" ["--check"; "c.vtu"] fs = (Exit 2, fs) /\ packz "0.6" ["-h"; "d.vtu"] fs = (Exit 0, fs) /\ packz "0.6" ["tri.vtu"; "c.vtu"] fs = (Done (Err ValueError), fs)).
  Proof. vm_compute. repeat split. Qed.
  Close Scope string_scope.

  (** The hypotheses hold: the theorem applies to these two commands. *)
  Example c95_case : exists q fs', run ["tri.msh"%string] msh = (Done (Ok (path_str q)), fs') /\
    exists name h g cs, packz "0.6" ["tri.vtu"%string; "tri.vtu"%string] (view seen fs') = (Done (Ok name), dset String.eqb name (NH5 h) (view seen fs')) /\
      importhdfgroup h ["mesh"%string] = Ok g /\ grid_of g cs /\ holds_elements cs (GmshSpec.of_dim 2 ex_elts).
  Proof.
    assert (S := name_split_ok "tri.msh"%string). vm_compute in S.
    assert (SELF : forall p, Z.leb (zd p p) 3 = true) by (intros p; unfold zd; rewrite Z.sub_diag; reflexivity).
    assert (CNT : forall g cs, grid_of g cs -> List.length (ctrs g) = List.length cs) by (intros g cs G; rewrite (ctrs_ok g cs G); apply map_length).
    destruct (C95_gmsh bytes text tree of_bytes save ints ints int10 int10 int10 Z.add Z.mul linspace 0 (nodup Z.eq_dec) ex_i2d ex_f2i Little (fun _ => Ok tt)
      zd zd Z.leb znear (fun t => negb (Z.eqb t 0)) 3 ctrs SELF CNT seen (fun g => eq_refl) [] "tri.msh" [] msh (Path_ "" []) "tri.msh" "tri" ".msh"
      (inl (inl ex_v2)) (Some ex_names) 5 ex_elts 2 [0; 1; 1; 0; 2] [0; 0; 1; 1; 0] [0; 0; 0; 0; 0]) as (q & fs' & A & B).
    - constructor.
    - constructor.
    - left. intros (r & E). discriminate E.
    - intros (l & i & E & _). destruct l; discriminate E.
    - split; reflexivity.
    - exact S.
    - right. split; reflexivity.
    - reflexivity.
    - reflexivity.
    - reflexivity.
    - exact ex_v2_is_a_file.
    - exact (proj1 ex_elts_ok).
    - exact (proj1 (proj2 ex_elts_ok)).
    - lia.
    - intros e I. cbn in I. repeat (destruct I as [<- | I]; [vm_compute; discriminate |]). destruct I.
    - intros m H. vm_compute in H. injection H as <-. reflexivity.
    - intros e v I J. cbn in I. repeat (destruct I as [<- | I]; [cbn in J; lia |]). destruct I.
    - exists q, fs'. split; [exact A |]. assert (Q : path_str q = "tri.vtu"%string) by (apply (f_equal fst) in A; change (fst (run ["tri.msh"%string] msh) = Done (Ok (path_str q))) in A; assert (R : fst (run ["tri.msh"%string] msh) = Done (Ok "tri.vtu"%string)) by (vm_compute; reflexivity); rewrite R in A; congruence).
      destruct (B "0.6"%string ["tri.vtu"; "tri.vtu"]%string ["tri.vtu"; "tri.vtu"]%string) as (name & h & g & cs & P1 & _ & P3 & P4 & P5 & _).
      + split; [discriminate |]. left. split; [reflexivity |]. assert (PL : CmdLineSpec.plain "tri.vtu") by (left; intros (r & E); discriminate E). auto.
      + rewrite Q. intros n [<- | [<- | []]]; reflexivity.
      + exists name, h, g, cs. auto.
  Qed.
End Cases.
