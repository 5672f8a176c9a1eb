(** * Property C90: the converters to IC3 as whole programs. *)
From Coq Require Import ZArith List Bool String Lia Permutation.
From Verif Require Import Py PyFacts Elements IndexList Conn ConnSpec ConnProofs FaceSpec FaceProps Mesh MeshSpec Files FilesSpec FilesProofs Race Cli CliProps CmdLine CmdLineSpec CmdLineProofs CmdLineProps.
From Verif Require Import Ic3 Ic3Fail Ic3HeaderSpec Ic3FileSpec Ic3FileProps Ic3OkSpec Ic3CubeProps ConvSpec ConvProofs ConvProps Extrude ExtrudeSpec LayerSpec LayerProps Gmsh GmshSpec GroupFacts GmshProofs GmshFileProofs GmshProps GmshIc3Spec GmshIc3Props Cgns CgnsSpec CgnsProps CgnsIc3Spec CgnsIc3Props Simple SimpleSpec Ic3RoundSpec Ic3OkProofs SimpleProofs Ic3CubeSpec Ic3CubeProofs Ic3FixProofs Whole WholeSpec WholeProofs.

Section C90.
  Context {C : Type} (bytes : C -> list Z) (text : C -> list (list string)) (tree : C -> cgnode Z) (of_bytes : list Z -> C).
  Context (ints floats : string -> option Z) (int_of float_of ver_of : string -> res Z).
  Context (fadd fmul fdiv : Z -> Z -> Z) (linspace : nat -> list Z) (unread : Z) (enum : list Z -> list Z).
  Context (i2d : Z -> Z) (f2i : Z -> res Z) (host : order) (shown : fmesh -> res unit) (vtk : fmesh -> option C * res unit).
  Hypothesis patterns : forall n, pattern (i2d n).
  Hypothesis products : forall a b, pattern (fmul a b).
  Hypothesis sums : forall a b, pattern (fadd a b).
  Hypothesis steps : forall k, List.length (linspace k) = k.
  Hypothesis sets : set_enum enum.
  Notation formats := (formats bytes text tree int_of float_of ver_of unread enum).
  Notation command := (cfdwrite_ic3 bytes text tree of_bytes ints floats int_of float_of ver_of fadd fmul linspace unread enum i2d f2i host shown vtk).
  Notation good := (CmdLineSpec.good ints floats (available_readers formats)).
  Notation means := (meaning ints floats).
  Notation loaded := (load 0 int_of float_of ver_of).
  Notation sides := gmsh_elem2faces.

  (** A conforming Gmsh file whose nodes were all read, converted with any options but --extrude and --info: one file
      more, under a free name, that the reader reads back with the cells, the patches and the coordinates, scaled if
      asked for. *)
  Theorem C90_gmsh v before f after fs dir nm st sf ct names nnode elts d x y z :
    let a := means f (before ++ after) in let msh := text ct in
    Forall good before -> Forall good after -> CmdLineSpec.plain f -> ~ open_end before ->
    in_dir dir nm (path_of f) -> split_name nm st sf -> input_format a sf "GMSH" ".msh" -> ar_extrude a = 0 -> ar_info a = false ->
    dget String.eqb (path_str (path_of f)) fs = Some ct ->
    gmsh_file int_of float_of ver_of msh names nnode elts -> Forall felt_ok elts -> top_dim d elts -> 2 <= d <= 3 ->
    gmsh_conforms sides names nnode d elts -> patches_apart sides names d elts ->
    nnode < 2 ^ 31 -> all_sides sides (elt_cells (GmshSpec.of_dim d elts)) < 2 ^ 31 -> zlen (GmshSpec.of_dim d elts) < 2 ^ 31 ->
    (forall m, loaded (List.length msh) msh = Ok m -> nodescoord m = Ok (List.map Some x, List.map Some y, List.map Some z)) ->
    Forall pattern x -> Forall pattern y -> Forall pattern z ->
    exists q b m fm2 lb li rb ri,
      command v (words before ++ f :: words after) fs = (Done (Ok (path_str q)), fs ++ [(path_str q, of_bytes b)]) /\ output_file fs a st q /\
      (forall integrity, read_mesh integrity b = Ok fm2) /\
      (forall k, In k (dkeys (me_bocos m)) <-> is_patch names (GmshSpec.of_dim (d - 1) elts) k) /\
      (forall k mk, In (k, mk) (me_bocos m) -> forall nodes, spanned nodes mk <-> patch_covers names (GmshSpec.of_dim (d - 1) elts) k nodes) /\
      faces_from_cells sides (elt_cells (GmshSpec.of_dim d elts)) lb li rb ri /\ converted sides m (elt_cells (GmshSpec.of_dim d elts)) lb li rb ri fm2 /\
      me_ncell (fm_mesh fm2) = zlen (GmshSpec.of_dim d elts) /\ me_nnode (fm_mesh fm2) = nnode /\
      nodescoord (fm_mesh fm2) = Ok (times fmul (ar_scale a) (x, y, z)).
  Proof using patterns products sets.
    clear fdiv sums steps. intros a msh Gb Ga Pf Ho ID SN IFM X0 I0 DG Hfile Hok Ht Hd GC PAP BN BS BC XYm PX PY PZ.
    destruct (loaded_ok int_of float_of ver_of msh names nnode elts d (List.length msh) Hfile Hok Ht Hd (le_n _) GC BC) as (m0 & L & KE & SP & CMx & NC & NN & _).
    assert (XY := XYm m0 L). destruct (CMx x y z XY PX PY PZ) as (CM & NO'). unfold load in L. apply bind_ok in L. destruct L as (g & RG & EG).
    destruct (gmsh_facts unread g m0 x y z EG XY) as (PL & CNT).
    set (l := GmshSpec.of_dim d elts) in *. set (bl := GmshSpec.of_dim (d - 1) elts) in *.
    assert (MA : marks_apart sides (defined m0) (elt_cells l)).
    { split.
      - intros k b I. destruct (SP k b I) as (PA & S). destruct (pa_cover _ _ _ _ PAP k PA) as (ft & s & O & CV). exists ft, s. split; [exact O | apply S; exact CV].
      - intros ft s k b k' b' O I I' S S'. destruct (SP k b I) as (PA & X). destruct (SP k' b' I') as (PA' & X'). apply (pa_apart _ _ _ _ PAP ft s k k' O PA PA'); [apply X; exact S | apply X'; exact S']. }
    assert (L1 := cm_some _ _ _ _ CM). cbn [elt_cells ec_nelem] in L1.
    assert (XYD : nodescoord (defined m0) = Ok (x, y, z)) by (unfold nodescoord; rewrite NO'; reflexivity).
    (* the mesh to write *)
    assert (SC : exists m, transform fadd fmul linspace enum shown a (bare (defined m0)) = Ok (bare m) /\ cell_mesh sides gmsh_types m (elt_cells l) /\ me_bocos m = me_bocos (defined m0) /\
      me_nnode m = nnode /\ me_ncell m = zlen l /\ nodescoord m = Ok (times fmul (ar_scale a) (x, y, z))).
    { unfold transform. rewrite X0, I0. cbn [Z.eqb bind]. destruct (ar_scale a) as [((sx, sy), sz) |].
      - destruct (scaled_mesh sides gmsh_types fmul (defined m0) (elt_cells l) x y z sx sy sz products CM XYD) as (m & SM & CM' & B & N1 & N2 & XY').
        exists m. unfold scaled, bare. cbn [fm_mesh fm_cells fm_nodes fm_params fm_part]. rewrite SM. cbn [bind]. split; [reflexivity |]. split; [exact CM' |]. split; [exact B |]. split; [rewrite N1; exact NN |]. split; [rewrite N2; exact NC | exact XY'].
      - exists (defined m0). split; [reflexivity |]. auto 6. }
    destruct SC as (m & TR & CM' & BO & NN' & NC' & XY').
    assert (MA' : marks_apart sides m (elt_cells l)) by (unfold marks_apart in *; rewrite BO; exact MA).
    assert (TE : ends_at (elt_cells l) (me_ncell m - 1)).
    { rewrite NC'. unfold ends_at. rewrite elt_numbers by (apply of_dim_ok; exact Hok). split; [apply in_zrange; lia | intros i I; apply in_zrange in I; lia]. }
    assert (BN' : me_nnode m < 2 ^ 31) by lia. assert (BC' : me_ncell m < 2 ^ 31) by lia. assert (IE : In "native"%string byte_orders) by (left; reflexivity).
    assert (IF : in_force sides gmsh_types) by (right; auto).
    destruct (conv_written sides gmsh_types enum i2d f2i host v "native" m (elt_cells l) _ patterns IF sets IE CM' MA' BN' BC' BS TE) as (b & fm' & WM & WF).
    destruct (C69_converted i2d f2i patterns sides gmsh_types enum host v "native" m (elt_cells l) IF sets IE CM' MA' BN' BC' BS TE) as (b' & fm'' & fm2 & lb & li & rb & ri & WR & RD & FC & CV).
    unfold bare in WM. rewrite WR in WM. injection WM as -> ->.
    assert (EX : fexists fs (path_str (path_of f)) = true) by (unfold fexists, dmem; rewrite DG; reflexivity).
    edestruct (run_command bytes text tree of_bytes ints floats int_of float_of ver_of fadd fmul linspace unread enum i2d f2i host shown vtk v before f after fs dir nm st sf "GMSH"%string) as (q & RUN & OUT);
      [exact Gb | exact Ga | exact Pf | exact Ho | exact ID | exact SN | exact IFM | rewrite formats_are; right; left; reflexivity | | | | exact TR | rewrite EX; exact WF |].
    { unfold read_gmsh. rewrite DG. fold msh. rewrite RG. cbn [bind]. rewrite EG. cbn [bind]. rewrite PL. reflexivity. }
    { intros E. injection E as E. lia. }
    { apply bare_remove. }
    exists q, b, m, fm2, lb, li, rb, ri. split; [exact RUN |]. split; [exact OUT |]. split; [exact RD |].
    split. { intros k. rewrite BO. cbn [defined me_bocos]. unfold dkeys. rewrite map_map. erewrite map_ext; [apply KE |]. intros (k0, b0); reflexivity. }
    split. { intros k mk I. rewrite BO in I. apply (SP k mk I). }
    split; [exact FC |]. split; [exact CV |]. destruct CV as [V1 V2 V3 V4 _ _ _]. split; [congruence |]. split; [congruence |]. rewrite V4. exact XY'.
  Qed.
  (** A planar file of quadrangles extruded in n layers, then scaled if asked for: a file is written in all cases, with the n
      layers of cells; it can be read again when n is 1, or when there are as many nodes as quadrangles; otherwise it cannot. *)
  Theorem C90_extruded v before f after fs dir nm st sf ct names nnode elts x y z :
    let a := means f (before ++ after) in let msh := text ct in let quads := elt_cells (GmshSpec.of_dim 2 elts) in let n := ar_extrude a in
    Forall good before -> Forall good after -> CmdLineSpec.plain f -> ~ open_end before ->
    in_dir dir nm (path_of f) -> split_name nm st sf -> input_format a sf "GMSH" ".msh" -> 1 <= n -> ar_info a = false ->
    dget String.eqb (path_str (path_of f)) fs = Some ct ->
    gmsh_file int_of float_of ver_of msh names nnode elts -> Forall felt_ok elts -> top_dim 2 elts ->
    gmsh_conforms sides names nnode 2 elts -> patches_apart sides names 2 elts -> gmsh_flat names nnode elts ->
    (n + 1) * nnode < 2 ^ 31 -> 6 * n * zlen (GmshSpec.of_dim 2 elts) < 2 ^ 31 -> (n - 1) * nnode + zlen (GmshSpec.of_dim 2 elts) <= 2 ^ 31 ->
    (forall m, loaded (List.length msh) msh = Ok m -> nodescoord m = Ok (List.map Some x, List.map Some y, List.map Some z)) ->
    Forall pattern x -> Forall pattern y -> Forall pattern z ->
    exists q b base layers m c x' y' z',
      command v (words before ++ f :: words after) fs = (Done (Ok (path_str q)), fs ++ [(path_str q, of_bytes b)]) /\ output_file fs a st q /\
      me_cell2node base = Some quads /\ nodescoord base = Ok (x, y, z) /\
      (forall k, In k (dkeys (me_bocos base)) <-> is_patch names (GmshSpec.of_dim 1 elts) k) /\
      (forall k mk, In (k, mk) (me_bocos base) -> forall nodes, spanned nodes mk <-> patch_covers names (GmshSpec.of_dim 1 elts) k nodes) /\
      ExtrudeSpec.extruded_mesh fadd fmul base layers (0, 0, one) (linspace (Z.to_nat (n + 1))) "fluid" /\
      me_cell2node layers = Some c /\ nodescoord layers = Ok (x', y', z') /\
      me_cell2node m = Some c /\ me_bocos m = me_bocos layers /\ nodescoord m = Ok (times fmul (ar_scale a) (x', y', z')) /\
      me_ncell m = n * zlen (GmshSpec.of_dim 2 elts) /\ me_nnode m = (n + 1) * nnode /\
      (n = 1 \/ nnode = zlen (GmshSpec.of_dim 2 elts) -> exists fm2 lb li rb ri,
         (forall integrity, read_mesh integrity b = Ok fm2) /\ faces_from_cells sides c lb li rb ri /\ converted sides m c lb li rb ri fm2) /\
      (n <> 1 -> nnode <> zlen (GmshSpec.of_dim 2 elts) -> forall integrity, read_mesh integrity b = Err AssertionError).
  Proof using patterns products sets sums steps.
    clear fdiv. intros a msh quads n Gb Ga Pf Ho ID SN IFM N1 I0 DG Hfile Hok Ht GC PAP GF BN BS LE XYm PX PY PZ.
    assert (Hd : 2 <= 2 <= 3) by lia. assert (BC : zlen (GmshSpec.of_dim 2 elts) < 2 ^ 31) by nia.
    destruct (loaded_ok int_of float_of ver_of msh names nnode elts 2 (List.length msh) Hfile Hok Ht Hd (le_n _) GC BC) as (m0 & L & KE & SP & CMx & NC & NN & _).
    assert (XY := XYm m0 L). destruct (CMx x y z XY PX PY PZ) as (CM & NO'). unfold load in L. apply bind_ok in L. destruct L as (g & RG & EG).
    destruct (gmsh_facts unread g m0 x y z EG XY) as (PL & CNT). change (2 - 1) with 1 in *.
    assert (CO : MeshSpec.coords_ok (defined m0) x y z).
    { destruct (cm_coords _ _ _ _ CM) as (x1 & y1 & z1 & CO). assert (E : nodescoord (defined m0) = Ok (x, y, z)) by (unfold nodescoord; rewrite NO'; reflexivity). destruct CO as (CO & CO'). rewrite E in CO. injection CO as <- <- <-. split; [exact E | exact CO']. }
    destruct (gmsh_flat_mesh names nnode elts m0 x y z GF Hok CM NN CO SP PAP) as (FL & FM & SI).
    fold quads in FL, FM, SI, CM. assert (IF : in_force sides gmsh_types) by (right; auto).
    set (planes := linspace (Z.to_nat (n + 1))). assert (ZP : zlen planes = n + 1) by (unfold zlen, planes; rewrite steps; lia).
    assert (FN : forall k, ~ is_patch names (GmshSpec.of_dim 1 elts) k -> good_name k /\ ~ deof k -> free_name (defined m0) k).
    { intros k NP (G1 & G2). split; [exact G1 |]. split; [exact G2 |]. intros I. apply NP, KE. cbn [defined me_bocos] in I. unfold dkeys in I. rewrite map_map in I. erewrite map_ext in I; [exact I |]. intros (k0, b0); reflexivity. }
    destruct (gf_planes _ _ _ GF) as (NP0 & NP1).
    destruct (extrude_ok sides gmsh_types enum fadd fmul (defined m0) quads (0, 0, one) planes "fluid" IF sets sums FL FM) as (mx & c & k & EX & CX & MX & XM & NNX & NCX & ALX & TOP & KI).
    { lia. }
    { apply SI. intros ft H. apply (proj2 (gc_both _ _ _ _ _ GC ft H)). }
    { apply FN; [exact NP0 |]. split; [apply good_key; [cbn; lia | reflexivity] | unfold deof; vm_compute; discriminate]. }
    { apply FN; [exact NP1 |]. split; [apply good_key; [cbn; lia | reflexivity] | unfold deof; vm_compute; discriminate]. }
    { rewrite ZP. unfold quads. cbn [elt_cells ec_nelem]. lia. }
    { rewrite ZP. unfold quads. cbn [elt_cells ec_nelem defined me_nnode]. rewrite NN. lia. }
    rewrite ZP in *. change (ec_nelem quads) with (zlen (GmshSpec.of_dim 2 elts)) in *. change (me_nnode (defined m0)) with (me_nnode m0) in *. rewrite NN in *.
    destruct (cm_coords _ _ _ _ CX) as (x' & y' & z' & CX').
    assert (L1 := cm_some _ _ _ _ CM). change (ec_nelem quads) with (zlen (GmshSpec.of_dim 2 elts)) in L1.
    (* the mesh to write *)
    assert (SC : exists m, transform fadd fmul linspace enum shown a (bare (defined m0)) = Ok (bare m) /\ cell_mesh sides gmsh_types m c /\ me_bocos m = me_bocos mx /\
      me_nnode m = me_nnode mx /\ me_ncell m = me_ncell mx /\ nodescoord m = Ok (times fmul (ar_scale a) (x', y', z'))).
    { unfold transform. fold n. destruct (Z.eqb_spec n 0) as [E0 | _]; [lia |]. unfold extruded. destruct (Z.ltb_spec (n + 1) 0) as [E0 | _]; [lia |]. cbn [fm_mesh bare]. fold planes. rewrite EX, I0. cbn [bind]. destruct (ar_scale a) as [((sx, sy), sz) |].
      - destruct (scaled_mesh sides gmsh_types fmul mx c x' y' z' sx sy sz products CX (proj1 CX')) as (m & SM & CM' & B & M1 & M2 & XY').
        exists m. unfold scaled. cbn [fm_mesh fm_cells fm_nodes fm_params fm_part bare]. rewrite SM. cbn [bind]. split; [reflexivity |]. auto 6.
      - exists mx. split; [reflexivity |]. split; [exact CX |]. split; [reflexivity |]. split; [reflexivity |]. split; [reflexivity |]. apply CX'. }
    destruct SC as (m & TR & CM' & BO & NN' & NC' & XY').
    assert (MA' : marks_apart sides m c) by (unfold marks_apart in *; rewrite BO; exact MX).
    assert (BN' : me_nnode m < 2 ^ 31) by (rewrite NN', NNX; lia). assert (BC' : me_ncell m < 2 ^ 31) by (rewrite NC', NCX; nia). assert (IE : In "native"%string byte_orders) by (left; reflexivity).
    destruct (conv_outcome sides gmsh_types enum i2d f2i host v "native" m c k patterns IF sets IE CM' MA' BN' BC' ALX TOP) as (b & fm' & WF & RD1 & RD2).
    assert (EXI : fexists fs (path_str (path_of f)) = true) by (unfold fexists, dmem; rewrite DG; reflexivity).
    edestruct (run_command bytes text tree of_bytes ints floats int_of float_of ver_of fadd fmul linspace unread enum i2d f2i host shown vtk v before f after fs dir nm st sf "GMSH"%string) as (q & RUN & OUT);
      [exact Gb | exact Ga | exact Pf | exact Ho | exact ID | exact SN | exact IFM | rewrite formats_are; right; left; reflexivity | | | | exact TR | rewrite EXI; exact WF |].
    { unfold read_gmsh. rewrite DG. fold msh. rewrite RG. cbn [bind]. rewrite EG. cbn [bind]. rewrite PL. reflexivity. }
    { intros E. injection E as E. lia. }
    { apply bare_remove. }
    exists q, b, (defined m0), mx, m, c, x', y', z'. split; [exact RUN |]. split; [exact OUT |]. split; [apply (cm_cells _ _ _ _ CM) |]. split; [apply CO |].
    split. { intros k0. cbn [defined me_bocos]. unfold dkeys. rewrite map_map. erewrite map_ext; [apply KE |]. intros (k1, b0); reflexivity. }
    split. { intros k0 mk I. apply (SP k0 mk I). }
    split; [exact XM |]. split; [apply (cm_cells _ _ _ _ CX) |]. split; [apply CX' |]. split; [apply (cm_cells _ _ _ _ CM') |]. split; [exact BO |]. split; [exact XY' |].
    split; [rewrite NC', NCX; lia |]. split; [rewrite NN', NNX; lia |]. rewrite NC' in *. split.
    - intros H. apply RD1, KI. lia.
    - intros H1 H2. apply RD2. intros E. apply KI in E. lia.
  Qed.
  (** The same for version 2 files, whose nodes are always all read: the coordinates are those of the file. *)
  Theorem C90_version2 v before f after fs dir nm st sf ct ver names nodes elts d :
    let a := means f (before ++ after) in let msh := text ct in
    Forall good before -> Forall good after -> CmdLineSpec.plain f -> ~ open_end before ->
    in_dir dir nm (path_of f) -> split_name nm st sf -> input_format a sf "GMSH" ".msh" -> ar_extrude a = 0 -> ar_info a = false ->
    dget String.eqb (path_str (path_of f)) fs = Some ct ->
    format_is int_of ver_of msh ver -> ver <= 2 -> names_are int_of msh names -> nodes2_are int_of float_of msh nodes -> elts2_are int_of msh elts ->
    Forall felt_ok elts -> top_dim d elts -> 2 <= d <= 3 ->
    gmsh_conforms sides names (zlen nodes) d elts -> patches_apart sides names d elts ->
    zlen nodes < 2 ^ 31 -> all_sides sides (elt_cells (GmshSpec.of_dim d elts)) < 2 ^ 31 -> zlen (GmshSpec.of_dim d elts) < 2 ^ 31 ->
    (forall x y z, In (x, y, z) nodes -> pattern x /\ pattern y /\ pattern z) ->
    exists q b m fm2 lb li rb ri,
      command v (words before ++ f :: words after) fs = (Done (Ok (path_str q)), fs ++ [(path_str q, of_bytes b)]) /\ output_file fs a st q /\
      (forall integrity, read_mesh integrity b = Ok fm2) /\
      (forall k, In k (dkeys (me_bocos m)) <-> is_patch names (GmshSpec.of_dim (d - 1) elts) k) /\
      (forall k mk, In (k, mk) (me_bocos m) -> forall nodes, spanned nodes mk <-> patch_covers names (GmshSpec.of_dim (d - 1) elts) k nodes) /\
      faces_from_cells sides (elt_cells (GmshSpec.of_dim d elts)) lb li rb ri /\ converted sides m (elt_cells (GmshSpec.of_dim d elts)) lb li rb ri fm2 /\
      me_ncell (fm_mesh fm2) = zlen (GmshSpec.of_dim d elts) /\ me_nnode (fm_mesh fm2) = zlen nodes /\
      nodescoord (fm_mesh fm2) = Ok (times fmul (ar_scale a) (List.map (fun p => fst (fst p)) nodes, List.map (fun p => snd (fst p)) nodes, List.map snd nodes)).
  Proof using patterns products sets.
    clear fdiv sums steps. intros a msh Gb Ga Pf Ho ID SN IFM X0 I0 DG F1 F2 F3 F4 F5 Hok Ht Hd GC PAP BN BS BC PT.
    assert (Hfile : gmsh_file int_of float_of ver_of msh names (zlen nodes) elts) by (eapply File2; eassumption).
    eapply C90_gmsh; try eassumption.
    - intros m L. assert (R := v2_read int_of float_of ver_of msh ver (List.length msh) names nodes elts F1 F2 F3 F4 F5).
      rewrite (C56_exported 0 int_of float_of ver_of msh (List.length msh) m _ _ _ R L), !map_map. reflexivity.
    - apply Forall_forall. intros u I. apply in_map_iff in I. destruct I as (((a1 & b1) & c1) & <- & I). apply (PT a1 b1 c1 I).
    - apply Forall_forall. intros u I. apply in_map_iff in I. destruct I as (((a1 & b1) & c1) & <- & I). apply (PT a1 b1 c1 I).
    - apply Forall_forall. intros u I. apply in_map_iff in I. destruct I as (((a1 & b1) & c1) & <- & I). apply (PT a1 b1 c1 I).
  Qed.

  (** A CGNS file of hexahedra: a file is written; it can be read again if and only if the cells are numbered first. *)
  Theorem C90_cgns v before f after fs dir nm st sf ct zn nnode ncell x y w secs bcs :
    let a := means f (before ++ after) in let tbl := cgns_elem2faces in
    Forall good before -> Forall good after -> CmdLineSpec.plain f -> ~ open_end before ->
    in_dir dir nm (path_of f) -> split_name nm st sf -> input_format a sf "CGNS" ".cgns" -> ar_extrude a = 0 -> ar_info a = false ->
    dget String.eqb (path_str (path_of f)) fs = Some ct -> Cgns.read_data (tree ct) None = Ok zn ->
    zone_holds zn nnode ncell x y w secs bcs -> zo_geodim zn = 3 -> Forall CgnsSpec.sec_ok secs -> hexa_zone tbl nnode ncell x y w secs bcs ->
    nnode < 2 ^ 31 -> 6 * zlen (file_cells secs) < 2 ^ 31 ->
    exists q b m,
      command v (words before ++ f :: words after) fs = (Done (Ok (path_str q)), fs ++ [(path_str q, of_bytes b)]) /\ output_file fs a st q /\
      (forall k, (exists b, In b bcs /\ cb_name b = k) <-> In k (dkeys (me_bocos m))) /\
      (forall k mk, In (k, mk) (me_bocos m) -> exists b, In b bcs /\ cb_name b = k /\ forall nodes, spanned nodes mk <-> bc_covers (file_faces secs) b nodes) /\
      (cells_first secs -> exists fm2 lb li rb ri, (forall integrity, read_mesh integrity b = Ok fm2) /\
         faces_from_cells tbl (hexas (file_cells secs)) lb li rb ri /\ converted tbl m (hexas (file_cells secs)) lb li rb ri fm2 /\
         me_ncell (fm_mesh fm2) = zlen (file_cells secs) /\ me_nnode (fm_mesh fm2) = nnode /\ nodescoord (fm_mesh fm2) = Ok (times fmul (ar_scale a) (x, y, w))) /\
      (~ cells_first secs -> forall integrity, read_mesh integrity b = Err AssertionError).
  Proof using patterns products sets.
    clear fdiv sums steps. intros a tbl Gb Ga Pf Ho ID SN IFM X0 I0 DG RZ ZH D3 OK HZ BN BS. assert (IF : in_force tbl cgns_types) by (left; auto).
    destruct (zone_converts tbl cgns_types enum zn nnode ncell x y w secs bcs IF sets ZH D3 OK HZ BS) as (m0 & c & k & EX & CM & MA & AS & MX & CF & NN & NC & XY & FI & KEYS & SPS & _).
    assert (SC : exists m, transform fadd fmul linspace enum shown a (bare m0) = Ok (bare m) /\ cell_mesh tbl cgns_types m c /\ me_bocos m = me_bocos m0 /\
      me_nnode m = nnode /\ me_ncell m = zlen (file_cells secs) /\ nodescoord m = Ok (times fmul (ar_scale a) (x, y, w))).
    { unfold transform. rewrite X0, I0. cbn [Z.eqb bind]. destruct (ar_scale a) as [((sx, sy), sz) |].
      - destruct (scaled_mesh tbl cgns_types fmul m0 c x y w sx sy sz products CM XY) as (m & SM & CM' & B & N1 & N2 & XY').
        exists m. unfold scaled, bare. cbn [fm_mesh fm_cells fm_nodes fm_params fm_part]. rewrite SM. cbn [bind]. split; [reflexivity |]. split; [exact CM' |]. split; [exact B |]. split; [rewrite N1; exact NN |]. split; [rewrite N2; exact NC | exact XY'].
      - exists m0. split; [reflexivity |]. auto 6. }
    destruct SC as (m & TR & CM' & BO & NN' & NC' & XY').
    assert (MA' : marks_apart tbl m c) by (unfold marks_apart in *; rewrite BO; exact MA).
    assert (L1 := zlen_nonneg (file_cells secs)). assert (BN' : me_nnode m < 2 ^ 31) by lia. assert (BC' : me_ncell m < 2 ^ 31) by lia. assert (IE : In "native"%string byte_orders) by (left; reflexivity).
    destruct (conv_outcome tbl cgns_types enum i2d f2i host v "native" m c k patterns IF sets IE CM' MA' BN' BC' AS MX) as (b & fm' & WF & RD1 & RD2).
    assert (ZN := proj2 (sizes_ok _ _ _ _ _ _ _ _ ZH)).
    edestruct (run_command bytes text tree of_bytes ints floats int_of float_of ver_of fadd fmul linspace unread enum i2d f2i host shown vtk v before f after fs dir nm st sf "CGNS"%string) as (q & RUN & OUT);
      [exact Gb | exact Ga | exact Pf | exact Ho | exact ID | exact SN | exact IFM | rewrite formats_are; right; right; left; reflexivity | | | | exact TR | exact WF |].
    { unfold read_cgns. rewrite DG, RZ. cbn [bind]. rewrite ZN. cbn [bind]. rewrite EX. reflexivity. }
    { discriminate. }
    { apply bare_remove. }
    exists q, b, m. split; [exact RUN |]. split; [exact OUT |]. rewrite BO. split; [exact KEYS |]. split; [exact SPS |]. rewrite NC' in RD1, RD2. rewrite NC in CF. split.
    - intros H. destruct (RD1 (proj2 CF H)) as (fm2 & lb & li & rb & ri & RD & FC & CV). exists fm2, lb, li, rb, ri. split; [exact RD |]. split; [apply FI; exact FC |]. assert (CV' := CV). destruct CV' as [V1 V2 V3 V4 _ _ _]. split; [destruct CV; constructor; assumption |].
      split; [congruence |]. split; [congruence |]. rewrite V4. exact XY'.
    - intros H. apply RD2. intros E. apply H, CF, E.
  Qed.

  (** Every command line that names an IC3 file of bytes [b], with options that ask for nothing more, writes [g] in a new file. *)
  Definition converts (v : version) (b g : list Z) : Prop := forall before f after fs dir nm st sf ct, let a := means f (before ++ after) in
    Forall good before -> Forall good after -> CmdLineSpec.plain f -> ~ open_end before ->
    in_dir dir nm (path_of f) -> split_name nm st sf -> input_format a sf "IC3" ".ic3" ->
    ar_extrude a = 0 -> ar_scale a = None -> ar_info a = false -> ar_remove a = [] ->
    dget String.eqb (path_str (path_of f)) fs = Some ct -> bytes ct = b ->
    exists q, command v (words before ++ f :: words after) fs = (Done (Ok (path_str q)), fs ++ [(path_str q, of_bytes g)]) /\ output_file fs a st q.

  Lemma converted_as v b g fm fm' : read_mesh false b = Ok fm -> me_ncell (fm_mesh fm) <> 0 ->
    write_file cgns_elem2faces enum i2d f2i host v "native" fm = (Some g, Ok tt, fm') -> converts v b g.
  Proof using.
    clear. intros R N W before f after fs dir nm st sf ct a Gb Ga Pf Ho ID SN IFM X0 S0 I0 R0 DG BY.
    unfold read_mesh in R. apply bind_ok in R. destruct R as (r & R & EX).
    assert (NC : me_ncell (fm_mesh fm) = r_cv r).
    { unfold Ic3.export_mesh in EX. destruct (set_coords_nd _ 3 (r_coords r)) as (e, m) eqn:SC. apply bind_ok in EX. destruct EX as ([] & -> & EX). apply bind_ok in EX. destruct EX as (f2c & _ & EX). apply bind_ok in EX. destruct EX as (f2n & _ & EX).
      destruct (add_faces m "mixed" f2n (Some f2c)) as (e', m') eqn:AF. apply bind_ok in EX. destruct EX as ([] & -> & EX). injection EX as <-. cbn [fm_mesh].
      assert (A : forall l (q : mesh Z), me_ncell (fold_left add_boco l q) = me_ncell q) by (induction l as [| b0 l IH]; intros q; [reflexivity |]; cbn [fold_left]; rewrite IH; reflexivity).
      rewrite A. unfold add_faces in AF. change (existsb (String.eqb "mixed") facetypes) with true in AF. injection AF as <-. cbn [with_nface with_faces me_ncell].
      unfold set_coords_nd in SC. destruct (_ =? _); [| discriminate]. cbn [fold_left] in SC. destruct (column _ 3 0) as [v0 |]; [| discriminate]. destruct (column _ 3 1) as [v1 |]; [| discriminate]. destruct (column _ 3 2) as [v2 |]; [| discriminate]. injection SC as <-. reflexivity. }
    edestruct (run_command bytes text tree of_bytes ints floats int_of float_of ver_of fadd fmul linspace unread enum i2d f2i host shown vtk v before f after fs dir nm st sf "IC3"%string) as (q & RUN & OUT);
      [exact Gb | exact Ga | exact Pf | exact Ho | exact ID | exact SN | exact IFM | rewrite formats_are; left; reflexivity | | | | | exact W |].
    { unfold read_ic3. rewrite DG, BY, R. cbn [bind]. rewrite EX. reflexivity. }
    { intros E. injection E as E. congruence. }
    { fold a. rewrite R0. reflexivity. }
    { fold a. unfold transform. rewrite X0, S0, I0. reflexivity. }
    eauto.
  Qed.

  (** A file written by the library, in any byte order: converting it again gives a file of the same mesh, and the
      conversion of that file is the same file. *)
  Theorem C90_ic3 v tbl0 enum0 host0 endian0 fm m ls rows b :
    let fm' := FM m (fm_cells fm) (fm_nodes fm) (fm_params fm) (fm_part fm) in
    In endian0 byte_orders -> prepare_mesh tbl0 enum0 (fm_mesh fm) = (Ok tt, m) -> writable f2i v fm' ls rows -> located fm' ls -> me_ncell m <> 0 ->
    fst (write_mesh tbl0 enum0 i2d f2i host0 v endian0 fm) = Ok b ->
    exists g fm1 fm2, converts v b g /\ converts v g g /\
      (forall integrity, read_mesh integrity b = Ok fm1) /\ (forall integrity, read_mesh integrity g = Ok fm2) /\ fm_mesh fm2 = fm_mesh fm1.
  Proof using patterns.
    clear fdiv sums steps products sets. intros fm' IE PM WR LOC N0 WM. destruct (order_known host0 endian0 IE) as (o0 & OO0). destruct (order_known host "native"%string ltac:(left; reflexivity)) as (o & OO).
    destruct (writer_state_total i2d f2i v fm' ls rows WR) as (w & W). destruct (state_written i2d f2i v o0 fm' ls rows w WR W) as (f & WD).
    assert (f = b) as -> by (unfold write_mesh in WM; rewrite OO0, PM in WM; fold fm' in WM; cbn [bind] in WM; rewrite W in WM; cbn [bind] in WM; rewrite WD in WM; cbn in WM; congruence).
    destruct (first_read i2d f2i v o0 fm' ls rows w b patterns WR LOC W WD) as (fm1 & cv & no & x & y & z & con & zs & n & lc & ln & RD & SH & WR1 & LOC1).
    destruct (writer_state_total i2d f2i v fm1 ls rows WR1) as (w1 & W1). destruct (state_written i2d f2i v o fm1 ls rows w1 WR1 W1) as (g & WD1).
    destruct (shaped_again i2d f2i v o fm1 ls rows cv no x y z con zs n lc ln w1 g patterns SH WR1 LOC1 W1 WD1) as (fm2 & RD2 & MS & W2).
    assert (NE : me_ncell (fm_mesh fm1) = me_ncell m).
    { assert (A1 := fi_reach _ _ _ _ (wr_file _ _ _ _ _ WR)). assert (A2 := fi_bound _ _ _ _ (wr_file _ _ _ _ _ WR)). assert (B1 := fi_reach _ _ _ _ (wr_file _ _ _ _ _ WR1)). assert (B2 := fi_bound _ _ _ _ (wr_file _ _ _ _ _ WR1)).
      rewrite Forall_forall in A2, B2. specialize (A2 _ B1). specialize (B2 _ A1). cbn [fm_mesh fm'] in *. lia. }
    assert (W1M : write_mesh cgns_elem2faces enum i2d f2i host v "native" fm1 = (Ok g, fm1)).
    { unfold write_mesh. rewrite OO, (shaped_prepare _ _ _ _ _ _ _ _ _ _ _ _ _ _ cgns_elem2faces enum SH). cbn [bind].
      replace (FM (fm_mesh fm1) (fm_cells fm1) (fm_nodes fm1) (fm_params fm1) (fm_part fm1)) with fm1 by (destruct fm1; reflexivity). rewrite W1. cbn [bind]. rewrite WD1. reflexivity. }
    assert (W2M : write_file cgns_elem2faces enum i2d f2i host v "native" fm2 = (Some g, Ok tt, fm2)).
    { assert (W1F := written_file _ _ _ _ _ _ _ _ _ _ patterns W1M (wr_typed _ _ _ _ _ WR1)).
      assert (SP := shaped_prepare _ _ _ _ _ _ _ _ _ _ _ _ _ _ cgns_elem2faces enum SH). unfold write_file in *. rewrite OO in W1F |- *. rewrite SP in W1F. rewrite MS, SP, <- MS. cbn [bind] in *.
      replace (FM (fm_mesh fm1) (fm_cells fm1) (fm_nodes fm1) (fm_params fm1) (fm_part fm1)) with fm1 in W1F by (destruct fm1; reflexivity).
      replace (FM (fm_mesh fm2) (fm_cells fm2) (fm_nodes fm2) (fm_params fm2) (fm_part fm2)) with fm2 by (destruct fm2; reflexivity). rewrite W1 in W1F. rewrite W2. destruct (run_calls _) as (g', r'). congruence. }
    exists g, fm1, fm2. split; [| split; [| split; [exact RD | split; [exact RD2 | exact MS]]]].
    - apply (converted_as v b g fm1 fm1 (RD false)); [lia | exact (written_file _ _ _ _ _ _ _ _ _ _ patterns W1M (wr_typed _ _ _ _ _ WR1))].
    - apply (converted_as v g g fm2 fm2 (RD2 false)); [rewrite MS; lia | exact W2M].
  Qed.

  (** [cfdwritecube] with a name that ends with .ic3, or --fmt IC3: the file of that name holds the mesh of the cube. *)
  Theorem C90_cube before f after fs dir nm st sf fmt nx ny nz :
    (forall i n, pattern (fdiv i n)) ->
    Forall (cgood ints (available_readers formats)) before -> Forall (cgood ints (available_readers formats)) after -> CmdLineSpec.plain f ->
    cmeaning ints (before ++ after) = (fmt, (nx, ny, nz)) -> in_dir dir nm (path_of f) -> split_name nm st sf ->
    fmt = Some "IC3"%string \/ fmt = None /\ sf = ".ic3"%string ->
    1 <= nx -> 1 <= ny -> 1 <= nz -> 2 <= nx * ny * nz -> (nx + 1) * (ny + 1) * (nz + 1) < 2 ^ 31 -> cube_nface nx ny nz < 2 ^ 31 ->
    exists b fm2 fs', cfdwrite_cube bytes text tree of_bytes ints floats int_of float_of ver_of fdiv unread enum i2d f2i host vtk (cwords before ++ f :: cwords after) fs = (Done (Ok (path_str (path_of f))), fs') /\
      dget String.eqb (path_str (path_of f)) fs' = Some (of_bytes b) /\ (forall s, s <> path_str (path_of f) -> dget String.eqb s fs' = dget String.eqb s fs) /\
      (forall integrity, read_mesh integrity b = Ok fm2) /\ cube_read nx ny nz fdiv fm2.
  Proof using patterns sets.
    clear sums steps products. intros FD Gb Ga Pf CME ID SN IFM Hx Hy Hz H2 BN BF. assert (IF : in_force cgns_elem2faces cgns_types) by (left; auto). destruct (order_known host "native"%string ltac:(left; reflexivity)) as (o & OO).
    destruct (cube_ok nx ny nz Hx Hy Hz fdiv) as (m & E & _).
    destruct (cube_prepare nx ny nz Hx Hy Hz fdiv cgns_elem2faces cgns_types enum m IF sets H2 E) as (m3 & gb & gi & lb & li & rb & ri & PM & CP).
    assert (WR := cube_writable nx ny nz Hx Hy Hz fdiv f2i V3 m m3 gb gi lb li rb ri E CP FD BN BF).
    destruct (C26_cube_file i2d f2i patterns fdiv cgns_elem2faces cgns_types enum host V3 "native" nx ny nz FD IF sets ltac:(left; reflexivity) Hx Hy Hz H2 BN BF) as (m' & b & fm' & fm2 & E' & WM & RD & CR).
    rewrite E in E'. injection E' as <-.
    assert (T : fmesh_typed fm').
    { unfold write_mesh in WM. rewrite OO in WM. cbn [fm_mesh] in WM. rewrite PM in WM. injection WM as _ <-. exact (wr_typed _ _ _ _ _ WR). }
    assert (WF := written_file _ _ _ _ _ _ _ _ _ _ patterns WM T).
    assert (PF := format_read bytes text tree int_of float_of ver_of unread enum (Args f fmt None [] 0 None false) dir nm st sf "IC3"%string _ _ _ (or_introl eq_refl) ID SN IFM). cbn [ar_fmt ar_filename] in PF.
    exists b, fm2, (dset String.eqb (path_str (path_of f)) (of_bytes b) fs). split; [| split; [apply (dget_dset_eq _ seqb_eq) | split; [intros s NE; apply (dget_dset_neq _ seqb_eq); congruence | auto]]].
    unfold cfdwrite_cube. rewrite (C86_cube _ _ _ _ _ _ _ _ _ Gb Ga Pf), CME. rewrite E. cbn [bind]. unfold cfdwritecube. cbn [ar_fmt ar_filename]. rewrite PF. unfold write_to, write. unfold bare. change (elem2faces_after []) with cgns_elem2faces. rewrite WF. reflexivity.
  Qed.

  (** Whatever the words and the files: the files that exist are kept, and at most one is added. The command ends with the
      name of that file or with an error, or stops with a status: 2, or 0 if the help was asked for. *)
  Theorem C90_safe v argv fs r fs' : command v argv fs = (r, fs') ->
    (fs' = fs \/ exists s c, dget String.eqb s fs = None /\ fs' = fs ++ [(s, c)] /\ (forall name, r = Done (Ok name) -> name = s)) /\
    (forall s c, dget String.eqb s fs = Some c -> dget String.eqb s fs' = Some c) /\
    ((exists x, r = Done x) \/ fs' = fs /\ (r = Exit 2 \/ r = Exit 0 /\ exists before s after, argv = before ++ s :: after /\ ~ In "--"%string before /\ (begins "-h" s \/ begins "--h" s))).
  Proof using.
    clear. intros H. unfold cfdwrite_ic3 in H. set (tb := elem2faces_after _) in H.
    destruct (C86_total ints floats (extruded fadd fmul linspace enum) (scaled fmul) shown (write of_bytes enum i2d f2i host vtk tb) formats (List.length fs + 1) argv ".ic3"%string (ToIC3 v) fs) as [(a & E) | (c & E & G)]; rewrite E in H.
    - destruct (write_generic _ _ _ _ _ _ _ _ _ _) as (x, fs1) eqn:W. injection H as <- <-. destruct (C64_converter _ _ _ _ _ _ _ _ _ _ _ _ W) as (A & B).
      split; [| split; [exact B | left; eauto]]. destruct A as [A | (s & c & A1 & A2 & A3)]; [left; exact A | right]. exists s, c. split; [exact A1 |]. split; [exact A2 |]. intros name Q. injection Q as Q. exact (A3 name Q).
    - injection H as <- <-. split; [left; reflexivity |]. split; [auto |]. right. split; [reflexivity |]. destruct G as [-> | (-> & G)]; [left; reflexivity | right; auto].
  Qed.
End C90.
Print Assumptions C90_gmsh.
Print Assumptions C90_version2.
Print Assumptions C90_extruded.
Print Assumptions C90_cgns.
Print Assumptions C90_ic3.
Print Assumptions C90_cube.
Print Assumptions C90_safe.

(** ** Concrete cases: the channel of GmshIc3Props, as the file chan.msh *)
Section Cases.
  Let ints (s : string) : option Z := match int10 s with Ok n => Some n | Err _ => None end.
  Let add (a b : Z) : Z := (a + b) mod 2 ^ 64.
  Let mul (a b : Z) : Z := (a * b) mod 2 ^ 64.
  Let div (a b : Z) : Z := (a * 100 + b) mod 2 ^ 64.
  Let linspace (k : nat) : list Z := List.map Z.of_nat (seq 0 k).
  Let bytes (c : list (list string) + list Z) : list Z := match c with inl _ => [] | inr b => b end.
  Let text (c : list (list string) + list Z) : list (list string) := match c with inl t => t | inr _ => [] end.
  Let tree (c : list (list string) + list Z) : cgnode Z := match c with inl _ => leaf (PInts []) | inr _ => ex_stack_node 1 3 end.
  Let run := cfdwrite_ic3 bytes text tree (@inr (list (list string)) (list Z)) ints ints int10 int10 int10 add mul linspace 0 (nodup Z.eq_dec) ex_i2d ex_f2i Little (fun _ => Ok tt) (fun _ => (None, Ok tt)).
  Let cube := cfdwrite_cube bytes text tree (@inr (list (list string)) (list Z)) ints ints int10 int10 int10 div 0 (nodup Z.eq_dec) ex_i2d ex_f2i Little (fun _ => (None, Ok tt)).
  Let msh := [("chan.msh"%string, inl ex_half_chan)] : files (list (list string) + list Z).
  Let seen (o : outcome (res string) * files (list (list string) + list Z)) : option (list string * res (Z * Z * res (list Z * list Z * list Z) * list string)) :=
    match o with
    | (Done (Ok s), fs) => Some (dkeys fs, match dget String.eqb s fs with
        | Some (inr b) => fm <- read_mesh true b ;; Ok (me_ncell (fm_mesh fm), me_nnode (fm_mesh fm), nodescoord (fm_mesh fm), dkeys (me_bocos (fm_mesh fm)))
        | _ => Err KeyError end)
    | _ => None
    end.
  Open Scope string_scope.

  Example c90_run : seen (run V3 ["chan.msh"; "--scale"; "3"; "2"; "1"] msh) =
    Some (["chan.msh"; "chan.ic3"], Ok (2, 6, Ok ([0; 3; 6; 0; 3; 6], [0; 0; 0; 2; 2; 2], [0; 0; 0; 0; 0; 0]), ["wall"; "inlet"; "unmarked"; "internal-domain"])).
  Proof. vm_compute. reflexivity. Qed.
  (** One layer can be read again, two cannot. *)
  Example c90_layers : seen (run V2 ["--extrude"; "1"; "chan.msh"; "--outpath"; "out"] msh) =
      Some (["chan.msh"; "out/chan.ic3"], Ok (2, 12, Ok ([0; 1; 2; 0; 1; 2; 0; 1; 2; 0; 1; 2], [0; 0; 0; 1; 1; 1; 0; 0; 0; 1; 1; 1], [0; 0; 0; 0; 0; 0; one; one; one; one; one; one]), ["wall"; "inlet"; "fluid0"; "fluid1"; "unmarked"; "internal-domain"])) /\
    seen (run V2 ["--extrude"; "2"; "chan.msh"] msh) = Some (["chan.msh"; "chan.ic3"], Err AssertionError).
  Proof. vm_compute. split; reflexivity. Qed.
  (** The file, converted again, then once more. *)
  Example c90_again : let fs := snd (run V3 ["chan.msh"] msh) in
    seen (run V3 ["chan.ic3"] fs) = Some (["chan.msh"; "chan.ic3"; "chan(1).ic3"], Ok (2, 6, Ok ([0; 1; 2; 0; 1; 2], [0; 0; 0; 1; 1; 1], [0; 0; 0; 0; 0; 0]), ["wall"; "inlet"; "unmarked"; "internal-domain"])).
  Proof. vm_compute. reflexivity. Qed.
  Example c90_cube : seen (cube ["--nx"; "2"; "--ny=1"; "--nz"; "1"; "c.ic3"] msh) =
    Some (["chan.msh"; "c.ic3"], Ok (2, 12, Ok ([2; 2; 2; 2; 102; 102; 102; 102; 202; 202; 202; 202], [1; 1; 101; 101; 1; 1; 101; 101; 1; 1; 101; 101], [1; 101; 1; 101; 1; 101; 1; 101; 1; 101; 1; 101]), ["imin"; "imax"; "jmin"; "jmax"; "kmin"; "kmax"; "internal-domain"])).
  Proof. vm_compute. reflexivity. Qed.
  Close Scope string_scope.

  (** The hypotheses hold: the theorems apply to these commands. *)
  Lemma ex_chan_flat : gmsh_flat (Some ex_chan_names) 6 ex_chan_elts.
  Proof.
    assert (PN : forall k, is_patch (Some ex_chan_names) (GmshSpec.of_dim 1 ex_chan_elts) k -> k = "wall"%string \/ k = "inlet"%string).
    { intros k (_ & e & I & P). cbn in I. repeat (destruct I as [<- | I]; [vm_compute in P; injection P as <-; tauto |]). destruct I. }
    constructor.
    - intros e I. cbn in I. repeat (destruct I as [<- | I]; [split; [reflexivity |]; cbn; repeat constructor; cbn; lia |]). destruct I.
    - intros l1 e l2 e' l3 E. destruct l1 as [| x1 [| x2 [| x3 l1]]]; cbn in E; try discriminate E.
      + injection E as <- E. destruct l2 as [| y1 [| y2 l2]]; cbn in E; try discriminate E. injection E as <- _. cbn. intros P. assert (J := Permutation_in 1 P ltac:(cbn; auto)). cbn in J. lia.
      + injection E as _ _ E. destruct l2; discriminate E.
    - intros e u I J. cbn in I. repeat (destruct I as [<- | I]; [cbn in J; lia |]). destruct I.
    - intros k e P I C. apply coversb_iff in C. cbn in I. destruct (PN k P) as [-> | ->]; repeat (destruct I as [<- | I]; [vm_compute in C; discriminate |]); destruct I.
    - split; intros P; destruct (PN _ P); discriminate.
  Qed.
  Lemma ex_in_place : in_dir (Path_ "" []) "chan.msh" (path_of "chan.msh") /\ split_name "chan.msh" "chan" ".msh".
  Proof. split; [split; reflexivity |]. assert (S := name_split_ok "chan.msh"%string). vm_compute in S. exact S. Qed.
  Lemma ex_set : set_enum (nodup Z.eq_dec).
  Proof. intros l. split; [apply NoDup_nodup | intros x; apply nodup_In]. Qed.

  Example c90_case : exists q b m fm2 lb li rb ri,
    run V3 (["chan.msh"; "--scale"; "3"; "2"; "1"]%string) msh = (Done (Ok (path_str q)), msh ++ [(path_str q, inr b)]) /\
    (forall integrity, read_mesh integrity b = Ok fm2) /\ converted gmsh_elem2faces m (elt_cells (GmshSpec.of_dim 2 ex_chan_elts)) lb li rb ri fm2.
  Proof.
    destruct (ex_chan_conforms [] (or_introl eq_refl)) as (GC & OK & TD). cbn [app] in *. destruct (c74_files ex_half_chan [] (or_introl (conj eq_refl eq_refl))) as (F1 & F2 & F3 & F4).
    destruct ex_in_place as (ID & SN).
    destruct (C90_version2 bytes text tree (@inr (list (list string)) (list Z)) ints ints int10 int10 int10 add mul linspace 0 (nodup Z.eq_dec) ex_i2d ex_f2i Little (fun _ => Ok tt) (fun _ => (None, Ok tt))
      ltac:(intros n; apply Z.mod_pos_bound; lia) ltac:(intros; apply Z.mod_pos_bound; lia) ex_set V3 [] "chan.msh" [Scale "3" "2" "1"] msh (Path_ "" []) "chan.msh" "chan" ".msh" (inl ex_half_chan) 2 (Some ex_chan_names) ex_chan_nodes ex_chan_elts 2) as (q & b & m & fm2 & lb & li & rb & ri & A & _ & B & _ & _ & _ & CV & _).
    - constructor.
    - constructor; [| constructor]. cbn. repeat split; try (left; intros (r & E); discriminate E); vm_compute; discriminate.
    - left. intros (r & E). discriminate E.
    - intros (l & i & E & _). destruct l; discriminate E.
    - exact ID.
    - exact SN.
    - right. split; reflexivity.
    - reflexivity.
    - reflexivity.
    - reflexivity.
    - exact F1.
    - lia.
    - exact F2.
    - exact F3.
    - rewrite app_nil_r in F4. exact F4.
    - exact OK.
    - exact TD.
    - lia.
    - exact GC.
    - exact c74_case.
    - vm_compute; reflexivity.
    - vm_compute; reflexivity.
    - vm_compute; reflexivity.
    - intros x y z I. cbn in I. repeat (destruct I as [I | I]; [injection I as <- <- <-; repeat split; vm_compute; congruence |]). destruct I.
    - exists q, b, m, fm2, lb, li, rb, ri. auto.
  Qed.
End Cases.
