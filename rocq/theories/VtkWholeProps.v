(** * Property C91: the converter to VTK as a whole program. *)
From Coq Require Import ZArith List Bool String Lia Permutation.
From Verif Require Import Py PyFacts Elements IndexList Conn ConnSpec ConnProofs FaceSpec FaceThm Mesh MeshSpec Files FilesSpec FilesProofs FilesProps Race Cli CliProps CmdLine CmdLineSpec CmdLineProofs CmdLineProps.
From Verif Require Import Ic3 Ic3FileProps Extrude ExtrudeSpec ExtrudeProps Gmsh GmshSpec GroupFacts GmshProofs GmshFileProofs GmshProps GmshIc3Spec GmshIc3Props Cgns CgnsSpec CgnsProps CgnsIc3Spec CgnsIc3Props Simple SimpleSpec Vtk VtkSpec VtkProofs VtkMeshProps VtkConvProps.
From Verif Require Import Whole WholeSpec WholeProofs VtkWhole VtkWholeSpec VtkWholeProofs.

Section C91.
  Context {C : Type} (bytes : C -> list Z) (text : C -> list (list string)) (tree : C -> cgnode Z) (of_bytes : list Z -> C) (save : grid (list Z) -> C).
  Context (ints floats : string -> option Z) (int_of float_of ver_of : string -> res Z).
  Context (fadd fmul fdiv : Z -> Z -> Z) (linspace : nat -> list Z) (unread : Z) (enum : list Z -> list Z).
  Context (i2d : Z -> Z) (f2i : Z -> res Z) (host : order) (shown : fmesh -> res unit).
  Hypothesis steps : forall k, List.length (linspace k) = k.
  Hypothesis sets : set_enum enum.
  Notation formats := (formats bytes text tree int_of float_of ver_of unread enum).
  Notation command := (cfdwrite_vtk bytes text tree of_bytes save ints floats int_of float_of ver_of fadd fmul linspace unread enum i2d f2i host shown).
  Notation good := (CmdLineSpec.good ints floats (available_readers formats)).
  Notation means := (meaning ints floats).
  Notation loaded := (load 0 int_of float_of ver_of).
  Notation run := (run_vtk bytes text tree of_bytes save ints floats int_of float_of ver_of fadd fmul linspace unread enum i2d f2i host shown).

  (** A Gmsh file whose nodes were all read, with any options but --extrude and --info: one file more, under a free name, that
      holds the elements of the largest dimension, type by type, on the nodes of the file, scaled if asked for.  If an element
      uses a node that the file does not have, the command fails and writes nothing. *)
  Theorem C91_gmsh before f after fs dir nm st sf ct names nnode elts d x y z :
    let a := means f (before ++ after) in let msh := text ct in let l := GmshSpec.of_dim d elts in
    Forall good before -> Forall good after -> CmdLineSpec.plain f -> ~ open_end before ->
    in_dir dir nm (path_of f) -> split_name nm st sf -> input_format a sf "GMSH" ".msh" -> ar_extrude a = 0 -> ar_info a = false ->
    dget String.eqb (path_str (path_of f)) fs = Some ct ->
    gmsh_file int_of float_of ver_of msh names nnode elts -> Forall felt_ok elts -> top_dim d elts -> 2 <= d <= 3 ->
    (forall e, In e (GmshSpec.of_dim (d - 1) elts) -> patch_name names (GmshSpec.of_dim (d - 1) elts) e <> None) ->
    (forall m, loaded (List.length msh) msh = Ok m -> nodescoord m = Ok (List.map Some x, List.map Some y, List.map Some z)) ->
    ((forall e v, In e l -> In v (fe_nodes e) -> 1 <= v <= nnode) ->
       exists q g, command (words before ++ f :: words after) fs = (Done (Ok (path_str q)), fs ++ [(path_str q, save g)]) /\ output_as ".vtu" fs a st q /\
         grid_lists g (by_type l) /\ g_points g = places fmul (ar_scale a) x y z /\ n_points g = nnode) /\
    ((exists e v, In e l /\ In v (fe_nodes e) /\ ~ 1 <= v <= nnode) -> command (words before ++ f :: words after) fs = (Done (Err ValueError), fs)).
  Proof using.
    clear steps sets fdiv. intros a msh l Gb Ga Pf Ho ID SN IFM X0 I0 DG Hfile Hok Ht Hd Hnm XYm.
    destruct (gmsh_base int_of float_of ver_of msh names nnode elts d x y z Hfile Hok Ht Hd Hnm XYm) as (m & LD & CE & CO & NN & L1 & _). fold l in CE, L1. destruct CO as (XY & K1 & K2 & K3).
    destruct (LD unread) as (g0 & m0 & RG & CNT & EG & PL).
    edestruct (run before f after fs dir nm st sf "GMSH"%string) as (q & OUT & RUN);
      [exact Gb | exact Ga | exact Pf | exact Ho | exact ID | exact SN | exact IFM | rewrite formats_are; right; left; reflexivity | | | |].
    { unfold read_gmsh. rewrite DG. fold msh. rewrite RG. cbn [bind]. rewrite EG. cbn [bind]. rewrite PL. reflexivity. }
    { intros E. injection E as E. lia. }
    { apply bare_remove. }
    fold a in RUN, OUT. unfold WholeProofs.transform in RUN. rewrite X0, I0 in RUN. cbn [Z.eqb bind] in RUN.
    destruct (scale_step fmul (ar_scale a) m (elt_cells l) x y z CE XY K1 K2 K3) as (m' & SC & CE' & XY'). rewrite SC in RUN. cbn [bind bare fm_mesh] in RUN.
    assert (OKl : Forall felt_ok l) by (apply GmshProofs.of_dim_ok; exact Hok).
    assert (DI : forall e, In e l -> felt_dim e = d) by (intros e I; apply filter_In in I; lia).
    assert (KN := elt_known l d OKl DI Hd). split.
    - intros V. destruct (ready_scaled fmul (ar_scale a) m (elt_cells l) x y z m') as (g & G1 & G2 & G3); [| exact CE' | exact XY' |].
      + constructor; auto.
        * apply elt_some. intros E. rewrite E in L1. cbn in L1. lia.
        * apply elt_wf. exact OKl.
        * intros t row v I J. rewrite elt_rows in I. apply by_type_in in I. destruct I as (e & I & -> & ->). unfold nodes0 in J. apply in_map_iff in J. destruct J as (u & <- & J). specialize (V e u I J). lia.
        * unfold zlen in *. lia.
        * unfold zlen in *. lia.
      + rewrite G1 in RUN. rewrite elt_rows in G2. exists q, g. split; [exact RUN |]. split; [exact OUT |]. split; [exact G2 |]. split; [exact G3 |]. unfold n_points. rewrite G3, places_len; unfold zlen in *; lia.
    - intros (e & v & I & J & B). assert (B' : set_mesh m' = Err ValueError); [| rewrite B' in RUN; exact RUN].
      assert (PT := stack3_places fmul (ar_scale a) x y z ltac:(unfold zlen in *; lia) ltac:(unfold zlen in *; lia)). destruct (times fmul (ar_scale a) (x, y, z)) as ((x', y'), z').
      eapply bad_nodes; [unfold nodescoord_nd; rewrite XY'; exact PT | exact CE' | |].
      + intros t ed K. destruct (KN t ed K) as (code & _ & Q & _). apply (in_map fst) in Q. exact Q.
      + exists (felt_name e), (nodes0 e), (v - 1). split; [rewrite elt_rows; apply by_type_in; eauto |]. split; [unfold nodes0; apply in_map_iff; eauto |]. rewrite places_len; unfold zlen in *; lia.
  Qed.

  (** The same for version 2 files, whose nodes are always all read. *)
  Theorem C91_version2 before f after fs dir nm st sf ct ver names nodes elts d :
    let a := means f (before ++ after) in let msh := text ct in let l := GmshSpec.of_dim d elts in
    Forall good before -> Forall good after -> CmdLineSpec.plain f -> ~ open_end before ->
    in_dir dir nm (path_of f) -> split_name nm st sf -> input_format a sf "GMSH" ".msh" -> ar_extrude a = 0 -> ar_info a = false ->
    dget String.eqb (path_str (path_of f)) fs = Some ct ->
    format_is int_of ver_of msh ver -> ver <= 2 -> names_are int_of msh names -> nodes2_are int_of float_of msh nodes -> elts2_are int_of msh elts ->
    Forall felt_ok elts -> top_dim d elts -> 2 <= d <= 3 ->
    (forall e, In e (GmshSpec.of_dim (d - 1) elts) -> patch_name names (GmshSpec.of_dim (d - 1) elts) e <> None) ->
    (forall e v, In e l -> In v (fe_nodes e) -> 1 <= v <= zlen nodes) ->
    exists q g, command (words before ++ f :: words after) fs = (Done (Ok (path_str q)), fs ++ [(path_str q, save g)]) /\ output_as ".vtu" fs a st q /\
      grid_lists g (by_type l) /\ g_points g = List.map (fun '(u, v, w) => place fmul (ar_scale a) u v w) nodes.
  Proof using.
    clear steps sets fdiv. intros a msh l Gb Ga Pf Ho ID SN IFM X0 I0 DG F1 F2 F3 F4 F5 Hok Ht Hd Hnm V.
    assert (Hfile : gmsh_file int_of float_of ver_of msh names (zlen nodes) elts) by (eapply File2; eassumption).
    destruct (C91_gmsh before f after fs dir nm st sf ct names (zlen nodes) elts d (List.map (fun p => fst (fst p)) nodes) (List.map (fun p => snd (fst p)) nodes) (List.map snd nodes)) as (H & _); try eassumption.
    - intros m L. assert (R := v2_read int_of float_of ver_of msh ver (List.length msh) names nodes elts F1 F2 F3 F4 F5).
      rewrite (C56_exported 0 int_of float_of ver_of msh (List.length msh) m _ _ _ R L), !map_map. reflexivity.
    - destruct (H V) as (q & g & RUN & OUT & G & P & _). exists q, g. split; [exact RUN |]. split; [exact OUT |]. split; [exact G |]. fold a in P. rewrite P. unfold places. clear.
      induction nodes as [| ((u, v), w) nodes IH]; [reflexivity |]. cbn [List.map combine fst snd]. now rewrite IH.
  Qed.

  (** A planar file of quadrangles extruded in n layers, then scaled if asked for: n layers of hexahedra, on n + 1 copies of the
      nodes, each moved along z. *)
  Theorem C91_extruded before f after fs dir nm st sf ct names nnode elts x y z :
    let a := means f (before ++ after) in let msh := text ct in let l := GmshSpec.of_dim 2 elts in let n := ar_extrude a in
    Forall good before -> Forall good after -> CmdLineSpec.plain f -> ~ open_end before ->
    in_dir dir nm (path_of f) -> split_name nm st sf -> input_format a sf "GMSH" ".msh" -> 1 <= n -> ar_info a = false ->
    dget String.eqb (path_str (path_of f)) fs = Some ct ->
    gmsh_file int_of float_of ver_of msh names nnode elts -> Forall felt_ok elts -> top_dim 2 elts ->
    (forall e, In e (GmshSpec.of_dim 1 elts) -> patch_name names (GmshSpec.of_dim 1 elts) e <> None) ->
    ~ is_patch names (GmshSpec.of_dim 1 elts) "fluid0" -> ~ is_patch names (GmshSpec.of_dim 1 elts) "fluid1" ->
    (forall m, loaded (List.length msh) msh = Ok m -> nodescoord m = Ok (List.map Some x, List.map Some y, List.map Some z)) ->
    ((forall e, In e l -> felt_name e = "quad4"%string) -> (forall e v, In e l -> In v (fe_nodes e) -> 1 <= v <= nnode) ->
       exists q g, command (words before ++ f :: words after) fs = (Done (Ok (path_str q)), fs ++ [(path_str q, save g)]) /\ output_as ".vtu" fs a st q /\
         grid_lists g (stack nnode n l) /\ n_points g = (n + 1) * nnode /\
         forall i v s u t w, nth_error (linspace (Z.to_nat (n + 1))) i = Some s -> nth_error x v = Some u -> nth_error y v = Some t -> nth_error z v = Some w ->
           nth_error (g_points g) (i * Z.to_nat nnode + v) = Some (place fmul (ar_scale a) (fadd u (fmul s 0)) (fadd t (fmul s 0)) (fadd w (fmul s one)))) /\
    ((exists e, In e l /\ felt_name e <> "quad4"%string) -> command (words before ++ f :: words after) fs = (Done (Err KeyError), fs)).
  Proof using steps sets.
    clear fdiv. intros a msh l n Gb Ga Pf Ho ID SN IFM N1 I0 DG Hfile Hok Ht Hnm P0 P1 XYm.
    destruct (gmsh_base int_of float_of ver_of msh names nnode elts 2 x y z Hfile Hok Ht ltac:(lia) Hnm XYm) as (m & LD & CE & CO & NN & L1 & ND & MK). fold l in CE, L1. change (2 - 1) with 1 in MK.
    destruct (LD unread) as (g0 & m0 & RG & CNT & EG & PL).
    edestruct (run before f after fs dir nm st sf "GMSH"%string) as (q & OUT & RUN);
      [exact Gb | exact Ga | exact Pf | exact Ho | exact ID | exact SN | exact IFM | rewrite formats_are; right; left; reflexivity | | | |].
    { unfold read_gmsh. rewrite DG. fold msh. rewrite RG. cbn [bind]. rewrite EG. cbn [bind]. rewrite PL. reflexivity. }
    { intros E. injection E as E. lia. }
    { apply bare_remove. }
    fold a in RUN, OUT. unfold WholeProofs.transform in RUN. fold n in RUN. rewrite I0 in RUN. destruct (Z.eqb_spec n 0) as [E0 | _]; [lia |]. unfold extruded in RUN. destruct (Z.ltb_spec (n + 1) 0) as [E0 | _]; [lia |]. cbn [fm_mesh bare] in RUN.
    set (planes := linspace (Z.to_nat (n + 1))) in *. assert (ZP : zlen planes = n + 1) by (unfold zlen, planes; rewrite steps; lia).
    assert (OKl : Forall felt_ok l) by (apply GmshProofs.of_dim_ok; exact Hok).
    assert (DI : forall e, In e l -> felt_dim e = 2) by (intros e I; apply filter_In in I; lia).
    destruct (elt_wf l OKl) as (W & PLN).
    assert (TY : forall t ed, In (t, ed) (ec_dict (elt_cells l)) -> exists w, In (t, w) base_types /\ m_cols (ed_e2n ed) = Some w /\ (t = "tri3" \/ t = "quad4")%string).
    { intros t ed I. assert (T := elt_known l 2 OKl DI ltac:(lia) t ed I). destruct T as (code & w & _ & T & MC). apply numbered_in in I. destruct I as (I & _). rewrite (first_seen_in _ seqb_eq) in I. apply in_map_iff in I. destruct I as (e & <- & I).
      exists w. rewrite MC. specialize (DI e I). rewrite Forall_forall in OKl. destruct (OKl e I) as (n0 & d' & k & S & LE). unfold felt_dim in DI. unfold felt_name in *. rewrite S in *. subst d'. clear -S T.
      unfold shape_of in S. destruct (fe_type e) as [|p|p]; try discriminate; repeat (destruct p as [p|p|]; try discriminate); injection S as <- <-; cbn in T; injection T as T; assert (w = 3 \/ w = 4)%nat as [-> | ->] by lia; try discriminate T; cbn; auto 10. }
    destruct (C27_extruded Z fadd fmul enum m (elt_cells l) x y z (0, 0, one) planes "fluid" sets ltac:(lia) CO CE W PLN) as (mx & EX & XM).
    { intros t ed I. destruct (TY t ed I) as (w & A & B & _). eauto. }
    { intros k b I. destruct (MK k b I) as (_ & A1 & A2 & A3 & A4). split; [exact A1 |]. split; [exact A2 |]. split; [exact A3 |]. exists "boundary"%string. split; [exact A4 | cbn; tauto]. }
    { exact ND. }
    { intros I. apply P0. unfold dkeys in I. apply in_map_iff in I. destruct I as ((k, b) & E & I). cbn in E. subst k. apply (MK _ _ I). }
    { intros I. apply P1. unfold dkeys in I. apply in_map_iff in I. destruct I as ((k, b) & E & I). cbn in E. subst k. apply (MK _ _ I). }
    rewrite EX in RUN. cbn [bind] in RUN.
    destruct (xm_cells _ _ _ _ _ _ _ XM) as (c0 & c & E0 & CX & XC). rewrite CE in E0. injection E0 as <-.
    destruct (xm_coords _ _ _ _ _ _ _ XM x y z CO) as (x' & y' & z' & CO' & XYZ). destruct CO' as (XY' & K1 & K2 & K3).
    assert (NX := xm_nnode _ _ _ _ _ _ _ XM). rewrite ZP, NN in NX. rewrite ZP, NN in XC.
    destruct (scale_step fmul (ar_scale a) mx c x' y' z' CX XY' K1 K2 K3) as (m' & SC & CE' & XYs). rewrite SC in RUN. cbn [bind bare fm_mesh] in RUN.
    destruct CO as (_ & C1 & C2 & C3).
    split.
    - intros Q V.
      assert (FS : first_seen String.eqb (List.map felt_name l) = ["quad4"%string]).
      { assert (A : forall u, In u (first_seen String.eqb (List.map felt_name l)) -> u = "quad4"%string).
        { intros u I. rewrite (first_seen_in _ seqb_eq) in I. apply in_map_iff in I. destruct I as (e & <- & I). apply (Q e I). }
        assert (NDF := first_seen_NoDup _ seqb_eq (List.map felt_name l)). assert (NE : first_seen String.eqb (List.map felt_name l) <> []).
        { intros E. destruct l as [| e l']; [unfold zlen in L1; cbn in L1; lia |]. assert (I : In (felt_name e) (first_seen String.eqb (List.map felt_name (e :: l')))) by (rewrite (first_seen_in _ seqb_eq); left; reflexivity). rewrite E in I. destruct I. }
        destruct (first_seen String.eqb (List.map felt_name l)) as [| u [| t r]]; [congruence | rewrite (A u); [reflexivity | left; reflexivity] |].
        exfalso. assert (u = t) by (rewrite (A u), (A t); cbn; auto). subst. inversion NDF. cbn in *. tauto. }
      assert (RO : GmshIc3Spec.rows_of l "quad4" = List.map nodes0 l).
      { unfold GmshIc3Spec.rows_of. f_equal. clear - Q. induction l as [| e l IH]; [reflexivity |]. cbn [filter]. rewrite (Q e (or_introl eq_refl)), String.eqb_refl. f_equal. apply IH. intros e' I. apply Q. right; exact I. }
      assert (TB : ec_types (elt_cells l) = ["quad4"%string]) by (unfold ec_types, elt_cells; cbn [ec_dict]; fold (dkeys (GmshIc3Spec.numbered 0 l (first_seen String.eqb (List.map felt_name l)))); rewrite numbered_keys; exact FS).
      assert (TX : ec_types c = ["hexa8"%string]).
      { assert (T := xc_types _ _ _ _ XC). rewrite TB in T. inversion T as [| ? u ? r B R]; subst. inversion R; subst. cbn in B. intuition congruence. }
      destruct (xc_wf _ _ _ _ XC) as (WX & _).
      assert (TR : typed_rows c = stack nnode n l).
      { rewrite (typed_rows_types c WX), TX. cbn [flat_map]. rewrite app_nil_r. rewrite (xc_pairs _ _ _ _ XC "quad4"%string "hexa8"%string ltac:(cbn; tauto)).
        assert (PQ : pairs_of_type (elt_cells l) "quad4" = combine (zrange 0 (zlen l)) (List.map nodes0 l)).
        { unfold pairs_of_type, elt_cells. cbn [ec_dict]. rewrite FS. cbn [GmshIc3Spec.numbered flat_map fst snd String.eqb Ascii.eqb Bool.eqb]. rewrite app_nil_r, RO. unfold ed_pairs. cbn [ed_index ed_e2n entries m_rows]. rewrite zlen_map. f_equal. f_equal. lia. }
        rewrite PQ. unfold layers, stack. replace (n + 1 - 1) with n by lia. rewrite map_map, !flat_map_concat_map, concat_map, map_map. f_equal. apply map_ext. intros i. rewrite !map_map. unfold layer_cell. cbn [snd].
        transitivity (List.map (fun r => ("hexa8"%string, List.map (fun v => v + i * nnode) r ++ List.map (fun v => v + (i + 1) * nnode) r)) (List.map snd (combine (zrange 0 (zlen l)) (List.map nodes0 l)))).
        { rewrite map_map. reflexivity. }
        rewrite map_snd_combine by (rewrite zrange_length, map_length; unfold zlen; lia). rewrite map_map. reflexivity. }
      destruct (ready_scaled fmul (ar_scale a) mx c x' y' z' m') as (g & G1 & G2 & G3); [| exact CE' | exact XYs |].
      + constructor; auto; try (unfold zlen in *; lia).
        * intros E. unfold ec_types in TX. rewrite E in TX. discriminate.
        * intros t ed I. destruct (xc_width _ _ _ _ XC t ed I) as (t0 & w & B & BW & MC). assert (J : In t (ec_types c)) by (apply (in_map fst) in I; exact I). rewrite TX in J. destruct J as [<- | []].
          assert (w = 4)%nat as -> by (cbn in B, BW; repeat (destruct B as [B | B]; [try discriminate B; injection B as <- |]); repeat (destruct BW as [BW | BW]; [try discriminate BW; injection BW as <- |]); try contradiction; reflexivity).
          exists 12, 8%nat. split; [cbn; tauto |]. split; [reflexivity | exact MC].
        * intros t row v I J. rewrite TR in I. unfold stack in I. apply in_flat_map in I. destruct I as (i & R & I). apply in_zrange in R. apply in_map_iff in I. destruct I as (e & E & I). injection E as <- <-.
          rewrite K1, NX. apply in_app_iff in J. destruct J as [J | J]; apply in_map_iff in J; destruct J as (u & <- & J); unfold nodes0 in J; apply in_map_iff in J; destruct J as (u' & <- & J); specialize (V e u' I J); nia.
      + rewrite G1 in RUN. rewrite TR in G2. exists q, g. split; [exact RUN |]. split; [exact OUT |]. split; [exact G2 |]. split.
        { unfold n_points. rewrite G3, places_len; unfold zlen in *; lia. }
        intros i v s u t w S X Y Zc. rewrite G3. rewrite NN in XYZ. destruct (XYZ i v s u t w S X Y Zc) as (R1 & R2 & R3). cbn [fst snd] in R1, R2, R3. apply places_nth; assumption.
    - intros (e & I & NQ). assert (B : set_mesh m' = Err KeyError); [| rewrite B in RUN; exact RUN].
      assert (PT := stack3_places fmul (ar_scale a) x' y' z' ltac:(unfold zlen in *; lia) ltac:(unfold zlen in *; lia)). destruct (times fmul (ar_scale a) (x', y', z')) as ((x1, y1), z1).
      eapply C67_unsupported; [unfold nodescoord_nd; rewrite XYs; exact PT | exact CE' |].
      assert (T3 : In "tri3"%string (ec_types (elt_cells l))).
      { assert (J : In (felt_name e) (ec_types (elt_cells l))) by (unfold ec_types, elt_cells; cbn [ec_dict]; fold (dkeys (GmshIc3Spec.numbered 0 l (first_seen String.eqb (List.map felt_name l)))); rewrite numbered_keys, (first_seen_in _ seqb_eq); apply in_map; exact I).
        assert (J' := J). unfold ec_types in J. apply in_map_iff in J. destruct J as ((t, ed) & E & J). cbn in E. subst t. destruct (TY _ _ J) as (_ & _ & _ & [E | E]); [rewrite <- E; exact J' | congruence]. }
      assert (P6 : In "penta6"%string (ec_types c)).
      { assert (T := xc_types _ _ _ _ XC). clear -T T3. induction T as [| u v r r' B T IH]; [destruct T3 |]. destruct T3 as [-> | T3]; [left; cbn in B; intuition congruence | right; auto]. }
      unfold ec_types in P6. apply in_map_iff in P6. destruct P6 as ((t, ed) & E & J). cbn in E. subst t. exists "penta6"%string, ed. split; [exact J |]. vm_compute. intuition discriminate.
  Qed.

  (** A negative number of layers: whatever the input, the command fails and writes nothing. *)
  Theorem C91_negative before f after fs : let a := means f (before ++ after) in
    Forall good before -> Forall good after -> CmdLineSpec.plain f -> ~ open_end before -> ar_extrude a < 0 ->
    exists e, command (words before ++ f :: words after) fs = (Done (Err e), fs).
  Proof using steps.
    clear sets fdiv. intros a Gb Ga Pf Ho N. destruct (parse_file ints floats (available_readers formats) before f after Gb Ga Ho Pf) as (ns & PA & AR). fold a in AR.
    unfold cfdwrite_vtk, cfdwrite. rewrite PA, AR. unfold write_generic. destruct (parse_filenameformat _ _ _) as [((fmt, [rd |]), wr) |]; [| eauto | eauto].
    destruct (rd fs _) as [(k, ex) |]; [| eauto]. destruct (_ <- per_elem k ;; ex) as [fm |]; [| eauto]. destruct (remove_cells _ fm) as ([u |], fm'); [| eauto]. destruct (output_name _ _ _ _) as [p |]; [| eauto].
    destruct (Z.eqb_spec (ar_extrude a) 0) as [E | _]; [lia |]. unfold extruded. destruct (Z.ltb_spec (ar_extrude a + 1) 0) as [L | L]; [cbn [bind]; eauto |].
    rewrite C27_one_plane; [cbn [bind]; eauto |]. unfold zlen. rewrite steps. lia.
  Qed.

  (** An IC3 file, whatever it contains and whatever the options: the command fails and writes nothing. *)
  Theorem C91_ic3 before f after fs dir nm st sf : let a := means f (before ++ after) in
    Forall good before -> Forall good after -> CmdLineSpec.plain f -> ~ open_end before ->
    in_dir dir nm (path_of f) -> split_name nm st sf -> input_format a sf "IC3" ".ic3" ->
    exists e, command (words before ++ f :: words after) fs = (Done (Err e), fs).
  Proof using.
    clear. intros a Gb Ga Pf Ho ID SN IFM. destruct (parse_file ints floats (available_readers formats) before f after Gb Ga Ho Pf) as (ns & PA & AR). fold a in AR.
    assert (AF : ar_filename a = f) by apply means_file.
    assert (PF := format_read bytes text tree int_of float_of ver_of unread enum a dir nm st sf "IC3"%string (read_ic3 bytes) _ _ ltac:(rewrite formats_are; left; reflexivity) ltac:(rewrite AF; exact ID) SN IFM).
    unfold cfdwrite_vtk, cfdwrite. rewrite PA, AR.
    assert (PF' : parse_filenameformat formats (ar_fmt a) (ar_filename a) = Ok ("IC3"%string, Some (ic3_reader bytes false), Some (ToIC3 V3))) by exact PF.
    edestruct (C80_command (W := writer) bytes save (extruded fadd fmul linspace enum) (scaled fmul) shown formats (List.length fs + 1) a ".vtu"%string ToVTK fs) as (e & E); [| | exact PF' |].
    - intros n fm fm' X. unfold extruded in X. destruct (n + 1 <? 0); [discriminate |]. apply bind_ok in X. destruct X as (m & X & Y). injection Y as <-. cbn [fm_mesh bare]. eauto 10.
    - intros ((sx, sy), sz) fm fm' X. unfold scaled in X. destruct (scale fmul (fm_mesh fm) sx sy sz) as (r, m) eqn:S. destruct r as [[] |]; cbn [bind] in X; [| discriminate]. injection X as <-. cbn [fm_mesh]. eauto 10.
    - exists e. unfold write_generic in *. rewrite PF in E |- *. destruct (read_ic3 bytes fs _) as [(k, ex) |]; [| congruence].
      destruct (_ <- per_elem k ;; ex) as [fm |]; [| congruence]. destruct (remove_cells _ fm) as ([u |], fm'); [| congruence]. destruct (output_name _ _ _ _) as [p |]; [| congruence].
      match type of E with match ?x with _ => _ end = _ => destruct x as [fm1 |] end; [| congruence]. unfold write_to, write, vtk_file, vtk_write in *. destruct (set_mesh (fm_mesh fm1)); cbn [fst snd] in *; congruence.
  Qed.

  (** A CGNS file with sections of the dimension of its base: the elements of these sections, type by type, on the nodes of the
      file, scaled if asked for.  If there is none, or if one uses a node that the file does not have, the command fails and
      writes nothing. *)
  Theorem C91_cgns before f after fs dir nm st sf ct zn nnode ncell x y w secs bcs :
    let a := means f (before ++ after) in let l := secs_of_dim (zo_geodim zn) secs in
    Forall good before -> Forall good after -> CmdLineSpec.plain f -> ~ open_end before ->
    in_dir dir nm (path_of f) -> split_name nm st sf -> input_format a sf "CGNS" ".cgns" -> ar_extrude a = 0 -> ar_info a = false ->
    dget String.eqb (path_str (path_of f)) fs = Some ct -> Cgns.read_data (tree ct) None = Ok zn ->
    zone_holds zn nnode ncell x y w secs bcs -> Forall CgnsSpec.sec_ok secs -> 1 <= zo_geodim zn ->
    NoDup (List.map fst (flat_map sec_elts (secs_of_dim (zo_geodim zn - 1) secs))) ->
    (forall b, In b bcs -> readable (flat_map sec_elts (secs_of_dim (zo_geodim zn - 1) secs)) ncell b) ->
    (l <> [] -> (forall s r v, In s l -> In r (cs_rows s) -> In v r -> 1 <= v <= nnode) ->
       exists q g, command (words before ++ f :: words after) fs = (Done (Ok (path_str q)), fs ++ [(path_str q, save g)]) /\ output_as ".vtu" fs a st q /\
         grid_lists g (flat_map (fun t => List.map (fun e => (t, snd e)) (flat_map sec_elts (filter (fun s => String.eqb t (cs_name s)) l))) (first_seen String.eqb (List.map cs_name l))) /\
         g_points g = places fmul (ar_scale a) x y w /\ n_points g = nnode) /\
    (l = [] \/ (exists s r v, In s l /\ In r (cs_rows s) /\ In v r /\ ~ 1 <= v <= nnode) -> command (words before ++ f :: words after) fs = (Done (Err ValueError), fs)).
  Proof using sets.
    clear steps fdiv. intros a l Gb Ga Pf Ho ID SN IFM X0 I0 DG RZ ZH OK D1 ND RB.
    destruct (proj2 (proj1 (C59_loads enum sets _ _ _ _ _ _ _ _ ZH OK ND)) RB) as (m & EX).
    destruct (C59_cells enum sets _ _ _ _ _ _ _ _ _ ZH OK ND EX) as (NN & XY & c & _ & CE & _).
    destruct (zh_len _ _ _ _ _ _ _ _ ZH) as (K1 & K2 & K3).
    edestruct (run before f after fs dir nm st sf "CGNS"%string) as (q & OUT & RUN);
      [exact Gb | exact Ga | exact Pf | exact Ho | exact ID | exact SN | exact IFM | rewrite formats_are; right; right; left; reflexivity | | | |].
    { unfold read_cgns. rewrite DG, RZ. cbn [bind]. rewrite (proj2 (sizes_ok _ _ _ _ _ _ _ _ ZH)). cbn [bind]. rewrite EX. reflexivity. }
    { discriminate. }
    { apply bare_remove. }
    fold a in RUN, OUT. unfold WholeProofs.transform in RUN. rewrite X0, I0 in RUN. cbn [Z.eqb bind] in RUN.
    destruct (scale_step fmul (ar_scale a) m c x y w CE XY) as (m' & SC & CE' & XY'); [lia | lia | lia |]. rewrite SC in RUN. cbn [bind bare fm_mesh] in RUN.
    assert (L2 : List.length y = List.length x) by (unfold zlen in *; lia). assert (L3 : List.length w = List.length x) by (unfold zlen in *; lia).
    rewrite (mesh_moved fmul (ar_scale a) m m' c x y w XY L2 L3 CE CE' XY') in RUN.
    destruct (C80_cgns enum sets zn nnode ncell x y w secs bcs m ZH OK ND EX D1) as (R1 & R2 & R3). fold l in R1, R2, R3. split.
    - intros NE V. destruct (R2 NE V) as (g & G1 & G2 & G3 & G4). rewrite G1 in RUN. eexists q, _. split; [exact RUN |]. split; [exact OUT |]. split; [| split; [reflexivity | unfold n_points; cbn [g_points]; rewrite places_len by assumption; lia]].
      apply grid_moved; [exact G4 |]. rewrite places_len by assumption. lia.
    - intros [E | B]; [rewrite (R1 E) in RUN | rewrite (R3 B) in RUN]; exact RUN.
  Qed.

  (** [cfdwritecube] with a name that ends with .vtu: the file of that name holds the grid of the cube, cells and points in the
      order of their numbers; the other files are kept. *)
  Theorem C91_cube before f after fs dir nm st nx ny nz :
    Forall (cgood ints (available_readers formats)) before -> Forall (cgood ints (available_readers formats)) after -> CmdLineSpec.plain f ->
    cmeaning ints (before ++ after) = (None, (nx, ny, nz)) -> in_dir dir nm (path_of f) -> split_name nm st ".vtu" -> 1 <= nx -> 1 <= ny -> 1 <= nz ->
    exists g cs fs', cube_vtk bytes text tree of_bytes save ints floats int_of float_of ver_of fdiv unread enum i2d f2i host (cwords before ++ f :: cwords after) fs = (Done (Ok (path_str (path_of f))), fs') /\
      dget String.eqb (path_str (path_of f)) fs' = Some (save g) /\ (forall s, s <> path_str (path_of f) -> dget String.eqb s fs' = dget String.eqb s fs) /\
      grid_of g cs /\ zlen cs = nx * ny * nz /\ n_points g = (nx + 1) * (ny + 1) * (nz + 1) /\
      (forall p, cell_ok nx ny nz p -> nth_error cs (Z.to_nat (cell_no ny nz p)) = Some (12, hexa ny nz p)) /\
      forall p, in_box (nx + 1) (ny + 1) (nz + 1) p -> nth_error (g_points g) (Z.to_nat (node_no ny nz p)) = Some [fdiv (pi p) nx; fdiv (pj p) ny; fdiv (pk p) nz].
  Proof using.
    clear steps sets. intros Gb Ga Pf CME ID SN Hx Hy Hz. destruct (C80_cube Z fdiv nx ny nz Hx Hy Hz) as (m & g & cs & E & G & GO & V & L1 & L2 & CC & PP).
    assert (PS : path_suffix (path_of f) = ".vtu"%string).
    { destruct (located_parent dir nm _ (or_introl ID)) as (NM & _). assert (S2 := name_split_ok nm). destruct (split_name_det _ _ _ _ _ SN S2) as (_ & EX). unfold path_suffix. rewrite NM. auto. }
    exists g, cs, (dset String.eqb (path_str (path_of f)) (save g) fs). split; [| split; [apply (dget_dset_eq _ seqb_eq) | split; [intros s NE; apply (dget_dset_neq _ seqb_eq); congruence | auto 10]]].
    unfold cube_vtk, cfdwrite_cube. rewrite (C86_cube _ _ _ _ _ _ _ _ _ Gb Ga Pf), CME. rewrite E. cbn [bind]. unfold cfdwritecube. cbn [ar_fmt ar_filename]. rewrite formats_are. unfold parse_filenameformat. rewrite PS.
    cbn. unfold vtk_file. cbn [fm_mesh bare]. rewrite G. reflexivity.
  Qed.

  (** Whatever the words and the files: the files that exist are kept; a command that fails or stops adds none, one that ends with
      a name has added the file of that name, and no other. *)
  Theorem C91_safe argv fs r fs' : command argv fs = (r, fs') ->
    (forall name, r = Done (Ok name) -> exists g, dget String.eqb name fs = None /\ fs' = fs ++ [(name, save g)]) /\
    ((forall name, r <> Done (Ok name)) -> fs' = fs) /\ r <> Stuck.
  Proof using.
    clear steps sets fdiv. intros H. unfold cfdwrite_vtk in H. set (tb := elem2faces_after _) in H.
    destruct (C86_total ints floats (extruded fadd fmul linspace enum) (scaled fmul) shown (write of_bytes enum i2d f2i host (vtk_file save) tb) formats (List.length fs + 1) argv ".vtu"%string ToVTK fs) as [(a & E) | (c & E & G)]; rewrite E in H.
    - destruct (write_generic _ _ _ _ _ _ _ _ _ _) as (x, fs1) eqn:W. injection H as <- <-. destruct (C64_converter _ _ _ _ _ _ _ _ _ _ _ _ W) as (A & _). split; [| split; [| discriminate]].
      + intros name Q. injection Q as ->. destruct A as [-> | (s & c & A1 & A2 & A3)].
        * exfalso. unfold write_generic in W. destruct (parse_filenameformat _ _ _) as [((fmt, [rd |]), wr) |]; [| discriminate | discriminate]. destruct (rd fs _) as [(k, ex) |]; [| discriminate].
          destruct (_ <- per_elem k ;; ex) as [fm |]; [| discriminate]. destruct (remove_cells _ fm) as ([u |], fm'); [| discriminate]. destruct (output_name _ _ _ _) as [p |] eqn:ON; [| discriminate].
          match type of W with match ?x with _ => _ end = _ => destruct x as [fm1 |] end; [| discriminate]. unfold write_to, write, vtk_file in W. destruct (set_mesh (fm_mesh fm1)) as [g |]; cbn [fst snd] in W; [| discriminate]. injection W as _ W.
          apply output_free in ON. assert (DD := dget_dset_eq String.eqb seqb_eq (path_str p) (save g) fs). rewrite W in DD. congruence.
        * rewrite (A3 name eq_refl). unfold write_generic in W. destruct (parse_filenameformat _ _ _) as [((fmt, [rd |]), wr) |]; [| discriminate | discriminate]. destruct (rd fs _) as [(k, ex) |]; [| discriminate].
          destruct (_ <- per_elem k ;; ex) as [fm |]; [| discriminate]. destruct (remove_cells _ fm) as ([u |], fm'); [| discriminate]. destruct (output_name _ _ _ _) as [p |] eqn:ON; [| discriminate].
          match type of W with match ?x with _ => _ end = _ => destruct x as [fm1 |] end; [| discriminate]. unfold write_to, write, vtk_file in W. destruct (set_mesh (fm_mesh fm1)) as [g |]; cbn [fst snd] in W; [| discriminate]. injection W as _ W.
          apply output_free in ON. rewrite (dset_notin _ seqb_eq) in W by (apply (dget_None _ seqb_eq); exact ON). rewrite A2 in W. apply app_inv_head in W. injection W as W1 W2. exists g. split; [exact A1 |]. rewrite A2, W2. reflexivity.
      + intros Q. destruct x as [name | e]; [destruct (Q name eq_refl) |]. clear A Q. unfold write_generic in W. destruct (parse_filenameformat _ _ _) as [((fmt, [rd |]), wr) |]; [| congruence | congruence]. destruct (rd fs _) as [(k, ex) |]; [| congruence].
        destruct (_ <- per_elem k ;; ex) as [fm |]; [| congruence]. destruct (remove_cells _ fm) as ([u |], fm'); [| congruence]. destruct (output_name _ _ _ _) as [p |]; [| congruence].
        match type of W with match ?x with _ => _ end = _ => destruct x as [fm1 |] end; [| congruence]. unfold write_to, write, vtk_file in W. destruct (set_mesh (fm_mesh fm1)) as [g |]; cbn [fst snd] in W; congruence.
    - injection H as <- <-. split; [discriminate |]. split; [reflexivity | discriminate].
  Qed.
End C91.
Print Assumptions C91_gmsh.
Print Assumptions C91_version2.
Print Assumptions C91_extruded.
Print Assumptions C91_negative.
Print Assumptions C91_ic3.
Print Assumptions C91_cgns.
Print Assumptions C91_cube.
Print Assumptions C91_safe.

(** ** Concrete cases: the channel of GmshIc3Props as chan.msh, the triangles and the quadrangle of GmshProps as tri.msh, a CGNS zone and the file of C80 *)
Section Cases.
  Let content : Type := (list (list string) + list Z) + grid (list Z).
  Let ints (s : string) : option Z := match int10 s with Ok n => Some n | Err _ => None end.
  Let div (a b : Z) : Z := a * 100 + b.
  Let linspace (k : nat) : list Z := List.map Z.of_nat (seq 0 k).
  Let bytes (c : content) : list Z := match c with inl (inr b) => b | _ => [] end.
  Let text (c : content) : list (list string) := match c with inl (inl t) => t | _ => [] end.
  Let tree (c : content) : cgnode Z :=
    CG "Root" None [("CGNSLibraryVersion"%string, leaf (PReals [3])); ("Base"%string, CG "CGNSBase_t" (Some (PInts [3; 3])) [("Zone"%string, ex_stack_node 1 3)])].
  Let of_bytes (b : list Z) : content := inl (inr b).
  Let save (g : grid (list Z)) : content := inr g.
  Let run := cfdwrite_vtk bytes text tree of_bytes save ints ints int10 int10 int10 Z.add Z.mul linspace 0 (nodup Z.eq_dec) ex_i2d ex_f2i Little (fun _ => Ok tt).
  Let cube := cube_vtk bytes text tree of_bytes save ints ints int10 int10 int10 div 0 (nodup Z.eq_dec) ex_i2d ex_f2i Little.
  Let disk := [("chan.msh", inl (inl ex_half_chan)); ("tri.msh", inl (inl ex_v2)); ("a.cgns", inl (inr [])); ("flat.ic3", inl (inr ex_flat_bytes))]%string : files content.
  (** The files added, with the types, the vertices and the points of their grids. *)
  Let added (o : outcome (res string) * files content) : outcome (res string) * list (string * (list Z * list Z * list (list Z))) :=
    (fst o, List.map (fun '(k, c) => (k, match c with inr g => (g_types g, g_cells g, g_points g) | _ => ([], [], []) end)) (skipn 4 (snd o))).
  Open Scope string_scope.
  Example c91_run : added (run ["chan.msh"; "--scale"; "3"; "2"; "1"] disk) =
    (Done (Ok "chan.vtu"), [("chan.vtu", ([9; 9], [4; 0; 1; 4; 3; 4; 1; 2; 5; 4], [[0; 0; 0]; [3; 0; 0]; [6; 0; 0]; [0; 2; 0]; [3; 2; 0]; [6; 2; 0]]))]).
  Proof. vm_compute. reflexivity. Qed.
  (** Two layers of quadrangles; triangles cannot be extruded, nor a negative number of layers. *)
  Example c91_layers : (let '(r, l) := added (run ["--extrude"; "2"; "chan.msh"] disk) in (r, List.map (fun '(k, (t, c, p)) => (k, t, c, zlen p, nth_error p 14)) l)) =
      (Done (Ok "chan.vtu"), [("chan.vtu", [12; 12; 12; 12], [8; 0; 1; 4; 3; 6; 7; 10; 9; 8; 1; 2; 5; 4; 7; 8; 11; 10; 8; 6; 7; 10; 9; 12; 13; 16; 15; 8; 7; 8; 11; 10; 13; 14; 17; 16], 18, Some [2; 0; 2 * one])]) /\
    added (run ["--extrude"; "2"; "tri.msh"] disk) = (Done (Err KeyError), []) /\ added (run ["--extrude=-1"; "chan.msh"] disk) = (Done (Err AssertionError), []).
  Proof. vm_compute. repeat split. Qed.
  Example c91_other : added (run ["flat.ic3"] disk) = (Done (Err ZeroDivisionError), []) /\ added (cube ["--nx"; "1"; "--ny=1"; "--nz"; "1"; "c.vtu"] disk) =
    (Done (Ok "c.vtu"), [("c.vtu", ([12], [8; 0; 4; 6; 2; 1; 5; 7; 3], [[1; 1; 1]; [1; 1; 101]; [1; 101; 1]; [1; 101; 101]; [101; 1; 1]; [101; 1; 101]; [101; 101; 1]; [101; 101; 101]]))]) /\
    (exists g, added (run ["a.cgns"] disk) = (Done (Ok "a.vtu"), [("a.vtu", g)]) /\ fst (fst g) = [12; 12]).
  Proof. vm_compute. repeat split. eexists. split; reflexivity. Qed.
  Close Scope string_scope.

  (** The hypotheses hold: the theorem applies to the first command. *)
  Example c91_case : exists q g, run (["chan.msh"; "--scale"; "3"; "2"; "1"]%string) disk = (Done (Ok (path_str q)), disk ++ [(path_str q, save g)]) /\
    grid_lists g (by_type (GmshSpec.of_dim 2 ex_chan_elts)) /\ g_points g = List.map (fun '(u, v, w) => place Z.mul (Some (3, 2, 1)) u v w) ex_chan_nodes.
  Proof.
    destruct (ex_chan_conforms [] (or_introl eq_refl)) as (GC & OK & TD). cbn [app] in *. destruct (c74_files ex_half_chan [] (or_introl (conj eq_refl eq_refl))) as (F1 & F2 & F3 & F4).
    assert (S := name_split_ok "chan.msh"%string). vm_compute in S.
    destruct (C91_version2 bytes text tree of_bytes save ints ints int10 int10 int10 Z.add Z.mul linspace 0 (nodup Z.eq_dec) ex_i2d ex_f2i Little (fun _ => Ok tt)
      [] "chan.msh" [Scale "3" "2" "1"] disk (Path_ "" []) "chan.msh" "chan" ".msh" (inl (inl ex_half_chan)) 2 (Some ex_chan_names) ex_chan_nodes ex_chan_elts 2) as (q & g & A & _ & B & P).
    - constructor.
    - constructor; [| constructor]. cbn. repeat split; try (left; intros (r & E); discriminate E); vm_compute; discriminate.
    - left. intros (r & E). discriminate E.
    - intros (l & i & E & _). destruct l; discriminate E.
    - split; reflexivity.
    - exact S.
    - right. split; reflexivity.
    - reflexivity.
    - reflexivity.
    - reflexivity.
    - exact F1.
    - lia.
    - exact F2.
    - exact F3.
    - rewrite app_nil_r in F4. exact F4.
    - exact OK.
    - exact TD.
    - lia.
    - intros e I. cbn in I. repeat (destruct I as [<- | I]; [vm_compute; discriminate |]). destruct I.
    - intros e v I J. cbn in I. repeat (destruct I as [<- | I]; [cbn in J; vm_compute zlen; lia |]). destruct I.
    - exists q, g. split; [exact A |]. split; [exact B | exact P].
  Qed.
End Cases.
