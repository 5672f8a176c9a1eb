(** * Proofs about whole conversions to VTK. *)
From Coq Require Import ZArith List Bool String Permutation Lia.
From Verif Require Import Py PyFacts Elements IndexList Conn ConnSpec ConnProofs FaceSpec FaceThm Mesh MeshSpec Files FilesSpec FilesProofs FilesProps Race Cli CliProps CmdLine CmdLineSpec CmdLineProofs.
From Verif Require Import Ic3 Extrude ExtrudeSpec ExtrudeProofs ExtrudeProps Gmsh GmshSpec GroupFacts GmshProofs GmshProps GmshIc3Spec GmshIc3Props Vtk VtkSpec VtkProofs VtkMeshProps VtkConvProps.
From Verif Require Import Whole WholeSpec WholeProofs VtkWhole VtkWholeSpec.

Lemma stack3_places mul s (x : list Z) : forall y z, List.length y = List.length x -> List.length z = List.length x ->
  let '(x', y', z') := times mul s (x, y, z) in Vtk.stack3 x' y' z' = Ok (places mul s x y z).
Proof.
  destruct s as [((sx, sy), sz) |]; cbn [times]; induction x as [| a x IH]; intros [| b y] [| c z] L1 L2; try discriminate; try reflexivity;
    cbn [List.map Vtk.stack3]; cbn in L1, L2; rewrite IH by lia; reflexivity.
Qed.

Lemma places_len mul s x y z : List.length y = List.length x -> List.length z = List.length x -> zlen (places mul s x y z) = zlen x.
Proof. intros L1 L2. unfold places, zlen. rewrite map_length, !combine_length. lia. Qed.

Lemma places_nth mul s x y z v a b c : nth_error x v = Some a -> nth_error y v = Some b -> nth_error z v = Some c -> nth_error (places mul s x y z) v = Some (place mul s a b c).
Proof.
  intros X Y Zc. unfold places. rewrite nth_error_map. assert (E : nth_error (combine x (combine y z)) v = Some (a, (b, c))) by (apply nth_pair; split; [exact X | apply nth_pair; auto]). rewrite E. reflexivity.
Qed.

(** The grid only depends on the cells and the number of points. *)
Lemma ready_scaled mul s m c x y z m' : vtk_ready m c x y z -> me_cell2node m' = Some c -> nodescoord m' = Ok (times mul s (x, y, z)) ->
  exists g, set_mesh m' = Ok g /\ grid_lists g (typed_rows c) /\ g_points g = places mul s x y z.
Proof.
  intros [R1 R2 R3 R4 R5 R6 R7 R8] C XY. assert (P := stack3_places mul s x y z R7 R8).
  destruct (times mul s (x, y, z)) as ((x', y'), z') eqn:E. cbn iota in P. assert (L : List.length x' = List.length x /\ List.length y' = List.length x /\ List.length z' = List.length x).
  { destruct s as [((sx, sy), sz) |]; cbn [times] in E; injection E as <- <- <-; rewrite ?map_length; auto. }
  destruct L as (L1 & L2 & L3).
  destruct (ready_grid Z m' c x' y' z') as (g & G1 & G2 & G3).
  - constructor; auto; try lia. intros t row v I J. specialize (R5 t row v I J). unfold zlen in *. lia.
  - exists g. rewrite P in G3. injection G3 as G3. auto.
Qed.

(** The cells and their types only depend on the number of points. *)
Lemma ug_moved {P Q} d (p : list P) (q : list Q) : zlen p = zlen q ->
  ug_of_dict d q = match ug_of_dict d p with Ok g => Ok (Grid Q (g_cells g) (g_offset g) (g_types g) q) | Err e => Err e end.
Proof.
  intros L. unfold ug_of_dict. rewrite L. destruct (mapM _ d) as [parts |]; cbn [bind]; [| reflexivity]. destruct d as [| u d]; [reflexivity |]. unfold ug_new. destruct (split_cells _ _) as [cs |]; cbn [bind]; [| reflexivity].
  destruct (zlen cs =? _); reflexivity.
Qed.
Lemma mesh_moved mul s m m' c (x y z : list Z) : nodescoord m = Ok (x, y, z) -> List.length y = List.length x -> List.length z = List.length x -> me_cell2node m = Some c -> me_cell2node m' = Some c ->
  nodescoord m' = Ok (times mul s (x, y, z)) ->
  set_mesh m' = match set_mesh m with Ok g => Ok (Grid _ (g_cells g) (g_offset g) (g_types g) (places mul s x y z)) | Err e => Err e end.
Proof.
  intros XY L1 L2 C C' XY'. unfold set_mesh, nodescoord_nd. rewrite XY, XY', C, C'. cbn [bind].
  assert (P0 := stack3_places mul None x y z L1 L2). cbn [times] in P0. rewrite P0. assert (P := stack3_places mul s x y z L1 L2). destruct (times mul s (x, y, z)) as ((x', y'), z'). rewrite P. cbn [bind].
  destruct (mapM _ (ec_dict c)) as [d |]; cbn [bind]; [| reflexivity]. apply ug_moved. rewrite !places_len by assumption. reflexivity.
Qed.
Lemma grid_moved {P Q} (g : grid P) (q : list Q) l : grid_lists g l -> zlen (g_points g) = zlen q -> grid_lists (Grid Q (g_cells g) (g_offset g) (g_types g) q) l.
Proof. intros (cs & G & V & F) L. exists cs. split; [destruct G; constructor; assumption |]. split; [| exact F]. intros c v I J. cbn [g_points]. rewrite <- L. exact (V c v I J). Qed.

(** The scale. *)
Lemma scale_step mul s m c x y z : me_cell2node m = Some c -> nodescoord m = Ok (x, y, z) -> zlen x = me_nnode m -> zlen y = me_nnode m -> zlen z = me_nnode m ->
  exists m', match s with None => Ok (bare m) | Some q => scaled mul q (bare m) end = Ok (bare m') /\ me_cell2node m' = Some c /\ nodescoord m' = Ok (times mul s (x, y, z)).
Proof.
  intros C XY L1 L2 L3. destruct s as [((sx, sy), sz) |]; [| exists m; auto].
  unfold scaled, bare. cbn [fm_mesh fm_cells fm_nodes fm_params fm_part]. unfold scale. rewrite XY. unfold set_coords_xyz. cbn [forallb]. rewrite !zlen_map, L1, L2, L3, Z.eqb_refl. cbn [andb bind].
  eexists. split; [reflexivity |]. split; [exact C |].
  unfold nodescoord, dget_err, with_nodes. cbn [me_nodes]. rewrite !(dget_dset_neq _ seqb_eq) by discriminate. rewrite (dget_dset_eq _ seqb_eq). cbn [bind].
  rewrite !(dget_dset_neq _ seqb_eq) by discriminate. rewrite (dget_dset_eq _ seqb_eq). cbn [bind]. rewrite (dget_dset_eq _ seqb_eq). reflexivity.
Qed.

(** The elements of a Gmsh file. *)
Lemma elt_rows l : typed_rows (elt_cells l) = by_type l.
Proof.
  unfold typed_rows, elt_cells, by_type. cbn [ec_dict]. generalize 0. generalize (first_seen String.eqb (List.map felt_name l)). induction l0 as [| t ts IH]; intros k; [reflexivity |].
  cbn [GmshIc3Spec.numbered flat_map fst snd ed_e2n m_rows]. rewrite map_app, IH. f_equal. unfold GmshIc3Spec.rows_of, having. rewrite map_map. apply map_ext_in. intros e I. apply filter_In in I. destruct I as (_ & E). apply seqb_eq in E. now rewrite E.
Qed.
Lemma by_type_in l t row : In (t, row) (by_type l) <-> exists e, In e l /\ t = felt_name e /\ row = nodes0 e.
Proof.
  unfold by_type. rewrite in_map_iff. split.
  - intros (e & E & I). injection E as <- <-. exists e. split; [| auto]. eapply Permutation_in; [apply (first_seen_perm _ seqb_eq) | exact I].
  - intros (e & I & -> & ->). exists e. split; [reflexivity |]. eapply Permutation_in; [symmetry; apply (first_seen_perm _ seqb_eq) | exact I].
Qed.
Lemma elt_known l d : Forall felt_ok l -> (forall e, In e l -> felt_dim e = d) -> 2 <= d <= 3 ->
  forall t ed, In (t, ed) (ec_dict (elt_cells l)) -> exists code n, In (t, code) vtktype_ele /\ dget String.eqb t nnode_elem = Some (Z.of_nat n) /\ m_cols (ed_e2n ed) = Some n.
Proof.
  intros OK DI D t ed I. destruct (proj1 (elt_types l d OK DI D) t ed I) as (n & T & W). assert (NH : t <> "hexa27"%string).
  { intros ->. apply (proj2 (elt_types l d OK DI D)). apply (in_map fst) in I. exact I. }
  exists (vtk_code t), n. cbn in T. repeat (destruct T as [T | T]; [injection T as <- <-; first [congruence | split; [cbn; tauto | split; [reflexivity | exact W]]] |]). destruct T.
Qed.
Lemma elt_some l : l <> [] -> ec_dict (elt_cells l) <> [].
Proof.
  intros NE Q. assert (Q' := f_equal (fun d => dkeys d) Q). unfold elt_cells in Q'. cbn [ec_dict] in Q'. rewrite numbered_keys in Q'.
  destruct l as [| e q]; [congruence |]. assert (I : In (felt_name e) (first_seen String.eqb (List.map felt_name (e :: q)))) by (rewrite (first_seen_in _ seqb_eq); left; reflexivity).
  rewrite Q' in I. destruct I.
Qed.

(** The mesh that a Gmsh file gives, in numbers. *)
Lemma gmsh_base int_of float_of ver_of msh names nnode elts d x y z :
  gmsh_file int_of float_of ver_of msh names nnode elts -> Forall felt_ok elts -> top_dim d elts -> 2 <= d <= 3 ->
  (forall e, In e (GmshSpec.of_dim (d - 1) elts) -> patch_name names (GmshSpec.of_dim (d - 1) elts) e <> None) ->
  (forall m, load 0 int_of float_of ver_of (List.length msh) msh = Ok m -> nodescoord m = Ok (List.map Some x, List.map Some y, List.map Some z)) ->
  exists m, (forall unread, exists g m0, Gmsh.read_data int_of float_of ver_of (List.length msh) msh = Ok g /\ 1 <= gmsh_ncell g /\ Gmsh.export_mesh 0 g = Ok m0 /\ plain_mesh unread m0 = m) /\
    me_cell2node m = Some (elt_cells (GmshSpec.of_dim d elts)) /\ MeshSpec.coords_ok m x y z /\ me_nnode m = nnode /\ 1 <= zlen (GmshSpec.of_dim d elts) /\
    NoDup (dkeys (me_bocos m)) /\
    (forall k b, In (k, b) (me_bocos m) -> is_patch names (GmshSpec.of_dim (d - 1) elts) k /\ nodebased b = true /\ mark_ok b /\ k = mk_name b /\ mk_type b = Some "boundary"%string).
Proof.
  intros Hfile Hok Ht Hd Hnm XYm. destruct (load_mesh int_of float_of ver_of msh names nnode elts d (List.length msh) Hfile Hok Ht Hd (le_n _) Hnm) as (m0 & x0 & y0 & z0 & L & C & NN & NC & FA & NO & LX & LY & LZ & ND & MK & _).
  assert (XY := XYm m0 L). exists (defined m0). assert (L1 : 1 <= zlen (GmshSpec.of_dim d elts)).
  { destruct Ht as ((e & I & E) & _). assert (J : In e (GmshSpec.of_dim d elts)) by (apply filter_In; split; [exact I | lia]). destruct (GmshSpec.of_dim d elts) as [| q r]; [destruct J |]. unfold zlen. cbn. lia. }
  assert (XY0 := XY). unfold nodescoord, dget_err in XY0. rewrite NO in XY0. cbn in XY0. injection XY0 as -> -> ->. rewrite zlen_map in LX, LY, LZ.
  assert (VA : forall l, List.map GmshIc3Spec.value (List.map Some l) = l) by (intros l; rewrite map_map; apply map_id).
  split; [| split; [exact C | split; [| split; [exact NN | split; [exact L1 | split]]]]].
  - intros unread. unfold load in L. apply bind_ok in L. destruct L as (g & RG & EG). destruct (gmsh_facts unread g m0 x y z EG XY) as (PL & CNT). exists g, m0. split; [exact RG |]. split; [lia |]. auto.
  - split; [| cbn [defined me_nnode]; lia]. unfold nodescoord, defined. cbn [me_nodes]. rewrite NO. cbn. rewrite !VA. reflexivity.
  - cbn [defined me_bocos]. unfold dkeys in *. rewrite map_map. erewrite map_ext; [exact ND |]. intros (k, b); reflexivity.
  - intros k b I. cbn [defined me_bocos] in I. apply in_map_iff in I. destruct I as ((k0, b0) & E & I). injection E as <- <-. destruct (MK k0 b0 I) as (P & s & -> & _). cbn. split; [exact P |]. repeat split; try reflexivity; try discriminate. exists (ILlist s). split; [reflexivity |]. split; [discriminate | reflexivity].
Qed.

Lemma output_free {C} fuel (fs : files C) a ext p : output_name fuel fs a ext = Ok p -> dget String.eqb (path_str p) fs = None.
Proof.
  intros ON. unfold output_name in ON. apply bind_ok in ON. destruct ON as (p1 & _ & ON). apply bind_ok in ON. destruct ON as ((p2, b) & FS & ON). injection ON as ->. apply find_free in FS.
  unfold fexists, dmem in FS. destruct (dget String.eqb (path_str p) fs); [discriminate | reflexivity].
Qed.

Section Whole.
  Context {C : Type} (bytes : C -> list Z) (text : C -> list (list string)) (tree : C -> cgnode Z) (of_bytes : list Z -> C) (save : grid (list Z) -> C).
  Context (ints floats : string -> option Z) (int_of float_of ver_of : string -> res Z).
  Context (fadd fmul : Z -> Z -> Z) (linspace : nat -> list Z) (unread : Z) (enum : list Z -> list Z).
  Context (i2d : Z -> Z) (f2i : Z -> res Z) (host : order) (shown : fmesh -> res unit).
  Notation formats := (formats bytes text tree int_of float_of ver_of unread enum).
  Notation command := (cfdwrite_vtk bytes text tree of_bytes save ints floats int_of float_of ver_of fadd fmul linspace unread enum i2d f2i host shown).
  Notation good := (CmdLineSpec.good ints floats (available_readers formats)).
  Notation means := (meaning ints floats).
  Notation transform := (WholeProofs.transform fadd fmul linspace enum shown).

  (** A command that could read its input. *)
  Lemma run_vtk before f after fs d nm st sf name rd wr ext n fm0 :
    let a := means f (before ++ after) in
    Forall good before -> Forall good after -> CmdLineSpec.plain f -> ~ open_end before ->
    in_dir d nm (path_of f) -> split_name nm st sf -> input_format a sf name ext -> In (name, Entry (Some rd) wr ext) formats ->
    rd fs (path_str (path_of f)) = Ok (n, Ok fm0) -> n <> PyInt 0 -> fst (remove_cells (ar_remove a) fm0) = Ok tt ->
    exists q, output_as ".vtu" fs a st q /\
      command (words before ++ f :: words after) fs =
        match (fm <- transform a fm0 ;; set_mesh (fm_mesh fm)) with
        | Ok g => (Done (Ok (path_str q)), fs ++ [(path_str q, save g)])
        | Err e => (Done (Err e), fs)
        end.
  Proof.
    intros a Gb Ga Pf Ho I S F IN RD N0 RM. assert (AF : ar_filename a = f) by apply means_file.
    assert (PF := format_read bytes text tree int_of float_of ver_of unread enum a d nm st sf name rd wr ext IN ltac:(rewrite AF; exact I) S F).
    destruct (parse_file ints floats (available_readers formats) before f after Gb Ga Ho Pf) as (ns & PA & AR). fold a in AR.
    assert (SX : a_suffix ".vtu") by (exists "vtu"%string; split; [reflexivity |]; split; [discriminate |]; vm_compute; intuition discriminate).
    destruct (C64_output_name (List.length fs + 1) fs a ".vtu" d nm st sf SX) as (q & ON & FX & NA); [vm_compute; intuition discriminate | rewrite AF; exact I | exact S | lia |].
    assert (FR : forall s, fexists fs s = false <-> dget String.eqb s fs = None) by (intros s; unfold fexists, dmem; destruct (dget String.eqb s fs); intuition congruence).
    assert (NK : ~ In (path_str q) (dkeys fs)) by (apply (dget_None _ seqb_eq), FR; exact FX).
    exists q. split.
    - split; [apply FR; exact FX |]. destruct NA as [NA | (k & K1 & K2 & K3)]; [left; exact NA | right]. exists k. split; [exact K1 |]. split; [exact K2 |]. intros r R. specialize (K3 r R). unfold fexists, dmem in K3. destruct (dget String.eqb (path_str r) fs); congruence.
    - unfold cfdwrite_vtk, cfdwrite. rewrite PA, AR. unfold write_generic. rewrite PF, AF, RD.
      assert (PE : per_elem n = Ok tt) by (destruct n as [k | k]; [cbn; destruct (Z.eqb_spec k 0); [subst k; destruct (N0 eq_refl) | reflexivity] | reflexivity]).
      rewrite PE. cbn [bind]. assert (Q := remove_same (ar_remove a) fm0). destruct (remove_cells (ar_remove a) fm0) as (r, fm'). cbn [fst snd] in *. subst r fm'.
      rewrite ON. unfold WholeProofs.transform.
      match goal with |- context [bind ?x ?k] => match k with (fun fm => set_mesh _) => destruct x as [fm1 |] end end; cbn [bind]; [| reflexivity].
      unfold write_to, write, vtk_file. destruct (set_mesh (fm_mesh fm1)) as [g |]; cbn [fst snd]; [| reflexivity]. rewrite (dset_notin _ seqb_eq _ _ _ NK). reflexivity.
  Qed.
End Whole.
