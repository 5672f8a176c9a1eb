(** * Meshes of the other formats converted to VTK (C80). *)
From Coq Require Import ZArith List Bool String Lia Permutation.
From Verif Require CliProps.
From Verif Require Import Py PyFacts Elements IndexList Conn ConnSpec ConnProofs FaceSpec FaceThm Mesh MeshSpec
  Ic3Bytes Ic3 Simple SimpleSpec SimpleProofs CubeReady Extrude Cli Ic3FileProps Ic3CubeProps FaceTable Gmsh GmshSpec GroupFacts GmshProofs GmshFileProofs GmshProps GmshIc3Spec GmshIc3Props Cgns CgnsSpec CgnsProps
  Vtk VtkSpec VtkProofs VtkMeshProps.

(** The grid has one cell per element of [l], in this order: the code of its type and its nodes. *)
Definition grid_lists {P} (g : grid P) (l : list (string * list Z)) : Prop :=
  exists cs, grid_of g cs /\ vertices_ok g cs /\ Forall2 (fun tr cell => In (fst tr, fst cell) vtk_codes /\ snd cell = snd tr) l cs.

Lemma ready_grid F (m : mesh F) c x y z : vtk_ready m c x y z ->
  exists g, set_mesh m = Ok g /\ grid_lists g (typed_rows c) /\ stack3 x y z = Ok (g_points g).
Proof.
  intros R. destruct (C67_write F m c x y z R) as (g & cs & E & G & V & _ & L & P).
  exists g. split; [exact E |]. split; [exists cs; auto | exact P].
Qed.

(** Nodes out of range, when all types are known. *)
Lemma bad_nodes F (m : mesh F) c pts : nodescoord_nd m = Ok pts -> me_cell2node m = Some c ->
  (forall t ed, In (t, ed) (ec_dict c) -> In t (dkeys vtktype_ele)) ->
  (exists t row v, In (t, row) (typed_rows c) /\ In v row /\ ~ 0 <= v < zlen pts) -> set_mesh m = Err ValueError.
Proof.
  intros P C K (t & row & v & I & J & B). unfold set_mesh. rewrite P. cbn [bind]. rewrite C.
  assert (Ed : mapM (fun '(etype, ed) => t <- dget_err String.eqb etype vtktype_ele ;; Ok (t, ed_e2n ed)) (ec_dict c) =
               Ok (List.map (fun te => (vtk_code (fst te), ed_e2n (snd te))) (ec_dict c))).
  { apply mapM_map. intros (t', ed) Hte. specialize (K _ _ Hte). apply (dget_Some_iff _ seqb_eq) in K. destruct K as (k & K).
    cbn [fst snd]. unfold dget_err, vtk_code. rewrite K. reflexivity. }
  rewrite Ed. cbn [bind]. clear Ed P C. unfold ug_of_dict.
  match goal with |- context [mapM ?f ?l] => assert (X : mapM f l = Err ValueError) end.
  2:{ rewrite X. reflexivity. }
  unfold typed_rows in I. induction (ec_dict c) as [| (t0, ed0) d IH]; [destruct I |]. cbn [List.map mapM fst snd flat_map] in *.
  destruct (dget Z.eqb (vtk_code t0) vtk_nnode) as [n |]; [| reflexivity].
  destruct (m_cols (ed_e2n ed0)) as [w |]; [| reflexivity].
  destruct (Z.of_nat w =? n); [| reflexivity]. cbn [andb].
  destruct (forallb (forallb (fun u => (0 <=? u) && (u <? zlen pts))) (m_rows (ed_e2n ed0))) eqn:A; [| reflexivity]. cbn [bind].
  rewrite IH; [reflexivity | intros t1 ed1 I1; eapply K; right; exact I1 |].
  apply in_app_iff in I. destruct I as [I | I]; [| exact I]. exfalso. apply in_map_iff in I. destruct I as (r & E & I). injection E as <- <-.
  rewrite forallb_forall in A. specialize (A _ I). rewrite forallb_forall in A. specialize (A _ J). lia.
Qed.

(** ** IC3 files *)
(** Whatever the file, the mesh read has no cells: the conversion fails before anything is written. *)
Theorem C80_ic3 integrity f fm : Ic3.read_mesh integrity f = Ok fm ->
  set_mesh (fm_mesh fm) = Err AttributeError /\
  forall mul sx sy sz r m', scale mul (fm_mesh fm) sx sy sz = (r, m') -> r = Ok tt /\ set_mesh m' = Err AttributeError.
Proof.
  unfold Ic3.read_mesh. destruct (Ic3.read_data integrity f) as [r |] eqn:R; cbn [bind]; [| discriminate].
  unfold Ic3.export_mesh. destruct (set_coords_nd (new_mesh (r_cv r) (r_no r)) 3 (r_coords r)) as (e1, m1) eqn:S1.
  destruct e1 as [[] |]; cbn [bind]; [| discriminate].
  destruct (ii_set _) as [f2c |]; cbn [bind]; [| discriminate].
  destruct (ec_import_csr ec_empty (r_csr r)) as [f2n |] eqn:I1; cbn [bind]; [| discriminate].
  cbn [add_faces facetypes existsb]. cbn [orb String.eqb Ascii.eqb Bool.eqb bind]. intros [= <-]. cbn [fm_mesh].
  unfold set_coords_nd in S1. destruct (zlen (r_coords r) =? me_nnode (new_mesh (F:=Z) (r_cv r) (r_no r))) eqn:L; [| discriminate].
  apply Z.eqb_eq in L. cbn in L. cbn [fold_left] in S1.
  destruct (column (r_coords r) 3 0) as [x |] eqn:X; [| discriminate]. destruct (column (r_coords r) 3 1) as [y |] eqn:Y; [| discriminate].
  destruct (column (r_coords r) 3 2) as [z |] eqn:Zc; [| discriminate]. injection S1 as <-.
  assert (Len : forall i v, column (r_coords r) 3 i = Ok v -> zlen v = r_no r).
  { intros i v. unfold column. destruct (i <? 3); [| discriminate]. intros M. apply mapM_ok_len in M. unfold zlen in *. lia. }
  apply Len in X. apply Len in Y. apply Len in Zc.
  assert (Fb : forall bs (m : mesh Z), me_nnode (fold_left (add_boco (F:=Z)) bs m) = me_nnode m /\ me_nodes (fold_left (add_boco (F:=Z)) bs m) = me_nodes m /\
      me_cell2node (fold_left (add_boco (F:=Z)) bs m) = me_cell2node m).
  { induction bs as [| b bs IH]; intros m; cbn; [auto |]. destruct (IH (add_boco m b)) as (A1 & A2 & A3). cbn in *; auto. }
  match goal with |- context [fold_left add_boco (r_bocos r) ?m0] => destruct (Fb (r_bocos r) m0) as (A1 & A2 & A3); set (m' := fold_left add_boco (r_bocos r) m0) in * end.
  cbn in A1, A2, A3.
  assert (G : forall m'' x y z, me_nodes m'' = [("x", x); ("y", y); ("z", z)]%string -> zlen x = r_no r -> zlen y = r_no r -> zlen z = r_no r ->
     me_cell2node m'' = None -> set_mesh (F := Z) m'' = Err AttributeError).
  { intros m'' x' y' z' N Lx Ly Lz C. unfold set_mesh, nodescoord_nd, nodescoord. rewrite N. cbn [dget_err dget String.eqb Ascii.eqb Bool.eqb bind].
    destruct (stack3_total x' y' z') as (pts & -> & _); [unfold zlen in *; lia | unfold zlen in *; lia |]. cbn [bind]. rewrite C. reflexivity. }
  split; [eapply G; eauto |]. intros mul sx sy sz r' m''. unfold scale, nodescoord. rewrite A2. cbn [dget_err dget String.eqb Ascii.eqb Bool.eqb bind].
  unfold set_coords_xyz. cbn [forallb]. rewrite !zlen_map, X, Y, Zc, A1, !Z.eqb_refl. cbn [andb]. intros [= <- <-]. split; [reflexivity |].
  eapply G; cbn [with_nodes me_nodes me_cell2node]; [rewrite A2; reflexivity | rewrite zlen_map; assumption .. | exact A3].
Qed.
Print Assumptions C80_ic3.

Lemma ic3_no_cells integrity f fm : Ic3.read_mesh integrity f = Ok fm -> me_cell2node (fm_mesh fm) = None.
Proof.
  unfold Ic3.read_mesh. destruct (Ic3.read_data integrity f) as [r |]; cbn [bind]; [| discriminate].
  unfold Ic3.export_mesh. destruct (set_coords_nd (new_mesh (r_cv r) (r_no r)) 3 (r_coords r)) as (e1, m1) eqn:S1.
  destruct e1 as [[] |]; cbn [bind]; [| discriminate].
  destruct (ii_set _) as [f2c |]; cbn [bind]; [| discriminate].
  destruct (ec_import_csr ec_empty (r_csr r)) as [f2n |]; cbn [bind]; [| discriminate].
  cbn [add_faces facetypes existsb]. cbn [orb String.eqb Ascii.eqb Bool.eqb bind]. intros [= <-]. cbn [fm_mesh].
  assert (M1 : me_cell2node m1 = None).
  { unfold set_coords_nd in S1. destruct (zlen (r_coords r) =? me_nnode (new_mesh (F:=Z) (r_cv r) (r_no r))); [| discriminate]. cbn [fold_left] in S1.
    destruct (column (r_coords r) 3 0); [| discriminate]. destruct (column (r_coords r) 3 1); [| discriminate]. destruct (column (r_coords r) 3 2); [| discriminate]. injection S1 as <-. reflexivity. }
  assert (Fb : forall bs (m : mesh Z), me_cell2node (fold_left (add_boco (F:=Z)) bs m) = me_cell2node m) by (induction bs as [| b bs IH]; intros m; cbn; [auto |]; rewrite IH; reflexivity).
  rewrite Fb. exact M1.
Qed.

(** The command on a file read as IC3: whatever the options, it fails and creates no file. *)
Section Command.
  Context {C W : Type} (bytes : C -> list Z) (save : grid (list Z) -> C).
  Definition ic3_reader (integrity : bool) : @readfun C := fun fs name =>
    match dget String.eqb name fs with Some c => r <- Ic3.read_data integrity (bytes c) ;; Ok (PyInt (r_cv r), Ic3.export_mesh r) | None => Err RuntimeError end.
  (** [vtkMesh(mesh)] then [write_data], _vtk.py:58-63, 71-78, 84-85: the file is only opened by [save]. *)
  Definition vtk_write (w : W) (fm : fmesh) : option C * res unit :=
    match set_mesh (fm_mesh fm) with Ok g => (Some (save g), Ok tt) | Err e => (None, Err e) end.
  Theorem C80_command extruded scaled shown m fuel a ext w fs fmt wr integrity :
    (forall n fm fm', extruded n fm = Ok fm' -> exists add mul enum dir planes domain, export_extruded add mul enum (fm_mesh fm) dir planes domain = Ok (fm_mesh fm')) ->
    (forall s fm fm', scaled s fm = Ok fm' -> exists mul sx sy sz, scale mul (fm_mesh fm) sx sy sz = (Ok tt, fm_mesh fm')) ->
    parse_filenameformat m (ar_fmt a) (ar_filename a) = Ok (fmt, Some (ic3_reader integrity), wr) ->
    exists e, write_generic extruded scaled shown vtk_write m fuel a ext w fs = (Err e, fs).
  Proof.
    intros HE HS P. unfold write_generic. rewrite P. unfold ic3_reader.
    destruct (dget String.eqb _ fs) as [c |]; [| eauto].
    destruct (Ic3.read_data integrity (bytes c)) as [rr |] eqn:R0; cbn [bind]; [| eauto]. destruct (per_elem (PyInt (r_cv rr))); cbn [bind]; [| eauto].
    destruct (Ic3.export_mesh rr) as [fm |] eqn:R1; [| eauto]. assert (R : Ic3.read_mesh integrity (bytes c) = Ok fm) by (unfold Ic3.read_mesh; rewrite R0; exact R1).
    apply ic3_no_cells in R.
    assert (RM : forall names fm' r, remove_cells names fm = (r, fm') -> fm' = fm).
    { induction names as [| n l IH]; intros fm' r; cbn [remove_cells]; [intros [= _ <-]; reflexivity |]. unfold pop_celldata.
      destruct (fm_cells fm) as [[| q d] | d]; [apply IH | intros [= _ <-]; reflexivity |]. destruct (dget_err String.eqb n (ds_data d)); cbn [bind]; [apply IH | intros [= _ <-]; reflexivity]. }
    destruct (remove_cells (ar_remove a) fm) as (r, fm') eqn:E. apply RM in E. subst fm'. destruct r as [u |]; [| eauto].
    destruct (output_name fuel fs a ext) as [p |]; [| eauto].
    assert (X : forall fm1, (if ar_extrude a =? 0 then Ok fm else extruded (ar_extrude a) fm) = Ok fm1 -> me_cell2node (fm_mesh fm1) = None).
    { intros fm1. destruct (ar_extrude a =? 0); [intros [= <-]; exact R |]. intros E. apply HE in E. destruct E as (add & mul & enum & ((dx & dy) & dz) & planes & domain & E). exfalso.
      unfold export_extruded in E. destruct (assertb _); cbn [bind] in E; [| discriminate]. destruct (nodescoord (fm_mesh fm)) as [((x & y) & z) |]; cbn [bind] in E; [| discriminate].
      destruct (Extrude.stacked _) as [pts |]; cbn [bind] in E; [| discriminate]. destruct (set_coords_nd _ _ _) as (r0, nm). destruct r0; cbn [bind] in E; [| discriminate]. rewrite R in E. discriminate. }
    destruct (if ar_extrude a =? 0 then Ok fm else extruded (ar_extrude a) fm) as [fm1 |]; cbn [bind]; [| eauto]. specialize (X fm1 eq_refl).
    assert (Y : forall fm2, match ar_scale a with None => Ok fm1 | Some s => scaled s fm1 end = Ok fm2 -> me_cell2node (fm_mesh fm2) = None).
    { intros fm2. destruct (ar_scale a) as [s |]; [| intros [= <-]; exact X]. intros E. apply HS in E. destruct E as (mul & sx & sy & sz & E). unfold scale in E. destruct (nodescoord (fm_mesh fm1)) as [((x & y) & z) |]; [| discriminate].
      unfold set_coords_xyz in E. destruct (forallb _ _); [| discriminate]. injection E as <-. exact X. }
    destruct (match ar_scale a with None => Ok fm1 | Some s => scaled s fm1 end) as [fm2 |]; cbn [bind]; [| eauto]. specialize (Y fm2 eq_refl).
    destruct (if ar_info a then shown fm2 else Ok tt); cbn [bind]; [| eauto].
    unfold write_to, vtk_write, set_mesh. destruct (nodescoord_nd (fm_mesh fm2)) as [pts |]; cbn [bind]; [| eexists; reflexivity]. rewrite Y. eexists. reflexivity.
  Qed.
  (** An IC3 file that is read and has no cell is converted to nothing, whatever the converter. *)
  Theorem C64_ic3_no_cells extruded scaled shown write m fuel a ext (w : W) fs fmt wr integrity c r :
    parse_filenameformat m (ar_fmt a) (ar_filename a) = Ok (fmt, Some (ic3_reader integrity), wr) ->
    dget String.eqb (path_str (path_of (ar_filename a))) fs = Some c -> Ic3.read_data integrity (bytes c) = Ok r -> r_cv r = 0 ->
    write_generic extruded scaled shown write m fuel a ext w fs = (Err ZeroDivisionError, fs).
  Proof.
    intros P D R Z0. apply (CliProps.C64_no_cells) with (1 := P) (ex := Ic3.export_mesh r). unfold ic3_reader. rewrite D, R. cbn [bind]. rewrite Z0. reflexivity.
  Qed.
End Command.
Print Assumptions C64_ic3_no_cells.
Print Assumptions C80_command.

(** ** The cube *)
Lemma nth_pair {A B} (la : list A) (lb : list B) : forall n a b, nth_error (combine la lb) n = Some (a, b) <-> nth_error la n = Some a /\ nth_error lb n = Some b.
Proof.
  revert lb. induction la as [| a0 la IH]; intros [| b0 lb] [| n] a b; cbn; try (split; [discriminate | intros (? & ?); discriminate]).
  - split; [intros [= -> ->]; auto | intros ([= ->] & [= ->]); reflexivity].
  - apply IH.
Qed.
Lemma stack3_nth {F} (x : list F) : forall y z pts i a b c, stack3 x y z = Ok pts ->
  nth_error x i = Some a -> nth_error y i = Some b -> nth_error z i = Some c -> nth_error pts i = Some [a; b; c].
Proof.
  induction x as [| x0 x IH]; intros y z pts i a b c E X Y Zz; [destruct i; discriminate |].
  destruct y as [| y0 y]; [destruct i; discriminate |]. destruct z as [| z0 z]; [destruct i; discriminate |].
  cbn [stack3] in E. apply bind_ok in E. destruct E as (r & E & Q). injection Q as <-. destruct i as [| i]; cbn [nth_error] in *; [congruence | eauto].
Qed.
(** The grid has the hexahedra of the cube, in order, and its nodes. *)
Theorem C80_cube F (fdiv : Z -> Z -> F) nx ny nz : 1 <= nx -> 1 <= ny -> 1 <= nz ->
  exists m g cs, cube_export nx ny nz fdiv = Ok m /\ set_mesh m = Ok g /\ grid_of g cs /\ vertices_ok g cs /\
    zlen cs = nx * ny * nz /\ zlen (g_points g) = (nx + 1) * (ny + 1) * (nz + 1) /\
    (forall p, cell_ok nx ny nz p -> nth_error cs (Z.to_nat (cell_no ny nz p)) = Some (12, hexa ny nz p)) /\
    forall p, in_box (nx + 1) (ny + 1) (nz + 1) p ->
      nth_error (g_points g) (Z.to_nat (node_no ny nz p)) = Some [fdiv (pi p) nx; fdiv (pj p) ny; fdiv (pk p) nz].
Proof.
  intros Hx Hy Hz. destruct (cube_exported F fdiv nx ny nz Hx Hy Hz) as (m & c & E & [C1 C2 (C3 & W & P & T & CO & NE) CC NF (x & y & z & CK & XYZ) _]).
  assert (D : exists ed, ec_dict c = [("hexa8"%string, ed)]).
  { unfold ec_types in T. destruct (ec_dict c) as [| (t, ed) [| q d]]; try discriminate. injection T as ->. eauto. }
  destruct D as (ed & D). assert (TR : typed_rows c = List.map (pair "hexa8"%string) (m_rows (ed_e2n ed))) by (unfold typed_rows; rewrite D; cbn [flat_map fst snd]; apply app_nil_r).
  assert (WE := ecwf_eds _ W "hexa8"%string ed ltac:(rewrite D; left; reflexivity)).
  assert (EP : ec_pairs c = ed_pairs ed) by (unfold ec_pairs; rewrite D; cbn [flat_map snd]; apply app_nil_r).
  assert (LR : zlen (m_rows (ed_e2n ed)) = nx * ny * nz).
  { rewrite <- NE, (ecwf_nelem _ W), EP. unfold zlen, ed_pairs. rewrite combine_length, (edwf_len _ WE). lia. }
  assert (RW : forall p, cell_ok nx ny nz p -> nth_error (m_rows (ed_e2n ed)) (Z.to_nat (cell_no ny nz p)) = Some (hexa ny nz p)).
  { intros p Hp. specialize (CC p Hp). rewrite EP in CC. unfold ed_pairs in CC. apply nth_pair in CC. tauto. }
  destruct CK as (K1 & K2 & K3 & K4).
  destruct (C67_write F m c x y z) as (g & cs & Eg & G & V & _ & L2 & PG).
  { constructor; auto.
    - rewrite D. discriminate.
    - intros t ed' I. assert (Q := CO t ed' I). rewrite D in I. destruct I as [[= <- <-] | []]. exists 12, 8%nat. cbn. tauto.
    - intros t row v I J. rewrite TR in I. apply in_map_iff in I. destruct I as (r & [= <- <-] & I). apply In_nth_error in I. destruct I as (n & I).
      assert (Hn : (n < List.length (m_rows (ed_e2n ed)))%nat) by (apply nth_error_Some; congruence).
      destruct (rank3_onto nx ny nz (Z.of_nat n)) as (p & Hp & Q); [unfold zlen in LR; lia | lia | lia |].
      specialize (RW p Hp). unfold cell_no in RW. rewrite Q, Nat2Z.id, I in RW. injection RW as ->. rewrite K2, C2.
      eapply (fun H => proj2 H v J). eapply (hexa_valid nx ny nz); eassumption.
    - unfold zlen in *. lia.
    - unfold zlen in *. lia. }
  destruct (stack3_total x y z) as (pts & EPt & LP & _); [unfold zlen in *; lia | unfold zlen in *; lia |].
  exists m, g, cs. split; [exact E |]. split; [exact Eg |]. split; [exact G |]. split; [exact V |]. rewrite TR in L2. split; [| split; [| split]].
  - rewrite <- LR. unfold zlen. rewrite <- (Forall2_length' _ _ _ L2), map_length. reflexivity.
  - rewrite EPt in PG. injection PG as <-. unfold zlen in *. lia.
  - intros p Hp. specialize (RW p Hp). destruct (VtkProofs.Forall2_nth _ _ _ _ _ L2 (map_nth_error (pair "hexa8"%string) _ _ RW)) as ((k, r) & N & K & R).
    cbn [fst snd] in K, R. subst r. rewrite N. cbn in K. intuition congruence.
  - intros p Hp. destruct (XYZ p Hp) as (X1 & X2 & X3). eapply stack3_nth; eauto.
Qed.
Print Assumptions C80_cube.

(** ** Gmsh files *)
Section Gm.
  Context (int_of : string -> res Z) (float_of : string -> res Z) (ver_of : string -> res Z).
  Notation file := (gmsh_file int_of float_of ver_of).
  Notation loaded := (load 0 int_of float_of ver_of).
  (** The grid has the elements of the largest dimension of the file: one type after the other, in the
      order of the first element of each; the elements of one type in the order of the file. *)
  Theorem C80_gmsh msh names nnode elts d fuel :
    file msh names nnode elts -> Forall felt_ok elts -> top_dim d elts -> 2 <= d <= 3 -> (List.length msh <= fuel)%nat ->
    (forall e, In e (GmshSpec.of_dim (d - 1) elts) -> patch_name names (GmshSpec.of_dim (d - 1) elts) e <> None) ->
    let l := GmshSpec.of_dim d elts in
    exists m, loaded fuel msh = Ok m /\
      ((forall e v, In e l -> In v (fe_nodes e) -> 1 <= v <= nnode) ->
         exists g, set_mesh m = Ok g /\ nodescoord_nd m = Ok (g_points g) /\ n_points g = nnode /\
           grid_lists g (List.map (fun e => (felt_name e, nodes0 e))
             (flat_map (fun t => having String.eqb felt_name t l) (first_seen String.eqb (List.map felt_name l))))) /\
      ((exists e v, In e l /\ In v (fe_nodes e) /\ ~ 1 <= v <= nnode) -> set_mesh m = Err ValueError).
  Proof.
    intros Hfile Hok Ht Hd Hf Hnm l.
    destruct (load_mesh int_of float_of ver_of msh names nnode elts d fuel Hfile Hok Ht Hd Hf Hnm) as (m & x & y & z & L & C & NN & NC & FA & NO & LX & LY & LZ & _).
    fold l in C. exists m. split; [exact L |].
    assert (OKl : Forall felt_ok l) by (apply GmshProofs.of_dim_ok; exact Hok).
    assert (DI : forall e, In e l -> felt_dim e = d) by (intros e I; apply filter_In in I; lia).
    assert (NE : l <> []).
    { destruct Ht as ((e & I & E) & _). assert (J : In e l) by (apply filter_In; split; [exact I | lia]). intros Q. rewrite Q in J. destruct J. }
    assert (XY : nodescoord m = Ok (x, y, z)) by (unfold nodescoord; rewrite NO; reflexivity).
    destruct (stack3_total x y z) as (pts & EP & LP & _); [unfold zlen in *; lia | unfold zlen in *; lia |].
    assert (PP : nodescoord_nd m = Ok pts) by (unfold nodescoord_nd; rewrite XY; exact EP).
    assert (TR : typed_rows (elt_cells l) = List.map (fun e => (felt_name e, nodes0 e)) (flat_map (fun t => having String.eqb felt_name t l) (first_seen String.eqb (List.map felt_name l)))).
    { unfold typed_rows, elt_cells. cbn [ec_dict]. generalize 0. generalize (first_seen String.eqb (List.map felt_name l)). clear. induction l0 as [| t ts IH]; intros k; [reflexivity |].
      cbn [numbered flat_map fst snd ed_e2n m_rows]. rewrite map_app, IH. f_equal. unfold rows_of, having. rewrite map_map. apply map_ext_in. intros e I. apply filter_In in I. destruct I as (_ & E). apply seqb_eq in E. now rewrite E. }
    assert (KN : forall t ed, In (t, ed) (ec_dict (elt_cells l)) -> exists code n, In (t, code) vtktype_ele /\ dget String.eqb t nnode_elem = Some (Z.of_nat n) /\ m_cols (ed_e2n ed) = Some n).
    { intros t ed I. apply numbered_in in I. destruct I as (T & E & _). rewrite (first_seen_in _ seqb_eq) in T. apply in_map_iff in T. destruct T as (e & N & I).
      rewrite Forall_forall in OKl. destruct (OKl e I) as (n & d' & k & S & LE). assert (DE := DI e I).
      assert (J : In (nodes0 e) (rows_of l t)) by (unfold rows_of; apply in_map, filter_In; split; [exact I | apply seqb_eq; exact N]).
      destruct (rows_width l t _ ltac:(apply Forall_forall; exact OKl) J) as (_ & _ & _ & _ & W). rewrite E. cbn [m_cols]. rewrite <- W. unfold nodes0. rewrite map_length, LE.
      unfold felt_dim in DE. unfold felt_name in N. rewrite S in DE, N. subst d' n. clear -S Hd.
      unfold shape_of in S. destruct (fe_type e) as [|q|q]; try discriminate; repeat (destruct q as [q|q|]; try discriminate); injection S as <- <- <-; try lia;
        (match goal with |- exists code n, In (?t, _) _ /\ _ => exists (vtk_code t) end; eexists; split; [cbn; tauto |]; apply and_comm; split; reflexivity). }
    assert (RI : forall t row, In (t, row) (typed_rows (elt_cells l)) <-> exists e, In e l /\ t = felt_name e /\ row = nodes0 e).
    { intros t row. rewrite TR, in_map_iff. split.
      - intros (e & E & I). injection E as <- <-. exists e. split; [| auto]. eapply Permutation_in; [apply (first_seen_perm _ seqb_eq) | exact I].
      - intros (e & I & -> & ->). exists e. split; [reflexivity |]. eapply Permutation_in; [symmetry; apply (first_seen_perm _ seqb_eq) | exact I]. }
    split.
    - intros V. destruct (ready_grid _ m (elt_cells l) x y z) as (g & E & G & P).
      + constructor; auto.
        * intros Q. assert (Q' := f_equal (fun d => dkeys d) Q). unfold elt_cells in Q'. cbn [ec_dict] in Q'. rewrite numbered_keys in Q'.
          destruct l as [| e q]; [congruence |]. assert (I : In (felt_name e) (first_seen String.eqb (List.map felt_name (e :: q)))) by (rewrite (first_seen_in _ seqb_eq); left; reflexivity).
          rewrite Q' in I. destruct I.
        * apply elt_wf. exact OKl.
        * intros t row v I J. apply RI in I. destruct I as (e & I & -> & ->). unfold nodes0 in J. apply in_map_iff in J. destruct J as (u & <- & J). specialize (V e u I J). lia.
        * unfold zlen in *. lia.
        * unfold zlen in *. lia.
      + exists g. rewrite EP in P. injection P as P. rewrite P in PP, LP. split; [exact E |]. split; [exact PP |]. split; [unfold n_points, zlen in *; lia |]. rewrite <- TR. exact G.
    - intros (e & v & I & J & B). eapply bad_nodes; [exact PP | exact C | |].
      + intros t ed K. destruct (KN t ed K) as (code & _ & Q & _). apply (in_map fst) in Q. exact Q.
      + exists (felt_name e), (nodes0 e), (v - 1). split; [apply RI; eauto |]. split; [unfold nodes0; apply in_map_iff; eauto |]. unfold zlen in *. lia.
  Qed.
End Gm.
Print Assumptions C80_gmsh.

(** ** CGNS files *)
Section Cg.
  Context {F : Type} (enum : list Z -> list Z) (Henum : set_enum enum).
  Lemma elemcon_types d : forall (es : list (cgnode F)) secs c c' seen,
    Forall2 sec_is es secs -> Forall sec_ok secs -> foldM (section_step d) c es = Ok c' -> ec_cols nn_of c -> ec_types c = first_seen String.eqb seen ->
    ec_cols nn_of c' /\ ec_types c' = first_seen String.eqb (seen ++ List.map cs_name (secs_of_dim d secs)).
  Proof using.
    clear Henum enum.
    intros es secs c c' seen HF. revert c seen. induction HF as [|e s es secs He HF IH]; intros c seen Hok E C T.
    - cbn in E. injection E as <-. cbn. rewrite app_nil_r. auto.
    - apply Forall_cons_iff in Hok. destruct Hok as [Hs Hok]. cbn [foldM] in E. rewrite (section_ok d c e s He Hs) in E.
      unfold secs_of_dim. cbn [filter]. destruct (cs_dim s =? d) eqn:Ed; [| cbn [bind] in E; exact (IH c seen Hok E C T)].
      apply bind_ok in E. destruct E as (c1 & E1 & E). cbn [List.map].
      replace (seen ++ cs_name s :: List.map cs_name (filter (fun s => cs_dim s =? d) secs)) with ((seen ++ [cs_name s]) ++ List.map cs_name (secs_of_dim d secs)) by (rewrite <- app_assoc; reflexivity).
      apply (IH c1); auto.
      + eapply ec_add_cols; [exact C| |exact E1].
        destruct Hs as (name & dd & n & S & _). unfold sec_mat, cs_name, nn_of. rewrite S. cbn [m_cols].
        destruct (shape_tables _ _ _ _ S) as (_ & T2 & _). rewrite T2. now rewrite Nat2Z.id.
      + rewrite (first_seen_snoc _). apply ec_add_ok in E1. destruct E1 as (ed' & -> & _). unfold ec_types in *. cbn [ec_dict].
        change (List.map fst (dset String.eqb (cs_name s) ed' (ec_dict c))) with (dkeys (dset String.eqb (cs_name s) ed' (ec_dict c))).
        destruct (existsb (String.eqb (cs_name s)) seen) eqn:X.
        * apply (existsb_eqb _ seqb_eq) in X. rewrite <- T. apply (dset_keys_in _ seqb_eq). unfold dkeys. rewrite T. apply (first_seen_in _ seqb_eq). exact X.
        * rewrite (dset_notin _ seqb_eq); [unfold dkeys; rewrite map_app, T; reflexivity |]. unfold dkeys. rewrite T, (first_seen_in _ seqb_eq), <- (existsb_eqb _ seqb_eq). congruence.
  Qed.
  Lemma typed_rows_types c : ec_wf c -> typed_rows c = flat_map (fun t => List.map (pair t) (List.map snd (pairs_of_type c t))) (ec_types c).
  Proof using.
    clear. intros W. unfold typed_rows, ec_types, pairs_of_type. assert (N := ecwf_keys _ W). assert (L := fun t ed I => edwf_len _ (ecwf_eds _ W t ed I)). unfold ec_types in N.
    rewrite !flat_map_concat_map, map_map. f_equal. apply map_ext_in. intros (t, ed) I. cbn [fst snd].
    assert (E : flat_map (fun kv => if String.eqb t (fst kv) then ed_pairs (snd kv) else []) (ec_dict c) = ed_pairs ed).
    { clear L W. induction (ec_dict c) as [| (t0, ed0) d IH]; [destruct I |]. cbn [List.map fst] in N. apply NoDup_cons_iff in N. destruct N as (N1 & N2). cbn [flat_map fst snd].
      destruct I as [I | I].
      - injection I as -> ->. rewrite String.eqb_refl. enough (Z : flat_map (fun kv => if String.eqb t (fst kv) then ed_pairs (snd kv) else []) d = []) by (rewrite Z; apply app_nil_r).
        clear -N1. induction d as [| (t1, ed1) d IH]; [reflexivity |]. cbn [flat_map fst snd]. cbn in N1. destruct (String.eqb_spec t t1) as [-> | _]; [tauto | apply IH; tauto].
      - destruct (String.eqb_spec t t0) as [-> | _]; [destruct N1; apply in_map_iff; exists (t0, ed); auto |]. cbn [app]. apply IH; auto. }
    rewrite E. unfold ed_pairs. rewrite map_snd_combine by (rewrite (L t ed I); reflexivity). reflexivity.
  Qed.

  (** The grid has the elements of the sections of the dimension of the base: one type after the other,
      in the order of the first section of each; those of one type in the order of the sections. *)
  Theorem C80_cgns (z : zone (F := F)) nnode ncell x y w secs bcs m :
    zone_holds z nnode ncell x y w secs bcs -> Forall sec_ok secs ->
    NoDup (List.map fst (flat_map sec_elts (secs_of_dim (zo_geodim z - 1) secs))) ->
    Cgns.export_mesh enum z = Ok m -> 1 <= zo_geodim z ->
    let l := secs_of_dim (zo_geodim z) secs in
    (l = [] -> set_mesh m = Err ValueError) /\
    (l <> [] -> (forall s r v, In s l -> In r (cs_rows s) -> In v r -> 1 <= v <= nnode) ->
       exists g, set_mesh m = Ok g /\ stack3 x y w = Ok (g_points g) /\ zlen (g_points g) = nnode /\
         grid_lists g (flat_map (fun t => List.map (fun e => (t, snd e)) (flat_map sec_elts (filter (fun s => String.eqb t (cs_name s)) l)))
                        (first_seen String.eqb (List.map cs_name l)))) /\
    ((exists s r v, In s l /\ In r (cs_rows s) /\ In v r /\ ~ 1 <= v <= nnode) -> set_mesh m = Err ValueError).
  Proof.
    intros H Hok Hnd L Hd l. assert (L0 := L).
    destruct (sizes_ok _ _ _ _ _ _ _ _ H) as [S1 S2]. destruct (zh_len _ _ _ _ _ _ _ _ H) as (L1 & L2 & L3).
    destruct (export_cgns enum _ _ _ _ _ _ _ _ H Hok Hnd) as (m0 & c & Ec & Em & E). rewrite E in L.
    assert (D : forall b, In b bcs -> readable (flat_map sec_elts (secs_of_dim (zo_geodim z - 1) secs)) ncell b).
    { apply (proj1 (C59_loads enum Henum _ _ _ _ _ _ _ _ H Hok Hnd)). rewrite E. eauto. }
    destruct (bcs_fold enum Henum z secs nnode ncell (zh_secs _ _ _ _ _ _ _ _ H) Hok S1 S2 Hnd _ _ m0 (zh_bcs _ _ _ _ _ _ _ _ H) D) as (m' & Em' & M1 & M2 & M3 & M4 & _).
    rewrite L in Em'. injection Em' as <-. subst m0. cbn [set_cell2node me_cell2node me_ncell me_nnode me_nodes with_nodes new_mesh] in *.
    assert (XY : nodescoord m = Ok (x, y, w)) by (unfold nodescoord; rewrite M4; reflexivity).
    destruct (elemcon_ok z secs (zo_geodim z) (zh_secs _ _ _ _ _ _ _ _ H) Hok) as (c' & Ec' & W & P & N & Q & T).
    rewrite Ec in Ec'. injection Ec' as <-.
    assert (ET := Ec). unfold elemcon in ET. destruct (elemcon_types (zo_geodim z) _ secs ec_empty c [] (zh_secs _ _ _ _ _ _ _ _ H) Hok ET (ec_empty_cols _) eq_refl) as (CO & TY).
    cbn [app] in TY. fold l in TY.
    assert (TR : typed_rows c = flat_map (fun t => List.map (fun e => (t, snd e)) (flat_map sec_elts (filter (fun s => String.eqb t (cs_name s)) l))) (first_seen String.eqb (List.map cs_name l))).
    { rewrite (typed_rows_types c W), TY, !flat_map_concat_map. f_equal. apply map_ext. intros t. rewrite T, map_map. reflexivity. }
    assert (RI : forall t row, In (t, row) (typed_rows c) <-> exists s r, In s l /\ t = cs_name s /\ In r (cs_rows s) /\ row = List.map (fun v => v - 1) r).
    { intros t row. rewrite TR, in_flat_map. assert (IE : forall s (e : Z * list Z), In s l -> (In (snd e) (List.map (List.map (fun v => v - 1)) (cs_rows s)) <-> exists k, In (k, snd e) (sec_elts s))).
      { intros s (k0, r0) I. cbn [snd]. unfold sec_elts. apply filter_In in I. destruct I as (I & _). rewrite Forall_forall in Hok. destruct (Hok s I) as (? & ? & ? & _ & _ & LL).
        split.
        - intros J. apply In_nth_error in J. destruct J as (n & J). destruct (nth_error (zrange (cs_first s - 1) (cs_last s)) n) as [k |] eqn:K.
          + exists k. apply nth_error_In with n. apply nth_pair; auto.
          + apply nth_error_None in K. rewrite zrange_length in K. assert (JJ : (n < List.length (List.map (List.map (fun v => (v - 1)%Z)) (cs_rows s)))%nat) by (apply nth_error_Some; congruence). rewrite map_length in JJ. unfold zlen in LL. lia.
        - intros (k & J). apply in_combine_r in J. exact J. }
      split.
      - intros (t' & _ & I). apply in_map_iff in I. destruct I as (e & X & I). injection X as <- <-. apply in_flat_map in I. destruct I as (s & I & J). apply filter_In in I. destruct I as (I & Y). apply seqb_eq in Y.
        destruct e as (k, r0). assert (K : In (snd (k, r0)) (List.map (List.map (fun v => v - 1)) (cs_rows s))) by (apply (IE s (k, r0) I); eauto). cbn [snd] in K. apply in_map_iff in K. destruct K as (r & <- & K). exists s, r. auto.
      - intros (s & r & I & -> & J & ->). exists (cs_name s). split; [apply (first_seen_in _ seqb_eq), in_map; exact I |].
        destruct (proj1 (IE s (0, List.map (fun v => v - 1) r) I)) as (k & K); [cbn [snd]; apply in_map; exact J |]. cbn [snd] in K. apply in_map_iff. exists (k, List.map (fun v => v - 1) r). split; [reflexivity |].
        apply in_flat_map. exists s. split; [apply filter_In; split; [exact I | apply String.eqb_refl] | exact K]. }
    destruct (stack3_total x y w) as (pts & EP & LP & _); [unfold zlen in *; lia | unfold zlen in *; lia |].
    assert (PP : nodescoord_nd m = Ok pts) by (unfold nodescoord_nd; rewrite XY; exact EP).
    assert (KN : forall t ed, In (t, ed) (ec_dict c) -> exists code n, In (t, code) vtktype_ele /\ dget String.eqb t nnode_elem = Some (Z.of_nat n) /\ m_cols (ed_e2n ed) = Some n).
    { intros t ed I. specialize (CO t ed I). assert (J : In t (ec_types c)) by (apply (in_map fst) in I; exact I). rewrite TY, (first_seen_in _ seqb_eq) in J. apply in_map_iff in J. destruct J as (s & <- & J).
      apply filter_In in J. destruct J as (J & DS). rewrite Forall_forall in Hok. destruct (Hok s J) as (name & dd & n & SH & _). unfold cs_dim in DS. rewrite SH in DS. unfold nn_of, cs_name in *. rewrite SH in *.
      rewrite CO. assert (Hdd : 1 <= dd) by lia. clear -SH Hdd. unfold cg_shape in SH. destruct (cs_code s) as [|q|q]; try discriminate; repeat (destruct q as [q|q|]; try discriminate); injection SH as <- <- <-; try lia;
        (match goal with |- exists code n, In (?t, _) _ /\ _ => exists (vtk_code t) end; eexists; split; [cbn; tauto |]; apply and_comm; split; reflexivity). }
    split; [| split].
    - intros EL. unfold set_mesh. rewrite PP. cbn [bind]. rewrite M1. rewrite EL in TY. cbn in TY. unfold ec_types in TY. apply map_eq_nil in TY. rewrite TY. reflexivity.
    - intros NE V. destruct (ready_grid _ m c x y w) as (g & Eg & G & PG).
      + constructor; auto.
        * intros Z0. destruct l as [| s q]; [congruence |]. assert (I : In (cs_name s) (ec_types c)) by (rewrite TY, (first_seen_in _ seqb_eq); left; reflexivity). unfold ec_types in I. rewrite Z0 in I. destruct I.
        * intros t row v I J. apply RI in I. destruct I as (s & r & I & _ & K & ->). apply in_map_iff in J. destruct J as (u & <- & J). specialize (V s r u I K J). lia.
        * unfold zlen in *. lia.
        * unfold zlen in *. lia.
      + exists g. split; [exact Eg |]. split; [exact PG |]. rewrite EP in PG. injection PG as ->. split; [unfold zlen in *; lia |]. rewrite <- TR. exact G.
    - intros (s & r & v & I & J & K & B). eapply bad_nodes; [exact PP | exact M1 | |].
      + intros t ed X. destruct (KN t ed X) as (code & _ & Y & _). apply (in_map fst) in Y. exact Y.
      + exists (cs_name s), (List.map (fun v => v - 1) r), (v - 1). split; [apply RI; eauto 6 |]. split; [apply in_map_iff; eauto |]. unfold zlen in *. lia.
  Qed.
End Cg.
Print Assumptions C80_cgns.

(** ** Cases *)
(** A Gmsh file with a triangle, a quadrangle and another triangle in this order; a CGNS zone with a
    hexahedron and faces; two cells of a cube: types and vertices of the cells of the grid. *)
Definition seen {A} (r : res (grid (list A))) := g <- r ;; Ok (g_types g, g_cells g).
Example c80_gmsh_case : seen (m <- load 0 int10 int10 int10 30 ex_v2 ;; set_mesh m) = Ok ([5; 5; 9], [3; 1; 4; 2; 3; 4; 2; 1; 4; 0; 1; 2; 3]) /\
  gmsh_file int10 int10 int10 ex_v2 (Some ex_names) 5 ex_elts /\ Forall felt_ok ex_elts /\ top_dim 2 ex_elts /\
  (forall e, In e (GmshSpec.of_dim (2 - 1) ex_elts) -> patch_name (Some ex_names) (GmshSpec.of_dim (2 - 1) ex_elts) e <> None) /\
  forall e v, In e (GmshSpec.of_dim 2 ex_elts) -> In v (fe_nodes e) -> 1 <= v <= 5.
Proof.
  split; [vm_compute; reflexivity |]. split; [exact ex_v2_is_a_file |]. split; [apply ex_elts_ok |]. split; [apply ex_elts_ok |].
  split.
  - intros e I. vm_compute in I. repeat (destruct I as [<- | I]; [vm_compute; discriminate |]). destruct I.
  - intros e v I J. vm_compute in I. repeat (destruct I as [<- | I]; [cbn in J; lia |]). destruct I.
Qed.
Example c80_cgns_case : seen (m <- Cgns.export_mesh np_unique ex_zone ;; set_mesh m) = Ok ([12], [8; 0; 1; 2; 3; 4; 5; 6; 7]) /\ secs_of_dim (zo_geodim ex_zone) ex_secs <> [].
Proof. split; [vm_compute; reflexivity | discriminate]. Qed.
Example c80_cube_case : seen (m <- cube_export 2 1 1 (fun a b => a) ;; set_mesh m) = Ok ([12; 12], [8; 0; 4; 6; 2; 1; 5; 7; 3; 8; 4; 8; 10; 6; 5; 9; 11; 7]).
Proof. vm_compute. reflexivity. Qed.
(** The cube of two cells written as IC3 and read again is refused. *)
Example c80_ic3_case : match cube_export 2 1 1 ex_fdiv with
  | Ok m => match Ic3.read_mesh true (bytes_of (write_mesh cgns_elem2faces (fun l => l) ex_i2d ex_f2i Little V2 "big" (FM m (FDict []) (FDict []) [] None))) with
            | Ok fm2 => set_mesh (fm_mesh fm2) = Err AttributeError
            | Err _ => False
            end
  | Err _ => False
  end.
Proof. vm_compute. reflexivity. Qed.

(** An IC3 file with a triangle and no cell: it is read, and converted to nothing. *)
Definition ex_sec (name : string) (id skip : Z) (ids : list Z) (body : res (list Z)) : res (list Z) :=
  h <- write_header Little (Hdr name id skip (ids ++ repeat 0 (8 - List.length ids)) (repeat 0 16)) ;; b <- body ;; Ok (h ++ b).
Definition ex_flat : res (list Z) :=
  m <- binary_write Little Ci 2 [MAGIC; 3] ;;
  a <- ex_sec "NO_FA_CV_NOOFA_COUNTS" COUNTS 256 [3; 1; 0; 3] (Ok []) ;;
  b <- ex_sec "NOOFA_I_AND_V" NOOFA 272 [1; 3] (binary_write Little Ci 4 [3; 0; 1; 2]) ;;
  c <- ex_sec "CVOFA" CVOFA 264 [1; 2] (binary_write Little Ci 2 [-1; -1]) ;;
  d <- ex_sec "CV_PART" CV_PART 256 [0; 1] (Ok []) ;;
  e <- ex_sec "X_NO" X_NO 328 [3; 3] (binary_write Little Cd 9 (repeat 0 9)) ;;
  f <- ex_sec "EOF" EOF 256 [] (Ok []) ;;
  Ok (m ++ a ++ b ++ c ++ d ++ e ++ f).
Definition ex_flat_bytes : list Z := match ex_flat with Ok f => f | Err _ => [] end.
Example c64_ic3_no_cells_case : List.length ex_flat_bytes = 1640%nat /\ exists r, Ic3.read_data false ex_flat_bytes = Ok r /\ r_cv r = 0 /\ r_no r = 3 /\ r_fa r = 1 /\
  is_ok (Ic3.export_mesh r) = true.
Proof. split; [vm_compute; reflexivity |]. eexists. split; [vm_compute; reflexivity |]. repeat split. Qed.
