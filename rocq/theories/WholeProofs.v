(** * Proofs about whole conversions. *)
From Coq Require Import ZArith List Bool String Permutation Lia.
From Verif Require Import Py PyFacts Conn ConnSpec ConnProofs FaceSpec Mesh MeshSpec MeshProofs Files FilesSpec FilesProofs FilesProps Race RaceProps Cli CliProps CmdLineSpec CmdLineProofs.
From Verif Require Import Ic3 Ic3Fail Ic3HeaderSpec Ic3FileSpec Ic3FileProofs Ic3WriteProofs Ic3PartsProofs Ic3BodyProofs Ic3FailProofs Ic3FileProps Ic3OkSpec.
From Verif Require Import ConvSpec ConvProofs Ic3CubeProps ConvProps Extrude ExtrudeSpec ExtrudeProofs ExtrudeProps LayerSpec LayerProofs LayerProps Gmsh GmshSpec GroupFacts GmshProofs GmshProps GmshIc3Spec GmshIc3Props Whole WholeSpec.

Lemma written_file tbl enum i2d f2i host v endian fm f fm' : (forall n, pattern (i2d n)) ->
  write_mesh tbl enum i2d f2i host v endian fm = (Ok f, fm') -> fmesh_typed fm' ->
  write_file tbl enum i2d f2i host v endian fm = (Some f, Ok tt, fm').
Proof.
  intros I2D W T. unfold write_mesh in W. unfold write_file. destruct (order_of host endian) as [o |]; [| discriminate].
  destruct (prepare_mesh tbl enum (fm_mesh fm)) as (rp, m). injection W as W <-. destruct rp as [u |]; cbn [bind] in *; [| discriminate].
  destruct (writer_state _) as [w |] eqn:WS; cbn [bind] in *; [| discriminate].
  destruct (writer_state_typed i2d _ w I2D T WS) as ((_ & _ & FA & CV & _) & _).
  destruct (run_calls _) as (g, r) eqn:R. apply (file_calls_end i2d f2i v o w g r FA CV) in R. destruct r as [[] | e].
  - rewrite W in R. injection R as ->. reflexivity.
  - destruct R as ((e' & R) & _). rewrite W in R. discriminate.
Qed.

(** A mesh that converts, as a file. *)
Lemma conv_written tbl types enum i2d f2i host v endian m c k : (forall n, pattern (i2d n)) ->
  in_force tbl types -> set_enum enum -> In endian byte_orders -> cell_mesh tbl types m c -> marks_apart tbl m c ->
  me_nnode m < 2 ^ 31 -> me_ncell m < 2 ^ 31 -> all_sides tbl c < 2 ^ 31 -> ends_at c k ->
  exists f fm', write_mesh tbl enum i2d f2i host v endian (bare m) = (Ok f, fm') /\ write_file tbl enum i2d f2i host v endian (bare m) = (Some f, Ok tt, fm').
Proof.
  intros I2D IF SE IE CM MA BN BC BS TOP. destruct (order_known host endian IE) as (o & OO).
  destruct (conv_both tbl types enum IF SE m c CM MA i2d f2i host v endian o k I2D OO BN BC BS TOP) as (f & m3 & lb & li & rb & ri & W & _ & ST & _).
  exists f, (FM m3 (FDict []) (FDict []) [] None). split; [exact W |]. exact (written_file _ _ _ _ _ _ _ _ _ _ I2D W (wr_typed _ _ _ _ _ ST)).
Qed.

(** Whether it can be read again. *)
Lemma conv_outcome tbl types enum i2d f2i host v endian m c k : (forall n, pattern (i2d n)) ->
  in_force tbl types -> set_enum enum -> In endian byte_orders -> cell_mesh tbl types m c -> marks_apart tbl m c ->
  me_nnode m < 2 ^ 31 -> me_ncell m < 2 ^ 31 -> all_sides tbl c < 2 ^ 31 -> ends_at c k ->
  exists f fm', write_file tbl enum i2d f2i host v endian (bare m) = (Some f, Ok tt, fm') /\
    (k = me_ncell m - 1 -> exists fm2 lb li rb ri, (forall integrity, read_mesh integrity f = Ok fm2) /\ faces_from_cells tbl c lb li rb ri /\ converted tbl m c lb li rb ri fm2) /\
    (k <> me_ncell m - 1 -> forall integrity, read_mesh integrity f = Err AssertionError).
Proof.
  intros I2D IF SE IE CM MA BN BC BS TOP.
  destruct (conv_written tbl types enum i2d f2i host v endian m c k I2D IF SE IE CM MA BN BC BS TOP) as (f & fm' & WM & WF). exists f, fm'. split; [exact WF |]. unfold bare in WM. split.
  - intros ->. destruct (C69_converted i2d f2i I2D tbl types enum host v endian m c IF SE IE CM MA BN BC BS TOP) as (b' & fm'' & fm2 & lb & li & rb & ri & WR & RD & FC & CV).
    rewrite WR in WM. injection WM as -> ->. exists fm2, lb, li, rb, ri. auto.
  - intros NE. destruct (C70_misnumbered i2d f2i I2D tbl types enum host v endian m c k IF SE IE CM MA BN BC BS TOP NE) as (b' & fm'' & WR & RD).
    rewrite WR in WM. injection WM as -> ->. exact RD.
Qed.

(** Extrusion of a planar mesh. *)
Lemma extrude_ok tbl types enum add mul m c dir planes domain : in_force tbl types -> set_enum enum -> (forall a b, pattern (add a b)) ->
  flat_mesh tbl m c -> flat_marks tbl m c -> 2 <= zlen planes -> some_inside tbl c (zlen planes) -> free_name m (domain ++ "0") -> free_name m (domain ++ "1") ->
  6 * (zlen planes - 1) * ec_nelem c < 2 ^ 31 -> (zlen planes - 2) * me_nnode m + ec_nelem c <= 2 ^ 31 ->
  exists m' c' k, export_extruded add mul enum m dir planes domain = Ok m' /\ cell_mesh tbl types m' c' /\ marks_apart tbl m' c' /\
    ExtrudeSpec.extruded_mesh add mul m m' dir planes domain /\
    me_nnode m' = zlen planes * me_nnode m /\ me_ncell m' = (zlen planes - 1) * ec_nelem c /\ all_sides tbl c' < 2 ^ 31 /\ ends_at c' k /\
    (k = me_ncell m' - 1 <-> zlen planes = 2 \/ me_nnode m = ec_nelem c).
Proof.
  intros IF SE PA FL MK N2 SI F0 F1 BS BC. destruct (fl_coords _ _ _ FL) as (x & y & z & CO).
  destruct (C27_extruded Z add mul enum m c x y z dir planes domain SE N2 CO (fl_cells _ _ _ FL) (fl_wf _ _ _ FL) (fl_plain _ _ _ FL) (fl_width _ _ _ FL)) as (m' & EX & XM).
  - intros k b I. destruct (fl_marks _ _ _ FL k b I) as [A1 A2 A3 A4 A5 A6]. split; [exact A1 |]. split; [exact A2 |]. split; [symmetry; exact A3 |].
    destruct A4 as (t & A4 & T). exists t. split; [exact A4 |]. cbn in T |- *. tauto.
  - exact (fl_keys _ _ _ FL).
  - apply F0.
  - apply F1.
  - destruct (xm_cells _ _ _ _ _ _ _ XM) as (c0 & c' & E0 & E1 & _). clear c0 E0.
    assert (X := xconn tbl m m' c c' add mul dir planes domain FL XM E1).
    assert (CM : cell_mesh tbl types m' c') by (eapply ext_mesh; eassumption).
    assert (MA : marks_apart tbl m' c') by (eapply ext_apart; eassumption).
    assert (NC : me_ncell m' = (zlen planes - 1) * ec_nelem c) by exact (xm_ncell _ _ _ _ _ _ _ XM c (fl_cells _ _ _ FL)).
    assert (TOP := layers_end tbl m c c' (zlen planes) FL N2 X). assert (AL := layers_all tbl types IF m c c' (zlen planes) FL N2 X).
    assert (X1 := fl_some _ _ _ FL). exists m', c', (ec_nelem c - 1 + (zlen planes - 2) * me_nnode m).
    split; [exact EX |]. split; [exact CM |]. split; [exact MA |]. split; [exact XM |]. split; [apply (xm_nnode _ _ _ _ _ _ _ XM) |]. split; [exact NC |]. split; [lia |]. split; [exact TOP |]. rewrite NC. split; intros H; [nia |]. destruct H as [H | H]; [rewrite H; lia | rewrite H; lia].
Qed.

Lemma bare_remove names m : fst (remove_cells names (bare m)) = Ok tt.
Proof. induction names as [| n r IH]; [reflexivity | exact IH]. Qed.

(** The scale. *)
Lemma scaled_mesh tbl types fmul m c x y z sx sy sz : (forall a b, pattern (fmul a b)) -> cell_mesh tbl types m c -> nodescoord m = Ok (x, y, z) ->
  exists m', scale fmul m sx sy sz = (Ok tt, m') /\ cell_mesh tbl types m' c /\ me_bocos m' = me_bocos m /\ me_nnode m' = me_nnode m /\ me_ncell m' = me_ncell m /\
    nodescoord m' = Ok (times fmul (Some (sx, sy, sz)) (x, y, z)).
Proof.
  intros PM CM XY. destruct (cm_coords _ _ _ _ CM) as (x' & y' & z' & CO1 & CO2 & CO3 & CO4). rewrite XY in CO1. injection CO1 as <- <- <-.
  unfold scale. rewrite XY. unfold set_coords_xyz. cbn [forallb]. rewrite !zlen_map, CO2, CO3, CO4, Z.eqb_refl. cbn [andb].
  eexists. split; [reflexivity |].
  assert (XYZ : nodescoord (with_nodes m (dset String.eqb "z"%string (List.map (fun v => fmul v sz) z) (dset String.eqb "y"%string (List.map (fun v => fmul v sy) y) (dset String.eqb "x"%string (List.map (fun v => fmul v sx) x) (me_nodes m)))))
                = Ok (times fmul (Some (sx, sy, sz)) (x, y, z))).
  { unfold nodescoord, dget_err, with_nodes. cbn [me_nodes]. rewrite !(dget_dset_neq _ seqb_eq) by discriminate. rewrite (dget_dset_eq _ seqb_eq). cbn [bind].
    rewrite !(dget_dset_neq _ seqb_eq) by discriminate. rewrite (dget_dset_eq _ seqb_eq). cbn [bind]. rewrite (dget_dset_eq _ seqb_eq). reflexivity. }
  split; [| split; [reflexivity | split; [reflexivity | split; [reflexivity | exact XYZ]]]].
  destruct CM. constructor; cbn [with_nodes me_cell2node me_faces me_ncell me_nnode me_bocos]; try assumption.
  - do 3 eexists. split; [exact XYZ |]. cbn [with_nodes me_nnode]. rewrite !zlen_map. auto.
  - assert (S : forall k l (q : Z) d, Forall (fun '(_, v) => Forall pattern v) d -> Forall (fun '(_, v) => Forall pattern v) (dset String.eqb k (List.map (fun v => fmul v q) l) d)).
    { intros k l q d H. apply Forall_forall. intros (k', v) I. apply in_dset in I. destruct I as [(_ & ->) | I]; [apply Forall_forall; intros p J; apply in_map_iff in J; destruct J as (u & <- & _); apply PM |].
      rewrite Forall_forall in H. exact (H (k', v) I). }
    cbn [with_nodes me_nodes]. apply S, S, S. assumption.
Qed.

(** ** Gmsh files *)
Lemma fold_marks {P : mark (option Z) -> Prop} (bs : dict string bnd) : (forall n b, P (Mark (option Z) n (Some Gbdnode) (Some (b_type b)) (Some (ILlist (b_slicing b))) (Some (Some (repeat (Some 0) 16))))) ->
  forall m : mesh (option Z), (forall k b, In (k, b) (me_bocos m) -> P b) ->
  let m' := fold_left (export_mark 0) bs m in (forall k b, In (k, b) (me_bocos m') -> P b) /\ me_nodes m' = me_nodes m /\ me_ncell m' = me_ncell m.
Proof.
  intros HP. induction bs as [| (k, b) bs IH]; intros m PM; [auto |]. cbn [fold_left]. destruct (IH (export_mark 0 m (k, b))) as (A & B & D).
  - intros k' b' J. unfold export_mark in J. destruct (String.eqb (b_type b) "boundary"); [| eauto]. cbn [add_boco me_bocos] in J. apply in_dset in J. destruct J as [(_ & ->) | J]; [apply HP | eauto].
  - split; [exact A |]. split; [rewrite B | rewrite D]; unfold export_mark; destruct (String.eqb (b_type b) "boundary"); reflexivity.
Qed.

Lemma gmsh_facts unread g m x y z : Gmsh.export_mesh 0 g = Ok m -> nodescoord m = Ok (List.map Some x, List.map Some y, List.map Some z) ->
  plain_mesh unread m = defined m /\ me_ncell m <= gmsh_ncell g.
Proof.
  unfold Gmsh.export_mesh. destruct (g_xyz g) as ((x0, y0), z0). unfold set_coords_xyz. destruct (forallb _ _); [| discriminate]. intros E XY.
  apply bind_ok in E. destruct E as (c & EC & E). injection E as <-.
  match type of XY with nodescoord (fold_left _ _ ?q) = _ => set (m0 := q) in * end.
  destruct (fold_marks (P := fun b => mk_perio b = Some (Some (repeat (Some 0) 16))) (g_bnds g) ltac:(reflexivity) m0 ltac:(intros k b [])) as (A & B & D).
  split.
  - unfold nodescoord, dget_err in XY. rewrite B in XY. cbn in XY. injection XY as -> -> ->. unfold plain_mesh, defined. rewrite B.
    assert (KN : forall l, List.map (known unread) (List.map Some l) = l) by (intros l; rewrite map_map; apply map_id).
    assert (VA : forall l, List.map GmshIc3Spec.value (List.map Some l) = l) by (intros l; rewrite map_map; apply map_id).
    f_equal.
    + cbn. rewrite !KN, !VA. reflexivity.
    + apply map_ext_in. intros (k, b) I. unfold plain_mark. rewrite (A k b I). reflexivity.
  - rewrite D. cbn [m0 set_cell2node me_ncell]. unfold gmsh_ncell. clear - EC. unfold export_cells in EC. assert (G : forall conn c0, foldM (fun c '(t, m) => d <- dget_err String.eqb t dim_elem ;; if d =? g_maxdim g then ec_add c t m None else Ok c) c0 conn = Ok c ->
      ec_nelem c <= ec_nelem c0 + zsum (List.map (fun '(_, m) => m_nrow m) conn)).
    { induction conn as [| (t, mt) conn IH]; intros c0 H; [injection H as <-; cbn; lia |]. cbn [foldM] in H. apply bind_ok in H. destruct H as (c1 & H1 & H). apply IH in H. apply bind_ok in H1. destruct H1 as (d & _ & H1).
      assert (N : 0 <= m_nrow mt) by (unfold m_nrow, zlen; lia). cbn [List.map zsum fold_right].
      assert (c1 = c0 \/ ec_nelem c1 = ec_nelem c0 + m_nrow mt).
      { destruct (d =? g_maxdim g); [right | injection H1 as <-; auto]. unfold ec_add in H1. destruct (dget String.eqb t (ec_dict c0)) as [ed |]; [| injection H1 as <-; reflexivity].
        apply bind_ok in H1. destruct H1 as (i & _ & H1). apply bind_ok in H1. destruct H1 as (m' & _ & H1). injection H1 as <-. reflexivity. }
      unfold zsum in *. cbn [fold_right] in *. destruct H0 as [-> | H0]; lia. }
    apply (G _ _ EC).
Qed.

Lemma nth_error_combine2 {A B} (l : list A) : forall (r : list B) k a b, nth_error l k = Some a -> nth_error r k = Some b -> nth_error (combine l r) k = Some (a, b).
Proof. induction l as [| x l IH]; intros [| y r] [| k] a b H H'; try discriminate; cbn in *; [congruence | auto]. Qed.
Lemma nth_error_Some_lt {A} (l : list A) k a : nth_error l k = Some a -> (k < List.length l)%nat.
Proof. intros H. apply nth_error_Some. congruence. Qed.
Lemma two_places {A} (l : list A) i j a b : (i < j)%nat -> nth_error l i = Some a -> nth_error l j = Some b -> exists l1 l2 l3, l = l1 ++ a :: l2 ++ b :: l3.
Proof.
  intros L I J. apply nth_error_split in I. destruct I as (l1 & l2 & -> & E). rewrite nth_error_app2 in J by lia. destruct (j - List.length l1)%nat as [| n] eqn:Q; [lia |]. cbn [nth_error] in J.
  apply nth_error_split in J. destruct J as (l3 & l4 & -> & _). eauto.
Qed.

Lemma gmsh_flat_mesh names nnode elts m x y z : gmsh_flat names nnode elts -> Forall felt_ok elts ->
  cell_mesh gmsh_elem2faces gmsh_types (defined m) (elt_cells (GmshSpec.of_dim 2 elts)) -> me_nnode m = nnode -> coords_ok (defined m) x y z ->
  (forall k b, In (k, b) (me_bocos (defined m)) -> is_patch names (GmshSpec.of_dim 1 elts) k /\ forall nodes, spanned nodes b <-> patch_covers names (GmshSpec.of_dim 1 elts) k nodes) ->
  patches_apart gmsh_elem2faces names 2 elts ->
  flat_mesh gmsh_elem2faces (defined m) (elt_cells (GmshSpec.of_dim 2 elts)) /\ flat_marks gmsh_elem2faces (defined m) (elt_cells (GmshSpec.of_dim 2 elts)) /\
  (forall n, (forall ft, has_face_type gmsh_elem2faces (elt_cells (GmshSpec.of_dim 2 elts)) ft -> exists s, In s (ec_sides gmsh_elem2faces ft (elt_cells (GmshSpec.of_dim 2 elts))) /\ ~ outer gmsh_elem2faces (elt_cells (GmshSpec.of_dim 2 elts)) ft s) -> some_inside gmsh_elem2faces (elt_cells (GmshSpec.of_dim 2 elts)) n).
Proof.
  intros GF Hok CM NN CO SP PAP. set (l := GmshSpec.of_dim 2 elts) in *. set (bl := GmshSpec.of_dim 1 elts) in *.
  assert (OKl : Forall felt_ok l) by (apply GmshProofs.of_dim_ok; exact Hok). assert (Q := gf_quads _ _ _ GF). fold l in Q.
  assert (L1 := cm_some _ _ _ _ CM). cbn [elt_cells ec_nelem] in L1.
  assert (FS : first_seen String.eqb (List.map felt_name l) = ["quad4"%string]).
  { assert (A : forall u, In u (first_seen String.eqb (List.map felt_name l)) -> u = "quad4"%string).
    { intros u I. rewrite (first_seen_in _ seqb_eq) in I. apply in_map_iff in I. destruct I as (e & <- & I). apply (Q e I). }
    assert (ND := first_seen_NoDup _ seqb_eq (List.map felt_name l)). assert (N1 : first_seen String.eqb (List.map felt_name l) <> []).
    { intros E. destruct l as [| e l']; [unfold zlen in L1; cbn in L1; lia |]. assert (I : In (felt_name e) (first_seen String.eqb (List.map felt_name (e :: l')))) by (rewrite (first_seen_in _ seqb_eq); left; reflexivity). rewrite E in I. destruct I. }
    destruct (first_seen String.eqb (List.map felt_name l)) as [| a [| b r]]; [congruence | rewrite (A a); [reflexivity | left; reflexivity] |].
    exfalso. assert (a = b) by (rewrite (A a), (A b); cbn; auto). subst. inversion ND. cbn in *. tauto. }
  assert (RO : GmshIc3Spec.rows_of l "quad4" = List.map nodes0 l).
  { unfold GmshIc3Spec.rows_of. f_equal. clear - Q. induction l as [| e l IH]; [reflexivity |]. cbn [filter]. rewrite (proj1 (Q e (or_introl eq_refl))), String.eqb_refl. f_equal. apply IH. intros e' I. apply Q. right; exact I. }
  assert (PR : ec_pairs (elt_cells l) = combine (zrange 0 (zlen l)) (List.map nodes0 l)) by (rewrite elt_pairs, FS; cbn [flat_map]; rewrite app_nil_r, RO; reflexivity).
  assert (TY : ec_types (elt_cells l) = ["quad4"%string]) by (unfold ec_types, elt_cells; cbn [ec_dict]; fold (dkeys (GmshIc3Spec.numbered 0 l (first_seen String.eqb (List.map felt_name l)))); rewrite numbered_keys; exact FS).
  assert (BAR : forall ft s, In s (ec_sides gmsh_elem2faces ft (elt_cells l)) -> ft = "bar2"%string).
  { intros ft s I. unfold ec_sides, elt_cells in I. cbn [ec_dict] in I. rewrite FS in I. cbn [GmshIc3Spec.numbered flat_map] in I. rewrite app_nil_r in I. cbn [fst snd] in I. destruct (String.eqb_spec ft "bar2"%string) as [| NE]; [assumption |].
    exfalso. unfold ed_sides in I. destruct (dget String.eqb "quad4"%string gmsh_elem2faces) as [fs |] eqn:D; [| destruct I]. vm_compute in D. injection D as <-.
    apply in_flat_map in I. destruct I as ((ci, row) & _ & I). apply String.eqb_neq in NE. cbn [flat_map] in I. rewrite NE in I. exact I. }
  assert (RI : forall i row, In (i, row) (ec_pairs (elt_cells l)) -> exists k e, i = Z.of_nat k /\ nth_error l k = Some e /\ row = nodes0 e).
  { intros i row I. rewrite PR in I. apply In_nth_error in I. destruct I as (k & I). assert (LT : (k < List.length l)%nat) by (apply nth_error_Some_lt in I; rewrite combine_length, map_length in I; lia). destruct (nth_error l k) as [e |] eqn:E; [| apply nth_error_None in E; lia].
    assert (I' : nth_error (combine (zrange 0 (zlen l)) (List.map nodes0 l)) k = Some (Z.of_nat k, nodes0 e)).
    { apply nth_error_combine2; [rewrite nth_error_zrange by (unfold zlen; lia); f_equal; lia | rewrite nth_error_map, E; reflexivity]. }
    rewrite I' in I. injection I as <- <-. exists k, e. auto. }
  assert (N0 : forall e e', Permutation (nodes0 e) (nodes0 e') -> Permutation (fe_nodes e) (fe_nodes e')).
  { intros e e' P. apply (Permutation_map (fun u => u + 1)) in P. unfold nodes0 in P. rewrite !map_map in P. erewrite (map_ext_in _ (fun u => u) (fe_nodes e)), (map_ext_in _ (fun u => u) (fe_nodes e')) in P by (intros; lia). rewrite !map_id in P. exact P. }
  split; [| split].
  - constructor.
    + apply (cm_cells _ _ _ _ CM).
    + apply (cm_wf _ _ _ _ CM).
    + apply (cm_plain _ _ _ _ CM).
    + exact TY.
    + intros t ed I. destruct (cm_types _ _ _ _ CM t ed I) as (n & IN & MC). assert (t = "quad4"%string) as ->. { assert (J : In t (ec_types (elt_cells l))) by (unfold ec_types; apply (in_map fst) in I; exact I). rewrite TY in J. cbn in J. intuition congruence. }
      exists n. split; [| exact MC]. cbn in IN. repeat (destruct IN as [IN | IN]; [first [discriminate IN | injection IN as <-; cbn; tauto] |]); destruct IN.
    + exact L1.
    + rewrite (elt_numbers l OKl). apply Permutation_refl.
    + intros i row I. destruct (RI i row I) as (k & e & -> & E & ->). split.
      * unfold nodes0. apply FinFun.Injective_map_NoDup; [intros a b H; lia | apply (Q e), (nth_error_In _ _ E)].
      * intros n J. exact (cm_nodes _ _ _ _ CM _ _ n I J).
    + intros i row i' row' I I' P. destruct (RI i row I) as (k & e & -> & E & ->). destruct (RI i' row' I') as (k' & e' & -> & E' & ->). f_equal. apply N0 in P.
      destruct (Nat.lt_trichotomy k k') as [H | [H | H]]; [exfalso | exact H | exfalso].
      * destruct (two_places l k k' e e' H E E') as (l1 & l2 & l3 & EL). exact (gf_distinct _ _ _ GF l1 e l2 e' l3 EL P).
      * destruct (two_places l k' k e' e H E' E) as (l1 & l2 & l3 & EL). exact (gf_distinct _ _ _ GF l1 e' l2 e l3 EL (Permutation_sym P)).
    + apply (cm_manifold _ _ _ _ CM).
    + eauto.
    + apply (cm_keys _ _ _ _ CM).
    + apply (cm_marks _ _ _ _ CM).
  - split; [| split; [| split]].
    + intros k b v I J. destruct (SP k b I) as (_ & S). assert (PC : patch_covers names bl k [v]) by (apply S; intros n [<- | []]; exact J). destruct (PC v (or_introl eq_refl)) as (e & IE & _ & IV). assert (R := gf_known _ _ _ GF e _ IE IV). cbn [defined me_nnode]. lia.
    + intros k b I. destruct (SP k b I) as (P & S). destruct (pa_cover _ _ _ _ PAP k P) as (ft & s & O & CV). assert (ft = "bar2"%string) as -> by (apply (BAR ft s), O). exists s. split; [exact O | apply S; exact CV].
    + intros s k b k' b' O I I' S S'. destruct (SP k b I) as (P & X). destruct (SP k' b' I') as (P' & X'). apply (pa_apart _ _ _ _ PAP "bar2"%string s k k' O P P'); [apply X; exact S | apply X'; exact S'].
    + intros k b i row I J S. destruct (SP k b I) as (P & X). destruct (RI i row J) as (q & e & -> & E & ->). apply (gf_edges _ _ _ GF k e P (nth_error_In _ _ E)). apply X. exact S.
  - intros n H. right. apply H. exists "quad4"%string. unfold elt_cells. cbn [ec_dict]. rewrite FS. cbn [GmshIc3Spec.numbered]. do 3 eexists. split; [left; reflexivity |]. split; [reflexivity |]. split; [left; reflexivity | discriminate].
Qed.

Section Whole.
  Context {C : Type} (bytes : C -> list Z) (text : C -> list (list string)) (tree : C -> cgnode Z) (of_bytes : list Z -> C).
  Context (ints floats : string -> option Z) (int_of float_of ver_of : string -> res Z).
  Context (fadd fmul : Z -> Z -> Z) (linspace : nat -> list Z) (unread : Z) (enum : list Z -> list Z).
  Context (i2d : Z -> Z) (f2i : Z -> res Z) (host : order) (shown : fmesh -> res unit) (vtk : fmesh -> option C * res unit).
  Notation formats := (formats bytes text tree int_of float_of ver_of unread enum).
  Notation read_ic3 := (read_ic3 bytes).
  Notation read_gmsh := (read_gmsh text int_of float_of ver_of unread).
  Notation read_cgns := (read_cgns tree enum).
  Notation extruded := (extruded fadd fmul linspace enum).
  Notation scaled := (scaled fmul).
  Notation write := (write of_bytes enum i2d f2i host vtk).
  Notation calls := (calls bytes text tree ints floats int_of float_of ver_of unread enum).
  Notation command := (cfdwrite_ic3 bytes text tree of_bytes ints floats int_of float_of ver_of fadd fmul linspace unread enum i2d f2i host shown vtk).
  Notation good := (CmdLineSpec.good ints floats (available_readers formats)).
  Notation means := (meaning ints floats).

  Lemma formats_are : formats = [("IC3", Entry (Some read_ic3) (Some (ToIC3 V3)) ".ic3"); ("GMSH", Entry (Some read_gmsh) None ".msh");
    ("CGNS", Entry (Some read_cgns) None ".cgns"); ("VTK", Entry None (Some ToVTK) ".vtu")]%string.
  Proof. reflexivity. Qed.

  Lemma means_file f l : ar_filename (means f l) = f.
  Proof.
    unfold meaning. assert (G : forall l a, ar_filename (fold_left (effect ints floats) l a) = ar_filename a).
    { induction l0 as [| i l0 IH]; intros a; [reflexivity |]. cbn [fold_left]. rewrite IH. destruct a as [f0 fmt out rm ex sc info], i as [| | | | | k ns | k n | j n | x y z |]; try reflexivity; cbn [effect].
      - destruct k; reflexivity.
      - destruct k; reflexivity.
      - destruct (ints n); reflexivity.
      - destruct (floats x), (floats y), (floats z); reflexivity. }
    apply G.
  Qed.

  Lemma format_read a d nm st sf name rd wr ext : In (name, Entry (Some rd) wr ext) formats ->
    in_dir d nm (path_of (ar_filename a)) -> split_name nm st sf -> input_format a sf name ext ->
    parse_filenameformat formats (ar_fmt a) (ar_filename a) = Ok (name, Some rd, wr).
  Proof.
    intros IN I S F. assert (PS : path_suffix (path_of (ar_filename a)) = sf).
    { destruct (located_parent d nm _ (or_introl I)) as (NM & _). assert (S2 := name_split_ok nm). destruct (split_name_det _ _ _ _ _ S S2) as (_ & EX). unfold path_suffix. rewrite NM. auto. }
    rewrite formats_are in *. unfold parse_filenameformat. destruct F as [-> | (-> & ->)].
    - destruct IN as [E | [E | [E | [E | []]]]]; injection E as <- <- <- <-; reflexivity.
    - rewrite PS. destruct IN as [E | [E | [E | [E | []]]]]; injection E as <- <- <- <-; reflexivity.
  Qed.

  (** The transformations. *)
  Definition transform (a : args) (fm : fmesh) : res fmesh :=
    fm <- (if ar_extrude a =? 0 then Ok fm else extruded (ar_extrude a) fm) ;;
    fm <- match ar_scale a with None => Ok fm | Some s => scaled s fm end ;;
    _ <- (if ar_info a then shown fm else Ok tt) ;; Ok fm.

  (** A command whose steps succeed. *)
  Lemma run_command v before f after fs d nm st sf name rd wr ext n fm0 fm1 b fm2 :
    let a := means f (before ++ after) in
    Forall good before -> Forall good after -> CmdLineSpec.plain f -> ~ open_end before ->
    in_dir d nm (path_of f) -> split_name nm st sf -> input_format a sf name ext -> In (name, Entry (Some rd) wr ext) formats ->
    rd fs (path_str (path_of f)) = Ok (n, Ok fm0) -> n <> PyInt 0 -> fst (remove_cells (ar_remove a) fm0) = Ok tt -> transform a fm0 = Ok fm1 ->
    write_file (if String.eqb name "GMSH" then elem2faces_after [GmshRead (fexists fs (path_str (path_of f)))] else cgns_elem2faces) enum i2d f2i host v "native" fm1 = (Some b, Ok tt, fm2) ->
    exists q, command v (words before ++ f :: words after) fs = (Done (Ok (path_str q)), fs ++ [(path_str q, of_bytes b)]) /\ output_file fs a st q.
  Proof.
    intros a Gb Ga Pf Ho I S F IN RD N0 RM TR W. assert (AF : ar_filename a = f) by apply means_file.
    assert (PF := format_read a d nm st sf name rd wr ext IN ltac:(rewrite AF; exact I) S F).
    destruct (parse_file ints floats (available_readers formats) before f after Gb Ga Ho Pf) as (ns & PA & AR). fold a in AR.
    assert (TB : elem2faces_after (calls (words before ++ f :: words after) fs) = if String.eqb name "GMSH" then elem2faces_after [GmshRead (fexists fs (path_str (path_of f)))] else cgns_elem2faces).
    { unfold Whole.calls. rewrite PA, AR, PF, AF. destruct (String.eqb name "GMSH"); reflexivity. }
    assert (SX : a_suffix ".ic3") by (exists "ic3"%string; split; [reflexivity |]; split; [discriminate |]; vm_compute; intuition discriminate).
    destruct (C64_output_name (List.length fs + 1) fs a ".ic3" d nm st sf SX) as (q & ON & FX & NA); [vm_compute; intuition discriminate | rewrite AF; exact I | exact S | lia |].
    assert (FR : forall s, fexists fs s = false <-> dget String.eqb s fs = None) by (intros s; unfold fexists, dmem; destruct (dget String.eqb s fs); intuition congruence).
    assert (NK : ~ In (path_str q) (dkeys fs)) by (apply (dget_None _ seqb_eq), FR; exact FX).
    exists q. split.
    - unfold cfdwrite_ic3, cfdwrite. rewrite PA, AR, TB. unfold write_generic. rewrite PF, AF, RD.
      assert (PE : per_elem n = Ok tt) by (destruct n as [k | k]; [cbn; destruct (Z.eqb_spec k 0); [subst k; destruct (N0 eq_refl) | reflexivity] | reflexivity]).
      rewrite PE. cbn [bind]. assert (Q := remove_same (ar_remove a) fm0). destruct (remove_cells (ar_remove a) fm0) as (r, fm'). cbn [fst snd] in *. subst r fm'.
      rewrite ON. unfold transform in TR. rewrite TR. unfold write_to, Whole.write. rewrite W. cbn [option_map fst snd]. rewrite (dset_notin _ seqb_eq _ _ _ NK). reflexivity.
    - split; [apply FR; exact FX |]. destruct NA as [NA | (k & K1 & K2 & K3)]; [left; exact NA | right]. exists k. split; [exact K1 |]. split; [exact K2 |]. intros r R. specialize (K3 r R). unfold fexists, dmem in K3. destruct (dget String.eqb (path_str r) fs); congruence.
  Qed.
End Whole.
