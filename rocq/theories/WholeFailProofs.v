(** * The readers give meshes whose values have their types and whose names can be written. *)
From Coq Require Import ZArith List Bool String Ascii Lia.
From Verif Require Import Py PyFacts IndexList Conn ConnProofs Mesh Data Extrude Gmsh Cgns Ic3Bytes Ic3BytesProofs Ic3 Ic3HeaderSpec Ic3FileSpec Ic3FailProofs Ic3FailProps Whole WholeFailSpec.

Definition msound (m : mesh Z) : Prop :=
  0 <= me_nface m /\ 0 <= me_ncell m /\ (forall k c, In (k, c) (me_nodes m) -> Forall pattern c) /\
  (forall k b, In (k, b) (me_bocos m) -> mark_typed b /\ ~ deof k /\ mk_name b = k).
Definition wsound (fm : fmesh) : Prop := sound fm /\ msound (fm_mesh fm).

Lemma sound_bare m : msound m -> wsound (bare m).
Proof.
  intros S. split; [| exact S]. destruct S as (A & B & N & M). split.
  - unfold fmesh_typed. cbn [fm_mesh fm_params fm_nodes fm_cells fd_items bare]. repeat split; auto; try constructor; apply Forall_forall; intros (k, c) I; [eapply N; eauto | eapply M; eauto].
  - intros k I. cbn in I. rewrite !app_nil_r in I. apply in_map_iff in I. destruct I as ((k', b) & <- & I). apply (M _ _ I).
Qed.
Lemma sound_with fm m : wsound fm -> msound m -> me_bocos m = me_bocos (fm_mesh fm) -> wsound (FM m (fm_cells fm) (fm_nodes fm) (fm_params fm) (fm_part fm)).
Proof.
  intros (((_ & _ & _ & M & T) & S) & _) MS E. split; [| exact MS]. destruct MS as (A & B & N & _). split.
  - unfold fmesh_typed. cbn [fm_mesh fm_params fm_nodes fm_cells]. split; [exact A |]. split; [exact B |]. split; [apply Forall_forall; intros (k, c) I; eapply N; eauto |]. rewrite E. split; [exact M | exact T].
  - intros k I. cbn [fm_mesh fm_params fm_nodes fm_cells] in I. rewrite E in I. apply S. exact I.
Qed.

Lemma nodes_sound m ns : msound m -> (forall k c, In (k, c) ns -> Forall pattern c) -> msound (with_nodes m ns).
Proof. intros (A & B & _ & M) N. split; [exact A |]. split; [exact B |]. split; [exact N | exact M]. Qed.
Lemma new_sound nc nn : 0 <= nc -> msound (new_mesh nc nn).
Proof. intros A. split; [cbn; lia |]. split; [exact A |]. split; cbn; tauto. Qed.
Lemma boco_sound m b : msound m -> mark_typed b -> ~ deof (mk_name b) -> msound (add_boco m b).
Proof.
  intros (A & B & N & M) T D. split; [exact A |]. split; [exact B |]. split; [exact N |]. intros k b' I. cbn in I. apply dset_in_or in I. destruct I as [I | (-> & ->)]; [apply (M _ _ I) | auto].
Qed.
Lemma cells_sound m c : msound m -> 0 <= ec_nelem c -> msound (set_cell2node m c).
Proof. intros (A & B & N & M) K. split; [exact A |]. split; [exact K |]. split; [exact N | exact M]. Qed.
Lemma xyz_sound m x y z m' u : msound m -> Forall pattern x -> Forall pattern y -> Forall pattern z -> set_coords_xyz m x y z = (Ok u, m') -> msound m' /\ me_bocos m' = me_bocos m.
Proof.
  intros S X Y Z H. unfold set_coords_xyz in H. destruct (forallb _ _); [| discriminate]. injection H as _ <-. split; [| reflexivity]. apply nodes_sound; [exact S |]. intros k c I.
  apply dset_in_or in I. destruct I as [I | (_ & ->)]; [| exact Z]. apply dset_in_or in I. destruct I as [I | (_ & ->)]; [| exact Y]. apply dset_in_or in I. destruct I as [I | (_ & ->)]; [| exact X].
  destruct S as (_ & _ & N & _). apply (N _ _ I).
Qed.
Lemma py_get_In {A} (l : list A) i a : py_get l i = Ok a -> In a l.
Proof. unfold py_get. destruct (_ <? 0); [discriminate |]. destruct (nth_error l _) as [x |] eqn:E; [| discriminate]. intros H. injection H as <-. eapply nth_error_In; eauto. Qed.
Lemma column_in (rows : list (list Z)) cols i v : (forall r, In r rows -> Forall pattern r) -> column rows cols i = Ok v -> Forall pattern v.
Proof.
  intros R H. unfold column in H. destruct (i <? cols); [| discriminate]. apply mapM_ok_Forall2 in H. revert R. induction H as [| r c rs cs G _ IH]; intros R; constructor.
  - apply py_get_In in G. specialize (R r (or_introl eq_refl)). rewrite Forall_forall in R. apply R. exact G.
  - apply IH. intros r' I. apply R. right; exact I.
Qed.
Lemma nd_sound m cols rows m' u : msound m -> (forall r, In r rows -> Forall pattern r) -> set_coords_nd m cols rows = (Ok u, m') -> msound m'.
Proof.
  intros S R H. unfold set_coords_nd in H. destruct (_ =? _); [| discriminate]. cbn [fold_left] in H.
  assert (ST : forall c i m0 v, msound m0 -> column rows cols i = Ok v -> msound (with_nodes m0 (dset String.eqb c v (me_nodes m0)))).
  { intros c i m0 v S0 CV. apply nodes_sound; [exact S0 |]. intros k c' I. apply dset_in_or in I. destruct I as [I | (_ & ->)]; [apply S0 in I; exact I | eapply column_in; eauto]. }
  destruct (column rows cols 0) as [x |] eqn:X; [| discriminate]. destruct (column rows cols 1) as [y |] eqn:Y; [| discriminate]. destruct (column rows cols 2) as [z |] eqn:Z; [| discriminate].
  injection H as _ <-. eapply ST; [eapply ST; [eapply ST; [exact S | exact X] | exact Y] | exact Z].
Qed.

(** ** Extrusion and scale *)
Section Moves.
  Context (fadd fmul : Z -> Z -> Z) (linspace : nat -> list Z) (enum : list Z -> list Z).
  Hypothesis sums : forall a b, pattern (fadd a b).
  Hypothesis products : forall a b, pattern (fmul a b).

  Lemma xyz_of m x y z : msound m -> nodescoord m = Ok (x, y, z) -> Forall pattern x /\ Forall pattern y /\ Forall pattern z.
  Proof using.
    intros (_ & _ & N & _) H. unfold nodescoord, dget_err in H.
    destruct (dget _ "x" _) as [x0 |] eqn:X; [| discriminate]. destruct (dget _ "y" _) as [y0 |] eqn:Y; [| discriminate]. destruct (dget _ "z" _) as [z0 |] eqn:Z; [| discriminate].
    cbn [bind] in H. injection H as <- <- <-. apply (dget_in _ seqb_eq) in X, Y, Z. split; [eapply N; eauto |]. split; eapply N; eauto.
  Qed.

  Lemma prods l s : Forall pattern (List.map (fun v => fmul v s) l).
  Proof using products. apply Forall_map, Forall_forall. intros x _. apply products. Qed.
  Lemma scaled_sound s fm fm' : wsound fm -> scaled fmul s fm = Ok fm' -> wsound fm'.
  Proof using products.
    intros S H. destruct s as ((sx, sy), sz). unfold scaled in H. destruct (scale fmul (fm_mesh fm) sx sy sz) as (r, m) eqn:E. destruct r as [u |]; [| discriminate]. cbn [bind] in H. injection H as <-.
    unfold scale in E. destruct (nodescoord (fm_mesh fm)) as [((x, y), z) |]; [| discriminate].
    destruct (xyz_sound _ _ _ _ _ _ (proj2 S) (prods _ _) (prods _ _) (prods _ _) E) as (M & B).
    apply sound_with; assumption.
  Qed.

  Lemma extruded_sound n fm fm' : wsound fm -> extruded fadd fmul linspace enum n fm = Ok fm' -> wsound fm'.
  Proof using sums.
    clear products. intros (_ & S) H. unfold extruded in H. destruct (_ <? 0); [discriminate |]. apply bind_ok in H. destruct H as (m & H & E). injection E as <-. apply sound_bare.
    unfold export_extruded in H. set (planes := linspace _) in H. set (dir := (0, 0, one)) in H. destruct dir as ((dx, dy), dz).
    apply bind_ok in H. destruct H as (_ & _ & H). apply bind_ok in H. destruct H as (((x, y), z) & XYZ & H). destruct (xyz_of _ _ _ _ S XYZ) as (PX & PY & PZ).
    apply bind_ok in H. destruct H as (pts & ST & H). destruct (set_coords_nd _ _ _) as (r, nm) eqn:ND. apply bind_ok in H. destruct H as (u & -> & H).
    assert (SN : msound nm).
    { eapply nd_sound; [| | exact ND].
      - apply new_sound. destruct S as (_ & B & _). unfold zlen. nia.
      - intros rr I. apply in_map_iff in I. destruct I as (((a, b), c) & <- & I). unfold by_slices in I. apply in_map_iff in I. destruct I as ((p, ((a0, b0), c0)) & E & I). apply in_combine_r in I.
        unfold tile in I. apply in_flat_map in I. destruct I as (_ & _ & I). unfold stacked in ST. destruct (_ && _) in ST; [| discriminate]. injection ST as <-.
        assert (I1 := in_combine_r _ _ _ _ I). apply in_combine_l in I. assert (I2 := in_combine_r _ _ _ _ I). apply in_combine_l in I. rewrite Forall_forall in PX, PY, PZ.
        destruct (_ && _) in E; [| injection E as <- <- <-; auto]. destruct (nth_error _ _) in E; injection E as <- <- <-; auto. }
    apply bind_ok in H. destruct H as (c & _ & H). apply bind_ok in H. destruct H as (c' & XC & H). apply bind_ok in H. destruct H as (nm2 & FO & H). injection H as <-.
    apply boco_sound; [| exact I | discriminate]. apply boco_sound; [| exact I | discriminate].
    eapply (foldM_inv msound); [| | exact FO]; [| apply cells_sound; [exact SN |]].
    2: { unfold ec_extrude in XC. apply bind_ok in XC. destruct XC as (_ & _ & XC). eapply (foldM_inv (fun c => 0 <= ec_nelem c)); [| | exact XC]; [| cbn; lia].
      intros s (t, ed) s' _ Ps E. unfold extrude_type in E. apply bind_ok in E. destruct E as (w & _ & E). apply bind_ok in E. destruct E as (l & _ & E). apply bind_ok in E. destruct E as (xt & _ & E). eapply ec_add_nonneg; eauto. }
    intros s (k, b) s' I Ps E. apply bind_ok in E. destruct E as (b' & E & Q). injection Q as <-. unfold extrude_mark in E.
    apply bind_ok in E. destruct E as (_ & _ & E). apply bind_ok in E. destruct E as (ty & _ & E). apply bind_ok in E. destruct E as (_ & _ & E). apply bind_ok in E. destruct E as (l & _ & E). injection E as <-.
    apply boco_sound; [exact Ps | exact Logic.I |]. cbn [mk_name]. destruct S as (_ & _ & _ & M). destruct (M _ _ I) as (_ & D & ->). exact D.
  Qed.
End Moves.

(** ** Gmsh files *)
Lemma substring_twice : forall k n w, String.length (String.substring 0 k (String.substring 0 n w)) = k -> String.substring 0 k (String.substring 0 n w) = String.substring 0 k w.
Proof.
  induction k as [| k IH]; intros n w L; [destruct w, n; reflexivity |]. destruct n as [| n]; [destruct w; discriminate L |]. destruct w as [| c w]; [discriminate L |].
  cbn [String.substring String.length] in *. f_equal. apply IH. injection L as L. exact L.
Qed.
Lemma deof_inner w : deof (str_inner w) -> String.substring 1 4 w = "DEOF"%string.
Proof.
  unfold deof, str_inner. intros H. apply String.prefix_correct in H. destruct w as [| c w]; [discriminate H |]. cbn [String.length] in H. change (String.substring 1 ?n (String c w)) with (String.substring 0 n w) in *.
  rewrite <- H. symmetry. apply substring_twice. rewrite H. reflexivity.
Qed.
Section Texts.
  Context (int_of float_of ver_of : string -> res Z) (unread : Z).
  Hypothesis reals : forall s v, float_of s = Ok v -> pattern v.
  Hypothesis blank : pattern unread.

  Definition fam_ok (fam : option (dict string string)) : Prop := forall d, fam = Some d -> forall k v, In (k, v) d -> ~ deof v.
  Definition oreal (o : option Z) : Prop := match o with Some v => pattern v | None => True end.
  Definition oxyz (xyz : list (option Z) * list (option Z) * list (option Z)) : Prop := let '(x, y, z) := xyz in Forall oreal x /\ Forall oreal y /\ Forall oreal z.

  Lemma slice_in {A} (l : list A) a b x : In x (py_slice l a b) -> In x l.
  Proof using. clear. unfold py_slice. intros I. assert (FI : forall n (k : list A), In x (firstn n k) -> In x k) by (intros n k J; rewrite <- (firstn_skipn n k); apply in_or_app; left; exact J). apply FI in I. rewrite <- (firstn_skipn (Z.to_nat (slice_bound (zlen l) a)) l). apply in_or_app. right. exact I. Qed.
  Lemma section_words msh name sec l w : text_ok msh -> get_section msh name = Ok sec -> In l sec -> In w l -> String.substring 1 4 w <> "DEOF"%string.
  Proof using.
    clear. intros T H I J. unfold get_section in H. apply bind_ok in H. destruct H as (a & _ & H). apply bind_ok in H. destruct H as (b & _ & H). injection H as <-. apply slice_in in I. exact (T l w I J).
  Qed.
  Lemma families_ok msh fam : text_ok msh -> read_families int_of msh = Ok fam -> fam_ok fam.
  Proof using.
    clear. intros T H. unfold read_families in H. destruct (existsb _ _); [| injection H as <-; intros d Q; discriminate Q]. apply bind_ok in H. destruct H as (sec & GS & H). apply bind_ok in H. destruct H as (n & _ & H).
    apply bind_ok in H. destruct H as (d & FO & H). injection H as <-. intros d' Q. injection Q as <-.
    eapply (foldM_inv (fun d => forall k v, In (k, v) d -> ~ deof v)); [| | exact FO]; [| intros k v []].
    intros s i s' _ Ps E k v I. apply bind_ok in E. destruct E as (k' & _ & E). apply bind_ok in E. destruct E as (v' & TK & E). injection E as <-. apply dset_in_or in I. destruct I as [I | (_ & ->)]; [eapply Ps; eauto |].
    unfold Gmsh.tok in TK. apply bind_ok in TK. destruct TK as (l & G & TK). apply py_get_In in G, TK. intros D. apply deof_inner in D. exact (section_words _ _ _ _ _ T GS G TK D).
  Qed.
  Lemma float_ok sec i j v : float_at float_of sec i j = Ok v -> pattern v.
  Proof using reals. intros H. unfold float_at in H. apply bind_ok in H. destruct H as (t & _ & H). eapply reals; eauto. Qed.
  Lemma set_ok (l : list (option Z)) i v l' : Forall oreal l -> pattern v -> py_set l i (Some v) = Ok l' -> Forall oreal l'.
  Proof using.
    clear. intros F P H. unfold py_set in H. destruct (_ || _); [discriminate |]. injection H as <-. match goal with |- Forall _ (upd_nat _ ?n _) => generalize n end.
    induction F as [| o l O F IH]; intros k; [destruct k; constructor |]. destruct k; cbn [upd_nat]; constructor; auto.
  Qed.
  Lemma nodes2_ok coords xyz : nodes_v2 int_of float_of coords = Ok xyz -> oxyz xyz.
  Proof using reals.
    intros H. unfold nodes_v2 in H. apply bind_ok in H. destruct H as (n & _ & H). apply bind_ok in H. destruct H as (x & X & H). apply bind_ok in H. destruct H as (y & Y & H). apply bind_ok in H. destruct H as (z & Z & H). injection H as <-.
    assert (G : forall j l, mapM (fun i => float_at float_of coords i j) (zrange 1 (n + 1)) = Ok l -> Forall oreal (List.map Some l)).
    { clear X Y Z. intros j l H. apply mapM_ok_Forall2 in H. apply Forall_map. induction H as [| i v is vs E _ IH]; [constructor | constructor; [cbn; eapply float_ok; eauto | exact IH]]. }
    split; [eapply G; eauto |]. split; eapply G; eauto.
  Qed.
  Lemma node_ok4 coords cnt xyz i xyz' : oxyz xyz -> node_step int_of float_of coords cnt xyz i = Ok xyz' -> oxyz xyz'.
  Proof using reals.
    destruct xyz as ((x, y), z). intros (X & Y & Z) H. unfold node_step in H. apply bind_ok in H. destruct H as (t & _ & H).
    apply bind_ok in H. destruct H as (vx & VX & H). apply bind_ok in H. destruct H as (x' & SX & H). apply bind_ok in H. destruct H as (vy & VY & H). apply bind_ok in H. destruct H as (y' & SY & H).
    apply bind_ok in H. destruct H as (vz & VZ & H). apply bind_ok in H. destruct H as (z' & SZ & H). injection H as <-.
    apply float_ok in VX, VY, VZ. split; [exact (set_ok _ _ _ _ X VX SX) |]. split; [exact (set_ok _ _ _ _ Y VY SY) | exact (set_ok _ _ _ _ Z VZ SZ)].
  Qed.
  Lemma nodes4_ok coords nn : forall fuel nodes counter xyz xyz', oxyz xyz -> nodes_loop int_of float_of fuel coords nn nodes counter xyz = Ok xyz' -> oxyz xyz'.
  Proof using reals.
    induction fuel as [| k IH]; intros nodes counter xyz xyz' O H; cbn [nodes_loop] in H; (destruct (nodes <? nn); [| injection H as <-; exact O]); [discriminate |].
    apply bind_ok in H. destruct H as (cnt & _ & H). apply bind_ok in H. destruct H as (xyz2 & FO & H). eapply IH; [| exact H].
    eapply (foldM_inv oxyz); [| exact O | exact FO]. intros s i s' _ Ps E. eapply node_ok4; eauto.
  Qed.
  Lemma sections_ok fuel msh fam xyz elts : text_ok msh -> read_sections int_of float_of ver_of fuel msh = Ok (fam, xyz, elts) -> fam_ok fam /\ oxyz xyz.
  Proof using reals.
    intros T H. unfold read_sections in H. repeat (apply bind_ok in H; let x := fresh in destruct H as (x & _ & H)). destruct (_ <=? 2); [| destruct (4 <=? _); [| discriminate]].
    - unfold read_v2 in H. apply bind_ok in H. destruct H as (fam' & F & H). apply bind_ok in H. destruct H as (co & _ & H). apply bind_ok in H. destruct H as (xyz' & X & H). apply bind_ok in H. destruct H as (el & _ & H). apply bind_ok in H. destruct H as (es & _ & H).
      injection H as <- <- _. split; [eapply families_ok; eauto | eapply nodes2_ok; eauto].
    - unfold read_v4 in H. apply bind_ok in H. destruct H as (fam' & F & H). apply bind_ok in H. destruct H as (co & _ & H). apply bind_ok in H. destruct H as (xyz' & X & H). apply bind_ok in H. destruct H as (el & _ & H). apply bind_ok in H. destruct H as (es & _ & H).
      injection H as <- <- _. split; [eapply families_ok; eauto |]. unfold nodes_v4 in X. apply bind_ok in X. destruct X as (nn & _ & X). eapply nodes4_ok; [| exact X].
      assert (R : Forall oreal (repeat None (Z.to_nat nn))) by (apply Forall_forall; intros o I; apply repeat_spec in I; subst; exact Logic.I). repeat split; exact R.
  Qed.
  Definition bnds_ok (st : dict string bnd * list string) : Prop := forall k b, In (k, b) (fst st) -> ~ deof k.
  Lemma create_ok st family d st' : bnds_ok st -> ~ deof family -> create_bnd st family d = Ok st' -> bnds_ok st'.
  Proof using.
    clear. destruct st as (bnds, famm). unfold create_bnd. intros B D H. destruct (str_in family famm).
    - apply bind_ok in H. destruct H as (b & _ & H). injection H as <-. intros k b' I. cbn in I. apply dset_in_or in I. destruct I as [I | (-> & _)]; [eapply B; eauto | exact D].
    - injection H as <-. intros k b' I. cbn in I. apply dset_in_or in I. destruct I as [I | (-> & _)]; [eapply B; eauto | exact D].
  Qed.
  Lemma analyze_ok fam xyz elts g : fam_ok fam -> analyze (F := Z) fam xyz elts = Ok g -> g_xyz g = xyz /\ forall k b, In (k, b) (g_bnds g) -> ~ deof k.
  Proof using.
    clear. intros FA H. unfold analyze in H. apply bind_ok in H. destruct H as (dims & _ & H). apply bind_ok in H. destruct H as (md & _ & H). destruct (_ || _); [discriminate |].
    apply bind_ok in H. destruct H as (conn & _ & H). apply bind_ok in H. destruct H as (bc & _ & H). apply bind_ok in H. destruct H as (conn' & _ & H). apply bind_ok in H. destruct H as (cbc & _ & H). apply bind_ok in H. destruct H as (st & FO & H).
    injection H as <-. split; [reflexivity |]. cbn [g_bnds]. intros k b I. apply dset_in_or in I. destruct I as [I | (-> & _)]; [| intros Q; discriminate Q]. revert k b I.
    eapply (foldM_inv bnds_ok); [| | exact FO]; [| intros k b []]. intros s (tag, d) s' _ Ps E. unfold bnd_step in E. destruct fam as [fam |]; [| eapply create_ok; [exact Ps | | exact E]; intros Q; discriminate Q].
    apply bind_ok in E. destruct E as (p & _ & E). apply bind_ok in E. destruct E as (family & DG & E). destruct (String.eqb family "fluid"); [injection E as <-; exact Ps |]. eapply create_ok; [exact Ps | | exact E].
    unfold dget_err in DG. destruct (dget _ _ fam) as [x |] eqn:G; [| discriminate]. injection DG as ->. apply (dget_in _ seqb_eq) in G. eapply FA; eauto.
  Qed.
  Lemma known_ok l : Forall oreal l -> Forall pattern (List.map (known unread) l).
  Proof using blank. intros F. apply Forall_map. eapply Forall_impl; [| exact F]. intros [v |] P; [exact P | exact blank]. Qed.

  Lemma gmsh_sound fuel msh g m : text_ok msh -> Gmsh.read_data int_of float_of ver_of fuel msh = Ok g -> Gmsh.export_mesh 0 g = Ok m -> wsound (bare (plain_mesh unread m)).
  Proof using reals blank.
    intros T RD EX. unfold Gmsh.read_data in RD. apply bind_ok in RD. destruct RD as (((fam, xyz), elts) & RS & AN). destruct (sections_ok _ _ _ _ _ T RS) as (FA & XYZ). destruct (analyze_ok _ _ _ _ FA AN) as (GX & GB).
    unfold Gmsh.export_mesh in EX. rewrite GX in EX. destruct xyz as ((x, y), z). destruct XYZ as (X & Y & Z). destruct (set_coords_xyz _ x y z) as ([u |], m0) eqn:SC; [| discriminate]. apply bind_ok in EX. destruct EX as (c & XC & EX). injection EX as <-.
    assert (NC : 0 <= ec_nelem c).
    { unfold export_cells in XC. eapply (foldM_inv (fun c => 0 <= ec_nelem c)); [| | exact XC]; [| cbn; lia]. intros s (t, mm) s' _ Ps E. apply bind_ok in E. destruct E as (d & _ & E). destruct (d =? _); [eapply ec_add_nonneg; eauto | injection E as <-; exact Ps]. }
    unfold set_coords_xyz in SC. destruct (forallb _ _); [| discriminate]. injection SC as _ <-. apply sound_bare.
    assert (G : forall bs m1, (forall k b, In (k, b) bs -> ~ deof k) -> msound (plain_mesh unread m1) -> msound (plain_mesh unread (fold_left (export_mark 0) bs m1))).
    { induction bs as [| (k, b) bs IH]; intros m1 D S; [exact S |]. cbn [fold_left]. apply IH; [intros k' b' I; eapply D; right; eauto |]. unfold export_mark. destruct (String.eqb (b_type b) "boundary"); [| exact S].
      destruct S as (A & B & N & M). split; [exact A |]. split; [exact B |]. split; [exact N |]. intros k' b' I. cbn in I. apply in_map_iff in I. destruct I as ((k0, b0) & E & I). injection E as <- <-. apply dset_in_or in I. destruct I as [I | (-> & ->)].
      - apply (M k0). cbn. apply in_map_iff. exists (k0, b0). auto.
      - split; [| split; [eapply D; left; reflexivity | reflexivity]]. cbn. repeat constructor; unfold pattern; lia. }
    apply G; [exact GB |]. split; [cbn; lia |]. split; [exact NC |]. split; [| intros k b []].
    intros k l I. cbn in I. repeat (destruct I as [I | I]; [injection I as <- <-; apply known_ok; assumption |]). destruct I.
  Qed.
End Texts.

(** ** CGNS files *)
Lemma kids_ok n k c : node_ok n -> In (k, c) (cg_kids n) -> ~ deof k /\ node_ok c.
Proof. intros H I. destruct H as [l d ks _ K]. exact (K k c I). Qed.
Lemma typed_ok n label k c : node_ok n -> In (k, c) (dict_cgnstype n label) -> ~ deof k /\ node_ok c.
Proof. intros H I. apply filter_In in I. eapply kids_ok; [exact H | apply I]. Qed.
Lemma child_ok n k c : node_ok n -> cg_child n k = Ok c -> node_ok c.
Proof. intros H E. unfold cg_child, dget_err in E. destruct (dget _ k (cg_kids n)) as [x |] eqn:G; [| discriminate]. injection E as ->. apply (dget_in _ seqb_eq) in G. eapply kids_ok; eauto. Qed.
Lemma data_ok n p : node_ok n -> cg_data n = Ok p -> payload_ok p.
Proof. intros H E. destruct H as [l d ks P _]. destruct d as [q |]; [| discriminate]. cbn in E. injection E as ->. apply P. reflexivity. Qed.
Lemma path_ok n k p : node_ok n -> cg_path n k = Ok p -> payload_ok p.
Proof. intros H E. unfold cg_path in E. apply bind_ok in E. destruct E as (c & E & D). eapply data_ok; [| exact D]. eapply child_ok; eauto. Qed.

Definition kids_fine (d : dict string (cgnode Z)) : Prop := forall k c, In (k, c) d -> ~ deof k /\ node_ok c.
Lemma update_fine d' : forall d, kids_fine d -> kids_fine d' -> kids_fine (Cgns.dupdate d d').
Proof.
  induction d' as [| (k, c) d' IH]; intros d D D'; [exact D |]. unfold Cgns.dupdate in *. cbn [fold_left]. apply IH; [| intros k' c' I; apply D'; right; exact I].
  intros k' c' I. apply dset_in_or in I. destruct I as [I | (-> & ->)]; [apply D; exact I | apply D'; left; reflexivity].
Qed.
Lemma zone_fine n g z : node_ok n -> zone_init n g = Ok z -> zo_node z = n /\ kids_fine (zo_BCs z).
Proof.
  intros N H. unfold zone_init in H. apply bind_ok in H. destruct H as (p & _ & H). apply bind_ok in H. destruct H as (t & _ & H). apply bind_ok in H. destruct H as (_ & _ & H). injection H as <-. split; [reflexivity |]. cbn [zo_BCs].
  assert (B : kids_fine (Cgns.dupdate (dict_cgnstype n "ZoneBC_t") (dict_cgnstype n "ZoneGridConnectivity_t"))) by (apply update_fine; intros k c I; eapply typed_ok; eauto).
  revert B. match goal with |- kids_fine ?d -> kids_fine (fold_left _ _ ?a) => generalize d; assert (A : kids_fine a) by (intros k c []); revert A; generalize a end.
  intros a A l. revert a A. induction l as [| (k, c) l IH]; intros a A B; [exact A |]. cbn [fold_left]. destruct (B k c (or_introl eq_refl)) as (_ & C). apply IH; [| intros k' c' I; apply B; right; exact I].
  apply update_fine; [apply update_fine; [exact A |] |]; intros k' c' I; eapply typed_ok; eauto.
Qed.
Lemma read_fine root name z : node_ok root -> Cgns.read_data root name = Ok z -> node_ok (zo_node z) /\ kids_fine (zo_BCs z).
Proof.
  intros R H. unfold Cgns.read_data in H. apply bind_ok in H. destruct H as (v & _ & H). apply bind_ok in H. destruct H as (vs & _ & H). apply bind_ok in H. destruct H as (_ & _ & H).
  set (zones := match rev _ with [] => [] | _ => _ end) in H. apply bind_ok in H. destruct H as (b0 & _ & H). apply bind_ok in H. destruct H as (p & _ & H). apply bind_ok in H. destruct H as (l & _ & H). apply bind_ok in H. destruct H as (gd & _ & H).
  apply bind_ok in H. destruct H as (nm & _ & H). apply bind_ok in H. destruct H as (n & DG & H). apply bind_ok in H. destruct H as (z' & ZI & H). apply bind_ok in H. destruct H as (_ & _ & H). injection H as <-.
  assert (N : node_ok n).
  { unfold dget_err in DG. destruct (dget _ nm zones) as [x |] eqn:G; [| discriminate]. injection DG as ->. apply (dget_in _ seqb_eq) in G. unfold zones in G. destruct (rev (dict_cgnstype root "CGNSBase_t")) as [| (k, b) bs] eqn:RV; [destruct G |].
    assert (I : In (k, b) (dict_cgnstype root "CGNSBase_t")) by (rewrite in_rev, RV; left; reflexivity). destruct (typed_ok _ _ _ _ R I) as (_ & B). eapply typed_ok; eauto. }
  destruct (zone_fine _ _ _ N ZI) as (-> & B). auto.
Qed.
Lemma bc_fine enum z key bc b : ~ deof key -> node_ok bc -> Cgns.export_BC (F := Z) enum z key bc = Ok b -> mark_typed b /\ ~ deof (mk_name b).
Proof.
  intros K N H. unfold export_BC in H. apply bind_ok in H. destruct H as (name & NM & H). assert (D : ~ deof name).
  { destruct (dmem _ _ _); [| injection NM as <-; exact K]. apply bind_ok in NM. destruct NM as (p & P & T). apply path_ok in P; [| exact N]. destruct p; try discriminate T. cbn in T. injection T as ->. exact P. }
  apply bind_ok in H. destruct H as (p & _ & H). apply bind_ok in H. destruct H as (_ & _ & H). apply bind_ok in H. destruct H as (((ix, loc), ty) & _ & H).
  destruct (String.eqb loc "FaceCenter"); [| destruct (String.eqb loc "Vertex"); [| destruct (String.eqb loc "CellCenter"); [| discriminate]]].
  - apply bind_ok in H. destruct H as (c & _ & H). apply bind_ok in H. destruct H as (ns & _ & H). injection H as <-. split; [exact I | exact D].
  - apply bind_ok in H. destruct H as (c & _ & H). injection H as <-. split; [exact I | exact D].
  - injection H as <-. split; [exact I | exact D].
Qed.
Lemma cgns_sound enum root z m : node_ok root -> Cgns.read_data root None = Ok z -> Cgns.export_mesh enum z = Ok m -> wsound (bare m).
Proof.
  intros R RD EX. destruct (read_fine _ _ _ R RD) as (N & B). apply sound_bare. unfold Cgns.export_mesh in EX. apply bind_ok in EX. destruct EX as (nc & _ & EX). apply bind_ok in EX. destruct EX as (nn & _ & EX).
  apply bind_ok in EX. destruct EX as (((x, y), w) & XYZ & EX).
  assert (C : forall name l, zone_coord z name = Ok l -> Forall pattern l).
  { intros name l H. unfold zone_coord in H. apply bind_ok in H. destruct H as (g & G & H). apply bind_ok in H. destruct H as (p & P & H). apply path_ok in P; [| eapply child_ok; eauto]. destruct p; try discriminate H. cbn in H. injection H as ->. exact P. }
  unfold zone_coords in XYZ. apply bind_ok in XYZ. destruct XYZ as (x' & X & XYZ). apply bind_ok in XYZ. destruct XYZ as (y' & Y & XYZ). apply bind_ok in XYZ. destruct XYZ as (w' & W & XYZ). injection XYZ as -> -> ->. apply C in X, Y, W.
  destruct (set_coords_xyz _ x y w) as ([u |], m0) eqn:SC; [| discriminate]. apply bind_ok in EX. destruct EX as (c & XC & EX).
  unfold set_coords_xyz in SC. destruct (forallb _ _); [| discriminate]. injection SC as _ <-.
  eapply (foldM_inv msound); [| | exact EX].
  - intros s (k, bc) s' I Ps E. apply bind_ok in E. destruct E as (b & E & Q). injection Q as <-. destruct (is_internal b); [exact Ps |]. destruct (B k bc I) as (D & NB). destruct (bc_fine _ _ _ _ _ D NB E). apply boco_sound; assumption.
  - split; [cbn; lia |]. split; [| split; [| intros k b []]].
    + cbn. unfold elemcon in XC. eapply (foldM_inv (fun c => 0 <= ec_nelem c)); [| | exact XC]; [| cbn; lia]. intros s e s' _ Ps E. unfold section_step in E.
      apply bind_ok in E. destruct E as (p & _ & E). apply bind_ok in E. destruct E as (l & _ & E). apply bind_ok in E. destruct E as (code & _ & E). apply bind_ok in E. destruct E as (et & _ & E). apply bind_ok in E. destruct E as (n1 & _ & E). apply bind_ok in E. destruct E as (d & _ & E).
      destruct (d =? _); [| injection E as <-; exact Ps]. apply bind_ok in E. destruct E as (pr & _ & E). apply bind_ok in E. destruct E as (r & _ & E). apply bind_ok in E. destruct E as (lo & _ & E). apply bind_ok in E. destruct E as (hi & _ & E).
      apply bind_ok in E. destruct E as (pc & _ & E). apply bind_ok in E. destruct E as (fl & _ & E). apply bind_ok in E. destruct E as (mm & _ & E). eapply ec_add_nonneg; eauto.
    + intros k l I. cbn in I. repeat (destruct I as [I | I]; [injection I as <- <-; assumption |]). destruct I.
Qed.

(** ** IC3 files *)
Lemma parts_all {A} (P : A -> Prop) n l : Forall P l -> Forall P (firstn n l) /\ Forall P (skipn n l).
Proof. intros F. rewrite <- (firstn_skipn n l) in F. apply Forall_app in F. exact F. Qed.
Lemma chunk_bytes fuel n l c : Forall is_byte l -> In c (chunks_fuel fuel n l) -> Forall is_byte c /\ (List.length c <= n)%nat.
Proof.
  revert l. induction fuel as [| k IH]; intros l B I; [destruct I |]. destruct l as [| a l]; [destruct I |]. cbn [chunks_fuel] in I. destruct I as [<- | I].
  - split; [apply parts_all; exact B |]. rewrite firstn_length. lia.
  - eapply IH; [| exact I]. apply parts_all. exact B.
Qed.
Lemma doubles_ok o n l : (n <= 8)%nat -> Forall is_byte l -> Forall pattern (List.map (unpack_double o) (chunks n l)).
Proof.
  intros N B. apply Forall_map, Forall_forall. intros c I. apply chunk_bytes in I; [| exact B]. destruct I as (BC & L). assert (D := dec_bound o c BC). unfold unpack_double, pattern.
  assert (256 ^ zlen c <= 256 ^ 8) by (apply Z.pow_le_mono_r; unfold zlen; lia). change (256 ^ 8) with (2 ^ 64) in *. lia.
Qed.
Lemma rd_bytes f p n b p' : Forall is_byte f -> rd f p n = (Some b, p') -> Forall is_byte b.
Proof. intros B H. unfold rd in H. destruct (_ =? _); [| discriminate]. injection H as <- _. apply parts_all, parts_all. exact B. Qed.
Definition hok (h : header) : Prop := ~ deof (h_name h) /\ Forall pattern (h_rdata h).
Lemma var_ok f o ids : Forall is_byte f -> forall k skip p h p', read_var k f o ids skip p = Ok (Some h, p') -> hok h.
Proof.
  intros B. induction k as [| k IH]; intros skip p h p' H; [discriminate |]. cbn [read_var] in H. destruct (rd f _ 256) as ([b |], q) eqn:R; [| discriminate]. apply bind_ok in H. destruct H as (name & _ & H).
  destruct (String.prefix "DEOF" name) eqn:D; [discriminate |]. destruct (zmem _ ids).
  - injection H as <- _. split; [cbn [h_name hdr_of]; unfold deof; congruence |]. cbn [h_rdata hdr_of]. apply doubles_ok; [lia |]. apply parts_all. eapply rd_bytes; eauto.
  - destruct (_ =? EOF); [discriminate | eapply IH; eauto].
Qed.
Lemma reals_ok f o n p l p' : Forall is_byte f -> binary_read f o Cd n p = Ok (Some l, p') -> Forall pattern l.
Proof.
  intros B H. unfold binary_read in H. destruct (_ || _); [discriminate |]. destruct (rd f p _) as (r, q) eqn:R. destruct r as [b |]; [| discriminate]. cbn [option_map] in H. injection H as <- _. apply doubles_ok; [cbn; lia | eapply rd_bytes; eauto].
Qed.
Lemma read_len f o c n p l p' : binary_read f o c n p = Ok (Some l, p') -> 0 <= n /\ zlen l = n.
Proof.
  intros H. unfold binary_read in H. destruct (Z.ltb_spec n 0) as [| N]; [discriminate |]. destruct (_ <=? _) in H; [discriminate |]. cbn [orb] in H. unfold rd in H. set (b := firstn _ _) in H. destruct (Z.eqb_spec (zlen b) (Z.of_nat (code_size c) * n)) as [L |]; [| discriminate]. cbn [option_map] in H. injection H as <- _.
  split; [exact N |]. destruct (chunks_spec (code_size c) (Z.to_nat n) b (code_size_pos c)) as (_ & _ & E); [unfold zlen in L; lia |]. unfold zlen. rewrite map_length, E. lia.
Qed.

Definition set_sound (d : dataset) : Prop := 0 <= ds_ndof d /\ forall k a, In (k, a) (ds_data d) -> array_typed a /\ ~ deof k.
Lemma data_sound k a t d : set_sound d -> array_typed a -> ~ deof k -> set_sound (add_data k a t d).
Proof. intros (N & D) A K. split; [exact N |]. intros k' a' I. cbn in I. apply dset_in_or in I. destruct I as [I | (-> & ->)]; [apply D; exact I | auto]. Qed.
Lemma ndof_sound n d d' : 0 <= n -> set_sound d -> set_cell_ndof n d = Ok d' -> set_sound d'.
Proof.
  intros P (N & D) H. unfold set_cell_ndof in H. destruct (1 <? n); [| injection H as <-; split; assumption]. unfold set_xrep in H. destruct (smem _ _); [| discriminate]. cbn [bind] in H. unfold set_ndof in H. destruct (_ || _); [| discriminate]. cbn [bind] in H. injection H as <-.
  split; [exact P | exact D].
Qed.
Definition vars_sound (v : vars) : Prop := set_sound (fst v) /\ set_sound (snd v).
Lemma scan_inv {S} (P : S -> Prop) f o ids (step : S -> header -> Z -> res (S * Z)) : Forall is_byte f ->
  (forall s h p s' p', hok h -> P s -> step s h p = Ok (s', p') -> P s') -> forall k s p s', P s -> scan k f o ids step s p = Ok s' -> P s'.
Proof.
  intros B ST. induction k as [| k IH]; intros s p s' Ps H; [discriminate |]. cbn [scan] in H. apply bind_ok in H. destruct H as (([h |], q) & RV & H); [| injection H as <-; exact Ps].
  apply bind_ok in H. destruct H as ((s1, q1) & E & H). eapply IH; [| exact H]. eapply ST; [eapply var_ok; eauto | exact Ps | exact E].
Qed.
Lemma or_some {A} e (s : option A) l : or_err e s = Ok l -> s = Some l.
Proof. destruct s; [| discriminate]. intros H. injection H as ->. reflexivity. Qed.
Lemma item_reals f o c n p l p' : Forall is_byte f -> binary_read f o c n p = Ok (Some l, p') -> is_q c = false -> Forall is_byte f -> c <> Ci -> Forall pattern l.
Proof. intros B H Q _ NC. destruct c; [congruence | discriminate | eapply reals_ok; eauto]. Qed.
Lemma code_not_i id : code_of id <> Ci.
Proof. unfold code_of. destruct (_ || _); discriminate. Qed.

Section Bytes.
  Context (f : list Z) (o : order) (B : Forall is_byte f).
  Lemma scalar_sound version no fa cv v h p v' p' : 0 <= cv -> hok h -> vars_sound v -> scalar_step version no fa cv f o v h p = Ok (v', p') -> vars_sound v'.
  Proof using B.
    intros CV (HN & _) (VC & VN) H. destruct v as (cells, nodes). unfold scalar_step in H. cbn [fst snd] in VC, VN.
    assert (G : forall n q l q', ('(s, r) <- binary_read f o (code_of (h_id h)) n q ;; l <- or_err TypeError s ;; Ok (l, r)) = Ok (l, q') -> array_typed (Arr [zlen l] (is_q (code_of (h_id h))) l)).
    { intros n q l q' G. apply bind_ok in G. destruct G as ((s, r) & G & E). apply bind_ok in E. destruct E as (l' & O & E). injection E as -> _. apply or_some in O. subst s. split; [unfold a_wf; cbn; lia |]. cbn. intros Q. eapply item_reals; eauto. apply code_not_i. }
    destruct (_ =? no); [| destruct (_ =? fa); [| destruct (_ =? cv); [| discriminate]]].
    - apply bind_ok in H. destruct H as ((l, q) & E & H). apply G in E. apply bind_ok in H. destruct H as (_ & _ & H). injection H as <- _. split; [exact VC |]. apply data_sound; assumption.
    - apply bind_ok in H. destruct H as ((l, q) & E & H). apply bind_ok in H. destruct H as (_ & _ & H). injection H as <- _. split; assumption.
    - apply bind_ok in H. destruct H as (nd & ND & H). apply bind_ok in H. destruct H as (c2 & SC & H). apply bind_ok in H. destruct H as ((l, q) & E & H). assert (E' := E). apply G in E. apply bind_ok in H. destruct H as (_ & _ & H). injection H as <- _.
      split; [| exact VN]. apply data_sound; [| exact E | exact HN]. unfold set_cell_ndof in SC. destruct (Z.ltb_spec 1 nd) as [L |]; [| injection SC as <-; exact VC]. eapply (ndof_sound nd cells); [lia | exact VC |]. unfold set_cell_ndof. destruct (Z.ltb_spec 1 nd); [exact SC | lia].
  Qed.
  Lemma vector_sound version no fa cv v h p v' p' : hok h -> vars_sound v -> vector_step version no fa cv f o v h p = Ok (v', p') -> vars_sound v'.
  Proof using B.
    intros (HN & _) (VC & VN) H. destruct v as (cells, nodes). unfold vector_step in H. cbn [fst snd] in VC, VN.
    destruct (_ =? no); [| destruct (_ =? fa); [| destruct (_ =? cv); [| discriminate]]].
    - apply bind_ok in H. destruct H as ((l, q) & E & H). apply bind_ok in H. destruct H as (_ & _ & H). injection H as <- _. split; assumption.
    - apply bind_ok in H. destruct H as ((l, q) & E & H). apply bind_ok in H. destruct H as (_ & _ & H). injection H as <- _. split; assumption.
    - apply bind_ok in H. destruct H as (nd & ND & H). apply bind_ok in H. destruct H as (c2 & SC & H). apply bind_ok in H. destruct H as ((l, q) & E & H). apply bind_ok in H. destruct H as (_ & _ & H). injection H as <- _.
      apply bind_ok in E. destruct E as ((s, r) & E & Q). apply bind_ok in Q. destruct Q as (l' & O & Q). injection Q as -> _. apply or_some in O. subst s. destruct (read_len _ _ _ _ _ _ _ E) as (_ & L). apply reals_ok in E; [| exact B].
      split; [| exact VN]. apply data_sound; [| | exact HN].
      + unfold set_cell_ndof in SC. destruct (Z.ltb_spec 1 nd) as [L1 |]; [| injection SC as <-; exact VC]. eapply (ndof_sound nd cells); [lia | exact VC |]. unfold set_cell_ndof. destruct (Z.ltb_spec 1 nd); [exact SC | lia].
      + split; [unfold a_wf; cbn; lia | intros _; exact E].
  Qed.
  Lemma tensor_sound version cv v h p v' p' : hok h -> vars_sound v -> tensor_step version cv f o v h p = Ok (v', p') -> vars_sound v'.
  Proof using B.
    intros (HN & _) (VC & VN) H. destruct v as (cells, nodes). unfold tensor_step in H. cbn [fst snd] in VC, VN. destruct (_ =? cv); [| discriminate].
    apply bind_ok in H. destruct H as (nd & ND & H). apply bind_ok in H. destruct H as (c2 & SC & H). apply bind_ok in H. destruct H as ((s, q) & E & H). apply bind_ok in H. destruct H as (l & O & H). apply bind_ok in H. destruct H as (_ & _ & H). injection H as <- _.
    apply or_some in O. subst s. destruct (read_len _ _ _ _ _ _ _ E) as (_ & L). apply reals_ok in E; [| exact B].
    split; [| exact VN]. apply data_sound; [| | exact HN].
    - unfold set_cell_ndof in SC. destruct (Z.ltb_spec 1 nd) as [L1 |]; [| injection SC as <-; exact VC]. eapply (ndof_sound nd cells); [lia | exact VC |]. unfold set_cell_ndof. destruct (Z.ltb_spec 1 nd); [exact SC | lia].
    - split; [unfold a_wf; cbn; lia | intros _; exact E].
  Qed.
  Lemma zones_ok z : forall k p bs, read_zones k f o z p = Ok bs -> Forall (fun b => mark_typed b /\ ~ deof (mk_name b)) bs.
  Proof using B.
    induction k as [| k IH]; intros p bs H; [discriminate |]. cbn [read_zones] in H. apply bind_ok in H. destruct H as (([h |], q) & RV & H); [| injection H as <-; constructor]. apply var_ok in RV; [| exact B]. destruct RV as (D & R).
    apply bind_ok in H. destruct H as (b & RZ & H). assert (Q : mark_typed b /\ ~ deof (mk_name b)).
    { unfold read_zone in RZ. apply bind_ok in RZ. destruct RZ as (t & _ & RZ). apply bind_ok in RZ. destruct RZ as (_ & _ & RZ). injection RZ as <-. split; [exact R | exact D]. }
    destruct (_ =? 6); [injection H as <-; constructor; [exact Q | constructor] |]. apply bind_ok in H. destruct H as (bs' & RZs & H). injection H as <-. constructor; [exact Q | eapply IH; eauto].
  Qed.
  (** Parameters: numbers, except the empty dictionary of weights. *)
  Definition par_ok (d : dict string sval) : Prop := forall k v, In (k, v) d -> v = SWgt [] \/ exists n, v = SNum n /\ num_typed n.
  Lemma info_ok d : read_info f o = Ok d -> par_ok d.
  Proof using B.
    intros H. unfold read_info, scan_file in H. eapply (scan_inv par_ok); [exact B | | | exact H].
    - intros s h p s' p' (_ & R) Ps E. unfold info_step in E. injection E as <- _. intros k v I. apply dset_in_or in I. destruct I as [I | (_ & ->)]; [apply (Ps _ _ I) |]. right. eexists. split; [reflexivity |]. destruct (_ =? I0); [exact Logic.I |]. cbn.
      destruct (h_rdata h) as [| x l]; [cbn; unfold pattern; lia | inversion R; assumption].
    - intros k v I. cbn in I. repeat (destruct I as [I | I]; [injection I as <- <-; first [left; reflexivity | right; eexists; split; [reflexivity | exact Logic.I]] |]). destruct I.
  Qed.
End Bytes.
Lemma update_pars d' : forall d, par_ok d -> par_ok d' -> par_ok (Ic3.dupdate d d').
Proof.
  induction d' as [| (k, v) d' IH]; intros d D D'; [exact D |]. unfold Ic3.dupdate in *. cbn [fold_left]. apply IH; [| intros k' v' I; apply (D' k'); right; exact I].
  intros k' v' I. apply dset_in_or in I. destruct I as [I | (-> & ->)]; [apply (D _ _ I) | apply (D' k); left; reflexivity].
Qed.

Lemma ic3_sound i f r fm : Forall is_byte f -> Ic3.read_data i f = Ok r -> Ic3.export_mesh r = Ok fm -> wsound fm.
Proof.
  intros B RD EX. unfold Ic3.read_data in RD. apply bind_ok in RD. destruct RD as ((o, version) & _ & RD). apply bind_ok in RD. destruct RD as ((h, p0) & _ & RD). cbv zeta in RD.
  apply bind_ok in RD. destruct RD as (_ & _ & RD). apply bind_ok in RD. destruct RD as (z & _ & RD). apply bind_ok in RD. destruct RD as ((cvofa, p) & _ & RD). apply bind_ok in RD. destruct RD as (bocos & ZO & RD). apply bind_ok in RD. destruct RD as ((np, ip) & PA & RD).
  apply bind_ok in RD. destruct RD as (coords & CO & RD). apply bind_ok in RD. destruct RD as (sim & SI & RD). apply bind_ok in RD. destruct RD as (cells & NC & RD). apply bind_ok in RD. destruct RD as (nodes & NN & RD). apply bind_ok in RD. destruct RD as ((cells', nodes') & VA & RD). injection RD as <-.
  apply zones_ok in ZO; [| exact B]. apply info_ok in SI; [| exact B].
  assert (CV : 0 <= idata h 2).
  { unfold read_part in PA. apply bind_ok in PA. destruct PA as ((h', p') & _ & PA). apply bind_ok in PA. destruct PA as ((s, q) & E & _). unfold binary_read in E. destruct (Z.ltb_spec (idata h 2) 0); [discriminate | assumption]. }
  assert (CS : Forall (Forall pattern) coords).
  { unfold read_coords in CO. apply bind_ok in CO. destruct CO as ((h', p') & _ & CO). apply bind_ok in CO. destruct CO as (_ & _ & CO). apply bind_ok in CO. destruct CO as (_ & _ & CO). apply bind_ok in CO. destruct CO as ((s, q) & E & CO).
    apply bind_ok in CO. destruct CO as (l & O & CO). injection CO as <-. apply or_some in O. subst s. apply reals_ok in E; [| exact B]. clear EX. unfold rows_of, chunks. generalize (List.length l). intros n. revert l E.
    induction n as [| n IH]; intros l E; [constructor |]. destruct l as [| a l]; [constructor |]. cbn [chunks_fuel]. destruct (parts_all pattern 3 (a :: l) E). constructor; auto. }
  assert (VS : vars_sound (cells', nodes')).
  { assert (V0 : vars_sound (cells, nodes)) by (cbn in NC, NN; injection NC as <-; injection NN as <-; split; (split; [cbn; lia | intros k a []])).
    unfold read_vars, scan_file in VA. apply bind_ok in VA. destruct VA as (v1 & S1 & VA). apply bind_ok in VA. destruct VA as (v2 & S2 & S3).
    eapply (scan_inv vars_sound); [exact B | | | exact S3]; [intros; eapply tensor_sound; eauto |]. eapply (scan_inv vars_sound); [exact B | | | exact S2]; [intros; eapply vector_sound; eauto |]. eapply (scan_inv vars_sound); [exact B | | | exact S1]; [intros; eapply scalar_sound; eauto | exact V0]. }
  unfold Ic3.export_mesh in EX. cbn [r_cv r_no r_coords r_cvofa r_csr r_bocos r_cells r_nodes r_sim r_npart r_icvpart] in EX.
  destruct (set_coords_nd _ 3 coords) as (e1, m1) eqn:E1. apply bind_ok in EX. destruct EX as (u1 & -> & EX). apply bind_ok in EX. destruct EX as (f2c & _ & EX). apply bind_ok in EX. destruct EX as (f2n & FN & EX).
  destruct (add_faces m1 "mixed" f2n (Some f2c)) as (e2, m2) eqn:E2. apply bind_ok in EX. destruct EX as (u2 & -> & EX). injection EX as <-.
  assert (S1 : msound m1 /\ me_faces m1 = []).
  { split; [eapply nd_sound; [apply new_sound; exact CV | | exact E1]; rewrite Forall_forall in CS; exact CS |]. unfold set_coords_nd in E1. destruct (_ =? _); [| discriminate]. cbn [fold_left] in E1.
    destruct (column coords 3 0); [| discriminate]. destruct (column coords 3 1); [| discriminate]. destruct (column coords 3 2); [| discriminate]. injection E1 as _ <-. reflexivity. }
  destruct S1 as (S1 & F1).
  assert (S2 : msound m2).
  { unfold add_faces in E2. cbn [existsb facetypes String.eqb Ascii.eqb Bool.eqb orb] in E2. injection E2 as _ <-. destruct S1 as (A & B' & N & M). split; [| split; [exact B' | split; [exact N | exact M]]]. cbn. rewrite F1. cbn.
    assert (P : 0 <= ec_nelem f2n); [| lia]. unfold ec_import_csr in FN. eapply (foldM_inv (fun c => 0 <= ec_nelem c)); [| | exact FN]; [| cbn; lia]. intros s n s' _ Ps E.
    apply bind_ok in E. destruct E as (tf & _ & E). apply bind_ok in E. destruct E as (zi & _ & E). apply bind_ok in E. destruct E as (ns & _ & E). eapply ec_add_nonneg; eauto. }
  assert (S3 : msound (fold_left add_boco bocos m2)).
  { clear -ZO S2. revert m2 S2. induction ZO as [| b bs (T & D) _ IH]; intros m2 S2; [exact S2 |]. cbn [fold_left]. apply IH. apply boco_sound; assumption. }
  assert (PO : par_ok (Ic3.dupdate (params_of (RS o version (idata h 0) (idata h 1) (idata h 2) (idata h 3) z cvofa bocos np ip coords sim cells' nodes')) sim)).
  { apply update_pars; [| exact SI]. intros k v I. cbn in I. repeat (destruct I as [I | I]; [injection I as <- <-; right; eexists; split; [reflexivity | exact Logic.I] |]). destruct I. }
  split; [| exact S3]. destruct S3 as (A & B' & N & M). destruct VS as ((ND & VC) & (_ & VN)). cbn [fst snd] in *. split.
  - unfold fmesh_typed. cbn [fm_mesh fm_cells fm_nodes fm_params fd_items]. split; [exact A |]. split; [exact B' |]. split; [apply Forall_forall; intros (k, c) I; eapply N; eauto |]. split; [apply Forall_forall; intros (k, c) I; eapply M; eauto |].
    split; [apply Forall_forall; intros (k, v) I; destruct (PO k v I) as [-> | (n & -> & T)]; [constructor | exact T] |].
    split; [apply Forall_forall; intros (k, a) I; eapply VN; eauto |]. split; [apply Forall_forall; intros (k, a) I; eapply VC; eauto |]. exact ND.
  - intros k I. cbn [fm_mesh fm_cells fm_nodes fm_params fd_items] in I. apply in_app_or in I. destruct I as [I | I]; [apply in_map_iff in I; destruct I as ((k', b) & <- & I); apply (M _ _ I) |].
    apply in_app_or in I. destruct I as [I | I].
    { exfalso. revert I. unfold param. destruct (dget _ "wgt" _) as [v |] eqn:G; [| cbn; tauto]. apply (dget_in _ seqb_eq) in G. destruct (PO _ _ G) as [-> | (n & -> & _)]; cbn; tauto. }
    apply in_app_or in I. destruct I as [I | I]; apply in_map_iff in I; destruct I as ((k', a) & <- & I); [apply (VN _ _ I) | apply (VC _ _ I)].
Qed.
