(** * Gmsh files converted to IC3 files (C74). *)
From Coq Require Import ZArith List Bool String Lia Permutation.
From Verif Require Import Py PyFacts Elements IndexList Conn ConnSpec ConnProofs FaceSpec FaceProofs FaceTable FaceProps Mesh MeshSpec
  Ic3Bytes Ic3 Ic3HeaderSpec Ic3FileSpec Ic3RoundSpec Ic3FileProps Ic3OkSpec Ic3CubeProps CubeThm ConvSpec ConvProps
  Gmsh GmshSpec GroupFacts GmshProofs GmshFileProofs GmshProps GmshIc3Spec.

(** ** The cells *)
Fixpoint stacked (k : Z) (ms : list (string * mat)) : dict string edict :=
  match ms with
  | [] => []
  | (t, m) :: q => (t, ED (ILrange k (k + m_nrow m - 1)) m) :: stacked (k + m_nrow m) q
  end.
Lemma stacked_fold d (ms : list (string * mat)) : forall c,
  (forall t m, In (t, m) ms -> dget String.eqb t dim_elem = Some d) ->
  NoDup (List.map fst ms) -> (forall t, In t (List.map fst ms) -> ~ In t (dkeys (ec_dict c))) ->
  foldM (fun c '(t, m) => dd <- dget_err String.eqb t dim_elem ;; if dd =? d then ec_add c t m None else Ok c) c ms =
  Ok (EC (ec_nelem c + zlen (flat_map (fun tm => m_rows (snd tm)) ms)) (ec_dict c ++ stacked (ec_nelem c) ms)).
Proof.
  induction ms as [|(t & m) ms IH]; intros c Hd Hnd Hni.
  - cbn [foldM flat_map stacked]. rewrite zlen_nil, Z.add_0_r, app_nil_r. now destruct c.
  - cbn [foldM]. unfold dget_err. rewrite (Hd t m) by (left; auto). cbn [bind]. rewrite Z.eqb_refl.
    cbn [List.map fst] in Hnd. apply NoDup_cons_iff in Hnd. destruct Hnd as [N1 N2].
    assert (Nt : ~ In t (dkeys (ec_dict c))) by (apply Hni; left; auto).
    assert (A : ec_add c t m None = Ok (EC (ec_nelem c + m_nrow m) (ec_dict c ++ [(t, ED (ILrange (ec_nelem c) (ec_nelem c + m_nrow m - 1)) m)]))).
    { unfold ec_add. rewrite (proj2 (dget_None _ seqb_eq t (ec_dict c)) Nt). now rewrite (dset_notin _ seqb_eq). }
    rewrite A. cbn [bind]. unfold dget_err in IH. rewrite IH.
    + cbn [ec_nelem ec_dict flat_map snd stacked]. rewrite zlen_app. unfold m_nrow. f_equal. rewrite <- app_assoc. f_equal. lia.
    + intros t' m' H. apply (Hd t' m'). right; auto.
    + exact N2.
    + intros t' Ht'. cbn [ec_dict]. unfold dkeys. rewrite map_app, in_app_iff. cbn [List.map fst]. intros [X|[X|[]]].
      * apply (Hni t'); auto. right; auto.
      * subst. tauto.
Qed.
Lemma stacked_numbered l : forall ts k, stacked k (List.map (fun t => (t, shifted l t)) ts) = numbered k l ts.
Proof.
  induction ts as [| t ts IH]; intros k; [reflexivity |]. cbn [List.map stacked numbered]. rewrite IH. unfold m_nrow, shifted, rows_of. cbn [m_rows].
  change (having String.eqb felt_name t l) with (filter (fun e => String.eqb (felt_name e) t) l).
  replace (List.length (hd [] (List.map fe_nodes (filter (fun e => String.eqb (felt_name e) t) l)))) with (List.length (hd [] (List.map nodes0 (filter (fun e => String.eqb (felt_name e) t) l)))); [reflexivity |].
  destruct (filter _ l); [reflexivity |]. cbn. unfold nodes0. apply map_length.
Qed.

Lemma numbered_keys l : forall ts k, dkeys (numbered k l ts) = ts.
Proof. induction ts as [| t ts IH]; intros k; [reflexivity |]. cbn. f_equal. apply IH. Qed.
Lemma numbered_pairs l : forall ts k, flat_map (fun kv => ed_pairs (snd kv)) (numbered k l ts) =
  combine (zrange k (k + zlen (flat_map (rows_of l) ts))) (flat_map (rows_of l) ts).
Proof.
  induction ts as [| t ts IH]; intros k; [cbn; rewrite Z.add_0_r, zrange_empty by lia; reflexivity |]. cbn [numbered flat_map snd]. rewrite IH, zlen_app.
  pose proof (zlen_nonneg (rows_of l t)). pose proof (zlen_nonneg (flat_map (rows_of l) ts)).
  rewrite (zrange_app k (k + zlen (rows_of l t))) by lia. rewrite combine_app.
  - rewrite Z.add_assoc. f_equal. unfold ed_pairs. cbn [ed_index ed_e2n entries m_rows]. f_equal. f_equal. lia.
  - rewrite zrange_length. unfold zlen. lia.
Qed.
Lemma numbered_in l : forall ts k t ed, In (t, ed) (numbered k l ts) -> In t ts /\ ed_e2n ed = Mat (Some (List.length (List.hd [] (rows_of l t)))) (rows_of l t) /\
  exists lo, ed_index ed = ILrange lo (lo + zlen (rows_of l t) - 1).
Proof.
  induction ts as [| t0 ts IH]; intros k t ed; cbn [numbered In]; [intros [] |]. intros [E | I].
  - injection E as <- <-. cbn. eauto.
  - apply IH in I. tauto.
Qed.
Lemma all_rows l : Permutation (flat_map (rows_of l) (first_seen String.eqb (List.map felt_name l))) (List.map nodes0 l).
Proof.
  transitivity (List.map nodes0 (flat_map (fun t => having String.eqb felt_name t l) (first_seen String.eqb (List.map felt_name l)))).
  - rewrite !flat_map_concat_map, concat_map, map_map. reflexivity.
  - apply Permutation_map, (first_seen_perm _ seqb_eq).
Qed.
Lemma all_rows_len l : zlen (flat_map (rows_of l) (first_seen String.eqb (List.map felt_name l))) = zlen l.
Proof. rewrite (zlen_perm _ _ (all_rows l)). apply zlen_map. Qed.
Lemma elt_pairs l : ec_pairs (elt_cells l) = combine (zrange 0 (zlen l)) (flat_map (rows_of l) (first_seen String.eqb (List.map felt_name l))).
Proof. unfold ec_pairs, elt_cells. cbn [ec_dict]. rewrite numbered_pairs, all_rows_len. reflexivity. Qed.

Lemma same_shape e e' : felt_ok e -> felt_ok e' -> felt_name e = felt_name e' -> List.length (fe_nodes e) = List.length (fe_nodes e').
Proof.
  intros (n & d & k & S & L) (n' & d' & k' & S' & L') E. unfold felt_name in E. rewrite S, S' in E. subst n'. rewrite L, L'.
  clear -S S'. unfold shape_of in *. destruct (fe_type e) as [|q|q]; try discriminate; repeat (destruct q as [q|q|]; try discriminate); injection S as <- <- <-;
  destruct (fe_type e') as [|q|q]; try discriminate; repeat (destruct q as [q|q|]; try discriminate); injection S'; intros; subst; congruence.
Qed.
Lemma rows_width l t row : Forall felt_ok l -> In row (rows_of l t) -> exists e, In e l /\ felt_name e = t /\ row = nodes0 e /\ List.length row = List.length (hd [] (rows_of l t)).
Proof.
  intros OK I. unfold rows_of in I. apply in_map_iff in I. destruct I as (e & <- & I). assert (J := I). apply filter_In in I. destruct I as (I & T). apply seqb_eq in T. exists e.
  split; [exact I |]. split; [exact T |]. split; [reflexivity |]. unfold rows_of. destruct (filter (fun e => String.eqb (felt_name e) t) l) as [| e0 q] eqn:Q; [destruct J |]. cbn [List.map hd]. unfold nodes0. rewrite !map_length.
  assert (J0 : In e0 (filter (fun e => String.eqb (felt_name e) t) l)) by (rewrite Q; left; reflexivity). apply filter_In in J0. destruct J0 as (J0 & T0). apply seqb_eq in T0.
  rewrite Forall_forall in OK. apply same_shape; auto. congruence.
Qed.
Lemma elt_wf l : Forall felt_ok l -> ec_wf (elt_cells l) /\ ec_plain (elt_cells l).
Proof.
  intros OK. split.
  - constructor.
    + unfold ec_types, elt_cells. cbn [ec_dict]. fold (dkeys (numbered 0 l (first_seen String.eqb (List.map felt_name l)))). rewrite numbered_keys. apply (first_seen_NoDup _ seqb_eq).
    + intros t ed I. apply numbered_in in I. destruct I as (T & E & lo & X). constructor; rewrite ?E, ?X; cbn [entries m_rows].
      * discriminate.
      * rewrite zrange_length. unfold zlen. lia.
      * unfold mat_wf. cbn [m_cols m_rows]. apply Forall_forall. intros row J. destruct (rows_width l t row OK J) as (e & _ & _ & _ & W). exact W.
    + rewrite elt_pairs. cbn [elt_cells ec_nelem]. unfold zlen at 2. rewrite combine_length, zrange_length. assert (L := all_rows_len l). unfold zlen in *. lia.
  - intros t ed I. apply numbered_in in I. destruct I as (_ & _ & lo & X). rewrite X. reflexivity.
Qed.
Lemma elt_numbers l : Forall felt_ok l -> ec_numbers (elt_cells l) = zrange 0 (zlen l).
Proof.
  intros OK. rewrite <- (ec_numbers_pairs _ (proj1 (elt_wf l OK))), elt_pairs. assert (L := all_rows_len l).
  apply (@map_fst_combine Z (list Z)). rewrite zrange_length. unfold zlen in *. lia.
Qed.
Lemma elt_types l d : Forall felt_ok l -> (forall e, In e l -> felt_dim e = d) -> 2 <= d <= 3 -> cells_of gmsh_types (elt_cells l) /\ ~ In "hexa27"%string (ec_types (elt_cells l)).
Proof.
  intros OK DI D. assert (K : forall t, In t (first_seen String.eqb (List.map felt_name l)) -> exists e, In e l /\ felt_name e = t).
  { intros t I. rewrite (first_seen_in _ seqb_eq) in I. apply in_map_iff in I. destruct I as (e & E & I). eauto. }
  assert (G : forall e, In e l -> In (felt_name e, List.length (fe_nodes e)) gmsh_types /\ felt_name e <> "hexa27"%string).
  { intros e I. rewrite Forall_forall in OK. destruct (OK e I) as (n & d' & k & S & L). assert (DE := DI e I). unfold felt_dim in DE. unfold felt_name. rewrite S in *. subst d'. rewrite L.
    clear -S D. unfold shape_of in S. destruct (fe_type e) as [|q|q]; try discriminate; repeat (destruct q as [q|q|]; try discriminate); injection S as <- <- <-; cbn; split; try discriminate; lia || tauto. }
  split.
  - intros t ed I. apply numbered_in in I. destruct I as (T & E & _). destruct (K t T) as (e & I & N). exists (List.length (fe_nodes e)). split; [rewrite <- N; apply G; exact I |]. rewrite E. cbn [m_cols]. f_equal.
    assert (J : In (nodes0 e) (rows_of l t)) by (unfold rows_of; apply in_map, filter_In; split; [exact I | apply seqb_eq; exact N]).
    destruct (rows_width l t _ OK J) as (_ & _ & _ & _ & W). rewrite <- W. unfold nodes0. apply map_length.
  - unfold ec_types, elt_cells. cbn [ec_dict]. fold (dkeys (numbered 0 l (first_seen String.eqb (List.map felt_name l)))). rewrite numbered_keys. intros T. destruct (K _ T) as (e & I & N). destruct (G e I) as (_ & X). congruence.
Qed.

(** ** The mesh exported *)
Section Load.
  Context (int_of : string -> res Z) (float_of : string -> res Z) (ver_of : string -> res Z).
  Notation file := (gmsh_file int_of float_of ver_of).
  Notation loaded := (load 0 int_of float_of ver_of).

  Lemma marks_kept (bs : dict string bnd) : forall m : mesh (option Z), NoDup (dkeys (me_bocos m)) ->
    NoDup (dkeys (me_bocos (fold_left (export_mark 0) bs m))) /\ me_faces (fold_left (export_mark 0) bs m) = me_faces m.
  Proof.
    induction bs as [| (k, b) bs IH]; intros m ND; [auto |]. cbn [fold_left]. destruct (IH (export_mark 0 m (k, b))) as (A & B).
    - unfold export_mark. destruct (String.eqb (b_type b) "boundary"); [| exact ND]. apply (dset_NoDup String.eqb seqb_eq). exact ND.
    - split; [exact A |]. rewrite B. unfold export_mark. destruct (String.eqb (b_type b) "boundary"); reflexivity.
  Qed.

  Lemma load_mesh msh names nnode elts d fuel :
    file msh names nnode elts -> Forall felt_ok elts -> top_dim d elts -> 2 <= d <= 3 -> (List.length msh <= fuel)%nat ->
    (forall e, In e (of_dim (d - 1) elts) -> patch_name names (of_dim (d - 1) elts) e <> None) ->
    exists m x y z, loaded fuel msh = Ok m /\ me_cell2node m = Some (elt_cells (of_dim d elts)) /\ me_nnode m = nnode /\ me_ncell m = zlen (of_dim d elts) /\
      me_faces m = [] /\ me_nodes m = [("x", x); ("y", y); ("z", z)]%string /\ zlen x = nnode /\ zlen y = nnode /\ zlen z = nnode /\ NoDup (dkeys (me_bocos m)) /\
      (forall k b, In (k, b) (me_bocos m) -> is_patch names (of_dim (d - 1) elts) k /\
         exists s, b = Mark (option Z) k (Some Gbdnode) (Some "boundary"%string) (Some (ILlist s)) (Some (Some (repeat (Some 0) 16))) /\
           forall nodes, (forall v, In v nodes -> In v s) <-> patch_covers names (of_dim (d - 1) elts) k nodes) /\
      (forall k, is_patch names (of_dim (d - 1) elts) k -> In k (dkeys (me_bocos m))).
  Proof.
    intros Hfile Hok Ht Hd Hf Hnm. destruct (load_all 0 int_of float_of ver_of msh names nnode elts d fuel Hfile Hok Ht Hd Hf) as [((e & I & X) & _) | (_ & m & c & L & C & NN & NC & NE & _ & _ & MK)]; [destruct (Hnm e I X) |].
    assert (L' := L). destruct (file_read int_of float_of ver_of msh names nnode elts fuel Hfile Hf) as (((x & y) & z) & (S1 & S2 & S3) & Hr).
    unfold load, read_data in L'. rewrite Hr in L'. cbn [bind] in L'. apply bind_ok in L'. destruct L' as (g & G & L').
    destruct (analyze_bnds _ _ _ _ _ Hok Ht Hd G) as (G1 & G2 & G3 & G4 & _). unfold export_mesh in L'. rewrite G2 in L'.
    unfold set_coords_xyz in L'. cbn [new_mesh me_nnode forallb] in L'. rewrite S2, S3, S1, !Z.eqb_refl in L'. cbn [andb] in L'.
    rewrite G1, G3 in L'. unfold export_cells in L'. rewrite (stacked_fold d) in L'.
    - cbn [bind ec_empty ec_nelem ec_dict app] in L'.
      assert (CE : EC (0 + zlen (flat_map (fun tm => m_rows (snd tm)) (conn_of (of_dim d elts)))) (stacked 0 (conn_of (of_dim d elts))) = elt_cells (of_dim d elts)).
      { unfold elt_cells, conn_of. rewrite stacked_numbered. f_equal. rewrite <- (all_rows_len (of_dim d elts)). rewrite !flat_map_concat_map, map_map. reflexivity. }
      rewrite CE in L'. clear CE. injection L' as L'.
      match type of L' with fold_left _ ?bs ?m0 = _ => destruct (marks_kept bs m0) as (K1 & K2); [constructor |]; destruct (export_marks_other 0 bs m0) as (O1 & O2 & O3 & O4); assert (GET := fun k => export_marks_get 0 bs k m0 G4) end.
      rewrite L' in *. cbn [set_cell2node with_nodes new_mesh me_nodes me_faces me_cell2node dset me_bocos dget] in *.
      exists m, x, y, z. split; [exact L |]. split; [exact O1 |]. split; [exact NN |]. split; [exact NC |]. split; [exact K2 |]. split; [exact O4 |]. split; [exact S1 |]. split; [lia |]. split; [lia |]. split; [exact K1 |].
      split.
      + intros k b I. specialize (MK k). specialize (GET k). rewrite (in_dget String.eqb seqb_eq _ _ _ K1 I) in MK, GET. destruct MK as (M1 & M2 & M3 & M4 & M5 & s & M6 & M7). split; [split; assumption |].
        destruct (dget String.eqb k (g_bnds g)) as [q |]; [| discriminate]. destruct (String.eqb (b_type q) "boundary"); [| discriminate]. injection GET as ->. cbn [mk_index] in M6. injection M6 as <-. eexists. split; [reflexivity |].
        intros nodes. unfold patch_covers. split; intros H v J.
        * apply H, M7 in J. destruct J as (e & J1 & J2 & J3). exists e. split; [exact J1 |]. split; [exact J2 |]. apply in_map_iff in J3. destruct J3 as (u & <- & J3). replace (u - 1 + 1) with u by lia. exact J3.
        * apply M7. destruct (H v J) as (e & J1 & J2 & J3). exists e. split; [exact J1 |]. split; [exact J2 |]. unfold nodes0. apply in_map_iff. exists (v + 1). split; [lia | exact J3].
      + intros k (N & e & I & P). specialize (MK k). destruct (dget String.eqb k (me_bocos m)) as [b |] eqn:B; [apply (dget_Some_iff _ seqb_eq); eauto |]. destruct MK as [MK | MK]; [destruct (N MK) | destruct (MK e I P)].
    - intros t mt Hin. unfold conn_of in Hin. apply in_map_iff in Hin. destruct Hin as (t' & E & Htt). injection E as -> _.
      rewrite (first_seen_in _ seqb_eq) in Htt. apply in_map_iff in Htt. destruct Htt as (e & <- & He). apply filter_In in He. destruct He as (He & De).
      replace d with (felt_dim e) by lia. rewrite Forall_forall in Hok. apply felt_shape. auto.
    - rewrite conn_of_keys. apply (first_seen_NoDup _ seqb_eq).
    - intros t _ [].
  Qed.
End Load.

Section Props.
  Context (int_of : string -> res Z) (float_of : string -> res Z) (ver_of : string -> res Z).
  Context (i2d : Z -> Z) (f2i : Z -> res Z).
  Hypothesis patterns : forall i, pattern (i2d i).
  Notation file := (gmsh_file int_of float_of ver_of).
  Notation loaded := (load 0 int_of float_of ver_of).
  Notation tbl := gmsh_elem2faces.

  Lemma loaded_ok msh names nnode elts d fuel :
    file msh names nnode elts -> Forall felt_ok elts -> top_dim d elts -> 2 <= d <= 3 -> (List.length msh <= fuel)%nat ->
    gmsh_conforms tbl names nnode d elts -> zlen (of_dim d elts) < 2 ^ 31 ->
    exists m, loaded fuel msh = Ok m /\ (forall k, In k (dkeys (me_bocos m)) <-> is_patch names (of_dim (d - 1) elts) k) /\
      (forall k b, In (k, b) (me_bocos (defined m)) -> is_patch names (of_dim (d - 1) elts) k /\ forall nodes, spanned nodes b <-> patch_covers names (of_dim (d - 1) elts) k nodes) /\
      (forall x y z, nodescoord m = Ok (List.map Some x, List.map Some y, List.map Some z) -> Forall pattern x -> Forall pattern y -> Forall pattern z ->
         cell_mesh tbl gmsh_types (defined m) (elt_cells (of_dim d elts)) /\ me_nodes (defined m) = [("x", x); ("y", y); ("z", z)]%string) /\
      me_ncell m = zlen (of_dim d elts) /\ me_nnode m = nnode /\
      (forall k b, In (k, b) (me_bocos (defined m)) -> mk_perio b = Some (Some (repeat 0 16))).
  Proof using.
    clear patterns f2i i2d. intros Hfile Hok Ht Hd Hf GC BC.
    destruct (load_mesh int_of float_of ver_of msh names nnode elts d fuel Hfile Hok Ht Hd Hf (gc_named _ _ _ _ _ GC)) as (m & x0 & y0 & z0 & L & C & NN & NC & FA & NO & LX & LY & LZ & KN & M1 & M2).
    set (l := of_dim d elts) in *. set (bl := of_dim (d - 1) elts) in *.
    assert (OKl : Forall felt_ok l) by (apply of_dim_ok; exact Hok).
    assert (DI : forall e, In e l -> felt_dim e = d) by (intros e I; apply filter_In in I; lia).
    assert (L1 : 1 <= zlen l).
    { destruct Ht as ((e & I & E) & _). assert (J : In e l) by (apply filter_In; split; [exact I | lia]). destruct l; [destruct J |]. unfold zlen. cbn [List.length]. lia. }
    assert (SP : forall k b, In (k, b) (me_bocos (defined m)) -> is_patch names bl k /\ node_mark_ok k b /\ forall nodes, spanned nodes b <-> patch_covers names bl k nodes).
    { intros k b I. cbn [defined me_bocos] in I. apply in_map_iff in I. destruct I as ((k', b') & E & I). injection E as <- <-. destruct (M1 k' b' I) as (P & s & -> & S). split; [exact P |].
      destruct (gc_names _ _ _ _ _ GC k' P) as (G1 & G2 & G3 & G4). split; [| exact S]. constructor; cbn.
      - reflexivity.
      - exists (ILlist s). split; [reflexivity |]. split; [discriminate | reflexivity].
      - reflexivity.
      - exists "boundary"%string. split; [reflexivity | cbn; tauto].
      - split; [unfold zlen; cbn; lia |]. repeat constructor; vm_compute; discriminate || reflexivity.
      - auto. }
    exists m. split; [exact L |]. split.
    { intros k. split; [| apply M2]. intros I. unfold dkeys in I. apply in_map_iff in I. destruct I as ((k', b) & <- & I). apply (M1 k' b I). }
    split; [intros k b I; destruct (SP k b I) as (? & _ & ?); auto |]. split; [| split; [exact NC | split; [exact NN |]]].
    2: { intros k b I. cbn [defined me_bocos] in I. apply in_map_iff in I. destruct I as ((k', b') & E & I). injection E as <- <-. destruct (M1 k' b' I) as (_ & s & -> & _). reflexivity. }
    intros x y z XY PX PY PZ. unfold nodescoord in XY. rewrite NO in XY. cbn in XY. injection XY as -> -> ->. rewrite zlen_map in LX, LY, LZ.
    assert (VS : forall q : list Z, List.map value (List.map Some q) = q) by (intros q; rewrite map_map; apply map_id).
    assert (NO' : me_nodes (defined m) = [("x", x); ("y", y); ("z", z)]%string) by (cbn [defined me_nodes]; rewrite NO; cbn [List.map]; rewrite !VS; reflexivity).
    destruct (elt_wf l OKl) as (W & P). destruct (elt_types l d OKl DI Hd) as (TY & NH). assert (NU := elt_numbers l OKl).
    split; [| exact NO']. constructor.
      - exact C.
      - exact W.
      - exact P.
      - exact TY.
      - exact NH.
      - exact FA.
      - exact NC.
      - exact L1.
      - rewrite NU. apply Forall_forall. intros i I. apply in_zrange in I. lia.
      - intros i ns n I J. cbn [defined me_nnode]. rewrite NN. rewrite elt_pairs in I. apply in_combine_r in I. apply (Permutation_in _ (all_rows l)) in I.
        apply in_map_iff in I. destruct I as (e & <- & I). unfold nodes0 in J. apply in_map_iff in J. destruct J as (u & <- & J). assert (X := gc_nodes _ _ _ _ _ GC e u I J). lia.
      - exists x, y, z. unfold MeshSpec.coords_ok, nodescoord. rewrite NO'. cbn [defined me_nnode]. rewrite NN. auto.
      - rewrite NO'. repeat constructor; assumption.
      - exact (gc_manifold _ _ _ _ _ GC).
      - exact (gc_both _ _ _ _ _ GC).
      - cbn [defined me_bocos]. unfold dkeys in *. rewrite map_map. erewrite map_ext; [exact KN |]. intros (k, b); reflexivity.
      - intros k b I. apply (SP k b I).
  Qed.

  (** A conforming Gmsh file, in two or three dimensions, is loaded; when all its nodes were read (C56) and
      its patches are apart, the mesh is written in any version and byte order and read back: the faces of its cells, its
      coordinates, one zone for each patch. (The side table is the one the Gmsh reader puts in force.) *)
  Theorem C74_gmsh_to_ic3 enum host v endian msh names nnode elts d fuel :
    set_enum enum -> In endian byte_orders ->
    file msh names nnode elts -> Forall felt_ok elts -> top_dim d elts -> 2 <= d <= 3 -> (List.length msh <= fuel)%nat ->
    gmsh_conforms tbl names nnode d elts -> patches_apart tbl names d elts ->
    nnode < 2 ^ 31 -> all_sides tbl (elt_cells (of_dim d elts)) < 2 ^ 31 -> zlen (of_dim d elts) < 2 ^ 31 ->
    exists m, loaded fuel msh = Ok m /\
      (forall k, In k (dkeys (me_bocos m)) <-> is_patch names (of_dim (d - 1) elts) k) /\
      (forall k b, In (k, b) (me_bocos (defined m)) -> forall nodes, spanned nodes b <-> patch_covers names (of_dim (d - 1) elts) k nodes) /\
      forall x y z, nodescoord m = Ok (List.map Some x, List.map Some y, List.map Some z) -> Forall pattern x -> Forall pattern y -> Forall pattern z ->
        exists f fm' fm2 lb li rb ri, write_mesh tbl enum i2d f2i host v endian (FM (defined m) (FDict []) (FDict []) [] None) = (Ok f, fm') /\
          (forall integrity, read_mesh integrity f = Ok fm2) /\
          faces_from_cells tbl (elt_cells (of_dim d elts)) lb li rb ri /\ converted tbl (defined m) (elt_cells (of_dim d elts)) lb li rb ri fm2 /\
          me_ncell (fm_mesh fm2) = zlen (of_dim d elts) /\ me_nnode (fm_mesh fm2) = nnode /\ nodescoord (fm_mesh fm2) = Ok (x, y, z).
  Proof using patterns.
    intros SE IE Hfile Hok Ht Hd Hf GC PAP BN BS BC.
    destruct (loaded_ok msh names nnode elts d fuel Hfile Hok Ht Hd Hf GC BC) as (m & L & KE & SP & CMx & NC & NN & _).
    exists m. split; [exact L |]. split; [exact KE |]. split; [intros k b I; apply (SP k b I) |].
    intros x y z XY PX PY PZ. destruct (CMx x y z XY PX PY PZ) as (CM & NO'). set (l := of_dim d elts) in *. set (bl := of_dim (d - 1) elts) in *.
    assert (MA : marks_apart tbl (defined m) (elt_cells l)).
    { split.
      - intros k b I. destruct (SP k b I) as (PA & S). destruct (pa_cover _ _ _ _ PAP k PA) as (ft & s & O & CV). exists ft, s. split; [exact O | apply S; exact CV].
      - intros ft s k b k' b' O I I' S S'. destruct (SP k b I) as (PA & X). destruct (SP k' b' I') as (PA' & X'). apply (pa_apart _ _ _ _ PAP ft s k k' O PA PA'); [apply X; exact S | apply X'; exact S']. }
    assert (L1 := cm_some _ _ _ _ CM). cbn [elt_cells ec_nelem] in L1.
    assert (BN' : me_nnode (defined m) < 2 ^ 31) by (cbn [defined me_nnode]; lia). assert (BC' : me_ncell (defined m) < 2 ^ 31) by (cbn [defined me_ncell]; lia).
    assert (TE : ends_at (elt_cells l) (me_ncell (defined m) - 1)).
    { cbn [defined me_ncell]. rewrite NC. unfold ends_at. rewrite elt_numbers by (apply of_dim_ok; exact Hok). split; [apply in_zrange; lia | intros i I; apply in_zrange in I; lia]. }
    destruct (C69_converted i2d f2i patterns tbl gmsh_types enum host v endian (defined m) (elt_cells l) (or_intror (conj eq_refl eq_refl)) SE IE CM MA BN' BC' BS TE) as (f & fm' & fm2 & lb & li & rb & ri & WR & RD & FC & CV).
    exists f, fm', fm2, lb, li, rb, ri. split; [exact WR |]. split; [exact RD |]. split; [exact FC |]. split; [exact CV |]. destruct CV as [V1 V2 V3 V4 _ _ _].
    cbn [defined me_ncell me_nnode] in V1, V2. split; [congruence |]. split; [congruence |]. rewrite V4. unfold nodescoord. rewrite NO'. reflexivity.
  Qed.

  (** A patch that covers no face of the boundary, or two patches that cover the same one (a face is covered
      as soon as its nodes are nodes of the patch, whatever elements the patch has): the file is loaded and the writers refuse. *)
  Theorem C74_refused enum host v endian msh names nnode elts d fuel :
    set_enum enum -> file msh names nnode elts -> Forall felt_ok elts -> top_dim d elts -> 2 <= d <= 3 -> (List.length msh <= fuel)%nat ->
    gmsh_conforms tbl names nnode d elts -> zlen (of_dim d elts) < 2 ^ 31 ->
    (exists k, is_patch names (of_dim (d - 1) elts) k /\
       forall ft s, outer tbl (elt_cells (of_dim d elts)) ft s -> ~ patch_covers names (of_dim (d - 1) elts) k (fst s)) \/
    (exists ft s k k', outer tbl (elt_cells (of_dim d elts)) ft s /\ k <> k' /\
       is_patch names (of_dim (d - 1) elts) k /\ is_patch names (of_dim (d - 1) elts) k' /\
       patch_covers names (of_dim (d - 1) elts) k (fst s) /\ patch_covers names (of_dim (d - 1) elts) k' (fst s)) ->
    exists m, loaded fuel msh = Ok m /\
      forall x y z, nodescoord m = Ok (List.map Some x, List.map Some y, List.map Some z) -> Forall pattern x -> Forall pattern y -> Forall pattern z ->
        exists e fm', write_mesh tbl enum i2d f2i host v endian (FM (defined m) (FDict []) (FDict []) [] None) = (Err e, fm').
  Proof using.
    clear patterns. intros SE Hfile Hok Ht Hd Hf GC BC BAD. destruct (loaded_ok msh names nnode elts d fuel Hfile Hok Ht Hd Hf GC BC) as (m & L & KE & SP & CMx & NC & NN & _).
    exists m. split; [exact L |]. intros x y z XY PX PY PZ. destruct (CMx x y z XY PX PY PZ) as (CM & _).
    assert (GETB : forall k, is_patch names (of_dim (d - 1) elts) k -> exists b, In (k, b) (me_bocos (defined m))).
    { intros k P. apply KE in P. unfold dkeys in P. apply in_map_iff in P. destruct P as ((k', b) & <- & I). eexists. cbn [defined me_bocos]. apply in_map_iff. exists (k', b). split; [reflexivity | exact I]. }
    destruct BAD as [(k & P & N) | (ft & s & k & k' & O & NE & P & P' & S & S')].
    - destruct (GETB k P) as (b & I). apply (C69_refused_empty i2d f2i tbl gmsh_types enum host v endian (FM (defined m) (FDict []) (FDict []) [] None) (defined m) (elt_cells (of_dim d elts)) k b (or_intror (conj eq_refl eq_refl)) SE CM eq_refl I).
      intros ft s O S. apply (N ft s O). apply (SP k b I). exact S.
    - destruct (GETB k P) as (b & I). destruct (GETB k' P') as (b' & I').
      apply (C69_refused_overlap i2d f2i tbl gmsh_types enum host v endian (FM (defined m) (FDict []) (FDict []) [] None) (defined m) (elt_cells (of_dim d elts)) ft s k b k' b' (or_intror (conj eq_refl eq_refl)) SE CM eq_refl O I I' NE).
      + apply (SP k b I). exact S.
      + apply (SP k' b' I'). exact S'.
  Qed.

  (** Version 2 files: every node is read, so the conversion always succeeds, with the coordinates of the file. *)
  Theorem C74_version2 enum host v endian msh ver names nodes elts d fuel :
    set_enum enum -> In endian byte_orders ->
    format_is int_of ver_of msh ver -> ver <= 2 -> names_are int_of msh names -> nodes2_are int_of float_of msh nodes -> elts2_are int_of msh elts ->
    Forall felt_ok elts -> top_dim d elts -> 2 <= d <= 3 -> (List.length msh <= fuel)%nat ->
    gmsh_conforms tbl names (zlen nodes) d elts -> patches_apart tbl names d elts -> zlen nodes < 2 ^ 31 -> all_sides tbl (elt_cells (of_dim d elts)) < 2 ^ 31 -> zlen (of_dim d elts) < 2 ^ 31 ->
    (forall x y z, In (x, y, z) nodes -> pattern x /\ pattern y /\ pattern z) ->
    exists m f fm' fm2 lb li rb ri, loaded fuel msh = Ok m /\
      write_mesh tbl enum i2d f2i host v endian (FM (defined m) (FDict []) (FDict []) [] None) = (Ok f, fm') /\
      (forall integrity, read_mesh integrity f = Ok fm2) /\
      faces_from_cells tbl (elt_cells (of_dim d elts)) lb li rb ri /\ zones_from_marks (defined m) lb li (me_bocos (fm_mesh fm2)) /\
      (exists fs, me_faces (fm_mesh fm2) = [("mixed"%string, fs)] /\ faces_set fs (lb ++ li) (rb ++ ri)) /\
      nodescoord (fm_mesh fm2) = Ok (List.map (fun p => fst (fst p)) nodes, List.map (fun p => snd (fst p)) nodes, List.map snd nodes).
  Proof using patterns.
    intros SE IE F1 F2 F3 F4 F5 Hok Ht Hd Hf GC PAP BN BS BC PT.
    assert (Hfile : file msh names (zlen nodes) elts) by (eapply File2; eassumption).
    destruct (C74_gmsh_to_ic3 enum host v endian msh names (zlen nodes) elts d fuel SE IE Hfile Hok Ht Hd Hf GC PAP BN BS BC) as (m & L & _ & _ & K).
    assert (R := v2_read int_of float_of ver_of msh ver fuel names nodes elts F1 F2 F3 F4 F5).
    assert (X := C56_exported 0 int_of float_of ver_of msh fuel m _ _ _ R L).
    destruct (K (List.map (fun p => fst (fst p)) nodes) (List.map (fun p => snd (fst p)) nodes) (List.map snd nodes)) as (f & fm' & fm2 & lb & li & rb & ri & WR & RD & FC & CV & _ & _ & NC).
    - rewrite X. rewrite !map_map. reflexivity.
    - apply Forall_forall. intros u I. apply in_map_iff in I. destruct I as (((a & b) & c) & <- & I). apply (PT a b c I).
    - apply Forall_forall. intros u I. apply in_map_iff in I. destruct I as (((a & b) & c) & <- & I). apply (PT a b c I).
    - apply Forall_forall. intros u I. apply in_map_iff in I. destruct I as (((a & b) & c) & <- & I). apply (PT a b c I).
    - exists m, f, fm', fm2, lb, li, rb, ri. destruct CV. auto 10.
  Qed.
End Props.
Print Assumptions C74_gmsh_to_ic3.
Print Assumptions C74_refused.
Print Assumptions C74_version2.

(** ** Concrete cases: two squares side by side, the lower sides in "wall", the left one in "inlet"; the upper ones also in "wall" or not *)
Open Scope string_scope.
Definition ex_channel (n : string) (upper : list (list string)) : list (list string) :=
  [ ["$MeshFormat"]; ["2"; "0"; "8"]; ["$EndMeshFormat"];
    ["$PhysicalNames"]; ["2"]; ["1"; "7"; qt "wall"]; ["1"; "8"; qt "inlet"]; ["$EndPhysicalNames"];
    ["$Nodes"]; ["6"]; ["1"; "0"; "0"; "0"]; ["2"; "1"; "0"; "0"]; ["3"; "2"; "0"; "0"]; ["4"; "0"; "1"; "0"]; ["5"; "1"; "1"; "0"]; ["6"; "2"; "1"; "0"]; ["$EndNodes"];
    ["$Elements"]; [n]; ["1"; "3"; "2"; "9"; "1"; "1"; "2"; "5"; "4"]; ["2"; "3"; "2"; "9"; "1"; "2"; "3"; "6"; "5"];
    ["3"; "1"; "2"; "7"; "1"; "1"; "2"]; ["4"; "1"; "2"; "7"; "1"; "2"; "3"]; ["5"; "1"; "2"; "8"; "2"; "4"; "1"] ] ++ upper ++ [ ["$EndElements"] ].
Close Scope string_scope.
Definition ex_chan_names : list (Z * Z * string) := [(1, 7, "wall"%string); (1, 8, "inlet"%string)].
Definition ex_chan_nodes : list (Z * Z * Z) := [(0, 0, 0); (1, 0, 0); (2, 0, 0); (0, 1, 0); (1, 1, 0); (2, 1, 0)].
Definition ex_chan_elts : list felt :=
  [FElt 1 3 9 1 [] [1; 2; 5; 4]; FElt 2 3 9 1 [] [2; 3; 6; 5]; FElt 3 1 7 1 [] [1; 2]; FElt 4 1 7 1 [] [2; 3]; FElt 5 1 8 2 [] [4; 1]].
Definition ex_upper : list felt := [FElt 6 1 7 3 [] [4; 5]; FElt 7 1 7 3 [] [5; 6]].
Definition ex_half_chan : list (list string) := ex_channel "5" [].
Definition ex_full_chan : list (list string) := ex_channel "7" [["6"; "1"; "2"; "7"; "3"; "4"; "5"]; ["7"; "1"; "2"; "7"; "3"; "5"; "6"]]%string.
Ltac sec_of msh k n :=
  exists (firstn k msh), (skipn n msh); split; [reflexivity|]; split;
  (intros X; repeat (destruct X as [X|X]; [discriminate X|]); destruct X).
Example c74_files : forall msh upper, (msh = ex_half_chan /\ upper = []) \/ (msh = ex_full_chan /\ upper = ex_upper) ->
  format_is int10 int10 msh 2 /\ names_are int10 msh (Some ex_chan_names) /\ nodes2_are int10 int10 msh ex_chan_nodes /\ elts2_are int10 msh (ex_chan_elts ++ upper).
Proof.
  intros msh upper [(-> & ->) | (-> & ->)]; (split; [| split; [| split]]).
  - exists "2"%string, "0"%string, "8"%string, [], []. split; [sec_of ex_half_chan 0%nat 3%nat|auto].
  - exists "2"%string, [], (firstn 2 (skipn 5 ex_half_chan)), []. split; [sec_of ex_half_chan 3%nat 8%nat|]. split; [reflexivity|]. repeat constructor; repeat eexists.
  - exists "6"%string, [], (firstn 6 (skipn 10 ex_half_chan)), []. split; [sec_of ex_half_chan 8%nat 17%nat|]. split; [reflexivity|]. repeat constructor; repeat eexists.
  - exists "5"%string, [], (firstn 5 (skipn 19 ex_half_chan)), []. split; [sec_of ex_half_chan 17%nat 25%nat|]. split; [reflexivity|]. repeat constructor.
  - exists "2"%string, "0"%string, "8"%string, [], []. split; [sec_of ex_full_chan 0%nat 3%nat|auto].
  - exists "2"%string, [], (firstn 2 (skipn 5 ex_full_chan)), []. split; [sec_of ex_full_chan 3%nat 8%nat|]. split; [reflexivity|]. repeat constructor; repeat eexists.
  - exists "6"%string, [], (firstn 6 (skipn 10 ex_full_chan)), []. split; [sec_of ex_full_chan 8%nat 17%nat|]. split; [reflexivity|]. repeat constructor; repeat eexists.
  - exists "7"%string, [], (firstn 7 (skipn 19 ex_full_chan)), []. split; [sec_of ex_full_chan 17%nat 27%nat|]. split; [reflexivity|]. repeat constructor.
Qed.

Definition coversb (names : option (list (Z * Z * string))) (bl : list felt) (k : string) (nodes : list Z) : bool :=
  forallb (fun v => existsb (fun e => match patch_name names bl e with Some k' => String.eqb k' k | None => false end && existsb (Z.eqb (v + 1)) (fe_nodes e)) bl) nodes.
Lemma coversb_iff names bl k nodes : patch_covers names bl k nodes <-> coversb names bl k nodes = true.
Proof.
  unfold coversb. rewrite forallb_forall. split; intros H v I; specialize (H v I).
  - destruct H as (e & J & P & N). apply existsb_exists. exists e. split; [exact J |]. rewrite P, String.eqb_refl. apply existsb_exists. exists (v + 1). split; [exact N | apply Z.eqb_refl].
  - apply existsb_exists in H. destruct H as (e & J & H). apply andb_true_iff in H. destruct H as (H & N). exists e. split; [exact J |]. destruct (patch_name names bl e) as [k' |]; [| discriminate].
    apply seqb_eq in H. subst. split; [reflexivity |]. apply existsb_exists in N. destruct N as (u & N & E). apply Z.eqb_eq in E. subst. exact N.
Qed.
Lemma ex_chan_conforms upper : upper = [] \/ upper = ex_upper -> gmsh_conforms gmsh_elem2faces (Some ex_chan_names) 6 2 (ex_chan_elts ++ upper) /\
  Forall felt_ok (ex_chan_elts ++ upper) /\ top_dim 2 (ex_chan_elts ++ upper).
Proof.
  intros U. assert (CE : GmshSpec.of_dim 2 (ex_chan_elts ++ upper) = [FElt 1 3 9 1 [] [1; 2; 5; 4]; FElt 2 3 9 1 [] [2; 3; 6; 5]]) by (destruct U as [-> | ->]; reflexivity).
  assert (PN : forall e, In e (GmshSpec.of_dim (2 - 1) (ex_chan_elts ++ upper)) -> exists k, In k ["wall"; "inlet"]%string /\ patch_name (Some ex_chan_names) (GmshSpec.of_dim (2 - 1) (ex_chan_elts ++ upper)) e = Some k).
  { intros e I. destruct U as [-> | ->]; cbn in I; repeat (destruct I as [<- | I]; [first [exists "wall"%string; split; [cbn; tauto | reflexivity] | exists "inlet"%string; split; [cbn; tauto | reflexivity]] |]); destruct I. }
  assert (FT : forall ft, has_face_type gmsh_elem2faces (elt_cells (GmshSpec.of_dim 2 (ex_chan_elts ++ upper))) ft -> ft = "bar2"%string).
  { rewrite CE. intros ft (t & ed & faces & efs & [I | []] & D & J & _). injection I as <- <-. vm_compute in D. injection D as <-. destruct J as [J | []]. now injection J as <- _. }
  split; [| split].
  - constructor.
    + rewrite CE. intros e v [<- | [<- | []]] J; cbn in J; lia.
    + intros e I. destruct (PN e I) as (k & _ & E). congruence.
    + rewrite CE. apply no_tripleb_ok; vm_compute; reflexivity.
    + intros ft H. rewrite (FT ft H), CE. split.
      * exists ([1; 0], 0). split; [vm_compute; tauto | vm_compute; reflexivity].
      * exists ([4; 1], 0). split; [vm_compute; tauto |]. intros (_ & Q). vm_compute in Q. discriminate.
    + intros k (_ & e & I & P). destruct (PN e I) as (k' & K & E). rewrite E in P. injection P as ->.
      destruct K as [<- | [<- | []]]; (split; [apply good_key; [cbn; lia | reflexivity] | split; [unfold deof; vm_compute; discriminate | split; discriminate]]).
  - destruct U as [-> | ->]; repeat constructor; repeat eexists.
  - split; [exists (FElt 1 3 9 1 [] [1; 2; 5; 4]); split; [left; reflexivity | reflexivity] |].
    intros e I. destruct U as [-> | ->]; repeat (destruct I as [<- | I]; [cbn; lia |]); destruct I.
Qed.
(** The lower wall and the inlet only: everything holds. *)
Example c74_case : patches_apart gmsh_elem2faces (Some ex_chan_names) 2 ex_chan_elts.
Proof.
  assert (PN : forall k, is_patch (Some ex_chan_names) (GmshSpec.of_dim (2 - 1) ex_chan_elts) k -> k = "wall"%string \/ k = "inlet"%string).
  { intros k (_ & e & I & P). cbn in I. repeat (destruct I as [<- | I]; [vm_compute in P; injection P as <-; tauto |]). destruct I. }
  constructor.
  - intros k P. destruct (PN k P) as [-> | ->].
    + exists "bar2"%string, ([1; 0], 0). split; [split; [vm_compute; tauto | vm_compute; reflexivity] | apply coversb_iff; vm_compute; reflexivity].
    + exists "bar2"%string, ([0; 3], 0). split; [split; [vm_compute; tauto | vm_compute; reflexivity] | apply coversb_iff; vm_compute; reflexivity].
  - assert (NB : forall ft s, outer gmsh_elem2faces (elt_cells (GmshSpec.of_dim 2 ex_chan_elts)) ft s ->
      coversb (Some ex_chan_names) (GmshSpec.of_dim (2 - 1) ex_chan_elts) "wall" (fst s) = true -> coversb (Some ex_chan_names) (GmshSpec.of_dim (2 - 1) ex_chan_elts) "inlet" (fst s) = true -> False).
    { intros ft s (O & _) A B. destruct (String.eqb_spec ft "bar2"%string) as [-> | NE].
      - vm_compute in O. repeat (destruct O as [<- | O]; [vm_compute in A, B; discriminate |]). destruct O.
      - unfold ec_sides in O. cbn in O. apply String.eqb_neq in NE. rewrite NE in O. destruct O. }
    intros ft s k k' O P P' C C'. apply coversb_iff in C. apply coversb_iff in C'. destruct (PN k P) as [-> | ->], (PN k' P') as [-> | ->]; try reflexivity; exfalso; eauto.
Qed.
Definition ex_gmsh_pipeline (msh : list (list string)) : res (list (string * option indexlist)) :=
  m <- load 0 int10 int10 int10 40 msh ;;
  ex_zones (fst (write_mesh gmsh_elem2faces (fun l => l) ex_i2d ex_f2i Little V3 "native" (FM (defined m) (FDict []) (FDict []) [] None))).
Example c74_zones : ex_gmsh_pipeline ex_half_chan = Ok [("wall", Some (ILrange 0 1)); ("inlet", Some (ILrange 2 2)); ("unmarked", Some (ILrange 3 5)); ("internal-domain", Some (ILrange 6 6))]%string.
Proof. vm_compute. reflexivity. Qed.
(** With the upper wall, the two ends of the inlet are on the wall: the inlet is covered by both patches. *)
Example c74_refused_case : outer gmsh_elem2faces (elt_cells (GmshSpec.of_dim 2 (ex_chan_elts ++ ex_upper))) "bar2" ([0; 3], 0) /\
  patch_covers (Some ex_chan_names) (GmshSpec.of_dim (2 - 1) (ex_chan_elts ++ ex_upper)) "wall" [0; 3] /\
  patch_covers (Some ex_chan_names) (GmshSpec.of_dim (2 - 1) (ex_chan_elts ++ ex_upper)) "inlet" [0; 3] /\
  ex_gmsh_pipeline ex_full_chan = Err ValueError.
Proof.
  split; [split; [vm_compute; tauto | vm_compute; reflexivity] |]. split; [apply coversb_iff; vm_compute; reflexivity |]. split; [apply coversb_iff; vm_compute; reflexivity | vm_compute; reflexivity].
Qed.
