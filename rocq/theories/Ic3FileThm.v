(** * Reading a written mesh. *)
From Coq Require Import ZArith List Bool String Lia Permutation.
From Verif Require Import Py PyFacts Conn ConnSpec ConnProofs CsrProofs MergeProofs Mesh MeshSpec MeshProofs Ic3Bytes Ic3BytesProofs Ic3 Ic3HeaderSpec Ic3HeaderProofs Ic3FuelProofs Ic3FileSpec Ic3FileProofs Ic3WriteProofs Ic3PartsProofs Ic3CutProofs Ic3BodyProofs Ic3ReadProofs Ic3VarProofs Ic3RoundProofs Ic3RoundSpec Ic3MeshProofs.

Lemma max_is l m : In m l -> Forall (fun x => x <= m) l -> py_max l = Ok m.
Proof. intros I F. apply py_max_ok. rewrite Forall_forall in F. auto. Qed.

Lemma make_file_mesh v fm ls rows :
  (1 <= me_ncell (fm_mesh fm)) ->
  (1 <= me_nnode (fm_mesh fm)) ->
  (me_nface (fm_mesh fm) = zlen ls) ->
  (1 <= zlen ls) ->
  (faces_of (fm_mesh fm) ls rows) ->
  (Forall (fun r => 1 <= zlen r <= 4) ls) ->
  (Forall (fun r => List.length r = 2%nat) rows) ->
  (In (me_ncell (fm_mesh fm) - 1) (List.concat rows)) ->
  (Forall (fun c => c <= me_ncell (fm_mesh fm) - 1) (List.concat rows)) ->
  (forall k b lo hi, In (k, b) (zone_marks (fm_mesh fm)) -> mk_index b = Some (ILrange lo hi) -> 0 <= lo <= zlen ls /\ hi < zlen ls) ->
  (Forall (fun k => good_name k /\ ~ deof k) (mesh_names fm)) ->
  (NoDup (List.map fst (zone_marks (fm_mesh fm))) /\ NoDup (List.map fst (fd_items (fm_nodes fm))) /\ NoDup (List.map fst (fd_items (fm_cells fm)))) ->
  (~ In "internal-domain"%string (List.map fst (zone_marks (fm_mesh fm)))) ->
  (1 <= data_ndof (fm_cells fm)) ->
  file_mesh v fm ls rows.
Proof. intros. constructor; [constructor | |]; assumption. Qed.

Section Thm.
  Context (i2d : Z -> Z) (f2i : Z -> res Z).

  (** The mesh read. *)
  Definition mesh_back (v : version) (x y z : list Z) (ls : list (list Z)) (con : econn) (mt : mat) {w} (c : converted i2d f2i w) : fmesh :=
    FM (Mesh Z (w_cv w) (w_no w) (zlen ls) None [("mixed"%string, FaceSet con (Some (Some (Mat (Some 2%nat) (m_rows mt)))))]
          [("x"%string, x); ("y"%string, y); ("z"%string, z)]
          (List.map (fun b => (mk_name b, b)) (List.map mark_back (w_bocos w) ++ [int_mark (last_boco (w_bocos w) + 1) (w_fa w - 1)])))
       (FSet (fst (exp_vars i2d v w))) (FSet (snd (exp_vars i2d v w)))
       (dupdate (params_of (expected i2d f2i Little v ls c)) (exp_sim i2d f2i c))
       (Some (Some (c_npart c, Some (c_icv c)))).

  Lemma params_order o v ls w (c : converted i2d f2i w) : params_of (expected i2d f2i o v ls c) = params_of (expected i2d f2i Little v ls c).
  Proof. reflexivity. Qed.

  Lemma writer_state_ok fm w : writer_state fm = Ok w ->
    exists x y z zf f2e, nodescoord (fm_mesh fm) = Ok (x, y, z) /\ stack3 x y z = Ok (w_coords w) /\
      zlen (w_coords w) = me_nnode (fm_mesh fm) /\ writer_faces (fm_mesh fm) = Ok (zf, f2e) /\
      w_no w = me_nnode (fm_mesh fm) /\ w_fa w = me_nface (fm_mesh fm) /\ w_cv w = me_ncell (fm_mesh fm) /\
      w_nno w = diffs (z_index zf) /\ w_noofa w = z_value zf /\ w_f2e w = f2e /\ w_bocos w = zone_marks (fm_mesh fm) /\
      w_part w = match fm_part fm with None => Some (1, Some (repeat 0 (Z.to_nat (me_ncell (fm_mesh fm))))) | Some q => q end /\
      w_step w = param (fm_params fm) "step" (SNum (NInt 0)) /\ w_dt w = param (fm_params fm) "dt" (SNum (NInt 0)) /\
      w_time w = param (fm_params fm) "time" (SNum (NInt 0)) /\ w_wgt w = param (fm_params fm) "wgt" (SWgt []) /\
      w_nodes w = fm_nodes fm /\ w_cells w = fm_cells fm.
  Proof.
    intros H. unfold writer_state in H.
    apply bind_ok in H; destruct H as (((x, y), z) & NC & H). apply bind_ok in H; destruct H as (rows & ST & H).
    apply bind_ok in H; destruct H as (u & A & H). apply assertb_ok in A. apply Z.eqb_eq in A.
    apply bind_ok in H; destruct H as ((zf, f2e) & WF & H). apply ok_inj in H. subst w.
    exists x, y, z, zf, f2e. cbn [w_coords w_no w_fa w_cv w_nno w_noofa w_f2e w_bocos w_part w_step w_dt w_time w_wgt w_nodes w_cells].
    repeat (split; [first [assumption | reflexivity] |]). reflexivity.
  Qed.

  Lemma csr_make_diffs ls : diffs (z_index (csr_make ls)) = List.map zlen ls.
  Proof. unfold csr_make. cbn [z_index]. unfold np_cumsum. apply diffs_of_cumsum. Qed.

  Lemma layout_sound v fm ls rows w : file_layout v fm ls rows -> writer_state fm = Ok w -> user_names w = mesh_names fm ->
    (fd_items (w_cells w) = [] \/ (w_cv w <> w_no w /\ w_cv w <> w_fa w) \/ w_tot v w = w_cv w) -> sound v w ls.
  Proof.
    intros M W UN LOC. destruct (writer_state_ok fm w W) as (x & y & z & zf & f2e & NC & ST & LC & WF & E1 & E2 & E3 & E4 & E5 & E6 & E7 & _ & _ & _ & _ & _ & E8 & E9).
    destruct (writer_faces_of _ _ _ (fi_faces _ _ _ _ M)) as (mt & WF' & MR). rewrite WF in WF'. inversion WF' as [[Q1 Q2]]. rewrite Q1 in E4, E5. rewrite Q2 in E6. clear WF'.
    constructor.
    - rewrite E1. apply M.
    - rewrite E2, (fi_nface _ _ _ _ M). apply M.
    - rewrite E3. apply M.
    - assert (N := fi_ndof _ _ _ _ M). unfold w_ndof, data_ndof in *. rewrite E9. exact N.
    - rewrite E4. apply csr_make_diffs.
    - rewrite E5. reflexivity.
    - intros m' H. rewrite E6 in H. inversion H; subst m'. rewrite MR. apply M.
    - apply (stack3_cols x y z _ ST).
    - rewrite E7, E2, (fi_nface _ _ _ _ M). apply Forall_forall. intros (k, b) I. split.
      + unfold zone_marks in I. apply filter_In in I. destruct I as (_ & I). destruct (mk_type b) as [t |]; [| discriminate].
        apply negb_true_iff in I. apply String.eqb_neq in I. congruence.
      + intros lo hi IL. destruct (fi_zones _ _ _ _ M k b lo hi I IL). lia.
    - rewrite E7, E2, (fi_nface _ _ _ _ M), last_boco_end. assert (Q := fi_some _ _ _ _ M). assert (ZN := fi_zones _ _ _ _ M).
      revert ZN. generalize (zone_marks (fm_mesh fm)). intros d. induction d as [| (k, b) d IH]; intros ZN; [cbn; lia |].
      cbn [flat_map]. assert (IH' := IH (fun k' b' lo hi I => ZN k' b' lo hi (or_intror I))).
      destruct (mk_index b) as [[] |] eqn:IL; cbn [app fold_right]; try exact IH'.
      destruct (ZN k b lo hi (or_introl eq_refl) IL). lia.
    - rewrite UN. eapply Forall_impl; [| apply M]. intros a (_ & D). exact D.
    - exact LOC.
  Qed.
  Lemma layout_top v fm ls rows w k : file_layout v fm ls rows -> writer_state fm = Ok w -> py_max (List.concat rows) = Ok k -> top_cell w k.
  Proof.
    intros M W TOP. destruct (writer_state_ok fm w W) as (x & y & z & zf & f2e & _ & _ & _ & WF & _ & _ & _ & _ & _ & E6 & _).
    destruct (writer_faces_of _ _ _ (fi_faces _ _ _ _ M)) as (mt & WF' & MR). rewrite WF in WF'. inversion WF' as [[Q1 Q2]]. rewrite Q2 in E6. clear WF'.
    intros m' H. rewrite E6 in H. inversion H; subst m'. rewrite MR. exact TOP.
  Qed.
  Lemma mesh_readable v fm ls rows w : file_mesh v fm ls rows -> writer_state fm = Ok w -> user_names w = mesh_names fm ->
    (fd_items (w_cells w) = [] \/ (w_cv w <> w_no w /\ w_cv w <> w_fa w) \/ w_tot v w = w_cv w) -> readable v w ls.
  Proof.
    intros M W UN LOC. constructor; [exact (layout_sound v fm ls rows w M W UN LOC) |].
    apply (layout_top v fm ls rows w); [exact M | exact W |].
    destruct (writer_state_ok fm w W) as (x & y & z & zf & f2e & _ & _ & _ & _ & _ & _ & E3 & _). rewrite E3. apply max_is; apply M.
  Qed.

  Lemma read_mesh_of v o fm ls rows w (c : converted i2d f2i w) f : file_mesh v fm ls rows ->
    writer_state fm = Ok w -> (forall integrity, read_data integrity f = Ok (expected i2d f2i o v ls c)) ->
    exists x y z con mt, nodescoord (fm_mesh fm) = Ok (x, y, z) /\
      ec_import_csr ec_empty (csr_make ls) = Ok con /\ ec_wf con /\ ec_boxed con /\ Permutation (ec_pairs con) (ranked ls) /\
      m_rows mt = rows /\ c_f2e c = mt /\ stack3 x y z = Ok (w_coords w) /\
      forall integrity, read_mesh integrity f = Ok (mesh_back v x y z ls con mt c).
  Proof.
    intros M W RD.
    destruct (writer_state_ok fm w W) as (x & y & z & zf & f2e & NC & ST & LC & WF & E1 & E2 & E3 & E4 & E5 & E6 & E7 & _ & _ & _ & _ & _ & E8 & E9).
    destruct (writer_faces_of _ _ _ (fi_faces _ _ _ _ M)) as (mt & WF' & MR). rewrite WF in WF'. inversion WF' as [[Q1 Q2]]. rewrite Q1 in E4, E5. rewrite Q2 in E6. clear WF'.
    destruct (import_csr_make ls (fi_sizes _ _ _ _ M)) as (con & IC & CW & CB & CP).
    exists x, y, z, con, mt. split; [exact NC |]. split; [exact IC |]. split; [exact CW |]. split; [exact CB |]. split; [exact CP |].
    split; [exact MR |].
    assert (FE : c_f2e c = mt). { assert (Q := c_f2e_ok _ _ _ c). rewrite E6 in Q. congruence. }
    split; [exact FE |]. split; [exact ST |]. intros integrity.
    unfold read_mesh. rewrite RD. cbn [bind]. unfold export_mesh.
    cbn [expected r_cv r_no r_coords r_cvofa r_csr r_bocos r_cells r_nodes r_sim r_npart r_icvpart].
    rewrite (set_coords_stack _ x y z _ ST); [| cbn; rewrite E1; exact LC | reflexivity]. cbn [bind].
    unfold ii_set. cbn [m_cols bind]. rewrite IC. cbn [bind].
    unfold add_faces. change (existsb (String.eqb "mixed") facetypes) with true. cbv iota. cbn [bind].
    match goal with |- context [fold_left add_boco ?bs ?m] => rewrite (add_bocos_eq bs m) end.
    2: { cbn [with_nodes with_faces with_nface me_bocos new_mesh List.map app].
         rewrite map_app, map_map. cbn [List.map mark_back int_mark mk_name].
         assert (KE : List.map (fun kb : string * mark Z => cut_name (fst kb)) (w_bocos w) = List.map fst (zone_marks (fm_mesh fm))).
         { rewrite E7. apply map_ext_in. intros (k, b) I. cbn [fst]. apply good_cut.
           assert (G := fi_names _ _ _ _ M). rewrite Forall_forall in G. apply G. unfold mesh_names. apply in_or_app. left.
           apply in_map_iff. exists (k, b). auto. }
         rewrite KE. apply NoDup_app. split; [apply M |]. split; [repeat constructor; intros [] |].
         intros k I [<- | []]. exact (fi_reserved _ _ _ _ M I). }
    unfold mesh_back. rewrite (params_order o). f_equal.
    cbn [with_nodes with_faces with_nface with_bocos me_bocos me_faces me_nodes me_ncell me_nnode me_nface me_cell2node new_mesh dset app].
    assert (NF : total_faces [("mixed"%string, FaceSet con (Some (Some (Mat (Some 2%nat) (m_rows mt)))))] = zlen ls).
    { unfold total_faces. cbn [List.map zsum fold_right f_f2n]. rewrite (ecwf_nelem _ CW), (zlen_perm _ _ CP). unfold ranked, zlen.
      rewrite combine_length, zrange_length. unfold zlen. lia. }
    rewrite FE. unfold with_bocos, with_nface, with_faces, with_nodes.
    cbn [me_bocos me_faces me_nodes me_ncell me_nnode me_nface me_cell2node new_mesh]. do 2 f_equal. exact NF.
  Qed.

  Lemma read_mesh_back v o fm ls rows w f : (forall n, pattern (i2d n)) -> fmesh_typed fm -> file_mesh v fm ls rows ->
    (fd_items (w_cells w) = [] \/ (w_cv w <> w_no w /\ w_cv w <> w_fa w) \/ w_tot v w = w_cv w) ->
    writer_state fm = Ok w -> write_data i2d f2i v o w = Ok f ->
    exists x y z con mt (c : converted i2d f2i w), nodescoord (fm_mesh fm) = Ok (x, y, z) /\
      ec_import_csr ec_empty (csr_make ls) = Ok con /\ ec_wf con /\ ec_boxed con /\ Permutation (ec_pairs con) (ranked ls) /\
      m_rows mt = rows /\ c_f2e c = mt /\ Forall sized (body_secs i2d f2i v c) /\ stack3 x y z = Ok (w_coords w) /\
      forall integrity, read_mesh integrity f = Ok (mesh_back v x y z ls con mt c).
  Proof.
    intros P T M LOC W WD. destruct (writer_state_typed i2d fm w P T W) as (TW & UN).
    destruct (read_back i2d f2i v o w ls f TW (mesh_readable v fm ls rows w M W UN LOC) WD) as (c & SZ & RD).
    destruct (read_mesh_of v o fm ls rows w c f M W RD) as (x & y & z & con & mt & A1 & A2 & A3 & A4 & A5 & A6 & A7 & A8 & A9).
    exists x, y, z, con, mt, c. auto 12.
  Qed.

  (** ** Data *)
  Lemma fst_unique {V} (d : list (string * V)) k x y : NoDup (List.map fst d) -> In (k, x) d -> In (k, y) d -> x = y.
  Proof.
    intros N I J. apply (in_dget _ seqb_eq) in I; [| exact N]. apply (in_dget _ seqb_eq) in J; [| exact N]. congruence.
  Qed.
  Lemma array_sizes a : array_typed a ->
    (forall n, a_shape a = [n] -> a_size a = n) /\ (forall n, a_shape a = [n; 3] -> a_size a = n * 3) /\ (forall n, a_shape a = [n; 3; 3] -> a_size a = n * 9).
  Proof. intros (W & _). unfold a_wf, a_size in *. rewrite W. split; [| split]; intros n ->; cbn; lia. Qed.
  Lemma shape1_scalar a n : array_typed a -> a_shape a = [n] -> is_scalar a = true.
  Proof. intros T E. unfold is_scalar. rewrite E. apply Z.eqb_eq. apply (array_sizes a T). exact E. Qed.

  Lemma sized_scalar idd idq v l n name a : sized (scalar_sec i2d idd idq v l n name a) -> a_size a = Z.max 0 n.
  Proof.
    unfold sized, scalar_sec, a_size. destruct (match v with V2 => false | V3 => a_int a end); cbn [sec1 snd]; intros H; inversion H as [| ? ? Q _]; subst.
    - exact Q.
    - rewrite <- Q. unfold doubles. destruct (a_int a); rewrite ?zlen_map; reflexivity.
  Qed.
  Lemma sized_block id l n name a : sized (block_sec i2d id l n name a) -> a_size a = Z.max 0 n.
  Proof.
    unfold sized, block_sec, a_size. cbn [sec1 snd]. intros H; inversion H as [| ? ? Q _]; subst.
    rewrite <- Q. unfold doubles. destruct (a_int a); rewrite ?zlen_map; reflexivity.
  Qed.

  Section Lookup.
    Context (v : version) (w : wstate) (d : dict string array).
    Hypothesis TD : data_typed d.
    Hypothesis ND : NoDup (List.map fst d).
    Hypothesis GN : Forall good_name (List.map fst d).

    Lemma d_typed k a : In (k, a) d -> array_typed a.
    Proof. intros I. unfold data_typed in TD. rewrite Forall_forall in TD. exact (TD (k, a) I). Qed.
    Lemma d_cut k a : In (k, a) d -> cut_name k = k.
    Proof. intros I. rewrite Forall_forall in GN. apply good_cut. apply GN. apply in_map_iff. exists (k, a). auto. Qed.
    Lemma in_scals k x : In (k, x) (scals i2d v d) -> exists a, In (k, a) d /\ is_scalar a = true /\ x = scalar_back i2d v (a_size a) a.
    Proof.
      intros I. apply in_map_iff in I. destruct I as ((k', a) & E & I). apply filter_In in I. destruct I as (I & S).
      unfold scal_write in E. cbn [fst snd] in E. rewrite (d_cut _ _ I) in E. inversion E; subst. exists a. auto.
    Qed.
    Lemma in_vecs k x : In (k, x) (vecs i2d v w d) -> exists a, In (k, a) d /\ is_dim 2 a = true /\ x = Arr [w_tot v w; 3] false (array_doubles i2d a).
    Proof.
      intros I. apply in_map_iff in I. destruct I as ((k', a) & E & I). apply filter_In in I. destruct I as (I & S).
      unfold vec_write in E. cbn [fst snd] in E. rewrite (d_cut _ _ I) in E. inversion E; subst. exists a. auto.
    Qed.
    Lemma in_tenss k x : In (k, x) (tenss i2d v w d) -> exists a, In (k, a) d /\ is_dim 3 a = true /\ x = Arr [w_tot v w; 3; 3] false (array_doubles i2d a).
    Proof.
      intros I. apply in_map_iff in I. destruct I as ((k', a) & E & I). apply filter_In in I. destruct I as (I & S).
      unfold tens_write in E. cbn [fst snd] in E. rewrite (d_cut _ _ I) in E. inversion E; subst. exists a. auto.
    Qed.
    Lemma to_scals k a : In (k, a) d -> is_scalar a = true -> In (k, scalar_back i2d v (a_size a) a) (scals i2d v d).
    Proof.
      intros I S. apply in_map_iff. exists (k, a). split; [unfold scal_write; cbn [fst snd]; rewrite (d_cut _ _ I); reflexivity |].
      apply filter_In. auto.
    Qed.
    Lemma to_vecs k a : In (k, a) d -> is_dim 2 a = true -> In (k, Arr [w_tot v w; 3] false (array_doubles i2d a)) (vecs i2d v w d).
    Proof.
      intros I S. apply in_map_iff. exists (k, a). split; [unfold vec_write; cbn [fst snd]; rewrite (d_cut _ _ I); reflexivity |].
      apply filter_In. auto.
    Qed.
    Lemma to_tenss k a : In (k, a) d -> is_dim 3 a = true -> In (k, Arr [w_tot v w; 3; 3] false (array_doubles i2d a)) (tenss i2d v w d).
    Proof.
      intros I S. apply in_map_iff. exists (k, a). split; [unfold tens_write; cbn [fst snd]; rewrite (d_cut _ _ I); reflexivity |].
      apply filter_In. auto.
    Qed.
    Lemma look_scalar d0 k a n : In (k, a) d -> a_shape a = [n] -> dget String.eqb k (dset_all d0 (scals i2d v d)) = Some (scalar_back i2d v n a).
    Proof.
      intros I E. assert (T := d_typed k a I). rewrite <- (proj1 (array_sizes a T) n E). apply dset_all_in.
      - apply to_scals; [exact I | eapply shape1_scalar; eassumption].
      - intros x X. apply in_scals in X. destruct X as (a' & I' & _ & ->). rewrite (fst_unique d k a a' ND I I'). reflexivity.
    Qed.
    Definition cell_list : list (string * array) := (scals i2d v d ++ vecs i2d v w d) ++ tenss i2d v w d.
    Lemma look_cells k a : In (k, a) d ->
      (forall n, a_shape a = [n] -> dget String.eqb k (dset_all [] cell_list) = Some (scalar_back i2d v n a)) /\
      (forall n, a_shape a = [n; 3] -> 1 <= n -> dget String.eqb k (dset_all [] cell_list) = Some (Arr [w_tot v w; 3] false (array_doubles i2d a))) /\
      (forall n, a_shape a = [n; 3; 3] -> 1 <= n -> dget String.eqb k (dset_all [] cell_list) = Some (Arr [w_tot v w; 3; 3] false (array_doubles i2d a))).
    Proof.
      intros I. assert (T := d_typed k a I). destruct (array_sizes a T) as (S1 & S2 & S3).
      assert (INV : forall x, In (k, x) cell_list -> (is_scalar a = true /\ x = scalar_back i2d v (a_size a) a) \/
         (is_dim 2 a = true /\ x = Arr [w_tot v w; 3] false (array_doubles i2d a)) \/ (is_dim 3 a = true /\ x = Arr [w_tot v w; 3; 3] false (array_doubles i2d a))).
      { intros x X. apply in_app_or in X. destruct X as [X | X]; [apply in_app_or in X; destruct X as [X | X] |].
        - apply in_scals in X. destruct X as (a' & I' & S & ->). rewrite (fst_unique d k a a' ND I I'). auto.
        - apply in_vecs in X. destruct X as (a' & I' & S & ->). rewrite (fst_unique d k a a' ND I I'). auto.
        - apply in_tenss in X. destruct X as (a' & I' & S & ->). rewrite (fst_unique d k a a' ND I I'). auto. }
      unfold is_dim in INV. split; [| split]; intros n E.
      - rewrite E in INV. cbn in INV. rewrite <- (S1 n E). apply dset_all_in.
        + apply in_or_app. left. apply in_or_app. left. apply to_scals; [exact I | eapply shape1_scalar; eassumption].
        + intros x X. destruct (INV x X) as [(_ & ->) | [(Q & _) | (Q & _)]]; [reflexivity | discriminate | discriminate].
      - intros N. rewrite E in INV. cbn in INV. apply dset_all_in.
        + apply in_or_app. left. apply in_or_app. right. apply to_vecs; [exact I | unfold is_dim; rewrite E; reflexivity].
        + intros x X. destruct (INV x X) as [(Q & _) | [(_ & ->) | (Q & _)]]; [| reflexivity | discriminate].
          unfold is_scalar in Q. rewrite E in Q. apply Z.eqb_eq in Q. rewrite (S2 n E) in Q. lia.
      - intros N. rewrite E in INV. cbn in INV. apply dset_all_in.
        + apply in_or_app. right. apply to_tenss; [exact I | unfold is_dim; rewrite E; reflexivity].
        + intros x X. destruct (INV x X) as [(Q & _) | [(Q & _) | (_ & ->)]]; [| discriminate | reflexivity].
          unfold is_scalar in Q. rewrite E in Q. apply Z.eqb_eq in Q. rewrite (S3 n E) in Q. lia.
    Qed.
    Lemma cell_list_keys k : In k (List.map fst cell_list) -> In k (List.map fst d).
    Proof.
      intros I. apply in_map_iff in I. destruct I as ((k', x) & E & X). cbn in E. subst k'.
      apply in_map_iff. apply in_app_or in X. destruct X as [X | X]; [apply in_app_or in X; destruct X as [X | X] |].
      - apply in_scals in X. destruct X as (a & I & _). exists (k, a). auto.
      - apply in_vecs in X. destruct X as (a & I & _). exists (k, a). auto.
      - apply in_tenss in X. destruct X as (a & I & _). exists (k, a). auto.
    Qed.
    Lemma scals_keys k : In k (List.map fst (scals i2d v d)) -> In k (List.map fst d).
    Proof.
      intros I. apply in_map_iff in I. destruct I as ((k', x) & E & X). cbn in E. subst k'. apply in_scals in X. destruct X as (a & I & _).
      apply in_map_iff. exists (k, a). auto.
    Qed.
  End Lookup.

  (** Sizes of the arrays that were written. *)
  Lemma written_node v w (c : converted i2d f2i w) name a n : Forall sized (body_secs i2d f2i v c) -> 1 <= w_no w ->
    In (name, a) (fd_items (w_nodes w)) -> array_typed a -> a_shape a = [n] -> n = w_no w.
  Proof.
    intros SZ N I T E. rewrite Forall_forall in SZ.
    assert (Q : a_size a = Z.max 0 (w_no w)).
    { apply (sized_scalar NO_D1 NO_II1 v [w_no w] (w_no w) name a). apply SZ.
      unfold body_secs. right. apply in_or_app. right. do 3 (apply in_or_app; right). apply in_or_app. right. unfold var_secs. apply in_or_app. left.
      unfold node_secs. apply in_map_iff. exists (name, a). split; [reflexivity |]. apply filter_In. split; [exact I | eapply shape1_scalar; eassumption]. }
    rewrite (proj1 (array_sizes a T) n E) in Q. lia.
  Qed.
  Lemma written_cell v w (c : converted i2d f2i w) name a n : Forall sized (body_secs i2d f2i v c) -> 1 <= w_tot v w ->
    In (name, a) (fd_items (w_cells w)) -> array_typed a -> a_shape a = [n] \/ a_shape a = [n; 3] \/ a_shape a = [n; 3; 3] -> n = w_tot v w.
  Proof.
    intros SZ N I T E. rewrite Forall_forall in SZ. destruct (array_sizes a T) as (S1 & S2 & S3).
    assert (B : forall s, In s (var_secs i2d v w) -> In s (body_secs i2d f2i v c)).
    { intros s H. unfold body_secs. right. apply in_or_app. right. do 3 (apply in_or_app; right). apply in_or_app. right. exact H. }
    destruct E as [E | [E | E]].
    - assert (Q : a_size a = Z.max 0 (w_tot v w)).
      { apply (sized_scalar CV_D1 CV_II1 v (w_cv w :: second v w) (w_tot v w) name a). apply SZ, B. unfold var_secs.
        do 2 (apply in_or_app; right). apply in_or_app. left. apply in_map_iff. exists (name, a). split; [reflexivity |].
        apply filter_In. split; [exact I | eapply shape1_scalar; eassumption]. }
      rewrite (S1 n E) in Q. lia.
    - assert (Q : a_size a = Z.max 0 (w_tot v w * 3)).
      { apply (sized_block CV_D3 [w_cv w; second3 v w] (w_tot v w * 3) name a). apply SZ, B. unfold var_secs.
        do 3 (apply in_or_app; right). apply in_or_app. left. apply in_map_iff. exists (name, a). split; [reflexivity |].
        apply filter_In. split; [exact I | unfold is_dim; rewrite E; reflexivity]. }
      rewrite (S2 n E) in Q. lia.
    - assert (Q : a_size a = Z.max 0 (w_tot v w * 9)).
      { apply (sized_block CV_D33 [w_cv w; second3 v w; 3] (w_tot v w * 9) name a). apply SZ, B. unfold var_secs.
        do 4 (apply in_or_app; right). apply in_map_iff. exists (name, a). split; [reflexivity |].
        apply filter_In. split; [exact I | unfold is_dim; rewrite E; reflexivity]. }
      rewrite (S3 n E) in Q. lia.
  Qed.

  (** Single values. *)
  Lemma dupdate_get {V} (d d' : dict string V) k x : dget String.eqb k d' = Some x -> NoDup (List.map fst d') ->
    dget String.eqb k (dupdate d d') = Some x.
  Proof.
    intros G N. change (dget String.eqb k (dset_all d d') = Some x). apply dget_in in G. apply dset_all_in; [exact G |].
    intros y Y. eapply fst_unique; eassumption.
  Qed.
  Lemma dset_all_nodup {V} (l : list (string * V)) : forall d, NoDup (List.map fst d) -> NoDup (List.map fst (dset_all d l)).
  Proof.
    induction l as [| (k, x) l IH]; intros d N; [exact N |]. apply (IH (dset String.eqb k x d)). apply (dset_NoDup _ seqb_eq). exact N.
  Qed.
  Lemma sim_get w (c : converted i2d f2i w) d : Forall good_name (wgt_names (w_wgt w)) ->
    dget String.eqb "step" (dupdate d (exp_sim i2d f2i c)) = Some (SNum (NInt (c_step c))) /\
    dget String.eqb "dt" (dupdate d (exp_sim i2d f2i c)) = Some (SNum (NFlt (c_dt c))) /\
    dget String.eqb "time" (dupdate d (exp_sim i2d f2i c)) = Some (SNum (NFlt (c_time c))) /\
    dget String.eqb "wgt" (dupdate d (exp_sim i2d f2i c)) = Some (SWgt []).
  Proof.
    intros G.
    assert (NK : forall k, In k (List.map fst (List.map (fun '(k, x) => (wgt_key k, SNum (NFlt x))) (c_wgt c))) ->
      k <> "step"%string /\ k <> "dt"%string /\ k <> "time"%string /\ k <> "wgt"%string).
    { intros k I. rewrite map_map in I. apply in_map_iff in I. destruct I as ((k', x) & <- & I). cbn [fst]. apply wgt_key_other.
      destruct (c_wgt_ok _ _ _ c) as (dw & E & F2). rewrite E in G. cbn [wgt_names] in G. rewrite Forall_forall in G. apply G.
      clear G E. induction F2 as [| (k1, x1) (k2, y2) l l' H F2 IH]; [destruct I |]. destruct I as [I | I].
      - inversion I; subst. destruct H as (-> & _). left. reflexivity.
      - right. apply IH. exact I. }
    assert (U : NoDup (List.map fst (exp_sim i2d f2i c))).
    { rewrite exp_sim_eq. apply dset_all_nodup. cbn [List.map fst]. repeat constructor; cbn; intuition discriminate. }
    split; [| split; [| split]]; (apply dupdate_get; [| exact U]); rewrite exp_sim_eq, dset_all_other; try reflexivity;
      intros I; destruct (NK _ I) as (N1 & N2 & N3 & N4); congruence.
  Qed.

  Lemma sim_counts w (c : converted i2d f2i w) d k : Forall good_name (wgt_names (w_wgt w)) -> In k count_names ->
    dget String.eqb k (dupdate d (exp_sim i2d f2i c)) = dget String.eqb k d.
  Proof.
    intros G K. change (dget String.eqb k (dset_all d (exp_sim i2d f2i c)) = dget String.eqb k d). apply dset_all_other. rewrite exp_sim_eq.
    intros I. apply dset_all_keys in I. destruct I as [I | I].
    - cbn [List.map fst In] in I. unfold count_names in K. cbn [In] in K. repeat (destruct I as [I | I]; [subst k; intuition discriminate |]). exact I.
    - rewrite map_map in I. apply in_map_iff in I. destruct I as ((k', x) & <- & I). cbn [fst] in K. revert K. apply wgt_key_counts.
      destruct (c_wgt_ok _ _ _ c) as (dw & E & F2). rewrite E in G. cbn [wgt_names] in G. rewrite Forall_forall in G. apply G.
      clear G E. induction F2 as [| (k1, x1) (k2, y2) l l' H F2 IH]; [destruct I |]. destruct I as [I | I].
      + inversion I; subst. destruct H as (-> & _). left. reflexivity.
      + right. apply IH. exact I.
  Qed.
  Lemma count_second g rows : count_if g (second_cells rows) = zlen (filter (fun r => g (nth 1 r 0)) rows).
  Proof.
    unfold count_if, second_cells. induction rows as [| r l IH]; [reflexivity |]. cbn [List.map filter]. destruct (g (nth 1 r 0)); [rewrite !zlen_cons, IH; reflexivity | exact IH].
  Qed.

  Lemma as_int_ok x n : to_int f2i x = Ok n -> as_int f2i x n.
  Proof. destruct x as [[k | p] |]; cbn; intros H; [congruence | exact H | discriminate]. Qed.
  Lemma as_double_ok x n : to_double i2d x = Ok n -> as_double i2d x n.
  Proof. destruct x as [[k | p] |]; cbn; intros H; [congruence | congruence | discriminate]. Qed.

  Lemma round_trip_of v o fm ls rows w (c : converted i2d f2i w) f : (forall n, pattern (i2d n)) -> fmesh_typed fm -> file_mesh v fm ls rows ->
    located fm ls -> writer_state fm = Ok w -> Forall sized (body_secs i2d f2i v c) ->
    (forall integrity, read_data integrity f = Ok (expected i2d f2i o v ls c)) ->
    exists fm2, (forall integrity, read_mesh integrity f = Ok fm2) /\ read_as i2d f2i v fm fm2 ls rows.
  Proof.
    intros P T M LOC W SZ RD.
    destruct (writer_state_ok fm w W) as (x0 & y0 & z0 & zf & f2e & NC0 & ST0 & LC & WF & E1 & E2 & E3 & E4 & E5 & E6 & E7 & E8 & E9 & E10 & E11 & E12 & E13 & E14).
    assert (LOC' : fd_items (w_cells w) = [] \/ (w_cv w <> w_no w /\ w_cv w <> w_fa w)).
    { rewrite E14, E3, E1, E2, (fi_nface _ _ _ _ M). exact LOC. }
    destruct (read_mesh_of v o fm ls rows w c f M W RD) as (x & y & z & con & mt & NC & IC & CW & CB & CP & MR & FE & ST & RM).
    clear x0 y0 z0 NC0 ST0 zf f2e WF E4 E5 E6.
    destruct (writer_state_typed i2d fm w P T W) as (TW & UN).
    assert (FN := fi_names _ _ _ _ M). unfold mesh_names in FN. rewrite !Forall_app in FN. destruct FN as (G1 & G2 & G3 & G4).
    assert (GG : forall l, Forall (fun k => good_name k /\ ~ deof k) l -> Forall good_name l).
    { intros l. apply Forall_impl. intros k (G & _). exact G. }
    apply GG in G1. apply GG in G2. apply GG in G3. apply GG in G4. clear GG.
    destruct (fi_keys _ _ _ _ M) as (K1 & K2 & K3).
    destruct T as (FA & CV & TX & TB & TP & TN & TC & NDOF).
    assert (ND1 : 1 <= w_ndof w). { unfold w_ndof. rewrite E14. apply M. }
    assert (TOT : w_tot v w = cell_total v fm). { unfold w_tot, cell_total, w_ndof, data_ndof. rewrite E14, E3. reflexivity. }
    assert (TOT1 : 1 <= w_tot v w). { unfold w_tot. rewrite E3. assert (Q := fi_ncell _ _ _ _ M). destruct v; [exact Q |]. replace 1 with (1 * 1) by reflexivity. apply Z.mul_le_mono_nonneg; lia. }
    exists (mesh_back v x y z ls con mt c). split; [exact RM |].
    assert (EV := exp_vars_eq i2d v w ND1).
    assert (NDATA : fd_items (FSet (snd (exp_vars i2d v w))) = dset_all [] (scals i2d v (fd_items (fm_nodes fm)))).
    { rewrite EV. cbn [snd fd_items]. rewrite adds_data. cbn [ds_data nodes0]. rewrite E13. destruct LOC' as [LE | (L1 & _)].
      - rewrite LE. destruct (w_cv w =? w_no w); cbn [scals filter List.map]; rewrite app_nil_r; reflexivity.
      - apply Z.eqb_neq in L1. rewrite L1, app_nil_r. reflexivity. }
    assert (CDATA : fst (exp_vars i2d v w) = adds (nd v w) (cell_list v w (fd_items (fm_cells fm))) cells0).
    { rewrite EV. cbn [fst]. unfold cell_list. rewrite <- E14. destruct LOC' as [LE | (L1 & L2)].
      - rewrite LE. destruct ((w_cv w =? w_no w) || (w_cv w =? w_fa w)); reflexivity.
      - apply Z.eqb_neq in L1. apply Z.eqb_neq in L2. rewrite L1, L2. reflexivity. }
    assert (CDATA' : fd_items (FSet (fst (exp_vars i2d v w))) = dset_all [] (cell_list v w (fd_items (fm_cells fm)))).
    { rewrite CDATA. cbn [fd_items]. rewrite adds_data. reflexivity. }
    destruct (sim_get w c (params_of (expected i2d f2i Little v ls c))) as (I1 & I2 & I3 & _). { rewrite E12. exact G2. }
    unfold mesh_back.
    constructor; cbn [fm_mesh fm_cells fm_nodes fm_params fm_part me_ncell me_nnode me_nface me_faces me_nodes me_bocos].
    - exact E3.
    - exact E1.
    - symmetry. apply M.
    - rewrite NC. reflexivity.
    - eexists. split; [reflexivity |]. constructor; [exact CW | exact CP |]. eexists. split; [reflexivity |]. split; [reflexivity |]. cbn [m_rows].
      split; [exact MR |]. destruct (fi_faces _ _ _ _ M) as [fx _ S _ | nn b i lb li rb ri _ _ _ SB SI _ _ _ _ -> ->].
      + destruct (fs_cells _ _ _ S) as (_ & _ & _ & _ & Q). exact Q.
      + destruct (fs_cells _ _ _ SB) as (_ & _ & _ & _ & Q1). destruct (fs_cells _ _ _ SI) as (_ & _ & _ & _ & Q2). rewrite !zlen_app. lia.
    - rewrite map_app, map_map. f_equal.
      + rewrite E7. apply map_ext_in. intros (k, b) I. unfold mark_back, zone_back. cbn [fst snd mk_name].
        rewrite Forall_forall in G1. rewrite good_cut by (apply G1; apply in_map_iff; exists (k, b); auto). reflexivity.
      + rewrite E7, E2, (fi_nface _ _ _ _ M), last_boco_end. reflexivity.
    - exists (c_npart c), (c_icv c). split; [reflexivity |]. assert (Q := c_part_ok _ _ _ c). rewrite E8 in Q.
      destruct (fm_part fm) as [p |]; [exact Q |]. inversion Q as [[Q1 Q2]]. split; congruence.
    - exists (c_step c). split; [exact I1 |]. apply as_int_ok. rewrite <- E9. apply c.
    - exists (c_dt c). split; [exact I2 |]. apply as_double_ok. rewrite <- E10. apply c.
    - exists (c_time c). split; [exact I3 |]. apply as_double_ok. rewrite <- E11. apply c.
    - intros name a n I E. split.
      + rewrite <- E1. eapply (written_node v w c); [exact SZ | rewrite E1; apply M | rewrite E13; exact I | exact (d_typed _ TN name a I) | exact E].
      + rewrite NDATA. apply look_scalar; assumption.
    - intros name I. rewrite NDATA in I. apply dset_all_keys in I. destruct I as [[] | I]. eapply scals_keys; eassumption.
    - intros name a n I E. split.
      + rewrite <- TOT. eapply (written_cell v w c); [exact SZ | exact TOT1 | rewrite E14; exact I | exact (d_typed _ TC name a I) | auto].
      + rewrite CDATA'. destruct (look_cells v w _ TC K3 G4 name a I) as (L1 & _). apply L1. exact E.
    - intros name a n I E.
      assert (N : n = w_tot v w). { eapply (written_cell v w c); [exact SZ | exact TOT1 | rewrite E14; exact I | exact (d_typed _ TC name a I) | auto]. }
      split; [congruence |]. rewrite CDATA'. destruct (look_cells v w _ TC K3 G4 name a I) as (_ & L2 & _). rewrite (L2 n E) by lia. rewrite N. reflexivity.
    - intros name a n I E.
      assert (N : n = w_tot v w). { eapply (written_cell v w c); [exact SZ | exact TOT1 | rewrite E14; exact I | exact (d_typed _ TC name a I) | auto]. }
      split; [congruence |]. rewrite CDATA'. destruct (look_cells v w _ TC K3 G4 name a I) as (_ & _ & L3). rewrite (L3 n E) by lia. rewrite N. reflexivity.
    - intros name I. rewrite CDATA' in I. apply dset_all_keys in I. destruct I as [[] | I]. eapply cell_list_keys; eassumption.
    - rewrite CDATA'. intros N. unfold data_ndof. rewrite CDATA.
      destruct (adds_shape (nd v w) (cell_list v w (fd_items (fm_cells fm))) cells0) as (_ & ->).
      { intros Q. rewrite Q in N. apply N. reflexivity. }
      unfold nd, ndof_num. destruct v; cbn [version_number].
      + reflexivity.
      + change (3 <? 3) with false. cbv iota. replace (w_ndof w =? 0) with false by (symmetry; apply Z.eqb_neq; lia).
        cbn [ds_ndof cells0]. change (match fm_cells fm with FDict _ => 1 | FSet d => ds_ndof d end) with (data_ndof (fm_cells fm)).
        unfold w_ndof in *. rewrite E14 in *. destruct (1 <? data_ndof (fm_cells fm)) eqn:Q; unfold data_ndof in Q |- *; destruct (fm_cells fm); cbn in *; try lia;
          rewrite Q; [reflexivity | apply Z.ltb_ge in Q; lia].
    - intros k n I. rewrite sim_counts; [| rewrite E12; exact G2 | apply (in_map fst) in I; exact I].
      assert (SO := layout_sound v fm ls rows w M W UN). assert (NW : w_noofa w = List.concat ls).
      { apply (rd_noofa v w ls). apply SO. destruct LOC' as [L | L]; auto. }
      unfold params_of, expected. cbn [r_no r_fa r_cv r_noofa r_bocos r_cvofa].
      rewrite !count_second, E1, E2, E3, (fi_nface _ _ _ _ M), NW, E7, zlen_app, FE, MR. replace (zlen (List.map mark_back (zone_marks (fm_mesh fm)))) with (zlen (zone_marks (fm_mesh fm))) by (unfold zlen; rewrite map_length; reflexivity).
      cbn [In] in I. repeat (destruct I as [I | I]; [injection I as <- <-; reflexivity |]). destruct I.
  Qed.
  Lemma round_trip v o fm ls rows w f : (forall n, pattern (i2d n)) -> fmesh_typed fm -> file_mesh v fm ls rows ->
    located fm ls -> writer_state fm = Ok w -> write_data i2d f2i v o w = Ok f ->
    exists fm2, (forall integrity, read_mesh integrity f = Ok fm2) /\ read_as i2d f2i v fm fm2 ls rows.
  Proof.
    intros P T M LOC W WD. destruct (writer_state_typed i2d fm w P T W) as (TW & UN).
    destruct (writer_state_ok fm w W) as (_ & _ & _ & _ & _ & _ & _ & _ & _ & E1 & E2 & E3 & _ & _ & _ & _ & _ & _ & _ & _ & _ & _ & E14).
    destruct (read_back i2d f2i v o w ls f TW) as (c & SZ & RD); [| exact WD | exact (round_trip_of v o fm ls rows w c f P T M LOC W SZ RD)].
    apply (mesh_readable v fm ls rows w M W UN). rewrite E14, E3, E1, E2, (fi_nface _ _ _ _ M). destruct LOC as [L | L]; auto.
  Qed.
  (** Cell numbers that do not end at [ncell - 1]: the file is refused. *)
  Lemma refused_read v o fm ls rows w f k : (forall n, pattern (i2d n)) -> fmesh_typed fm -> file_layout v fm ls rows ->
    located fm ls -> writer_state fm = Ok w -> write_data i2d f2i v o w = Ok f -> py_max (List.concat rows) = Ok k -> k <> me_ncell (fm_mesh fm) - 1 ->
    forall integrity, read_mesh integrity f = Err AssertionError.
  Proof.
    intros P T M LOC W WD TOP NE integrity. destruct (writer_state_typed i2d fm w P T W) as (TW & UN).
    destruct (writer_state_ok fm w W) as (_ & _ & _ & _ & _ & _ & _ & _ & _ & E1 & E2 & E3 & _ & _ & _ & _ & _ & _ & _ & _ & _ & _ & E14).
    destruct (read_all i2d f2i v o w ls f TW) as (c & _ & _ & RF); [| exact WD |].
    - apply (layout_sound v fm ls rows w M W UN). rewrite E14, E3, E1, E2, (fi_nface _ _ _ _ M). destruct LOC as [L | L]; auto.
    - unfold read_mesh. rewrite (RF k integrity); [reflexivity | exact (layout_top v fm ls rows w k M W TOP) | rewrite E3; exact NE].
  Qed.
End Thm.
