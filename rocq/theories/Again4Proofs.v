(** * HDF5 files of IC3 written again: proofs. *)
From Coq Require Import ZArith List Bool String Lia Permutation Sorted.
From Verif Require Import Py PyFacts Data Elements IndexList Conn ConnSpec ConnProofs CsrProofs Mesh MeshSpec MeshProofs Ic3Bytes Ic3 Ic3HeaderSpec Ic3FileSpec Ic3RoundSpec Ic3MeshProofs Ic3FileThm Ic3FileProps Ic3OkProofs Ic3WriteProofs Ic3CubeProps Ic3FixProofs
  Ic3V4 Ic3V4Spec Ic3V4Proofs Ic3V4MarkProofs Ic3V4SolProofs Ic3V4Props Again4Spec.

(** ** Sorting *)
Lemma insert_end {A} (le : A -> A -> bool) a x : le a x = true -> forall l, insert le a (l ++ [x]) = insert le a l ++ [x].
Proof.
  intros L. induction l as [| b l IH]; cbn [app insert]; [rewrite L; reflexivity |]. destruct (le a b); [reflexivity |]. rewrite IH. reflexivity.
Qed.
Lemma isort_end {A} (le : A -> A -> bool) x : forall l, (forall a, In a l -> le a x = true) -> isort le (l ++ [x]) = isort le l ++ [x].
Proof.
  induction l as [| a l IH]; intros H; [reflexivity |]. cbn [app isort]. rewrite IH by (intros b I; apply H; right; exact I).
  apply insert_end. apply H. left. reflexivity.
Qed.

(** ** Zones cut at the start of the next *)
Definition by_first (a b : string * mark Z) : bool := zone_first (snd a) <=? zone_first (snd b).
Fixpoint cut_marks (e : Z) (l : list (string * mark Z)) : list (string * mark Z) :=
  match l with
  | [] => []
  | (k, b) :: l' => (k, mark_on k b (zone_first b) (match l' with [] => e | (_, b') :: _ => zone_first b' end - 1)) :: cut_marks e l'
  end.
Definition ranged (bs : list (string * mark Z)) : Prop := Forall (fun '(_, b) => exists lo hi, mk_index b = Some (ILrange lo hi)) bs.

Lemma cut_krows nf last bs : List.map (fun b => (mk_name b, b)) (cut_zones nf (List.map open_row (krows bs last))) =
  cut_marks (last + 1) bs ++ [("internal-domain"%string, internal_on (last + 1) (nf - 1))].
Proof.
  unfold krows. induction bs as [| (k, b) bs IH]; [reflexivity |]. cbn [List.map app fst snd open_row cut_zones cut_marks mark_on mk_name]. rewrite IH.
  f_equal. destruct bs as [| (k', b') bs]; reflexivity.
Qed.
Lemma three_cut k b lo hi : three (mark_on k b lo hi) = three b.
Proof. unfold three, mark_on, perio3. cbn [mk_perio]. destruct (mk_perio b) as [[l |] |]; try reflexivity. rewrite firstn_firstn. reflexivity. Qed.
Lemma mark_on_cut k b lo hi lo' : mark_on k (mark_on k b lo hi) lo' = mark_on k b lo'.
Proof.
  unfold mark_on at 1 3. cbn [mk_type mark_on]. replace (perio3 (mark_on k b lo hi)) with (perio3 b); [reflexivity |].
  unfold perio3 at 2. unfold mark_on. cbn [mk_perio]. unfold perio3. destruct (mk_perio b) as [[l |] |]; try reflexivity. rewrite firstn_firstn. reflexivity.
Qed.
Lemma krows_cut last e bs : krows (cut_marks e bs) last = krows bs last.
Proof.
  unfold krows. f_equal. induction bs as [| (k, b) bs IH]; [reflexivity |]. cbn [cut_marks List.map fst snd]. rewrite IH. f_equal.
  rewrite mark_on_cut. reflexivity.
Qed.
Lemma perio_cut e bs : perio_rows (cut_marks e bs) = perio_rows bs.
Proof.
  unfold perio_rows. induction bs as [| (k, b) bs IH]; [reflexivity |]. cbn [cut_marks List.map flat_map row_of fst snd]. rewrite IH, three_cut. reflexivity.
Qed.
Lemma names_cut e bs : List.map fst (cut_marks e bs) = List.map fst bs.
Proof. induction bs as [| (k, b) bs IH]; [reflexivity |]. cbn [cut_marks List.map fst]. rewrite IH. reflexivity. Qed.
Lemma in_cut e bs k b : In (k, b) (cut_marks e bs) -> exists b0 hi, In (k, b0) bs /\ b = mark_on k b0 (zone_first b0) hi /\
  (hi = e - 1 \/ exists k' b', In (k', b') bs /\ hi = zone_first b' - 1).
Proof.
  induction bs as [| (k1, b1) bs IH]; [intros [] |]. intros [I | I].
  - injection I as <- <-. exists b1. eexists. split; [left; reflexivity |]. split; [reflexivity |]. destruct bs as [| (k2, b2) bs]; [left; reflexivity |].
    right. exists k2, b2. split; [right; left; reflexivity | reflexivity].
  - destruct (IH I) as (b0 & hi & J & E & H). exists b0, hi. split; [right; exact J |]. split; [exact E |]. destruct H as [H | (k' & b' & J' & H)]; [left; exact H |].
    right. exists k', b'. split; [right; exact J' | exact H].
Qed.
Lemma last_cut e bs : bs <> [] -> exists k b lo, In (k, b) (cut_marks e bs) /\ mk_index b = Some (ILrange lo (e - 1)).
Proof.
  induction bs as [| (k1, b1) bs IH]; [congruence |]. intros _. destruct bs as [| (k2, b2) bs].
  - exists k1. do 2 eexists. split; [left; reflexivity | reflexivity].
  - destruct IH as (k & b & lo & I & E); [discriminate |]. exists k, b, lo. split; [right; exact I | exact E].
Qed.

Lemma last_above bs : forall k b lo hi, In (k, b) bs -> mk_index b = Some (ILrange lo hi) -> hi <= last_boco bs.
Proof.
  intros k b lo hi. rewrite last_boco_end. induction bs as [| (k', b') l IH]; [intros [] |]. intros I E. cbn [flat_map]. destruct I as [I | I].
  - injection I as <- <-. rewrite E. cbn [app fold_right]. lia.
  - specialize (IH I E). destruct (mk_index b') as [il |]; [destruct il |]; cbn [app fold_right]; lia.
Qed.
Lemma last_perm bs bs' : Permutation bs bs' -> last_boco bs = last_boco bs'.
Proof.
  rewrite !last_boco_end. induction 1 as [| (k, b) l l' P IH | (k, b) (k', b') l | l1 l2 l3 P1 IH1 P2 IH2]; [reflexivity | | | congruence]; cbn [flat_map].
  - destruct (mk_index b) as [il |]; [destruct il |]; cbn [app fold_right]; lia.
  - destruct (mk_index b) as [il |]; [destruct il |]; destruct (mk_index b') as [il' |]; try destruct il'; cbn [app fold_right]; lia.
Qed.
Lemma last_nonneg bs : 0 <= last_boco bs.
Proof.
  rewrite last_boco_end. induction bs as [| (k, b) l IH]; [cbn; lia |]. cbn [flat_map]. destruct (mk_index b) as [il |]; [destruct il |]; cbn [app fold_right]; lia.
Qed.

Section Zones.
  Context (bs : list (string * mark Z)) (RG : mark_ranges bs).
  Definition sb : list (string * mark Z) := isort by_first bs.
  Definition lastb : Z := last_boco bs.
  Definition cb : list (string * mark Z) := cut_marks (lastb + 1) sb.
  Lemma sb_perm : Permutation sb bs.
  Proof. apply isort_perm. Qed.
  Lemma first_below k b : In (k, b) bs -> zone_first b <= lastb.
  Proof.
    intros I. assert (R := RG). unfold mark_ranges in R. rewrite Forall_forall in R. destruct (R _ I) as (lo & hi & IX & LH). assert (Q := last_above bs k b lo hi I IX). unfold zone_first, lastb. rewrite IX. lia.
  Qed.
  Lemma ksort_sb : ksort bs lastb = krows sb lastb.
  Proof.
    unfold ksort, krows. rewrite isort_end.
    - f_equal. rewrite (isort_map _ by_first); [reflexivity |]. intros a b. reflexivity.
    - intros r I. apply in_map_iff in I. destruct I as ((k, b) & <- & I). unfold kle. cbn [fst snd]. apply Z.leb_le. apply first_below in I. lia.
  Qed.
  Lemma last_cb : last_boco cb = lastb.
  Proof.
    assert (D : bs = [] \/ bs <> []) by (clear; destruct bs; [left; reflexivity | right; discriminate]). destruct D as [EB | EB]; [unfold cb, sb, lastb; rewrite EB; reflexivity |].
    assert (NE : sb <> []).
    { intros Q. assert (P := sb_perm). rewrite Q in P. apply Permutation_nil in P. contradiction. }
    destruct (last_cut (lastb + 1) sb NE) as (k & b & lo & I & IX). assert (Q := last_above cb k b lo _ I IX).
    enough (last_boco cb <= lastb) by lia. assert (N0 := last_nonneg bs). fold lastb in N0.
    destruct (Z_le_gt_dec (last_boco cb) lastb) as [? | G]; [assumption |]. exfalso.
    assert (B := last_below (lastb + 1) cb ltac:(lia)). destruct B as (_ & B); [| lia].
    intros k' b' lo' hi' I' IX'. unfold cb in I'. apply in_cut in I'. destruct I' as (b0 & hi & J & -> & H). cbn [mark_on mk_index] in IX'. injection IX' as _ <-.
    destruct H as [-> | (k2 & b2 & J2 & ->)]; [lia |]. apply (Permutation_in _ sb_perm) in J2. apply first_below in J2. lia.
  Qed.
  Lemma ksort_cb : ksort cb (last_boco cb) = ksort bs lastb.
  Proof.
    rewrite last_cb. transitivity (isort kle (krows sb lastb)); [unfold ksort, cb; rewrite krows_cut; reflexivity |].
    rewrite <- ksort_sb. apply isort_id_of_sorted. apply ksort_sorted.
  Qed.
  Lemma perio_cb : Permutation (perio_rows bs) (perio_rows cb).
  Proof. unfold cb. rewrite perio_cut. unfold perio_rows. apply Permutation_flat_map, Permutation_map. symmetry. apply sb_perm. Qed.
  Lemma names_cb : Permutation (List.map fst cb) (List.map fst bs).
  Proof. unfold cb. rewrite names_cut. apply Permutation_map, sb_perm. Qed.
  Lemma in_cb k b : In (k, b) cb -> exists b0 hi, In (k, b0) bs /\ b = mark_on k b0 (zone_first b0) hi /\ hi <= lastb.
  Proof.
    intros I. apply in_cut in I. destruct I as (b0 & hi & J & -> & H). exists b0, hi. split; [apply (Permutation_in _ sb_perm); exact J |]. split; [reflexivity |].
    destruct H as [-> | (k2 & b2 & J2 & ->)]; [lia |]. apply (Permutation_in _ sb_perm) in J2. apply first_below in J2. lia.
  Qed.
End Zones.

(** ** The groups of marks *)
Lemma mark4_again k b r lo hi : mark4 (k, b) = Ok r -> mark4 (k, mark_on k b lo hi) = Ok (row_of (k, mark_on k b lo hi)).
Proof.
  unfold mark4 at 1. intros H. apply bind_ok in H; destruct H as (u1 & A1 & H). apply bind_ok in H; destruct H as (u2 & A2 & H). apply bind_ok in H; destruct H as (t & A3 & H).
  apply bind_ok in H; destruct H as (kind & A4 & H). apply bind_ok in H; destruct H as (il & A5 & H).
  apply bind_ok in H; destruct H as (u3 & A6 & H). apply bind_ok in H; destruct H as ((lo0 & hi0) & A7 & H).
  apply bind_ok in H; destruct H as (p & A8 & H). clear H A1 A2 A5 A6 A7.
  destruct (mk_type b) as [t' |] eqn:T; [| discriminate]. cbn in A3. apply ok_inj in A3. subst t'.
  destruct (dget String.eqb t zonekinds) as [kd |] eqn:K; [| discriminate].
  unfold mark4, mark_on. cbn [mk_name face_or_bdface mk_geodim mk_type mk_index mk_perio]. rewrite String.eqb_refl. cbn [assertb bind]. rewrite T. cbn [or_err bind]. rewrite K. cbn [or_err bind assertb il_range].
  unfold face_or_bdface. cbn [mk_geodim assertb bind].
  unfold row_of, zone_first, zone_last, kind_mark, kind_of, three, perio3. cbn [fst snd mk_index mk_type mk_perio]. rewrite K.
  destruct (mk_perio b) as [[l |] |]; [| reflexivity | reflexivity]. destruct (zlen (firstn 3 l) =? 3) eqn:E; [| discriminate].
  rewrite firstn_firstn. change (Nat.min 3 3) with 3%nat. rewrite E. reflexivity.
Qed.
Lemma bounds_known bs fa b : write_bounds4 bs fa = Ok b -> (forall k x, In (k, x) bs -> exists r, mark4 (k, x) = Ok r) /\
  existsb (fun k => existsb (String.eqb k) reserved4) (List.map fst (perio_rows bs)) = false.
Proof.
  unfold write_bounds4. intros H. apply bind_ok in H; destruct H as (ms & M & H). split.
  - intros k x I. apply mapM_ok_Forall2 in M. clear H. induction M as [| y r l l' E M IH]; [destruct I |]. destruct I as [-> | I]; [eauto | exact (IH I)].
  - apply marks4_rows in M. destruct M as (-> & _). apply bind_ok in H; destruct H as (labels & _ & H). fold (perio_rows bs) in H. destruct (existsb _ _); [discriminate | reflexivity].
Qed.
Lemma bounds_total bs fa : (forall k x, In (k, x) bs -> mark4 (k, x) = Ok (row_of (k, x))) -> Forall good_label (List.map fst bs) ->
  existsb (fun k => existsb (String.eqb k) reserved4) (List.map fst (perio_rows bs)) = false ->
  Forall int32 (List.map (fun r : krow => fst (fst r)) (ksort bs (last_boco bs)) ++ [fa]) -> exists b, write_bounds4 bs fa = Ok b.
Proof.
  intros MK G RS I32. unfold write_bounds4.
  assert (MM : mapM mark4 bs = Ok (List.map row_of bs)) by (apply mapM_map; intros (k, x) I; apply MK; exact I).
  rewrite MM. cbn [bind]. assert (F := proj2 (marks4_rows _ _ MM)). rewrite rows_last.
  2: { eapply Forall_impl; [| exact F]. intros (k, x) (_ & _ & Q). exact Q. }
  assert (E : List.map (fun x => let '(lo, _, kk, _) := row_of x in (lo, kk)) bs ++ [(last_boco bs + 1, ("internal-domain"%string, 6))] =
    List.map (fun r : krow => fst r) (krows bs (last_boco bs))).
  { unfold krows. rewrite map_app, map_map. f_equal. }
  rewrite map_map, E, (isort_map (fun r : krow => fst r) kle) by reflexivity. fold (ksort bs (last_boco bs)). rewrite mapM_over.
  rewrite (mapM_map _ (fun r : krow => fst (snd (fst r)))).
  2: { intros r I. apply label_good. apply (Permutation_in _ (ksort_perm bs (last_boco bs))) in I. unfold krows in I. apply in_app_or in I. destruct I as [I | [<- | []]].
       - apply in_map_iff in I. destruct I as (kb & <- & I). cbn [fst snd]. rewrite Forall_forall in G. apply G. apply in_map. exact I.
       - cbn [fst snd]. split; [cbn; lia |]. intros c I. repeat (destruct I as [<- | I]; [cbn; lia |]). destruct I. }
  cbn [bind]. match goal with |- context [if existsb ?f ?l then _ else _] => replace (existsb f l) with false by (symmetry; exact RS) end. rewrite map_map, (i4_list_total _ I32). cbn [bind]. eauto.
Qed.

Section Mesh.
  Context (i2d : Z -> Z) (narrow : Z -> Z).

  (** The contents of a mesh file. *)
  Lemma file4 fm ls rows w mf : mesh4_ok fm ls rows -> writer_state fm = Ok w -> write_mesh4 narrow (fm_mesh fm) w = Ok mf ->
    exists bd, mf = M4 (me_nnode (fm_mesh fm)) (zlen ls) (me_ncell (fm_mesh fm)) (List.concat (w_coords w))
        (option_map (fun c => List.map (fun '(t, ed) => (t, ed_e2n ed)) (ec_dict c)) (me_cell2node (fm_mesh fm)))
        (List.concat rows) (List.map zlen ls) (List.concat ls) (Some bd) /\
      write_bounds4 (zone_marks (fm_mesh fm)) (zlen ls) = Ok bd /\ Forall int32 (List.concat rows).
  Proof.
    intros M W WM.
    destruct (writer_state_ok fm w W) as (x & y & z & zf & f2e & NC & ST & LC & WF & E1 & E2 & E3 & E4 & E5 & E6 & E7 & _ & _ & _ & _ & _ & E8 & E9).
    destruct (writer_faces_of _ _ _ (v4_faces _ _ _ M)) as (mt & WF' & MR). rewrite WF in WF'. inversion WF' as [[Q1 Q2]]. rewrite Q1 in E4, E5. rewrite Q2 in E6. clear WF' WF Q1 Q2 zf f2e.
    unfold write_mesh4 in WM. rewrite E6 in WM. cbn [or_err bind] in WM. apply bind_ok in WM; destruct WM as (cvofa & CV & WM). apply bind_ok in WM; destruct WM as (bd & BD & WM).
    apply ok_inj in WM. apply i4_list_ok in CV. destruct CV as (-> & I32). rewrite MR in WM, I32. rewrite E7, E2, (v4_nface _ _ _ M) in BD.
    exists bd. split; [| split; [exact BD | exact I32]]. rewrite <- WM, E1, E2, E3, E4, E5, (v4_nface _ _ _ M), csr_make_diffs. cbn [csr_make z_value]. f_equal.
    - apply i4_array_id. apply Forall_forall. intros v I. apply in_map_iff in I. destruct I as (r & <- & I).
      assert (S := v4_sizes _ _ _ M). rewrite Forall_forall in S. apply S in I. unfold int32. lia.
    - apply i4_array_id. apply M.
  Qed.

  Lemma read_zone_marks fm x y z ls rows con : mark_ranges (zone_marks (fm_mesh fm)) -> zone_marks (mesh_back4 fm x y z ls rows con) = cb (zone_marks (fm_mesh fm)).
  Proof.
    intros RG. unfold zone_marks at 1. cbn [mesh_back4 me_bocos]. set (bs := zone_marks (fm_mesh fm)) in *. change (last_boco bs) with (lastb bs). rewrite (ksort_sb bs RG), cut_krows. fold (cb bs).
    rewrite filter_app. cbn [filter internal_on mk_type]. change (negb (String.eqb "internal" "internal")) with false. cbv iota. rewrite app_nil_r.
    assert (Q : forall l, (forall k b, In (k, b) l -> mk_type b <> Some "internal"%string) ->
      filter (fun '((_, b) : string * mark Z) => match mk_type b with Some t => negb (String.eqb t "internal") | None => true end) l = l).
    { induction l as [| (k, b) l IH]; intros H; [reflexivity |]. cbn [filter]. rewrite IH by (intros k' b' I; apply (H k' b'); right; exact I). specialize (H k b (or_introl eq_refl)).
      destruct (mk_type b) as [t |]; [| reflexivity]. destruct (String.eqb_spec t "internal"); [congruence | reflexivity]. }
    apply Q. intros k b I. apply (in_cb bs RG) in I. destruct I as (b0 & hi & I & -> & _). cbn [mark_on mk_type]. exact (zone_type _ _ _ I).
  Qed.

  Lemma prepare_read fm x y z ls rows con tbl enum : prepare_mesh tbl enum (mesh_back4 fm x y z ls rows con) = (Ok tt, mesh_back4 fm x y z ls rows con).
  Proof.
    assert (BO : forall k b, In (k, b) (me_bocos (mesh_back4 fm x y z ls rows con)) -> nodebased b = false /\ exists lo hi, mk_index b = Some (ILrange lo hi)).
    { intros k b I. cbn [mesh_back4 me_bocos] in I. apply in_map_iff in I. destruct I as (b' & E & I). injection E as _ ->.
      apply cut_in in I. destruct I as (lo & g & hi & I & ->). apply in_map_iff in I. destruct I as (r & E & I). unfold open_row in E. injection E as _ <-.
      apply (Permutation_in _ (ksort_perm _ _)) in I. unfold krows in I. apply in_app_or in I. destruct I as [I | [<- | []]].
      - apply in_map_iff in I. destruct I as ((k0, b0) & <- & _). cbn [snd fst]. split; [reflexivity | do 2 eexists; reflexivity].
      - cbn [snd]. split; [reflexivity | do 2 eexists; reflexivity]. }
    unfold prepare_mesh. cbn [mesh_back4 me_faces]. set (m := mesh_back4 fm x y z ls rows con) in *.
    change (Mesh Z (me_ncell (fm_mesh fm)) (me_nnode (fm_mesh fm)) (zlen ls) None _ _ _) with m.
    assert (NB : existsb (fun '((_, b) : string * mark Z) => nodebased b) (me_bocos m) = false).
    { apply not_true_is_false. intros E. apply existsb_exists in E. destruct E as ((k, b) & I & E). destruct (BO k b I) as (Q & _). congruence. }
    rewrite NB. change (dmem String.eqb "boundary" (me_faces m)) with false. cbv iota.
    assert (AL : any_list (me_bocos m) = Ok false).
    { unfold any_list. rewrite (mapM_map _ (fun _ => false)).
      - cbn [bind]. f_equal. apply not_true_is_false. intros E. apply existsb_exists in E. destruct E as (q & I & E). apply in_map_iff in I. destruct I as (p & Q & _). congruence.
      - intros (k, b) I. destruct (BO k b I) as (_ & lo & hi & IX). rewrite IX. reflexivity. }
    rewrite AL. reflexivity.
  Qed.

  Theorem mesh_again fm ls rows w mf sol fm2 : mesh4_ok fm ls rows -> mark_ranges (zone_marks (fm_mesh fm)) ->
    writer_state fm = Ok w -> write_mesh4 narrow (fm_mesh fm) w = Ok mf -> read4 mf sol = Ok fm2 ->
    exists w2 mf2, writer_state fm2 = Ok w2 /\ write_mesh4 narrow (fm_mesh fm2) w2 = Ok mf2 /\ same_mesh_file mf mf2 /\
      (forall s, read4 mf2 s = read4 mf s) /\ mesh4_ok fm2 ls rows /\
      forall tbl enum, prepare_mesh tbl enum (fm_mesh fm2) = (Ok tt, fm_mesh fm2).
  Proof.
    intros M RG W WM R. destruct (read_mesh4 i2d narrow _ _ _ _ _ M W WM) as (x & y & z & con & NC & CW & CB & IC & CP & ST & FZ & RD).
    destruct (file4 _ _ _ _ _ M W WM) as (bd & EF & BD & C32).
    assert (RD2 := R). rewrite RD in RD2. apply bind_ok in RD2; destruct RD2 as (cells & RV & RD2). apply ok_inj in RD2. subst fm2.
    set (m2 := mesh_back4 fm x y z ls rows con) in *. set (bs := zone_marks (fm_mesh fm)) in *.
    assert (ZM : zone_marks m2 = cb bs) by (apply read_zone_marks; exact RG).
    match goal with |- context [writer_state ?f] => set (fm2 := f) in * end.
    assert (LR : zlen rows = zlen ls).
    { destruct (v4_faces _ _ _ M) as [f _ S _ | nn b i lb li rb ri _ _ _ SB SI _ _ _ _ EL ER].
      - destruct (fs_cells _ _ _ S) as (? & _ & _ & _ & L). exact L.
      - destruct (fs_cells _ _ _ SB) as (? & _ & _ & _ & LB1). destruct (fs_cells _ _ _ SI) as (? & _ & _ & _ & LB2). rewrite EL, ER, !zlen_app. lia. }
    assert (LA : 0 <= lastb bs < zlen ls).
    { apply last_below; [apply M |]. intros k b lo hi I IX. apply (v4_zones _ _ _ M k b lo hi I IX). }
    assert (M2 : mesh4_ok fm2 ls rows).
    { assert (NP := names_cb bs). constructor; cbn [fm_mesh fm2]; try apply M; try rewrite ZM.
      - reflexivity.
      - eapply faces_mixed; [reflexivity | | right; exact CB]. constructor; cbn [f_f2n f_f2c]; [exact CW | exact CP |]. eexists. split; [reflexivity |]. cbn [m_cols m_rows]. split; [reflexivity |]. split; [reflexivity | exact LR].
      - intros k b lo hi I IX. apply (in_cb bs RG) in I. destruct I as (b0 & h & I & -> & H). cbn [mark_on mk_index] in IX. injection IX as <- <-. split; [| lia].
        assert (Q := RG). unfold mark_ranges in Q. rewrite Forall_forall in Q. destruct (Q _ I) as (lo & hi & IX & LH). unfold zone_first. rewrite IX. apply (v4_zones _ _ _ M k b0 lo hi I IX).
      - eapply Permutation_Forall; [symmetry; exact NP | apply M].
      - eapply Permutation_NoDup; [symmetry; exact NP | apply M].
      - intros I. apply (Permutation_in _ NP) in I. exact (v4_reserved _ _ _ M I). }
    destruct (writer_state_ok fm w W) as (x0 & y0 & z0 & _ & _ & NC0 & ST0 & LC & _). rewrite NC in NC0. injection NC0 as <- <- <-. clear ST0.
    destruct (writer_faces_of _ _ _ (v4_faces _ _ _ M2)) as (mt & WF & MR).
    assert (W2 : exists w2, writer_state fm2 = Ok w2).
    { unfold writer_state. change (nodescoord (fm_mesh fm2)) with (@Ok (list Z * list Z * list Z) (x, y, z)). cbn [bind]. rewrite ST. cbn [bind]. change (me_nnode (fm_mesh fm2)) with (me_nnode (fm_mesh fm)). rewrite LC, Z.eqb_refl.
      cbn [assertb bind]. rewrite WF. cbn [bind]. eauto. }
    destruct W2 as (w2 & W2). exists w2.
    destruct (writer_state_ok fm2 w2 W2) as (x2 & y2 & z2 & zf2 & f2e2 & NC2 & ST2 & LC2 & WF2 & E1 & E2 & E3 & E4 & E5 & E6 & E7 & _).
    change (nodescoord (fm_mesh fm2)) with (@Ok (list Z * list Z * list Z) (x, y, z)) in NC2. apply ok_inj in NC2. injection NC2 as <- <- <-.
    assert (CO : w_coords w2 = w_coords w) by congruence.
    rewrite WF in WF2. apply ok_inj in WF2. injection WF2 as <- <-.
    assert (BD2 : exists bd2, write_bounds4 (cb bs) (zlen ls) = Ok bd2).
    { destruct (bounds_known _ _ _ BD) as (MK & RS). destruct (write_bounds_rows _ _ _ BD) as (_ & _ & OF & O32 & _). rewrite OF in O32. fold (lastb bs) in O32. apply bounds_total.
      - intros k b I. apply (in_cb bs RG) in I. destruct I as (b0 & h & I & -> & H). destruct (MK k b0 I) as (r & MR0). exact (mark4_again _ _ _ _ _ MR0).
      - rewrite <- ZM. apply (v4_labels _ _ _ M2).
      - rewrite <- RS. apply eq_true_iff_eq. rewrite !existsb_exists. assert (PP := Permutation_map fst (perio_cb bs)).
        split; intros (k & I & E); exists k; (split; [| exact E]); [apply (Permutation_in _ (Permutation_sym PP)) | apply (Permutation_in _ PP)]; exact I.
      - rewrite (ksort_cb bs RG). exact O32. }
    destruct BD2 as (bd2 & BD2).
    assert (WM2 : exists mf2, write_mesh4 narrow (fm_mesh fm2) w2 = Ok mf2).
    { unfold write_mesh4. rewrite E6. cbn [or_err bind]. rewrite MR, (i4_list_total _ C32). cbn [bind].
      change (fm_mesh fm2) with m2 in E7. rewrite E7, ZM, E2. change (me_nface (fm_mesh fm2)) with (zlen ls). rewrite BD2. cbn [bind]. eauto. }
    destruct WM2 as (mf2 & WM2). exists mf2. split; [exact W2 |]. split; [exact WM2 |].
    destruct (file4 _ _ _ _ _ M2 W2 WM2) as (bd2' & EF2 & BD2' & _). change (fm_mesh fm2) with m2 in BD2'. rewrite ZM, BD2 in BD2'. apply ok_inj in BD2'. subst bd2'.
    split; [| split; [| split; [exact M2 | intros tbl enum; apply prepare_read]]].
    - rewrite EF, EF2, CO. constructor; cbn [m4_no m4_fa m4_cv m4_coords m4_cells m4_cvofa m4_noofa_i m4_noofa_v m4_bounds]; try reflexivity.
      exists bd, bd2. destruct (write_bounds_rows _ _ _ BD) as (_ & L1 & O1 & _ & K1 & P1). destruct (write_bounds_rows _ _ _ BD2) as (_ & L2 & O2 & _ & K2 & P2).
      rewrite (ksort_cb bs RG) in L2, O2, K2. fold (lastb bs) in L1, O1, K1. rewrite L1 in L2. apply ok_inj in L2. rewrite O1, O2, K1, K2, P1, P2. do 2 (split; [reflexivity |]).
      split; [symmetry; exact L2 |]. do 2 (split; [reflexivity |]). apply perio_cb.
    - intros s. destruct (read_mesh4 i2d narrow _ _ _ _ _ M2 W2 WM2) as (x' & y' & z' & con' & NC' & _ & _ & IC' & _ & _ & _ & RD'). rewrite RD, RD'.
      change (nodescoord (fm_mesh fm2)) with (@Ok (list Z * list Z * list Z) (x, y, z)) in NC'. apply ok_inj in NC'. injection NC' as <- <- <-. rewrite IC in IC'. apply ok_inj in IC'. subst con'.
      change (me_ncell (fm_mesh fm2)) with (me_ncell (fm_mesh fm)). rewrite CO.
      assert (MB : mesh_back4 fm2 x y z ls rows con = mesh_back4 fm x y z ls rows con).
      { unfold mesh_back4 at 1. change (fm_mesh fm2) with m2. rewrite ZM, (ksort_cb bs RG). reflexivity. }
      assert (SB : forall c, state4 fm2 ls rows (w_coords w) s c = state4 fm ls rows (w_coords w) s c).
      { intros c. unfold state4. change (fm_mesh fm2) with m2. rewrite ZM, (ksort_cb bs RG). reflexivity. }
      rewrite MB. destruct (match s with None => Ok cells4 | Some s => read_vars4 (me_ncell (fm_mesh fm)) s cells4 end) as [c | e]; [| reflexivity]. cbn [bind]. rewrite SB. reflexivity.
  Qed.
End Mesh.

(** ** Solutions *)
Lemma string_leb_cons c a d b : String.leb (String c a) (String d b) = true <->
  (Ascii.N_of_ascii c < Ascii.N_of_ascii d)%N \/ (c = d /\ String.leb a b = true).
Proof.
  unfold String.leb. cbn [String.compare]. unfold Ascii.compare. destruct (N.compare_spec (Ascii.N_of_ascii c) (Ascii.N_of_ascii d)) as [E | L | G].
  - split; [intros H; right; split; [| exact H] | intros [L | (_ & H)]; [lia | exact H]].
    rewrite <- (Ascii.ascii_N_embedding c), E. apply Ascii.ascii_N_embedding.
  - split; [intros _; left; exact L | reflexivity].
  - split; [discriminate |]. intros [L | (-> & _)]; lia.
Qed.
Lemma string_leb_trans : forall a b c, String.leb a b = true -> String.leb b c = true -> String.leb a c = true.
Proof.
  induction a as [| x a IH]; intros b c H1 H2; [destruct c; reflexivity |]. destruct b as [| y b]; [discriminate |]. destruct c as [| z c]; [discriminate |].
  apply string_leb_cons in H1. apply string_leb_cons in H2. apply string_leb_cons.
  destruct H1 as [L1 | (-> & L1)], H2 as [L2 | (-> & L2)]; [left; lia | left; exact L1 | left; exact L2 | right; split; [reflexivity | eapply IH; eassumption]].
Qed.
Lemma sorted_again {V} (d : dict string V) : isort String.leb (sorted_names d) = sorted_names d.
Proof.
  apply isort_id_of_sorted. apply isort_sorted; [| exact string_leb_trans]. intros a b. destruct (String.leb_total a b); auto.
Qed.

Definition read_arr (cv : Z) (vals : list Z) : array :=
  if 1 <? zlen vals / cv then Arr [zlen vals / (zlen vals / cv); zlen vals / cv] false vals else Arr [zlen vals] false vals.
Lemma read_fold_exact cv vars : forall names d d', foldM (read_var4 cv vars) d names = Ok d' ->
  (forall var, In var names -> dget String.eqb var vars <> None) /\
  ds_data d' = dset_all (ds_data d) (List.map (fun var => (upper var, read_arr cv (val_of vars var))) names).
Proof.
  induction names as [| var names IH]; intros d d' H; [apply ok_inj in H; subst d'; split; [intros v [] | reflexivity] |].
  cbn [foldM] in H. apply bind_ok in H; destruct H as (d1 & R & H). unfold read_var4, dget_err in R.
  destruct (dget String.eqb var vars) as [vals |] eqn:G; [| discriminate]. cbn [bind] in R. apply bind_ok in R; destruct R as (a & A & R). apply ok_inj in R.
  assert (E : a = read_arr cv vals).
  { unfold read_arr. destruct (1 <? zlen vals / cv); [destruct (_ =? 0); [apply ok_inj in A; congruence | discriminate] |].
    apply bind_ok in A; destruct A as (u & _ & A). apply ok_inj in A. congruence. }
  destruct (IH _ _ H) as (I1 & I2). split.
  - intros v [<- | I]; [congruence | apply I1; exact I].
  - rewrite I2, <- R, E. cbn [List.map]. unfold val_of at 2. rewrite G. reflexivity.
Qed.
Lemma fold_same cv vars vars' : forall names d, (forall var, In var names -> dget String.eqb var vars = dget String.eqb var vars') ->
  foldM (read_var4 cv vars) d names = foldM (read_var4 cv vars') d names.
Proof.
  induction names as [| var names IH]; intros d H; [reflexivity |]. cbn [foldM]. unfold read_var4 at 1 3, dget_err. rewrite (H var (or_introl eq_refl)).
  match goal with |- bind ?x _ = bind ?y _ => destruct x; [cbn [bind]; apply IH; intros v I; apply H; right; exact I | reflexivity] end.
Qed.
Lemma attr_again v x : attr_of v = Ok x -> attr_of (SNum x) = Ok x.
Proof. intros H. assert (E := attr_of_ok _ _ H). rewrite <- E. exact H. Qed.
Lemma stat_upper n : stat_name n -> stat_name (upper n).
Proof.
  intros (a & b & t & I & ->). exists (upper a), (upper b), t. split; [exact I |]. rewrite !upper_app. cbn [In] in I. destruct I as [<- | [<- | [<- | []]]]; reflexivity.
Qed.

Section Sol.
  Context (i2d : Z -> Z).
  Lemma doubles_read cv v : array_doubles i2d (read_arr cv v) = v.
  Proof. unfold read_arr. destruct (1 <? zlen v / cv); reflexivity. Qed.

  (** The parameters of a mesh that was read. *)
  Definition weights4 (s : sol4) : dict string num := match s4_stats s with Some (w, _) => w | None => [] end.
  Lemma params_exact st ti s r : s4_attrs s = [("step"%string, st); ("time"%string, ti)] -> NoDup (List.map fst (weights4 s)) ->
    (forall k, In k (List.map fst (weights4 s)) -> weight_name k) ->
    read_info4 s = [("step"%string, SNum st); ("time"%string, SNum ti)] ++ nums (weights4 s) /\
    dupdate (params4 r) (read_info4 s) = params4 r ++ [("step"%string, SNum st); ("time"%string, SNum ti)] ++ nums (weights4 s).
  Proof.
    intros EA ND WN.
    assert (KN : List.map fst (nums (weights4 s)) = List.map fst (weights4 s)). { unfold nums. rewrite map_map. apply map_ext. intros (k, x). reflexivity. }
    assert (DJ : forall k, In k ["step"; "time"; "no_count"; "fa_count"; "cv_count"; "noofa_count"; "nboco"; "nfa_b"; "nfa_bp"]%string -> ~ In k (List.map fst (nums (weights4 s)))).
    { intros k I J. rewrite KN in J. exact (not_weight k I (WN k J)). }
    assert (RI : read_info4 s = [("step"%string, SNum st); ("time"%string, SNum ti)] ++ nums (weights4 s)).
    { unfold read_info4. rewrite EA. cbn [fold_left]. unfold weights4 in *. destruct (s4_stats s) as [(w, v) |]; [| reflexivity]. rewrite put_nums.
      change (dset String.eqb "time" (SNum ti) (dset String.eqb "step" (SNum st) [("step"%string, SNum (NInt 0)); ("time"%string, SNum (NInt 0))])) with [("step"%string, SNum st); ("time"%string, SNum ti)].
      apply dset_all_append. cbn [app List.map fst]. rewrite KN in *. constructor; [intros [Q | Q]; [discriminate | revert Q; apply DJ; cbn; tauto] |]. constructor; [apply DJ; cbn; tauto | exact ND]. }
    split; [exact RI |]. change (dupdate (params4 r) (read_info4 s)) with (dset_all (params4 r) (read_info4 s)). rewrite RI. apply dset_all_append.
    rewrite map_app. apply NoDup_app. split; [cbn; nodups |]. split.
    - cbn [app List.map fst]. rewrite KN in *. constructor; [intros [Q | Q]; [discriminate | revert Q; apply DJ; cbn; tauto] |]. constructor; [apply DJ; cbn; tauto | exact ND].
    - intros k I J. cbn [app List.map fst] in J. destruct J as [<- | [<- | J]]; [cbn in I; intuition discriminate | cbn in I; intuition discriminate |]. revert J. apply DJ. cbn in I |- *. tauto.
  Qed.

  Theorem sol_again params w s cv d r w2 : write_sol4 i2d params w = Ok s -> NoDup (List.map fst params) -> read_vars4 cv s cells4 = Ok d -> w_cells w2 = FSet d ->
    exists s2, write_sol4 i2d (dupdate (params4 r) (read_info4 s)) w2 = Ok s2 /\ same_sol_file s s2 /\ read_vars4 cv s2 cells4 = Ok d /\ read_info4 s2 = read_info4 s.
  Proof.
    intros WS NP RV EC. assert (SP := sol_written i2d _ _ _ WS).
    destruct (has_all (fd_items (w_cells w))) eqn:HA; [| rewrite (read_missing i2d _ _ _ _ _ SP HA) in RV; discriminate].
    assert (V := sq_vars _ _ _ _ SP). rewrite HA in V. destruct V as (a1 & a2 & a3 & _ & _ & _ & V). set (v1 := array_doubles i2d a1) in *. set (v2 := array_doubles i2d a2) in *. set (v3 := array_doubles i2d a3) in *.
    assert (AT : exists st ti, s4_attrs s = [("step"%string, st); ("time"%string, ti)] /\ attr_of (SNum st) = Ok st /\ attr_of (SNum ti) = Ok ti).
    { unfold write_sol4 in WS. apply bind_ok in WS; destruct WS as (st & S1 & H). apply bind_ok in H; destruct H as (ti & S2 & H). apply bind_ok in H; destruct H as (vars & _ & H).
      apply bind_ok in H; destruct H as (so & _ & H). apply ok_inj in H. subst s. exists st, ti. split; [reflexivity |]. split; eapply attr_again; eassumption. }
    destruct AT as (st & ti & EA & AS & AT).
    assert (ST := sq_stats _ _ _ _ SP).
    assert (WK : NoDup (List.map fst (weights4 s)) /\ (forall k, In k (List.map fst (weights4 s)) -> weight_name k)).
    { unfold weights4. destruct (s4_stats s) as [(ws, vars) |]; [| split; [constructor | intros k []]]. destruct ST as (_ & _ & _ & WE).
      assert (KE : List.map fst ws = List.map fst (filter is_weight params)). { rewrite <- WE, map_map. apply map_ext. intros (k, x). reflexivity. }
      rewrite KE. split; [apply nodup_keys_filter; exact NP |]. intros k I. apply in_map_iff in I. destruct I as ((k', x) & <- & I). apply filter_In in I. apply ends_wgt. apply I. }
    destruct WK as (WN & WK). destruct (params_exact st ti s r EA WN WK) as (RI & PE).
    assert (WA : forall k x, In (k, x) (weights4 s) -> attr_of (SNum x) = Ok x).
    { unfold weights4. destruct (s4_stats s) as [(ws, vars) |] eqn:SS; [| intros k x []]. clear -WS SS. unfold write_sol4 in WS. apply bind_ok in WS; destruct WS as (st & _ & H). apply bind_ok in H; destruct H as (ti & _ & H).
      apply bind_ok in H; destruct H as (vs & _ & H). apply bind_ok in H; destruct H as (so & SO & H). apply ok_inj in H. subst s. cbn [s4_stats] in SS. subst so.
      destruct (filter _ (fd_items (w_cells w))); [discriminate |]. apply bind_ok in SO; destruct SO as (ws' & WE & SO). apply bind_ok in SO; destruct SO as (dd & _ & SO). apply ok_inj in SO. injection SO as -> _.
      apply mapM_ok_Forall2 in WE. intros k x I. induction WE as [| (k', v) y l1 l2 E WE IH]; [destruct I |]. destruct I as [-> | I]; [| exact (IH I)].
      apply bind_ok in E; destruct E as (x' & A & E). apply ok_inj in E. injection E as _ ->. exact (attr_again _ _ A). }
    unfold read_vars4 in RV. rewrite V in RV. apply bind_ok in RV; destruct RV as (d1 & F1 & RV). assert (D1 := proj2 (read_fold_exact _ _ _ _ _ F1)).
    assert (D1' : ds_data d1 = [("RHO"%string, read_arr cv v1); ("RHOU"%string, read_arr cv v2); ("RHOE"%string, read_arr cv v3)]) by (rewrite D1; reflexivity). clear D1.
    set (tail := match s4_stats s with None => [] | Some (_, vars) => List.map (fun var => (upper var, read_arr cv (val_of vars var))) (sorted_names vars) end).
    assert (SN : forall ws vars, s4_stats s = Some (ws, vars) -> NoDup (sorted_names vars) /\ Permutation (sorted_names vars) (List.map fst vars) /\
      forall var, In var (sorted_names vars) -> stat_name (upper var) /\ lower (upper var) = var).
    { intros ws vars E. rewrite E in ST. destruct ST as (_ & EV & NV & _). assert (P : Permutation (sorted_names vars) (List.map fst vars)) by apply isort_perm.
      split; [eapply Permutation_NoDup; [symmetry; exact P | exact NV] |]. split; [exact P |]. intros var I. apply (Permutation_in _ P) in I. rewrite EV, map_map in I. apply in_map_iff in I. destruct I as ((n, a) & <- & I). cbn [low fst].
      apply filter_In in I. destruct I as (_ & I). apply is_stat_iff in I. cbn [fst] in I. rewrite upper_lower. split; [apply stat_upper; exact I |]. rewrite <- (upper_lower n). apply lower_upper_lower. }
    assert (DD : ds_data d = ds_data d1 ++ tail).
    { unfold tail. destruct (s4_stats s) as [(ws, vars) |] eqn:SS; [| apply ok_inj in RV; subst d1; rewrite app_nil_r; reflexivity].
      destruct (SN ws vars eq_refl) as (N1 & _ & N2). destruct (read_fold_exact _ _ _ _ _ RV) as (_ & D2). rewrite D2. apply dset_all_append. rewrite map_app. apply NoDup_app.
      split; [rewrite D1'; cbn; nodups |]. rewrite map_map. cbn [fst]. split.
      - apply (NoDup_map_inv lower). rewrite map_map. rewrite (map_ext_in _ (fun var => var)) by (intros var I; apply (proj2 (N2 var I))). rewrite map_id. exact N1.
      - intros k I J. apply in_map_iff in J. destruct J as (var & <- & J). destruct (N2 var J) as (S1 & E1). rewrite D1' in I.
        apply (stat_not_conserved (upper var) S1). rewrite <- E1 in I at 1. rewrite upper_lower in I. exact I. }
    rewrite D1' in DD. cbn [app] in DD.
    assert (FS : filter is_stat_var (ds_data d) = tail).
    { rewrite DD. cbn [filter]. change (is_stat_var ("RHO"%string, read_arr cv v1)) with false. change (is_stat_var ("RHOU"%string, read_arr cv v2)) with false. change (is_stat_var ("RHOE"%string, read_arr cv v3)) with false. cbv iota.
      unfold tail. destruct (s4_stats s) as [(ws, vars) |]; [| reflexivity]. destruct (SN ws vars eq_refl) as (_ & _ & N2). clear -N2.
      induction (sorted_names vars) as [| var l IH]; [reflexivity |]. cbn [List.map filter]. assert (Q := proj1 (N2 var (or_introl eq_refl))). apply is_stat_iff in Q. unfold is_stat_var at 1. cbn [fst]. rewrite Q.
      rewrite IH; [reflexivity |]. intros v I. apply N2. right. exact I. }
    set (st2 := match s4_stats s with None => None | Some (ws, vars) => Some (ws, List.map (fun var => (var, val_of vars var)) (sorted_names vars)) end).
    exists (S4 [("step"%string, st); ("time"%string, ti)] (s4_vars s) st2).
    assert (FW : filter is_weight (dupdate (params4 r) (read_info4 s)) = nums (weights4 s)).
    { rewrite PE, !filter_app. replace (filter is_weight (params4 r)) with (@nil (string * sval)) by reflexivity.
      change (filter is_weight [("step"%string, SNum st); ("time"%string, SNum ti)]) with (@nil (string * sval)). cbn [app]. clear -WK. unfold nums. induction (weights4 s) as [| (k, x) l IH]; [reflexivity |]. cbn [List.map filter].
      assert (Q : is_weight (k, SNum x) = true) by (apply ends_wgt; apply WK; left; reflexivity). rewrite Q, IH; [reflexivity |]. intros k' I. apply WK. right. exact I. }
    assert (PS : param (dupdate (params4 r) (read_info4 s)) "step" (SNum (NInt 0)) = SNum st /\ param (dupdate (params4 r) (read_info4 s)) "time" (SNum (NInt 0)) = SNum ti).
    { rewrite PE. split; reflexivity. }
    split; [| split; [| split]].
    - unfold write_sol4. rewrite (proj1 PS), (proj2 PS), AS, AT, EC. cbn [bind fd_items].
      assert (HA2 : forallb (fun x => dmem String.eqb x (ds_data d)) conserved = true) by (rewrite DD; reflexivity). rewrite HA2.
      assert (G3 : mapM (fun x => a <- dget_err String.eqb x (ds_data d) ;; Ok (x, a)) conserved = Ok [("RHO"%string, read_arr cv v1); ("RHOU"%string, read_arr cv v2); ("RHOE"%string, read_arr cv v3)]) by (rewrite DD; reflexivity).
      rewrite G3. cbn [bind]. rewrite put_total by (cbn; nodups). cbn [bind app].
      assert (L3 : List.map (low i2d) [("RHO"%string, read_arr cv v1); ("RHOU"%string, read_arr cv v2); ("RHOE"%string, read_arr cv v3)] = s4_vars s).
      { cbn [List.map low fst snd]. unfold low. cbn [fst snd]. rewrite !doubles_read, V. reflexivity. }
      rewrite L3, filter_stat, FS, filter_weight, FW. unfold tail, st2. destruct (s4_stats s) as [(ws, vars) |] eqn:SS; [| reflexivity].
      destruct (SN ws vars eq_refl) as (N1 & NP2 & N2). destruct ST as (NE & EV & NV & WE).
      destruct (sorted_names vars) as [| var0 names] eqn:SE.
      { exfalso. apply Permutation_nil in NP2. apply map_eq_nil in NP2. rewrite NP2 in EV. symmetry in EV. apply map_eq_nil in EV. contradiction. }
      rewrite <- SE in *. set (tl := List.map (fun var => (upper var, read_arr cv (val_of vars var))) (sorted_names vars)).
      assert (TL : tl <> []) by (unfold tl; rewrite SE; discriminate). destruct tl as [| t0 tl0] eqn:ET; [contradiction |]. rewrite <- ET. unfold tl.
      assert (WM : mapM (fun '((name, v) : string * sval) => x <- attr_of v ;; Ok (name, x)) (nums (weights4 s)) = Ok ws).
      { unfold weights4 in *. rewrite SS in *. clear -WA. unfold nums. induction ws as [| (k, x) l IH]; [reflexivity |]. cbn [List.map mapM]. rewrite (WA k x (or_introl eq_refl)). cbn [bind]. rewrite IH; [reflexivity |]. intros k' x' I. apply (WA k' x'). right. exact I. }
      rewrite WM. cbn [bind].
      assert (LW : List.map (low i2d) (List.map (fun var => (upper var, read_arr cv (val_of vars var))) (sorted_names vars)) = List.map (fun var => (var, val_of vars var)) (sorted_names vars)).
      { rewrite map_map. apply map_ext_in. intros var I. unfold low. cbn [fst snd]. rewrite doubles_read, (proj2 (N2 var I)). reflexivity. }
      rewrite put_total.
      + rewrite LW. reflexivity.
      + cbn [List.map app]. rewrite map_map. cbn [fst]. rewrite (map_ext_in _ (fun var => var)) by (intros var I; apply (proj2 (N2 var I))). rewrite map_id. exact N1.
    - unfold same_sol_file. cbn [s4_attrs s4_vars s4_stats]. split; [symmetry; exact EA |]. split; [reflexivity |]. unfold st2. destruct (s4_stats s) as [(ws, vars) |]; [| exact I].
      split; [reflexivity |]. destruct (SN ws vars eq_refl) as (N1 & NP2 & N2). destruct ST as (_ & _ & NV & _).
      assert (SF : vars = List.map (fun var => (var, val_of vars var)) (List.map fst vars)).
      { rewrite map_map. rewrite <- (map_id vars) at 1. apply map_ext_in. intros (k, v) I. cbn [fst]. unfold val_of. rewrite (in_dget _ seqb_eq _ _ _ NV I). reflexivity. }
      rewrite SF at 1. apply Permutation_map. symmetry. exact NP2.
    - unfold read_vars4. cbn [s4_vars s4_stats]. rewrite V, F1. cbn [bind]. unfold st2. destruct (s4_stats s) as [(ws, vars) |]; [| exact RV].
      destruct (SN ws vars eq_refl) as (N1 & NP2 & N2). rewrite <- RV. set (vars2 := List.map (fun var => (var, val_of vars var)) (sorted_names vars)).
      assert (K2 : List.map fst vars2 = sorted_names vars) by (unfold vars2; rewrite map_map; apply map_id).
      assert (SE : sorted_names vars2 = sorted_names vars). { unfold sorted_names at 1. rewrite K2. apply sorted_again. }
      rewrite SE. apply fold_same. intros var I. destruct (read_fold_exact _ _ _ _ _ RV) as (NN & _). specialize (NN var I).
      destruct (dget String.eqb var vars) as [vals |] eqn:G; [| congruence]. apply (in_dget _ seqb_eq); [change (NoDup (List.map fst vars2)); rewrite K2; exact N1 |].
      unfold vars2. apply in_map_iff. exists var. split; [unfold val_of; rewrite G; reflexivity | exact I].
    - unfold read_info4. cbn [s4_attrs s4_stats]. rewrite EA. unfold st2. destruct (s4_stats s) as [(ws, vars) |]; reflexivity.
  Qed.
End Sol.
