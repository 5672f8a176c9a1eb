(** * The contents of the HDF5 files written for IC3 (C97). *)
From Coq Require Import ZArith List Bool String Ascii Lia Permutation Sorted.
From Verif Require Import Py PyFacts Data CsrProofs Elements Conn ConnSpec ConnProofs Mesh MeshSpec Ic3Bytes Ic3 Ic3HeaderSpec Ic3FileSpec Ic3RoundSpec Ic3MeshProofs Ic3FileThm Ic3FileProps Ic3OkProofs Ic3WriteProofs Ic3V4 Ic3V4Spec Ic3V4Proofs Ic3V4MarkProofs Ic3V4SolProofs Ic3V4Props Ic3StartProps Ic3LayoutSpec Ic3LayoutProps Ic3LayoutV4Spec.

Definition seen (r : krow) : Z * string * Z := (fst (fst r), fst (snd (fst r)), snd (snd (fst r))).

Lemma sorted_map {A B} (f : A -> B) (P : A -> A -> Prop) (Q : B -> B -> Prop) l :
  (forall a b, P a b -> Q (f a) (f b)) -> StronglySorted P l -> StronglySorted Q (List.map f l).
Proof.
  intros H S. induction S as [| a l _ IH F]; cbn; constructor; [exact IH |]. apply Forall_forall. intros y I. apply in_map_iff in I.
  destruct I as (x & <- & I). apply H. rewrite Forall_forall in F. apply F. exact I.
Qed.
Lemma zones_seen m : Forall (fun '(k, b) => mk_name b = k /\ (exists t, mk_type b = Some t /\ dget String.eqb t zonekinds <> None) /\
    exists lo hi, mk_index b = Some (ILrange lo hi)) (zone_marks m) ->
  Forall2 zone4 (zone_marks m) (List.map (fun kb => (zone_first (snd kb), fst kb, kind_mark (snd kb))) (zone_marks m)).
Proof.
  assert (NI : Forall (fun kb => mk_type (snd kb) <> Some "internal"%string) (zone_marks m)).
  { apply Forall_forall. intros (k, b) I. apply filter_In in I. destruct I as (_ & I). cbn. intros E. rewrite E in I. discriminate I. }
  intros F. induction F as [| (k, b) l (_ & (t & T & K) & lo & hi & IX) F IH]; [constructor |]. inversion NI as [| ? ? N1 N2]; subst.
  cbn [List.map]. constructor; [| apply IH; exact N2]. cbn [fst snd] in *. destruct (dget String.eqb t zonekinds) as [n |] eqn:G; [| congruence].
  exists t, n, lo, hi. split; [exact T |]. split; [apply kinds; [congruence | exact G] |]. split; [exact IX |].
  unfold zone_first, kind_mark, kind_of. rewrite IX. cbn [snd fst]. rewrite T, G. reflexivity.
Qed.
Lemma only_filter {A} (P : A -> Prop) (p : A -> bool) l : (forall x, p x = true <-> P x) -> only P l (filter p l).
Proof.
  intros H. induction l as [| x l IH]; [constructor |]. cbn [filter]. destruct (p x) eqn:E; constructor; try exact IH; [apply H; exact E |].
  intros C. apply H in C. congruence.
Qed.

Section Layout4.
  Context (i2d : Z -> Z) (narrow : Z -> Z).

  (** C97: every dataset and attribute of the mesh file of the writer 4. *)
  Theorem C97_mesh4 tbl enum host endian solution fm mf so fm' ls rows :
    write4 i2d narrow tbl enum host endian solution fm = (Ok (mf, so), fm') ->
    faces_of (fm_mesh fm') ls rows -> Forall int32 (List.map zlen ls) -> Forall int32 (List.concat ls) ->
    Forall good_label (List.map fst (zone_marks (fm_mesh fm'))) -> holds_mesh (fm_mesh fm') ls rows mf.
  Proof.
    intros H FO S1 S2 GL. destruct (write4_parts _ _ _ _ _ _ _ _ _ _ _ H) as (w & W & WM & _).
    destruct (writer_state_ok fm' w W) as (x & y & z & zf & f2e & NC & ST & LC & WF & E1 & E2 & E3 & E4 & E5 & E6 & E7 & _).
    destruct (writer_faces_of _ _ _ FO) as (mt & WF' & MR). rewrite WF in WF'.
    assert (Q1 := f_equal (fun r => match r with Ok (a, _) => Some a | _ => None end) WF').
    assert (Q2 := f_equal (fun r => match r with Ok (_, Some a) => Some a | _ => None end) WF'). cbn in Q1, Q2.
    injection Q1 as ->. destruct f2e as [mt' |]; [| discriminate]. injection Q2 as ->. clear WF' WF.
    unfold write_mesh4 in WM. rewrite E6 in WM. cbn [or_err bind] in WM. apply bind_ok in WM; destruct WM as (cvofa & CV & WM). apply bind_ok in WM; destruct WM as (bd & BD & WM).
    apply ok_inj in WM. apply i4_list_ok in CV. destruct CV as (-> & _). rewrite MR in WM.
    rewrite E7 in BD. apply write_bounds_rows in BD. destruct BD as (FZ & LB & OF & _ & KD & PE). apply labels_good in LB; [| exact GL].
    set (m := fm_mesh fm') in *. set (last := last_boco (zone_marks m)) in *.
    exists (w_coords w), (List.map (fun kb => (zone_first (snd kb), fst kb, kind_mark (snd kb))) (zone_marks m)), (List.map seen (ksort (zone_marks m) last)), bd.
    split; [exact (points_stacked _ _ _ _ _ NC ST LC) |]. split; [apply zones_seen; exact FZ |].
    split.
    { rewrite (Permutation_map seen (ksort_perm (zone_marks m) last)). unfold krows. rewrite map_app, map_map. unfold last. rewrite last_boco_end. apply Permutation_refl. }
    split.
    { apply (sorted_map seen (fun a b => kle a b = true)); [| apply ksort_sorted]. intros a b. unfold kle, seen. cbn [fst snd]. rewrite Z.leb_le. auto. }
    subst mf. cbn [m4_no m4_fa m4_cv m4_coords m4_cells m4_cvofa m4_noofa_i m4_noofa_v m4_bounds]. rewrite E1, E2, E3.
    do 4 (split; [reflexivity |]).
    split.
    { intros c E. rewrite E. eexists. split; [reflexivity |]. clear. induction (ec_dict c) as [| (t, ed) d IH]; cbn [List.map]; constructor; auto. }
    split; [reflexivity |]. split; [rewrite E4, csr_make_diffs; apply i4_array_id; exact S1 |].
    split; [rewrite E5; cbn [csr_make z_value]; apply i4_array_id; exact S2 |]. split; [reflexivity |].
    rewrite !map_map, LB, OF, KD, PE, E2. do 3 (split; [reflexivity |]).
    unfold perio_rows, periods. clear. induction (zone_marks m) as [| (k, b) l IH]; [reflexivity |]. cbn [List.map flat_map row_of fst snd]. rewrite IH. f_equal.
    unfold three. destruct (mk_perio b) as [[q |] |]; reflexivity.
  Qed.

  (** C97: every dataset and attribute of its solution file. *)
  Theorem C97_solution4 tbl enum host endian fm mf s fm' :
    write4 i2d narrow tbl enum host endian true fm = (Ok (mf, Some s), fm') -> holds_solution i2d fm' s.
  Proof.
    intros H. destruct (write4_parts _ _ _ _ _ _ _ _ _ _ _ H) as (w & W & _ & SO & _). destruct SO as (s' & E & SO). injection E as <-.
    destruct (writer_state_ok fm' w W) as (x & y & z & zf & f2e & _ & _ & _ & _ & _ & _ & _ & _ & _ & _ & _ & _ & _ & _ & _ & _ & _ & EC).
    apply sol_written in SO. rewrite EC in SO. destruct SO as [(st & ti & A1 & A2 & AT) VA STT]. unfold holds_solution. cbv zeta.
    set (cells := fd_items (fm_cells fm')) in *.
    exists st, ti, (filter is_stat_var cells), (filter is_weight (fm_params fm')).
    split; [exact A1 |]. split; [exact A2 |]. split; [exact AT |].
    split.
    { intros a b c D1 D2 D3. unfold has_all in VA. cbn [forallb conserved] in VA. unfold dmem in VA. rewrite D1, D2, D3 in VA. cbn [andb] in VA.
      destruct VA as (a1 & a2 & a3 & Q1 & Q2 & Q3 & ->). congruence. }
    split.
    { intros name I N. assert (HA : has_all cells = false).
      { destruct (has_all cells) eqn:E; [| reflexivity]. unfold has_all in E. rewrite forallb_forall in E. specialize (E name I). unfold dmem in E. rewrite N in E. discriminate. }
      rewrite HA in VA. exact VA. }
    split; [apply only_filter; intros (k, a); apply is_stat_iff |]. split; [apply only_filter; intros (k, a); apply ends_wgt |].
    destruct (s4_stats s) as [(ws, vars) |]; [| exact STT]. destruct STT as (NE & -> & _ & EW). split; [exact NE |]. split.
    - rewrite <- EW. clear. induction ws as [| (k, v) ws IH]; cbn [List.map]; constructor; [split; reflexivity | exact IH].
    - clear. induction (filter is_stat_var cells) as [| (k, a) l IH]; cbn [List.map]; constructor; [split; [apply C39_case | reflexivity] | exact IH].
  Qed.
End Layout4.
Print Assumptions C97_mesh4.
Print Assumptions C97_solution4.

(** The mesh of Ic3V4Props: two triangles, a periodic mark at the first face and a wall after it, and what its files hold. *)
Example c97_mesh4_case : exists mf s, 
  write4 ex_i2d (fun n => n) cgns_elem2faces (fun l => l) Little "native" true (ex4_fm ex4_tiles "RHO") = (Ok (mf, Some s), ex4_fm ex4_tiles "RHO") /\
  faces_of (ex_mesh ex4_tiles) ex_ls ex_rows /\ Forall int32 (List.map zlen ex_ls) /\ Forall int32 (List.concat ex_ls) /\
  Forall good_label (List.map fst (zone_marks (ex_mesh ex4_tiles))) /\
  option_map (fun b => (b4_labels b, b4_offsets b, b4_kinds b)) (m4_bounds mf) =
    Some (["per"; "out"; "internal-domain"]%string, [0; 2; 4; 5], [2; 1; 6]) /\ List.map fst (s4_vars s) = ["rho"; "rhou"; "rhoe"]%string.
Proof.
  eexists _, _. split; [vm_compute; reflexivity |].
  assert (M : mesh4_ok (ex4_fm ex4_tiles "RHO") ex_ls ex_rows) by (apply ex4_each; left; reflexivity).
  split; [apply (v4_faces _ _ _ M) |]. split; [repeat constructor; vm_compute; congruence |]. split; [apply (v4_nodes _ _ _ M) |]. split; [apply (v4_labels _ _ _ M) |].
  split; vm_compute; reflexivity.
Qed.
