(** * C83: [vtkpack] end to end. *)
From Coq Require Import Ascii DecimalString DecimalNat Permutation Lia.
From Verif Require Import Py PyFacts ConnProofs Mesh Vtk VtkSpec VtkProofs VtkMeshProps Files FilesSpec FilesProofs FilesProps Race VtkList VtkListProps Hdf5 Hdf5Spec Hdf5Proofs Hdf5Props VtkPack.

Section C83.
  Context {F P D V T : Type} (mdist kdist : P -> P -> D) (dle : D -> D -> bool)
          (nearest : list P -> P -> Z) (truth : T -> bool) (tol : D) (centers : grid (list F) -> list P).
  Hypothesis dle_total : forall a b, dle a b = true \/ dle b a = true.
  Hypothesis dle_trans : forall a b c, dle a b = true -> dle b c = true -> dle a c = true.
  Hypothesis nearest_ok : forall ref p, ref <> [] ->
    0 <= nearest ref p /\ exists q, nth_error ref (Z.to_nat (nearest ref p)) = Some q /\
                                   forall q', In q' ref -> dle (kdist q p) (kdist q' p) = true.

  Notation pack := (vtkpack (V := V) mdist kdist dle nearest truth tol centers).
  Notation rd := (read_file mdist kdist dle nearest truth).
  Notation fsys := (files (node F V T)).
  Notation vtk := (vtkc F V T).

  (** The VTK file of a given name. *)
  Definition vtk_at (fs : fsys) (name : string) (c : vtk) : Prop := dget String.eqb (path_str (path_of name)) fs = Some (NVtk c).
  (** The cells of [c] are those at the places [ref], in any order, and its arrays have one value per cell
      and plain names. *)
  Record matching (ref : list P) (c : vtk) : Prop := {
    mt_count : zlen (centers (vc_grid c)) = zlen ref;
    mt_near : forall p, In p (centers (vc_grid c)) -> exists q, In q ref /\ dle (kdist q p) tol = true;
    mt_apart : separated kdist dle ref tol (centers (vc_grid c));
    mt_sizes : forall n data, In (n, data) (vc_data c) -> zlen data = zlen ref;
    mt_keys : NoDup (dkeys (vc_data c));
    mt_names : forall n, In n (dkeys (vc_data c)) -> n <> "time"%string -> good_part n }.
  (** The cells of [c] cannot be those at the places [ref]. *)
  Definition unmatched (ref : list P) (c : vtk) : Prop :=
    (zlen (centers (vc_grid c)) = zlen ref /\
     exists p, In p (centers (vc_grid c)) /\ forall q, In q ref -> dle (mdist q p) tol = false /\ dle (kdist q p) tol = false) \/
    (zlen (centers (vc_grid c)) <> zlen ref /\ zlen (centers (vc_grid c)) <> 1 /\ zlen ref <> 1).

  (** ** The data sets read *)
  Lemma pick_keys (g : list V -> res (list V)) names data : forall (acc d : dict string (dval V T)),
    foldM (fun d name => v <- dget_err String.eqb name data ;; w <- g v ;; Ok (dset String.eqb name (DArr w) d)) acc names = Ok d ->
    NoDup (dkeys acc) -> NoDup (dkeys d) /\ (forall n, In n names -> exists arr, dget String.eqb n d = Some (DArr arr)).
  Proof.
    intros acc d H Hnd. split.
    - revert acc H Hnd. induction names as [|n names IH]; intros acc H Hnd; [cbn in H; injection H as <-; exact Hnd|].
      cbn [foldM] in H. apply bind_ok in H. destruct H as (acc' & H0 & H). apply bind_ok in H0. destruct H0 as (v & Hv & H0).
      apply bind_ok in H0. destruct H0 as (w & Hw & H0). injection H0 as <-. apply (IH _ H). apply (dset_NoDup _ seqb_eq). exact Hnd.
    - intros n Hn. assert (G := pick_get g names data acc d H n). destruct (in_dec string_dec n names) as [_|N]; [|contradiction].
      destruct (dget String.eqb n d) as [x|] eqn:E.
      + destruct (dget String.eqb n data) as [v|]; [|discriminate]. destruct (g v) as [w|]; [|discriminate]. injection G as ->. eauto.
      + exfalso. clear G. assert (Hk : forall m (a b : dict string (dval V T)), foldM (fun d name => v <- dget_err String.eqb name data ;; w <- g v ;; Ok (dset String.eqb name (DArr w) d)) a m = Ok b ->
           forall x, In x m \/ dget String.eqb x a <> None -> dget String.eqb x b <> None).
        { clear. induction m as [|y m IH]; intros a b H x Hx.
          - cbn in H. injection H as <-. destruct Hx as [[]|Hx]. exact Hx.
          - cbn [foldM] in H. apply bind_ok in H. destruct H as (a' & H0 & H). apply bind_ok in H0. destruct H0 as (v & Hv & H0).
            apply bind_ok in H0. destruct H0 as (w & Hw & H0). injection H0 as <-. apply (IH _ _ H). destruct (string_dec x y) as [->|Hxy].
            + right. rewrite (dget_dset_eq _ seqb_eq). discriminate.
            + destruct Hx as [[Hx|Hx]|Hx]; [congruence|left; exact Hx|]. right. rewrite (dget_dset_neq _ seqb_eq) by exact Hxy. exact Hx. }
        exact (Hk _ _ _ H n (or_introl Hn) E).
  Qed.

  Lemma read_shape ref (c : vtk) (dl : dict string (dval V T)) : rd ref [] tol (vfile_of centers c) = Ok dl -> NoDup (dkeys (vc_data c)) ->
    NoDup (dkeys dl) /\ (forall n, In n (dkeys dl) -> n = "time"%string \/ In n (dkeys (vc_data c))) /\
    (forall n, In n (dkeys (vc_data c)) -> n <> "time"%string -> exists arr, dget String.eqb n dl = Some (DArr arr)) /\
    (~ In "time"%string (dkeys (vc_data c)) ->
       dget String.eqb "time" dl = match vc_time c with Some t => if truth t then Some (DTime t) else None | None => None end).
  Proof.
    intros H Hnd. unfold read_file in H. cbn [v_centers v_data v_time vfile_of] in H. apply bind_ok in H. destruct H as (l & _ & H).
    apply bind_ok in H. destruct H as (d & _ & H). apply bind_ok in H. destruct H as (dl0 & H0 & H).
    assert (G : NoDup (dkeys dl0) /\ (forall n, In n (dkeys (vc_data c)) -> exists arr, dget String.eqb n dl0 = Some (DArr arr)) /\
                (forall n, In n (dkeys dl0) -> In n (dkeys (vc_data c)))).
    { assert (P0 : forall g, pick (dkeys (vc_data c)) (vc_data c) g = Ok dl0 ->
        NoDup (dkeys dl0) /\ (forall n, In n (dkeys (vc_data c)) -> exists arr, dget String.eqb n dl0 = Some (DArr arr)) /\ (forall n, In n (dkeys dl0) -> In n (dkeys (vc_data c)))).
      { intros g Hg. unfold pick in Hg. destruct (pick_keys g _ _ _ _ Hg ltac:(constructor)) as (A & B). split; [exact A|]. split; [exact B|].
        intros n Hn. destruct (in_dec string_dec n (dkeys (vc_data c))) as [Hi|Hi]; [exact Hi|]. exfalso. assert (X := pick_get g _ _ _ _ Hg n).
        destruct (in_dec string_dec n (dkeys (vc_data c))) as [?|_]; [contradiction|]. apply (dget_Some_iff _ seqb_eq) in Hn. destruct Hn as (v & Hv). rewrite Hv in X. discriminate. }
      destruct (dgt dle d tol); [|exact (P0 _ H0)]. apply bind_ok in H0. destruct H0 as (ri & _ & H0). apply bind_ok in H0. destruct H0 as (df & _ & H0).
      apply bind_ok in H0. destruct H0 as (dm & _ & H0). destruct (dgt dle dm tol); [discriminate|]. exact (P0 _ H0). }
    destruct G as (G1 & G2 & G3).
    assert (N0 : ~ In "time"%string (dkeys (vc_data c)) -> dget String.eqb "time" dl0 = None) by (intros N; apply (dget_None _ seqb_eq); intros X; exact (N (G3 _ X))).
    injection H as <-. destruct (vc_time c) as [t|]; [destruct (truth t)|].
    - split; [apply (dset_NoDup _ seqb_eq); exact G1|]. split; [|split].
      + intros n Hn. apply (dget_Some_iff _ seqb_eq) in Hn. destruct Hn as (v & Hv). destruct (string_dec n "time") as [->|Hne]; [left; reflexivity|].
        rewrite (dget_dset_neq _ seqb_eq) in Hv by exact Hne. right. apply G3. apply (dget_Some_iff _ seqb_eq). eauto.
      + intros n Hn Hne. rewrite (dget_dset_neq _ seqb_eq) by exact Hne. apply G2. exact Hn.
      + intros _. apply (dget_dset_eq _ seqb_eq).
    - split; [exact G1|]. split; [|split]; [intros n Hn; right; apply G3; exact Hn|intros n Hn _; apply G2; exact Hn|exact N0].
    - split; [exact G1|]. split; [|split]; [intros n Hn; right; apply G3; exact Hn|intros n Hn _; apply G2; exact Hn|exact N0].
  Qed.

  Lemma stored_keys (d : dict string (dval V T)) : dkeys (stored_set d) = dkeys d.
  Proof. unfold dkeys, stored_set. rewrite List.map_map. reflexivity. Qed.
  Lemma stored_get (d : dict string (dval V T)) n : dget String.eqb n (stored_set d) = match dget String.eqb n d with Some v => Some (stored v) | None => None end.
  Proof. induction d as [|[k v] d IH]; [reflexivity|]. cbn [stored_set List.map dget fst snd]. destruct (String.eqb n k); [reflexivity|exact IH]. Qed.

  (** ** Statements *)

  (** A file is missing: refused before anything is read. *)
  Theorem C83_missing : forall fuel ver names (fs : fsys) nm,
    In nm names -> ~ In (path_str (path_of nm)) (dkeys fs) -> pack fuel ver names fs = (Err RuntimeError, fs).
  Proof.
    intros fuel ver names fs nm Hin Hno. unfold vtkpack. replace (allexist fs names) with false; [reflexivity|].
    symmetry. unfold allexist. apply not_true_is_false. rewrite forallb_forall. intros H. specialize (H nm Hin). unfold exists_, fexists in H.
    apply (dmem_in _ seqb_eq) in H. exact (Hno H).
  Qed.

  (** Without any file it refuses as well. *)
  Theorem C83_none : forall fuel ver (fs : fsys), pack fuel ver [] fs = (Err AssertionError, fs).
  Proof. reflexivity. Qed.
  (** Whatever the outcome, at most one file is written, under a name that was free: dumped.h5, or the first free
      numbered name.  The name returned is that of this file. *)
  Theorem C83_safe : forall fuel ver names (fs : fsys) r fs',
    (List.length fs + 1 <= fuel)%nat -> pack fuel ver names fs = (r, fs') ->
    (fs' = fs /\ exists e, r = Err e) \/
    exists name x, ~ In name (dkeys fs) /\ fs' = dset String.eqb name x fs /\
      ((exists h, x = NH5 h /\ r = Ok name) \/ (x = NPartial /\ exists e, r = Err e)) /\
      (name = "dumped.h5"%string \/
       exists n, (1 <= n)%nat /\ name = ("dumped" ++ "(" ++ numeral n ++ ")" ++ ".h5")%string /\ In "dumped.h5"%string (dkeys fs) /\
         forall k, (1 <= k < n)%nat -> In ("dumped" ++ "(" ++ numeral k ++ ")" ++ ".h5")%string (dkeys fs)).
  Proof.
    intros fuel ver names fs r fs' Hf H. unfold vtkpack in H. destruct (allexist fs names); [|injection H as <- <-; left; split; [reflexivity|eauto]].
    destruct (pack_read mdist kdist dle nearest truth tol centers fs names) as [[g dls]|e]; [|injection H as <- <-; left; split; [reflexivity|eauto]].
    unfold pack_dump in H. destruct (export_mesh g) as [m|e]; [|injection H as <- <-; left; split; [reflexivity|eauto]].
    assert (Hex : forall s, fexists fs s = true <-> In s (dkeys fs)) by (intros s; apply (dmem_in _ seqb_eq)).
    destruct (C45_safe_name (fexists fs) (dkeys fs) fuel (path_of "dumped.h5") (Path_ "" []) "dumped.h5" "dumped" ".h5") as (q & ch & E & Gq & Fq & C1 & C2 & C3).
    - split; [left; reflexivity|]. constructor; [|constructor]. split; [discriminate|]. split; [discriminate|nochars].
    - left. split; reflexivity.
    - left. split; [reflexivity|]. split; [|discriminate]. exists "h5"%string. split; [reflexivity|]. split; [discriminate|nochars].
    - intros s Hs. apply Hex. exact Hs.
    - unfold dkeys. rewrite List.map_length. exact Hf.
    - rewrite E in H.
      assert (Hfree : ~ In (path_str q) (dkeys fs)) by (intros X; apply Hex in X; congruence).
      assert (Hname : path_str q = "dumped.h5"%string \/
        exists n, (1 <= n)%nat /\ path_str q = ("dumped" ++ "(" ++ numeral n ++ ")" ++ ".h5")%string /\ In "dumped.h5"%string (dkeys fs) /\
         forall k, (1 <= k < n)%nat -> In ("dumped" ++ "(" ++ numeral k ++ ")" ++ ".h5")%string (dkeys fs)).
      { destruct ch.
        - right. destruct (C3 eq_refl) as (n & Hn & (R & Q) & Hk). exists n. split; [exact Hn|].
          assert (Hone : forall r0 : path, p_root r0 = ""%string -> forall s, p_parts r0 = [s] -> path_str r0 = s).
          { intros [rr rp] ER s EP. cbn in ER, EP. subst. reflexivity. }
          split; [apply Hone; assumption|]. split; [apply Hex; apply C2; reflexivity|].
          intros k Hkn. apply Hex. specialize (Hk k (Path_ "" [("dumped" ++ "(" ++ numeral k ++ ")" ++ ".h5")%string]) Hkn).
          rewrite (Hone (Path_ "" [("dumped" ++ "(" ++ numeral k ++ ")" ++ ".h5")%string]) eq_refl _ eq_refl) in Hk. apply Hk. split; reflexivity.
        - left. rewrite (C1 eq_refl). reflexivity. }
      right. exists (path_str q). destruct (dl_dumphdf ver m (List.map stored_set dls)) as [h|e]; injection H as <- <-.
      + exists (NH5 h). split; [exact Hfree|]. split; [reflexivity|]. split; [left; eauto|exact Hname].
      + exists NPartial. split; [exact Hfree|]. split; [reflexivity|]. split; [right; eauto|exact Hname].
  Qed.

  Lemma allexist_ok (fs : fsys) names : (forall nm, In nm names -> In (path_str (path_of nm)) (dkeys fs)) -> allexist fs names = true.
  Proof. intros H. unfold allexist. apply forallb_forall. intros nm Hn. unfold exists_, fexists. apply (dmem_in _ seqb_eq). exact (H nm Hn). Qed.
  Lemma vtk_at_in fs nm (c : vtk) : vtk_at fs nm c -> In (path_str (path_of nm)) (dkeys fs).
  Proof. intros H. apply (dget_Some_iff _ seqb_eq). eauto. Qed.

  (** A file whose cells are not those of the first one, the files before it being right: ValueError, and
      nothing is written. *)
  Theorem C83_refused : forall fuel ver n0 c0 before nm c after fs,
    vtk_at fs n0 c0 -> centers (vc_grid c0) <> [] ->
    (forall n, In n ((n0 :: before) ++ nm :: after) -> In (path_str (path_of n)) (dkeys fs)) ->
    (forall n, In n (n0 :: before) -> exists c, vtk_at fs n c /\ matching (centers (vc_grid c0)) c) ->
    vtk_at fs nm c -> unmatched (centers (vc_grid c0)) c ->
    pack fuel ver ((n0 :: before) ++ nm :: after) fs = (Err ValueError, fs).
  Proof.
    intros fuel ver n0 c0 before nm c after fs H0 Hne Hall Hbef Hc Hbad. unfold vtkpack. rewrite (allexist_ok fs _ Hall).
    unfold pack_read. cbn [app]. assert (R0 : pvread fs n0 = Ok c0) by (unfold pvread; rewrite H0; reflexivity). rewrite R0. cbn [bind].
    set (ref := centers (vc_grid c0)) in *. set (rf := fun name : string => _).
    assert (Hm : forall l, (forall n, In n l -> exists c, vtk_at fs n c /\ matching ref c) -> mapM rf (l ++ nm :: after) = Err ValueError).
    { induction l as [|n l IH]; intros Hl.
      - cbn [app mapM]. replace (rf nm) with (@Err (dict string (dval V T)) ValueError); [reflexivity|]. unfold rf, pvread. rewrite Hc. cbn [bind]. symmetry.
        destruct Hbad as [(Hz & p & Hp & Hfar)|(Hz & Hz1 & Hz2)].
        + exact (C61_too_far mdist kdist dle nearest truth dle_total dle_trans nearest_ok ref [] tol (vfile_of centers c) p Hz Hp Hfar).
        + exact (C61_counts mdist kdist dle nearest truth ref [] tol (vfile_of centers c) Hz Hz1 Hz2).
      - cbn [app mapM]. destruct (Hl n (or_introl eq_refl)) as (c' & Hc' & M). unfold rf at 1. unfold pvread at 1. rewrite Hc'. cbn [bind].
        destruct (C61_accepts mdist kdist dle nearest truth dle_total dle_trans nearest_ok ref [] tol (vfile_of centers c') (mt_count _ _ M) Hne (mt_near _ _ M)) as (dl & Edl).
        { intros x Hx. cbn [names_of v_data vfile_of] in *. apply (dget_Some_iff _ seqb_eq) in Hx. destruct Hx as (data & Hd). exists data. split; [exact Hd|].
          apply (mt_sizes _ _ M x). apply (dget_in _ seqb_eq). exact Hd. }
        rewrite Edl. cbn [bind]. rewrite IH; [reflexivity|]. intros x Hx. apply Hl. right. exact Hx. }
    specialize (Hm (n0 :: before) Hbef). cbn [app] in Hm. rewrite Hm. reflexivity.
  Qed.

  (** All files are right: one HDF5 file is written, and the others are left as they were.  Its mesh is that of the
      first file, type by type; it has, for each input file, each array, whose value number [j] is that of a cell
      of this file at the place of cell [j] of the first file, all values being used once; and the time. *)
  Theorem C83_packed : forall fuel ver n0 names fs c0 cs,
    (List.length fs + 1 <= fuel)%nat ->
    vtk_at fs n0 c0 -> centers (vc_grid c0) <> [] ->
    grid_of (vc_grid c0) cs -> Forall known_cell cs -> vertices_ok (vc_grid c0) cs -> cs <> [] ->
    Forall (fun p => List.length p = 3%nat) (g_points (vc_grid c0)) ->
    (forall n, In n (n0 :: names) -> exists c, vtk_at fs n c /\ matching (centers (vc_grid c0)) c) ->
    exists name h,
      pack fuel ver (n0 :: names) fs = (Ok name, dset String.eqb name (NH5 h) fs) /\ ~ In name (dkeys fs) /\
      open_old h = (Some (AStr "datalist"), Some (AStr ver), Some (AInt 1)) /\
      (exists g', importhdfgroup h ["mesh"%string] = Ok g' /\ grid_of g' (by_types imported_order cs) /\ g_points g' = g_points (vc_grid c0)) /\
      forall k nm c, nth_error (n0 :: names) k = Some nm -> vtk_at fs nm c ->
        (forall n data, In (n, data) (vc_data c) -> n <> "time"%string ->
           exists arr, h5_get h ("/datalist/" ++ step_name k ++ "/" ++ n) = Some (CVar (Var [zlen arr] (HArr arr))) /\
             Permutation arr data /\
             forall j q v, nth_error (centers (vc_grid c0)) j = Some q -> nth_error arr j = Some v ->
               exists i p, nth_error (centers (vc_grid c)) i = Some p /\ nth_error data i = Some v /\
                           (dle (mdist q p) tol = true \/ dle (kdist q p) tol = true)) /\
        (~ In "time"%string (dkeys (vc_data c)) ->
           h5_attr h ("/datalist/" ++ step_name k) "time" =
           match vc_time c with Some t => if truth t then Some (AVar (Var [1] (HTime t))) else None | None => None end).
  Proof.
    intros fuel ver n0 names fs c0 cs Hf H0 Hne Hg Hk Hv Hcs Hp Hall.
    set (ref := centers (vc_grid c0)) in *.
    set (rf := fun name => c <- pvread fs name ;; rd ref [] tol (vfile_of centers c)).
    assert (Hdls : exists dls, mapM rf (n0 :: names) = Ok dls).
    { revert Hall. generalize (n0 :: names) as l. induction l as [|n l IH]; intros Hl; [exists []; reflexivity|].
      destruct IH as (dls & E); [intros x Hx; apply Hl; right; exact Hx|]. destruct (Hl n (or_introl eq_refl)) as (c' & Hc' & M).
      destruct (C61_accepts mdist kdist dle nearest truth dle_total dle_trans nearest_ok ref [] tol (vfile_of centers c') (mt_count _ _ M) Hne (mt_near _ _ M)) as (dl & Edl).
      { intros x Hx. cbn [names_of v_data vfile_of] in *. apply (dget_Some_iff _ seqb_eq) in Hx. destruct Hx as (data & Hd). exists data. split; [exact Hd|].
        apply (mt_sizes _ _ M x). apply (dget_in _ seqb_eq). exact Hd. }
      exists (dl :: dls). cbn [mapM]. unfold rf at 1, pvread at 1. rewrite Hc'. cbn [bind]. rewrite Edl. cbn [bind]. rewrite E. reflexivity. }
    destruct Hdls as (dls & Edls).
    assert (HF2 : Forall2 (fun nm dl => rf nm = Ok dl) (n0 :: names) dls) by (apply mapM_ok_Forall2; exact Edls).
    assert (Hread : forall nm c dl, vtk_at fs nm c -> rf nm = Ok dl -> rd ref [] tol (vfile_of centers c) = Ok dl).
    { intros nm c dl Hc E. unfold rf, pvread in E. rewrite Hc in E. exact E. }
    assert (Huniq : forall nm c c', vtk_at fs nm c -> vtk_at fs nm c' -> c = c').
    { unfold vtk_at. intros nm c c' E E'. rewrite E in E'. injection E' as ->. reflexivity. }
    assert (Hgood : Forall good_entries (List.map stored_set dls)).
    { clear Edls. revert Hall HF2. generalize (n0 :: names) as l. clear -Hread. intros l Hall HF2. induction HF2 as [|nm dl l dls E _ IH]; [constructor|].
      cbn [List.map]. constructor; [|apply IH; intros x Hx; apply Hall; right; exact Hx]. destruct (Hall nm (or_introl eq_refl)) as (c & Hc & M).
      destruct (read_shape ref c dl (Hread nm c dl Hc E) (mt_keys _ _ M)) as (ND & Hin & _ & _). split; rewrite stored_keys; [exact ND|].
      intros n Hn Hne. destruct (Hin n Hn) as [->|Hi]; [congruence|]. apply (mt_names _ _ M n Hi Hne). }
    destruct (C62_list F (hval V T) ver "dumped.h5" (vc_grid c0) cs (List.map stored_set dls) Hg Hk Hv Hcs Hp Hgood) as (h & x & E & Ho & Hdat & Htime & g' & cs' & Ei & Hg' & Hpts & -> & _).
    unfold list_dumphdf in E. apply bind_ok in E. destruct E as (m & Em & E). apply bind_ok in E. destruct E as (h' & Eh & E). injection E as -> _.
    assert (Epack : exists r fs', pack fuel ver (n0 :: names) fs = (r, fs')) by (destruct (pack fuel ver (n0 :: names) fs); eauto).
    destruct Epack as (r & fs' & Epack). assert (Hsafe := C83_safe _ _ _ _ _ _ Hf Epack).
    assert (Epk : pack fuel ver (n0 :: names) fs = pack_dump fuel ver "dumped.h5" fs (vc_grid c0) dls).
    { unfold vtkpack. rewrite allexist_ok by (intros nm Hn; destruct (Hall nm Hn) as (c & Hc & _); exact (vtk_at_in _ _ _ Hc)).
      unfold pack_read. replace (pvread fs n0) with (@Ok vtk c0) by (unfold pvread; rewrite H0; reflexivity). cbn [bind]. fold ref. fold rf. rewrite Edls. reflexivity. }
    assert (Hname : exists name, pack fuel ver (n0 :: names) fs = (Ok name, dset String.eqb name (NH5 h) fs) /\ ~ In name (dkeys fs)).
    { rewrite Epk in *. unfold pack_dump in *. rewrite Em, Eh in *. destruct (find_safe_newfile fuel (fexists fs) (path_of "dumped.h5")) as [[q b]|e] eqn:Es.
      - exists (path_str q). split; [reflexivity|]. injection Epack as <- <-. destruct Hsafe as [(_ & e & He)|(name & x0 & Hno & _ & [(h0 & _ & Hr)|(_ & e & He)] & _)]; try discriminate. injection Hr as ->. exact Hno.
      - exfalso. destruct (C45_safe_name (fexists fs) (dkeys fs) fuel (path_of "dumped.h5") (Path_ "" []) "dumped.h5" "dumped" ".h5") as (q & ch & E & _).
        + split; [left; reflexivity|]. constructor; [|constructor]. split; [discriminate|]. split; [discriminate|nochars].
        + left. split; reflexivity.
        + left. split; [reflexivity|]. split; [|discriminate]. exists "h5"%string. split; [reflexivity|]. split; [discriminate|nochars].
        + intros s Hs. apply (dmem_in _ seqb_eq). exact Hs.
        + unfold dkeys. rewrite List.map_length. exact Hf.
        + congruence. }
    destruct Hname as (name & En & Hno). exists name, h. split; [exact En|]. split; [exact Hno|]. split; [exact Ho|]. split; [exists g'; auto|].
    intros k nm c Hnm Hc. destruct (VtkProofs.Forall2_nth _ _ _ _ _ HF2 Hnm) as (dl & Hdl & Erf). assert (Er := Hread nm c dl Hc Erf).
    destruct (Hall nm (nth_error_In _ _ Hnm)) as (c' & Hc' & M). rewrite (Huniq _ _ _ Hc' Hc) in M. clear c' Hc'.
    destruct (read_shape ref c dl Er (mt_keys _ _ M)) as (ND & _ & Harr & Htm).
    assert (Hsdl : nth_error (List.map stored_set dls) k = Some (stored_set dl)) by (apply map_nth_error; exact Hdl).
    split.
    - intros n data Hin Hnt. destruct (Harr n) as (arr & Ha); [apply (in_map fst) in Hin; exact Hin|exact Hnt|]. exists arr.
      split; [apply (Hdat k (stored_set dl) n (Var [zlen arr] (HArr arr)) Hsdl); [|exact Hnt]; apply (dget_in _ seqb_eq); rewrite stored_get, Ha; reflexivity|].
      destruct (C61_read mdist kdist dle nearest truth dle_total dle_trans nearest_ok ref [] tol (vfile_of centers c) dl Er (mt_count _ _ M) (mt_apart _ _ M) n arr Ha) as (data' & Hd' & Hc61).
      cbn [v_data vfile_of] in Hd'. rewrite (in_dget _ seqb_eq _ _ _ (mt_keys _ _ M) Hin) in Hd'. injection Hd' as <-. apply Hc61. apply (mt_sizes _ _ M n data Hin).
    - intros Hnt. rewrite (Htime k (stored_set dl) Hsdl), stored_get, (Htm Hnt). destruct (vc_time c) as [t|]; [destruct (truth t)|]; reflexivity.
  Qed.

  (** Where the cells of the mesh in the file are, when the centre of a cell depends on its vertices only: the
      arrays keep the order of the first file, the mesh has its cells type by type.  They agree for
      a mesh whose types come in that order already, in particular with one type of cell. *)
  Lemma filter_no (t : Z) (cs : list (Z * list Z)) : (forall c, In c cs -> fst c <> t) -> filter (fun c => fst c =? t) cs = [].
  Proof.
    induction cs as [|c cs IH]; intros H; [reflexivity|]. cbn [filter]. destruct (Z.eqb_spec (fst c) t) as [E|_]; [destruct (H c (or_introl eq_refl) E)|].
    apply IH. intros x Hx. apply H. right. exact Hx.
  Qed.
  Lemma filter_every (t : Z) (cs : list (Z * list Z)) : (forall c, In c cs -> fst c = t) -> filter (fun c => fst c =? t) cs = cs.
  Proof.
    induction cs as [|c cs IH]; intros H; [reflexivity|]. cbn [filter]. rewrite (H c (or_introl eq_refl)), Z.eqb_refl. f_equal. apply IH. intros x Hx. apply H. right. exact Hx.
  Qed.
  Lemma one_type_same (cs : list (Z * list Z)) t : In t imported_order -> (forall c, In c cs -> fst c = t) -> by_types imported_order cs = cs.
  Proof.
    intros Ht H. assert (N : forall u, u <> t -> filter (fun c => fst c =? u) cs = []) by (intros u Hu; apply filter_no; intros c Hc; rewrite (H c Hc); congruence).
    assert (Y := filter_every t cs H). unfold by_types, imported_order in *. cbn [flat_map].
    repeat destruct Ht as [Ht|Ht]; try contradiction; subst t; rewrite Y; rewrite !N by discriminate; cbn [app]; rewrite ?app_nil_r; reflexivity.
  Qed.
  Theorem C83_aligned : forall (center : list (list F) -> Z * list Z -> P),
    (forall g cs, grid_of g cs -> centers g = List.map (center (g_points g)) cs) ->
    forall fuel ver n0 names fs c0 cs,
    (List.length fs + 1 <= fuel)%nat ->
    vtk_at fs n0 c0 ->
    grid_of (vc_grid c0) cs -> Forall known_cell cs -> vertices_ok (vc_grid c0) cs -> cs <> [] ->
    Forall (fun p => List.length p = 3%nat) (g_points (vc_grid c0)) ->
    (forall n, In n (n0 :: names) -> exists c, vtk_at fs n c /\ matching (centers (vc_grid c0)) c) ->
    exists name h g',
      pack fuel ver (n0 :: names) fs = (Ok name, dset String.eqb name (NH5 h) fs) /\ importhdfgroup h ["mesh"%string] = Ok g' /\
      centers g' = List.map (center (g_points (vc_grid c0))) (by_types imported_order cs) /\
      ((exists t, In t imported_order /\ forall c, In c cs -> fst c = t) -> centers g' = centers (vc_grid c0)).
  Proof.
    intros center Hctr fuel ver n0 names fs c0 cs Hf H0 Hg Hk Hv Hcs Hp Hall.
    assert (Hne : centers (vc_grid c0) <> []) by (rewrite (Hctr _ _ Hg); destruct cs; [congruence|discriminate]).
    destruct (C83_packed fuel ver n0 names fs c0 cs Hf H0 Hne Hg Hk Hv Hcs Hp Hall) as (name & h & E & _ & _ & (g' & Ei & Hg' & Hpts) & _).
    exists name, h, g'. split; [exact E|]. split; [exact Ei|]. rewrite (Hctr _ _ Hg'), Hpts. split; [reflexivity|].
    intros (t & Ht & Hone). rewrite (one_type_same cs t Ht Hone). symmetry. apply Hctr. exact Hg.
  Qed.
End C83.

Print Assumptions C83_missing.
Print Assumptions C83_none.
Print Assumptions C83_safe.
Print Assumptions C83_refused.
Print Assumptions C83_packed.
Print Assumptions C83_aligned.

(** ** Examples: cells on a line; the place of a cell is the sum of the first coordinates of its vertices. *)
Section Examples.
  Local Open Scope string_scope.
  Let zd (a b : Z) : Z := Z.abs (a - b)%Z.
  Definition ctr (pts : list (list Z)) (c : Z * list Z) : Z :=
    fold_right Z.add 0 (List.map (fun v => List.hd 0 (List.nth (Z.to_nat v) pts [])) (snd c)).
  (** The cells of a grid, from its arrays. *)
  Fixpoint cells_from (ts : list Z) (flat : list Z) : list (Z * list Z) :=
    match ts, flat with
    | t :: ts', n :: r => (t, firstn (Z.to_nat n) r) :: cells_from ts' (skipn (Z.to_nat n) r)
    | _, _ => []
    end.
  Definition ctrs (g : grid (list Z)) : list Z := List.map (ctr (g_points g)) (cells_from (g_types g) (g_cells g)).
  Lemma cells_from_ok cs : cells_from (List.map fst cs) (flat_map (fun c => zlen (snd c) :: snd c) cs) = cs.
  Proof.
    induction cs as [|[t l] cs IH]; [reflexivity|]. cbn [List.map flat_map app cells_from fst snd].
    assert (E : Z.to_nat (zlen l) = List.length l) by (unfold zlen; apply Nat2Z.id). rewrite E.
    rewrite firstn_app, skipn_app, Nat.sub_diag, firstn_all, skipn_all. cbn [firstn skipn app]. rewrite app_nil_r, IH. reflexivity.
  Qed.
  (** The hypothesis of [C83_aligned]. *)
  Example ctrs_ok : forall g cs, grid_of g cs -> ctrs g = List.map (ctr (g_points g)) cs.
  Proof. intros g cs H. unfold ctrs. rewrite (go_types _ _ H), (go_cells _ _ H), cells_from_ok. reflexivity. Qed.

  Let packz := vtkpack (V := Z) (T := Z) zd zd Z.leb znear (fun t => negb (Z.eqb t 0)) 3 ctrs.
  (** A triangle and a quadrangle; the second file has them in the other order, moved a little. *)
  Definition pts (d : Z) : list (list Z) := [[d;0;0]; [10;0;0]; [0;1;0]; [20;0;0]; [20;1;0]].
  Definition file1 : vtkc Z Z Z := VtkC (Grid _ [3; 0; 1; 2; 4; 1; 3; 4; 2] [0; 3; 7] [5; 9] (pts 0)) [("rho", [7; 8])] (Some 5).
  Definition file2 : vtkc Z Z Z := VtkC (Grid _ [4; 1; 3; 4; 2; 3; 0; 1; 2] [0; 4; 7] [9; 5] (pts 1)) [("rho", [18; 17])] None.
  Definition far : vtkc Z Z Z := VtkC (Grid _ [4; 1; 3; 4; 2; 3; 0; 1; 2] [0; 4; 7] [9; 5] (pts 100)) [("rho", [18; 17])] None.
  Definition disk : files (node Z Z Z) := [("a.vtu", NVtk file1); ("d/b.vtu", NVtk file2); ("far.vtu", NVtk far); ("dumped.h5", NPartial)].
  Definition cells1 : list (Z * list Z) := [(5, [0; 1; 2]); (9, [1; 3; 4; 2])].
  (** The name is the first free one; the data of the second file are put in the order of the first: the
      triangle has 17.  In the mesh of the file the quadrangle comes first, so the data do not follow its order. *)
  Example ex_pack : match packz 10 "0.6" ["a.vtu"; "d//b.vtu"] disk with
    | (r, fs') => (r, match dget String.eqb "dumped(1).h5" fs' with
        | Some (NH5 h) => Some (h5_get h "/datalist/i000000/rho", h5_get h "/datalist/i000001/rho", h5_attr h "/datalist/i000000" "time", h5_attr h "/datalist/i000001" "time",
                                match importhdfgroup h ["mesh"] with Ok g => Some (g_types g, ctrs g) | Err _ => None end)
        | _ => None end)
    end = (Ok "dumped(1).h5",
           Some (Some (CVar (Var [2] (HArr [7; 8]))), Some (CVar (Var [2] (HArr [17; 18]))), Some (AVar (Var [1] (HTime 5))), None, Some ([9; 5], [50; 10]))).
  Proof. vm_compute. reflexivity. Qed.
  Example ex_order1 : ctrs (vc_grid file1) = [10; 50].
  Proof. reflexivity. Qed.
  Example ex_missing : packz 10 "0.6" ["a.vtu"; "c.vtu"] disk = (Err RuntimeError, disk).
  Proof. vm_compute. reflexivity. Qed.
  Example ex_unmatched : packz 10 "0.6" ["a.vtu"; "far.vtu"; "d/b.vtu"] disk = (Err ValueError, disk).
  Proof. vm_compute. reflexivity. Qed.
  (** The hypotheses of the theorems for these files. *)
  Example ex_matching : forall n, In n ["a.vtu"; "d//b.vtu"] -> exists c, vtk_at disk n c /\ matching zd Z.leb 3 ctrs (ctrs (vc_grid file1)) c.
  Proof.
    assert (A : forall c, ctrs (vc_grid c) = [10; 50] \/ ctrs (vc_grid c) = [50; 11] -> (exists a b, vc_data c = [("rho", [a; b])]) -> matching (V := Z) (T := Z) zd Z.leb 3 ctrs [10; 50] c).
    { intros c Hc (a & b & Hd). constructor.
      - destruct Hc as [-> | ->]; reflexivity.
      - intros p Hp. destruct Hc as [Hc|Hc]; rewrite Hc in Hp; destruct Hp as [<-|[<-|[]]].
        + exists 10. split; [left|]; reflexivity.
        + exists 50. split; [right; left|]; reflexivity.
        + exists 50. split; [right; left|]; reflexivity.
        + exists 10. split; [left|]; reflexivity.
      - intros i1 i2 p1 p2 q H1 H2 Hq. destruct Hc as [Hc|Hc]; rewrite Hc in H1, H2;
        destruct i1 as [|[|i1]]; cbn in H1; try (destruct i1; discriminate); injection H1 as <-;
        destruct i2 as [|[|i2]]; cbn in H2; try (destruct i2; discriminate); injection H2 as <-; destruct Hq as [<-|[<-|[]]]; vm_compute; intros; congruence.
      - intros n data Hin. rewrite Hd in Hin. destruct Hin as [Hin|[]]. injection Hin as <- <-. reflexivity.
      - rewrite Hd. constructor; [intros []|constructor].
      - rewrite Hd. intros n [<-|[]] _. split; [discriminate|]. split; [discriminate|nochars]. }
    intros n [<-|[<-|[]]].
    - exists file1. split; [reflexivity|]. apply A; [left; reflexivity|exists 7, 8; reflexivity].
    - exists file2. split; [reflexivity|]. apply A; [right; reflexivity|exists 18, 17; reflexivity].
  Qed.
  Example ex_grid1 : grid_of (vc_grid file1) cells1 /\ Forall known_cell cells1 /\ vertices_ok (vc_grid file1) cells1 /\ Forall (fun p => List.length p = 3%nat) (g_points (vc_grid file1)).
  Proof.
    split; [|split; [|split]].
    - split; try reflexivity. intros k Hk. cbn in Hk. do 3 (destruct k as [|k]; [reflexivity|]). lia.
    - repeat constructor; cbn; [exists "tri3"|exists "quad4"]; cbn; auto 20.
    - unfold vertices_ok. cbn. intros c v [<-|[<-|[]]] Hv; cbn in Hv; lia.
    - repeat constructor.
  Qed.
  Example ex_unmatched_hyp : unmatched zd zd Z.leb 3 ctrs (ctrs (vc_grid file1)) far.
  Proof. left. split; [reflexivity|]. exists 110. split; [right; left; reflexivity|]. intros q [<-|[<-|[]]]; split; reflexivity. Qed.
End Examples.
