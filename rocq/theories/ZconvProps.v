(** * C63: averaging along a direction. *)
From Coq Require Import DecimalString Relations Permutation Sorted Lia.
From Verif Require Import Py PyFacts GroupFacts ConnProofs Conn Mesh Vtk VtkSpec VtkProofs VtkProps VtkList VtkListProps Zconv ZconvSpec ZconvProofs.

(** ** Options *)
(** What the value of an option means as a switch and as a number: False and 0 are off, True counts for 1. *)
Definition on (v : oval) : bool := match v with OB b => b | OI n => negb (n =? 0) end.
Definition count (v : oval) : Z := match v with OB true => 1 | OB false => 0 | OI n => n end.
Definition flag (o : dict string oval) (k : string) : bool := match dget String.eqb k o with Some v => on v | None => false end.
Definition modes (o : dict string oval) : Z :=
  match dget String.eqb "nmode" o with Some v => count v | None => 0 end.
Lemma modes_of o v : dget String.eqb "nmode" o = Some v -> modes o = oint v.
Proof. intros E. unfold modes. rewrite E. destruct v as [[]|]; reflexivity. Qed.
(** The name of mode [i] of array [name], in decimal. *)
Definition mode_name (name : string) (i : Z) : string := (name ++ "_k" ++ NilZero.string_of_uint (Nat.to_uint (Z.to_nat i)))%string.
Lemma kname_is : kname = mode_name.
Proof. reflexivity. Qed.
(** The names of the arrays made from array [name]. *)
Definition produced (no : string * dict string oval) : list string :=
  let '(name, o) := no in
  (if flag o "snapshot" then [name] else []) ++
  (if flag o "avg" then [(name ++ "_avg")%string] else []) ++
  flat_map (fun i => mode_name name i :: (if flag o "phase" then [(mode_name name i ++ "_phase")%string] else [])) (zrange 1 (modes o + 1)) ++
  (if flag o "rms" then [(name ++ "_rms")%string] else []).

Section Data.
  Context {V : Type} (avg rms : list V -> V) (mode phase : Z -> list V -> V).
  Definition entries (no : string * dict string oval) (data0 : list V) (cols : list (list V)) : dict string (list V) :=
    let '(name, o) := no in
    (if flag o "snapshot" then [(name, data0)] else []) ++
    (if flag o "avg" then [((name ++ "_avg")%string, List.map avg cols)] else []) ++
    flat_map (fun i => (mode_name name i, List.map (mode i) cols) :: (if flag o "phase" then [((mode_name name i ++ "_phase")%string, List.map (phase i) cols)] else [])) (zrange 1 (modes o + 1)) ++
    (if flag o "rms" then [((name ++ "_rms")%string, List.map rms cols)] else []).
  Lemma entries_keys no d0 cols : dkeys (entries no d0 cols) = produced no.
  Proof.
    destruct no as (name, o). unfold entries, produced, dkeys. rewrite !map_app. repeat f_equal; try (destruct (flag o _); reflexivity).
    induction (zrange 1 (modes o + 1)) as [|i l IH]; [reflexivity|]. cbn [flat_map]. rewrite map_app, IH. destruct (flag o "phase"); reflexivity.
  Qed.
  Lemma dset_app (k : string) (v : list V) d : ~ In k (dkeys d) -> dset String.eqb k v d = d ++ [(k, v)].
  Proof. intros H. apply (dset_notin _ seqb_eq). exact H. Qed.
  Lemma keys_app (a b : dict string (list V)) : dkeys (a ++ b) = dkeys a ++ dkeys b.
  Proof. apply map_app. Qed.

  Lemma modes_spec name (o : dict string oval) nd cols : forall l out out',
    foldM (fun out i =>
        if i <? nd then
          let out := dset String.eqb (kname name i) (List.map (mode i) cols) out in
          ph <- opt o "phase" ;;
          Ok (if otruth ph then dset String.eqb (kname name i ++ "_phase")%string (List.map (phase i) cols) out else out)
        else Err IndexError) out l = Ok out' ->
    NoDup (dkeys out ++ flat_map (fun i => kname name i :: (if flag o "phase" then [(kname name i ++ "_phase")%string] else [])) l) ->
    out' = out ++ flat_map (fun i => (kname name i, List.map (mode i) cols) :: (if flag o "phase" then [((kname name i ++ "_phase")%string, List.map (phase i) cols)] else [])) l /\
    Forall (fun i => i < nd) l.
  Proof.
    induction l as [|i l IH]; intros out out' H Hnd; [injection H as <-; split; [symmetry; apply app_nil_r|constructor]|].
    cbn [foldM] in H. apply bind_ok in H. destruct H as (out1 & H1 & H). destruct (Z.ltb_spec i nd) as [Hi|]; [|discriminate].
    apply bind_ok in H1. destruct H1 as (ph & Hph & H1). injection H1 as <-.
    assert (Hf : flag o "phase" = otruth ph). { unfold flag. unfold opt, dget_err in Hph. destruct (dget String.eqb "phase" o) as [v|]; [injection Hph as ->; reflexivity|discriminate]. }
    cbn [flat_map] in Hnd |- *. rewrite Hf in *.
    assert (Hk : ~ In (kname name i) (dkeys out)). { apply NoDup_app in Hnd. destruct Hnd as (_ & _ & Hd). intros Hin. apply (Hd _ Hin). left. reflexivity. }
    destruct (otruth ph).
    - rewrite (dset_app (kname name i)) in H by exact Hk.
      assert (Hk' : ~ In (kname name i ++ "_phase")%string (dkeys (out ++ [(kname name i, List.map (mode i) cols)]))).
      { rewrite keys_app. intros Hin. apply NoDup_app in Hnd. destruct Hnd as (_ & N2 & Hd). apply in_app_or in Hin. destruct Hin as [Hin|[E|[]]]; [apply (Hd _ Hin); right; left; reflexivity|].
        cbn [app] in N2. inversion N2 as [|? ? Hn _]; subst. apply Hn. left. symmetry. exact E. }
      rewrite (dset_app (kname name i ++ "_phase")%string) in H by exact Hk'. destruct (IH _ _ H) as [-> Hall].
      + rewrite !keys_app, <- !app_assoc. exact Hnd.
      + split; [rewrite <- !app_assoc; reflexivity|constructor; assumption].
    - rewrite (dset_app (kname name i)) in H by exact Hk. destruct (IH _ _ H) as [-> Hall].
      + rewrite !keys_app, <- !app_assoc. exact Hnd.
      + split; [rewrite <- !app_assoc; reflexivity|constructor; assumption].
  Qed.

  (** The columns of a table of values. *)
  Definition values_of (vals : list V) (ids : list Z) (w : list V) : Prop := Forall2 (fun c v => 0 <= c /\ nth_error vals (Z.to_nat c) = Some v) ids w.
  Lemma take_values vals l ps : np_take vals l = Ok ps -> Forall (fun c => 0 <= c) l -> values_of vals l ps.
  Proof.
    intros H Hl. unfold np_take in H. apply mapM_ok_Forall2 in H. induction H as [|c p l ps Hc _ IH]; [constructor|]. inversion Hl; subst. constructor; [|apply IH; assumption].
    split; [assumption|]. apply py_get_nonneg in Hc; assumption.
  Qed.
  Definition columns_of (vals : list V) (ik : list (list Z)) (n : nat) (cols : list (list V)) : Prop :=
    List.length cols = n /\ forall j l, nth_error cols j = Some l -> column_of vals ik j l.

  Definition ok_entries (ik : list (list Z)) (cell_data : dict string (list V)) (no : string * dict string oval) (e : dict string (list V)) : Prop :=
    exists vals data0 cols, dget String.eqb (fst no) cell_data = Some vals /\ e = entries no data0 cols /\
      (forall c0, nth_error ik 0 = Some c0 -> values_of vals c0 data0 /\ columns_of vals ik (List.length c0) cols) /\
      (forall i, 1 <= i <= modes (snd no) -> i < zlen ik).

  Lemma data_spec ik cell_data out no out' : ik <> [] -> Forall (Forall (fun c => 0 <= c)) ik ->
    data_of avg rms mode phase ik cell_data out no = Ok out' -> NoDup (dkeys out ++ produced no) ->
    exists e, ok_entries ik cell_data no e /\ out' = out ++ e.
  Proof.
    intros Hne Hpos H Hnd. destruct no as (name, o). unfold data_of in H.
    apply bind_ok in H. destruct H as (vals & Hvals & H). apply bind_ok in H. destruct H as (data & Hdata & H). apply bind_ok in H. destruct H as (data0 & Hd0 & H).
    apply bind_ok in H. destruct H as (cols & Hcols & H). apply bind_ok in H. destruct H as (nm & Hnm & H). apply bind_ok in H. destruct H as (snap & Hsnap & H).
    apply bind_ok in H. destruct H as (av & Hav & H). apply bind_ok in H. destruct H as (out2 & Hmodes & H). apply bind_ok in H. destruct H as (rm & Hrm & H). injection H as <-.
    assert (Hopt : forall k v, opt o k = Ok v -> dget String.eqb k o = Some v). { intros k v E. unfold opt, dget_err in E. destruct (dget String.eqb k o); [injection E as ->; reflexivity|discriminate]. }
    apply Hopt in Hnm, Hsnap, Hav, Hrm. unfold dget_err in Hvals. destruct (dget String.eqb name cell_data) as [vals'|] eqn:Ev; [|discriminate]. injection Hvals as ->.
    exists (entries (name, o) data0 cols).
    set (n1 := if flag o "snapshot" then [(name, data0)] else []). set (n2 := if flag o "avg" then [((name ++ "_avg")%string, List.map avg cols)] else []).
    assert (E1 : (if otruth snap then dset String.eqb name data0 out else out) = out ++ n1 /\ NoDup (dkeys (out ++ n1))).
    { unfold n1. unfold produced in Hnd. assert (flag o "snapshot" = otruth snap) as Ef by (unfold flag; rewrite Hsnap; reflexivity). rewrite Ef in *. rewrite app_assoc in Hnd. apply NoDup_app in Hnd. destruct Hnd as (N & _).
      destruct (otruth snap); [|rewrite app_nil_r in *; split; [reflexivity|exact N]]. rewrite keys_app. cbn [dkeys List.map fst]. split; [|exact N]. apply dset_app. apply NoDup_app in N. destruct N as (_ & _ & Hd). intros Hin. apply (Hd _ Hin). left. reflexivity. }
    destruct E1 as [E1 N1]. rewrite E1 in Hmodes.
    assert (E2 : (if otruth av then dset String.eqb (name ++ "_avg")%string (List.map avg cols) (out ++ n1) else out ++ n1) = (out ++ n1) ++ n2).
    { unfold n2. assert (flag o "avg" = otruth av) as Ef by (unfold flag; rewrite Hav; reflexivity). rewrite Ef in *. destruct (otruth av) eqn:Ea; [|rewrite app_nil_r; reflexivity]. apply dset_app.
      unfold produced in Hnd. rewrite Ef in Hnd. rewrite app_assoc in Hnd. apply NoDup_app in Hnd. destruct Hnd as (_ & _ & Hd).
      intros Hin. apply (Hd (name ++ "_avg")%string); [|left; reflexivity]. rewrite keys_app in Hin. unfold n1 in Hin. destruct (flag o "snapshot"); exact Hin. }
    rewrite E2 in Hmodes.
    assert (Hm : modes o = oint nm) by (apply modes_of; exact Hnm).
    set (n3 := flat_map (fun i => (kname name i, List.map (mode i) cols) :: (if flag o "phase" then [((kname name i ++ "_phase")%string, List.map (phase i) cols)] else [])) (zrange 1 (modes o + 1))).
    assert (Kn1 : dkeys n1 = if flag o "snapshot" then [name] else []) by (unfold n1; destruct (flag o "snapshot"); reflexivity).
    assert (Kn2 : dkeys n2 = if flag o "avg" then [(name ++ "_avg")%string] else []) by (unfold n2; destruct (flag o "avg"); reflexivity).
    unfold produced in Hnd. rewrite <- Kn1, <- Kn2 in Hnd.
    assert (E3 : out2 = ((out ++ n1) ++ n2) ++ n3 /\ forall i, 1 <= i <= modes o -> i < zlen ik).
    { destruct (Z.gtb_spec (oint nm) 0) as [Hg|Hg].
      - rewrite <- Hm in Hmodes. apply modes_spec in Hmodes.
        + destruct Hmodes as [-> Hall]. split; [reflexivity|]. intros i Hi. rewrite Forall_forall in Hall. replace (zlen ik) with (zlen data). 2:{ apply mapM_ok_len in Hdata. unfold zlen. rewrite Hdata. reflexivity. }
          apply Hall. apply in_zrange. lia.
        + rewrite !keys_app. rewrite !app_assoc in Hnd. apply NoDup_app in Hnd. apply Hnd.
      - injection Hmodes as <-. split; [|intros i Hi; lia]. unfold n3. assert (zrange 1 (modes o + 1) = []) as ->; [|rewrite app_nil_r; reflexivity]. unfold zrange. replace (Z.to_nat (modes o + 1 - 1)) with 0%nat by lia. reflexivity. }
    destruct E3 as [-> Hlt].
    assert (Kn3 : dkeys n3 = flat_map (fun i => kname name i :: (if flag o "phase" then [(kname name i ++ "_phase")%string] else [])) (zrange 1 (modes o + 1))).
    { unfold n3. clear. induction (zrange 1 (modes o + 1)) as [|i l IH]; [reflexivity|]. cbn [flat_map]. rewrite keys_app, IH. destruct (flag o "phase"); reflexivity. }
    split.
    - exists vals, data0, cols. split; [exact Ev|]. split; [reflexivity|]. split; [|exact Hlt].
      intros c0 Hc0. assert (Hval : Forall2 (values_of vals) ik data).
      { apply mapM_ok_Forall2 in Hdata. clear -Hdata Hpos. induction Hdata as [|r d ik data Hr _ IH]; [constructor|]. inversion Hpos; subst. constructor; [|apply IH; assumption]. apply take_values; assumption. }
      destruct ik as [|r ik']; [congruence|]. cbn in Hc0. injection Hc0 as ->. inversion Hval as [|? d0 ? data' Hr Hval']; subst. change (py_get (d0 :: data') 0) with (Ok d0) in Hd0. injection Hd0 as ->.
      split; [exact Hr|]. pose proof (Forall2_length' _ _ _ Hr) as Hl0. split.
      + apply mapM_ok_len in Hcols. rewrite Hcols, zrange_length. unfold zlen. lia.
      + intros j l Hj. apply mapM_ok_Forall2 in Hcols. assert (Hjl : (j < List.length data0)%nat).
        { pose proof (Forall2_length' _ _ _ Hcols) as Hlc. rewrite zrange_length in Hlc. assert (Hn : nth_error cols j <> None) by congruence. apply nth_error_Some in Hn. unfold zlen in Hlc. lia. }
        assert (Hz : nth_error (zrange 0 (zlen data0)) j = Some (Z.of_nat j)) by (rewrite nth_error_zrange by (unfold zlen; lia); f_equal; lia).
        destruct (VtkProofs.Forall2_nth _ _ _ _ _ Hcols Hz) as (l' & Hl' & Hcol). assert (l' = l) by congruence. subst l'. apply column_inv in Hcol. unfold column_of.
        clear -Hval Hcol. revert l Hcol. induction Hval as [|r d ik data Hr _ IH]; intros l Hcol; inversion Hcol as [|? x ? l' Hx Hcol']; subst; constructor; [|apply IH; exact Hcol'].
        assert (Hc : exists c, nth_error r j = Some c). { pose proof (Forall2_length' _ _ _ Hr). destruct (nth_error r j) as [c|] eqn:E; [eauto|]. apply nth_error_None in E. assert (Hn : nth_error d j <> None) by congruence. apply nth_error_Some in Hn. lia. }
        destruct Hc as (c & Hc). destruct (VtkProofs.Forall2_nth _ _ _ _ _ Hr Hc) as (x' & Hx' & H0 & Hv). exists c. split; [exact Hc|]. split; [exact H0|]. congruence.
    - assert (flag o "rms" = otruth rm) as Ef by (unfold flag; rewrite Hrm; reflexivity). unfold entries. fold n1 n2 n3. rewrite Ef in *. destruct (otruth rm).
      + rewrite dset_app; [rewrite <- !app_assoc; reflexivity|]. rewrite !keys_app, Kn3. rewrite !app_assoc in Hnd. apply NoDup_app in Hnd. destruct Hnd as (_ & _ & Hd). intros Hin. apply (Hd _ Hin). left. reflexivity.
      + rewrite <- !app_assoc, app_nil_r. reflexivity.
  Qed.
  Lemma fold_data ik cell_data : ik <> [] -> Forall (Forall (fun c => 0 <= c)) ik -> forall ds out out',
    foldM (data_of avg rms mode phase ik cell_data) out ds = Ok out' -> NoDup (dkeys out ++ flat_map produced ds) ->
    exists es, Forall2 (ok_entries ik cell_data) ds es /\ out' = out ++ List.concat es.
  Proof.
    intros Hne Hpos. induction ds as [|no ds IH]; intros out out' H Hnd; [injection H as <-; exists []; split; [constructor|symmetry; apply app_nil_r]|].
    cbn [foldM] in H. apply bind_ok in H. destruct H as (out1 & H1 & H). cbn [flat_map] in Hnd.
    destruct (data_spec ik cell_data out no out1 Hne Hpos H1) as (e & He & ->). { rewrite app_assoc in Hnd. apply NoDup_app in Hnd. apply Hnd. }
    destruct (IH _ _ H) as (es & Hes & ->). { rewrite keys_app. assert (dkeys e = produced no) as ->. { destruct He as (vals & d0 & cols & _ & -> & _). apply entries_keys. } rewrite <- app_assoc. exact Hnd. }
    exists (e :: es). split; [constructor; assumption|]. cbn [List.concat]. rewrite <- app_assoc. reflexivity.
  Qed.
End Data.

(** ** The statements *)
Section C63.
  Context {P S D V Q : Type}.
  Context (gap : S -> S -> bool) (zle : S -> S -> Prop) (argsort : list S -> list Z) (uneven : list (list S) -> bool)
          (nearest : list P -> P -> Z) (kdist : P -> P -> D) (dle : D -> D -> bool) (tol : D)
          (spread : list P -> bool) (avg rms : list V -> V) (mode phase : Z -> list V -> V).
  (** Positions are ordered and a gap remains one when its ends move apart. *)
  Hypothesis zle_refl : forall a, zle a a.
  Hypothesis zle_trans : forall a b c, zle a b -> zle b c -> zle a c.
  Hypothesis gap_mono : forall a b c d, zle a b -> zle b c -> zle c d -> gap b c = true -> gap a d = true.
  Hypothesis gap_sym : forall a b, gap a b = gap b a.
  Hypothesis gap_zero : forall a b, zle a b -> zle b a -> gap a b = false.
  Hypothesis Hsort : sorts zle argsort.
  Hypothesis dle_total : forall a b, dle a b = true \/ dle b a = true.
  Hypothesis dle_trans : forall a b c, dle a b = true -> dle b c = true -> dle a c = true.
  Hypothesis nearest_ok : forall ref p, ref <> [] ->
    0 <= nearest ref p /\ exists q, nth_error ref (Z.to_nat (nearest ref p)) = Some q /\
                                   forall q', In q' ref -> dle (kdist q p) (kdist q' p) = true.

  Notation close := (close_to kdist dle tol).
  Notation zconv := (zconvolution gap argsort uneven nearest kdist dle tol spread avg rms mode phase).

  (** The planes the code finds are those of the mesh; they are at least two and all have as many
      cells. *)
  Theorem C63_planes : forall zpos pls, planes gap argsort uneven zpos = Ok pls ->
    are_planes gap zle zpos pls /\ (2 <= List.length pls)%nat /\ (forall p q, In p pls -> In q pls -> List.length p = List.length q).
  Proof.
    intros zpos pls H. assert (Hd : zpos = [] \/ zpos <> []) by (destruct zpos; [left; reflexivity|right; discriminate]). destruct Hd as [->|Hne].
    - exfalso. destruct (Hsort []) as [Hp _]. change (zrange 0 (zlen (@nil S))) with (@nil Z) in Hp. symmetry in Hp. apply Permutation_nil in Hp. unfold planes in H. rewrite Hp in H. discriminate.
    - destruct (planes_run gap zle gap_mono zle_refl zle_trans zpos argsort uneven Hsort Hne) as (g & Hg & Hok & _ & _). destruct (Hok pls H) as (-> & Hl & Heq). auto.
  Qed.

  (** No two cells of one plane are close to the same cell of another plane. *)
  Definition separated_planes (xypos : list P) (zpos : list S) : Prop :=
    forall a c c', ~ same_plane gap zpos a c -> same_plane gap zpos c c' -> close xypos a c -> close xypos a c' -> c = c'.

  (** What is made of an array. *)
  Record made (pls ik : list (list Z)) (vals : list V) (name : string) (o : dict string oval) (out : dict string (list V)) : Prop := {
    md_snapshot : flag o "snapshot" = true -> forall c0, nth_error pls 0 = Some c0 -> exists w, dget String.eqb name out = Some w /\
      Forall2 (fun c v => 0 <= c /\ nth_error vals (Z.to_nat c) = Some v) c0 w;
    md_avg : flag o "avg" = true -> forall c0, nth_error pls 0 = Some c0 -> exists w, dget String.eqb (name ++ "_avg")%string out = Some w /\ per_column avg vals ik (List.length c0) w;
    md_rms : flag o "rms" = true -> forall c0, nth_error pls 0 = Some c0 -> exists w, dget String.eqb (name ++ "_rms")%string out = Some w /\ per_column rms vals ik (List.length c0) w;
    md_modes : forall i, 1 <= i <= modes o -> i < zlen pls /\ forall c0, nth_error pls 0 = Some c0 ->
      (exists w, dget String.eqb (mode_name name i) out = Some w /\ per_column (mode i) vals ik (List.length c0) w) /\
      (flag o "phase" = true -> exists w, dget String.eqb (mode_name name i ++ "_phase")%string out = Some w /\ per_column (phase i) vals ik (List.length c0) w) }.

  Lemma per_columns (f : list V -> V) vals ik n cols : columns_of vals ik n cols -> per_column f vals ik n (List.map f cols).
  Proof.
    intros [Hl Hc]. split; [rewrite map_length; exact Hl|]. intros j Hj. destruct (nth_error cols j) as [l|] eqn:E; [|apply nth_error_None in E; lia].
    exists l. split; [apply Hc; exact E|]. rewrite nth_error_map, E. reflexivity.
  Qed.

  Theorem C63_columns : forall enum junk (g : grid Q) cs xypos zpos cell_data rms_ phase_ snapshot nmode select new out ds,
    set_enum enum -> grid_of g cs -> vertices_ok g cs -> (forall c, In c cs -> zlen (snd c) <= 254) -> zlen zpos = zlen cs ->
    separated_planes xypos zpos ->
    zconv enum junk g xypos zpos cell_data rms_ phase_ snapshot nmode select = Ok (new, out) ->
    directives (options0 rms_ phase_ snapshot nmode) select (dkeys cell_data) = Ok ds -> NoDup (flat_map produced ds) ->
    exists pls ik c0,
      are_planes gap zle zpos pls /\ (2 <= List.length pls)%nat /\ (forall p q, In p pls -> In q pls -> List.length p = List.length q) /\
      nth_error pls 0 = Some c0 /\ nth_error ik 0 = Some c0 /\
      (* each row of the table has the cells of one plane, each column cells of one place *)
      Forall2 (@Permutation Z) ik pls /\
      (forall i j row a c, nth_error ik (Datatypes.S i) = Some row -> nth_error c0 j = Some a -> nth_error row j = Some c -> close xypos a c) /\
      (* the new mesh has the cells of the first plane *)
      (exists cs', grid_of new cs' /\ Forall2 (fun id c' => exists c, is_cell cs id c /\ same_cell g new c c') c0 cs') /\
      (* and only the arrays asked for, made from the columns *)
      dkeys out = flat_map produced ds /\
      forall name o, In (name, o) ds -> exists vals, dget String.eqb name cell_data = Some vals /\ made pls ik vals name o out.
  Proof.
    intros enum junk g cs xypos zpos cell_data rms_ phase_ snapshot nmode select new out ds Henum Hg Hv Hsz Hlen Hsep H Hds Hnd.
    unfold zconvolution in H. rewrite Hds in H. cbn [bind] in H. apply bind_ok in H. destruct H as (pls & Hpls & H). apply bind_ok in H. destruct H as (ik & Hik & H).
    apply bind_ok in H. destruct H as (c0 & Hc0 & H). apply bind_ok in H. destruct H as (new' & Hnew & H). apply bind_ok in H. destruct H as (out' & Hout & H). injection H as -> ->.
    destruct (C63_planes zpos pls Hpls) as (Hp & H2 & Heq). destruct pls as [|c0' r]; [cbn in H2; lia|]. change (py_get (c0' :: r) 0) with (Ok c0') in Hc0. injection Hc0 as ->.
    assert (Hrange : forall c, In c (List.concat (c0 :: r)) -> 0 <= c < zlen zpos) by (intros c Hc; rewrite (ap_all _ _ _ _ Hp) in Hc; apply in_zrange in Hc; exact Hc).
    assert (Hne : c0 <> []) by (pose proof (ap_some _ _ _ _ Hp) as Hs; inversion Hs; assumption).
    assert (HndC : NoDup (List.concat (c0 :: r))) by (rewrite (ap_all _ _ _ _ Hp); apply NoDup_zrange).
    assert (Hposc : Forall (fun c => 0 <= c) (List.concat (c0 :: r))) by (apply Forall_forall; intros c Hc; apply Hrange; exact Hc).
    assert (Hapart : forall p a c, In p r -> In a c0 -> In c p -> ~ same_plane gap zpos a c).
    { intros p a c Hpr Ha Hc Hs. apply In_nth_error in Hpr. destruct Hpr as (k & Hk).
      pose proof (proj2 (same_class gap zle gap_sym gap_zero zpos (c0 :: r) a c Hp Hs) 0%nat (Datatypes.S k)) as Hk0.
      discriminate Hk0; [exists c0; auto|exists p; auto]. }
    destruct (ikplanes_spec nearest kdist dle tol spread dle_total dle_trans nearest_ok xypos c0 r ik Hne) as (rows & -> & Hrows); try assumption.
    { intros p Hp'. apply Heq; [exact Hp'|left; reflexivity]. }
    { intros p a c c' Hpr Ha Hc Hc' H1 H3. apply (Hsep a); try assumption; [apply (Hapart p); assumption|]. apply (ap_joined _ _ _ _ Hp p); try assumption. right. exact Hpr. }
    assert (Hperm : Forall2 (@Permutation Z) (c0 :: rows) (c0 :: r)).
    { constructor; [reflexivity|]. clear -Hrows. induction Hrows as [|row p rows r [Hp _] _ IH]; constructor; assumption. }
    exists (c0 :: r), (c0 :: rows), c0. split; [exact Hp|]. split; [exact H2|]. split; [exact Heq|]. split; [reflexivity|]. split; [reflexivity|]. split; [exact Hperm|].
    split. { intros i j row a c Hi Ha Hc. cbn [nth_error] in Hi. destruct (VtkProofs.Forall2_nth _ _ _ _ _ Hrows Hi) as (p & _ & _ & Hcl). apply (Hcl j a c Ha Hc). }
    assert (Hcell : forall id, In id c0 -> exists c, is_cell cs id c).
    { intros id Hid. assert (Hb : 0 <= id < zlen zpos) by (apply Hrange; cbn [List.concat]; apply in_or_app; left; exact Hid). destruct (nth_error cs (Z.to_nat id)) as [c|] eqn:E; [exists c; split; [lia|exact E]|].
      apply nth_error_None in E. unfold zlen in *. lia. }
    split.
    { destruct (C60_extract Q enum junk g cs c0 Henum Hg Hv Hne) as (g' & cs' & used & Eg & Hg' & _ & Hsame & _).
      - intros id Hid. destruct (Hcell id Hid) as (c & Hc). exists c. split; [exact Hc|]. destruct Hc as [_ Hc]. apply nth_error_In in Hc. specialize (Hsz c Hc). lia.
      - intros id r' c _ [_ Hc]. apply nth_error_In in Hc. apply Hsz. exact Hc.
      - rewrite Eg in Hnew. injection Hnew as ->. exists cs'. split; assumption. }
    assert (Hposik : Forall (Forall (fun c => 0 <= c)) (c0 :: rows)).
    { apply Forall_forall. intros row Hrow. apply Forall_forall. intros c Hc. apply In_nth_error in Hrow. destruct Hrow as (k & Hk). destruct (VtkProofs.Forall2_nth _ _ _ _ _ Hperm Hk) as (p & Hpk & Hpp).
      rewrite Hpp in Hc. apply Hrange. apply in_concat. exists p. split; [apply nth_error_In in Hpk; exact Hpk|exact Hc]. }
    destruct (fold_data avg rms mode phase (c0 :: rows) cell_data ltac:(discriminate) Hposik ds [] out Hout Hnd) as (es & Hes & ->). cbn [app].
    assert (Hkeys : dkeys (List.concat es) = flat_map produced ds).
    { clear -Hes. induction Hes as [|no e ds es He _ IH]; [reflexivity|]. cbn [List.concat flat_map]. rewrite keys_app, IH. f_equal. destruct He as (vals & d0 & cols & _ & -> & _). apply entries_keys. }
    split; [exact Hkeys|]. intros name o Hin. apply In_nth_error in Hin. destruct Hin as (k & Hk). destruct (VtkProofs.Forall2_nth _ _ _ _ _ Hes Hk) as (e & He & vals & d0 & cols & Hvals & -> & Hcol & Hmod).
    destruct (Hcol c0 eq_refl) as [Hd0 Hcols]. exists vals. split; [exact Hvals|].
    assert (Hget : forall key w, In (key, w) (entries avg rms mode phase (name, o) d0 cols) -> dget String.eqb key (List.concat es) = Some w).
    { intros key w Hkw. apply (in_dget _ seqb_eq); [rewrite Hkeys; exact Hnd|]. apply in_concat. eexists. split; [apply nth_error_In in He; exact He|exact Hkw]. }
    assert (Hlr : zlen (c0 :: rows) = zlen (c0 :: r)) by (unfold zlen; rewrite (Forall2_length' _ _ _ Hperm); reflexivity).
    cbn [snd] in Hmod. split.
    - intros Hf c Hc. injection Hc as <-. exists d0. split; [|exact Hd0]. apply Hget. unfold entries. rewrite Hf. left. reflexivity.
    - intros Hf c Hc. injection Hc as <-. exists (List.map avg cols). split; [|apply per_columns; exact Hcols]. apply Hget. unfold entries. rewrite Hf. apply in_or_app. right. left. reflexivity.
    - intros Hf c Hc. injection Hc as <-. exists (List.map rms cols). split; [|apply per_columns; exact Hcols]. apply Hget. unfold entries. rewrite Hf. do 3 (apply in_or_app; right). left. reflexivity.
    - intros i Hi. split; [rewrite <- Hlr; apply Hmod; exact Hi|]. intros c Hc. injection Hc as <-.
      assert (Hiz : In i (zrange 1 (modes o + 1))) by (apply in_zrange; lia). split.
      + exists (List.map (mode i) cols). split; [|apply per_columns; exact Hcols]. apply Hget. unfold entries. apply in_or_app. right. apply in_or_app. right. apply in_or_app. left.
        apply in_flat_map. exists i. split; [exact Hiz|left; reflexivity].
      + intros Hf. exists (List.map (phase i) cols). split; [|apply per_columns; exact Hcols]. apply Hget. unfold entries. apply in_or_app. right. apply in_or_app. right. apply in_or_app. left.
        apply in_flat_map. exists i. split; [exact Hiz|]. rewrite Hf. right. left. reflexivity.
  Qed.

  (** The planes of a mesh are determined by the positions. *)
  Theorem C63_unique : forall zpos pls pls', are_planes gap zle zpos pls -> are_planes gap zle zpos pls' -> Forall2 (@Permutation Z) pls pls'.
  Proof. intros zpos. apply (planes_unique gap zle gap_sym gap_zero). Qed.

  (** ** Success *)
  Lemma apply_items_keep items : forall o k, dget String.eqb k o <> None -> dget String.eqb k (fold_left apply_item items o) <> None.
  Proof.
    assert (Hset : forall (o : dict string oval) k k' v, dget String.eqb k o <> None -> dget String.eqb k (dset String.eqb k' v o) <> None).
    { intros o k k' v H. destruct (string_dec k' k) as [->|Hne]; [rewrite (dget_dset_eq _ seqb_eq); discriminate|]. rewrite (dget_dset_neq _ seqb_eq); auto. }
    induction items as [|i items IH]; intros o k H; [exact H|]. cbn [fold_left]. apply IH. destruct i as [s|d]; cbn [apply_item]; [destruct (String.eqb s "no_avg"); apply Hset; exact H|].
    revert o H. induction d as [|(k', v) d IHd]; intros o H; [exact H|]. cbn [fold_left fst snd]. apply IHd. apply Hset. exact H.
  Qed.
  Lemma directives_opts cur select names ds : directives cur select names = Ok ds -> forall n o, In (n, o) ds -> In n names /\ forall k, dget String.eqb k cur <> None -> dget String.eqb k o <> None.
  Proof.
    destruct select as [sel|]; cbn [directives].
    - assert (Hgen : forall sel acc ds, foldM (fun d '(key, value) => if existsb (String.eqb key) names then Ok (dset String.eqb key (fold_left apply_item (items_of value) cur) d) else Err ValueError) acc sel = Ok ds ->
        (forall n o, In (n, o) acc -> In n names /\ forall k, dget String.eqb k cur <> None -> dget String.eqb k o <> None) ->
        forall n o, In (n, o) ds -> In n names /\ forall k, dget String.eqb k cur <> None -> dget String.eqb k o <> None).
      { clear. induction sel as [|(key, value) sel IH]; intros acc ds H Hacc n o Hin; [injection H as <-; apply Hacc; exact Hin|]. cbn [foldM] in H. apply bind_ok in H. destruct H as (acc' & Ha & H).
        destruct (existsb (String.eqb key) names) eqn:E; [|discriminate]. injection Ha as <-. apply (IH _ _ H); [|exact Hin]. clear n o Hin.
        intros n o Hin. apply existsb_exists in E. destruct E as (key' & Hk & E). apply String.eqb_eq in E. subst key'.
        assert (Hc : (n = key /\ o = fold_left apply_item (items_of value) cur) \/ In (n, o) acc).
        { clear -Hin. induction acc as [|(k, v) acc IH]; [cbn in Hin; destruct Hin as [E|[]]; injection E as <- <-; left; auto|]. cbn [dset] in Hin. destruct (String.eqb key k) eqn:Ek.
          - destruct Hin as [E|Hin]; [injection E as <- <-; apply String.eqb_eq in Ek; left; auto|right; right; exact Hin].
          - destruct Hin as [E|Hin]; [right; left; exact E|]. destruct (IH Hin) as [Hl|Hr]; [left; exact Hl|right; right; exact Hr]. }
        destruct Hc as [[-> ->]|Hc]; [|apply Hacc; exact Hc]. split; [exact Hk|]. intros k. apply apply_items_keep. }
      intros H. apply (Hgen sel [] ds H). intros n o [].
    - intros H. injection H as <-. intros n o Hin. apply in_map_iff in Hin. destruct Hin as (n' & E & Hn). injection E as -> ->. auto.
  Qed.

  Lemma data_total ik cell_data out name o vals c0 : nth_error ik 0 = Some c0 -> (forall row, In row ik -> List.length row = List.length c0 /\ forall c, In c row -> 0 <= c < zlen vals) ->
    dget String.eqb name cell_data = Some vals -> (forall k, In k ["avg"; "rms"; "phase"; "nmode"; "snapshot"]%string -> dget String.eqb k o <> None) -> modes o < zlen ik ->
    exists out', data_of avg rms mode phase ik cell_data out (name, o) = Ok out'.
  Proof.
    intros Hc0 Hrows Hv Ho Hm. unfold data_of. unfold dget_err at 1. rewrite Hv. cbn [bind].
    assert (Hopt : forall k, In k ["avg"; "rms"; "phase"; "nmode"; "snapshot"]%string -> exists v, opt o k = Ok v).
    { intros k Hk. specialize (Ho k Hk). unfold opt, dget_err. destruct (dget String.eqb k o) as [v|]; [exists v; reflexivity|congruence]. }
    assert (Hdata : exists data, mapM (np_take vals) ik = Ok data /\ Forall2 (fun row d => List.length d = List.length row) ik data).
    { clear -Hrows. induction ik as [|row ik IH]; [exists []; split; [reflexivity|constructor]|]. destruct IH as (data & E & H2); [intros r Hr; apply Hrows; right; exact Hr|].
      destruct (Hrows row (or_introl eq_refl)) as [_ Hin]. assert (Hd : exists d, np_take vals row = Ok d).
      { clear -Hin. unfold np_take. induction row as [|c row IH]; [exists []; reflexivity|]. destruct IH as (d & E); [intros x Hx; apply Hin; right; exact Hx|]. pose proof (Hin c (or_introl eq_refl)) as Hc.
        destruct (nth_error vals (Z.to_nat c)) as [v|] eqn:Ec; [|apply nth_error_None in Ec; unfold zlen in Hc; lia]. exists (v :: d). cbn [mapM]. rewrite (py_get_nth _ _ _ (proj1 Hc) Ec). cbn [bind]. rewrite E. reflexivity. }
      destruct Hd as (d & Ed). exists (d :: data). cbn [mapM]. rewrite Ed. cbn [bind]. rewrite E. split; [reflexivity|]. constructor; [|exact H2]. unfold np_take in Ed. apply mapM_ok_len in Ed. exact Ed. }
    destruct Hdata as (data & Ed & Hd2). rewrite Ed. cbn [bind]. destruct ik as [|r0 ik]; [discriminate|]. cbn in Hc0. injection Hc0 as ->. inversion Hd2 as [|? d0 ? data' Hl0 Hd2']; subst.
    change (py_get (d0 :: data') 0) with (Ok d0). cbn [bind].
    assert (Hcols : exists cols, mapM (column (d0 :: data')) (zrange 0 (zlen d0)) = Ok cols).
    { assert (Hall : forall js, (forall j, In j js -> 0 <= j < zlen d0) -> exists cols, mapM (column (d0 :: data')) js = Ok cols).
      { induction js as [|j js IH]; intros Hj; [exists []; reflexivity|]. destruct IH as (cols & E); [intros i Hi; apply Hj; right; exact Hi|]. pose proof (Hj j (or_introl eq_refl)) as Hjb.
        destruct (column_total (d0 :: data') (Z.to_nat j)) as (l & El & _).
        - intros d [<-|Hd]; [unfold zlen in Hjb; lia|]. apply In_nth_error in Hd. destruct Hd as (k & Hk). assert (Hkr : exists row, nth_error ik k = Some row). { destruct (nth_error ik k) as [row|] eqn:E'; [eauto|]. apply nth_error_None in E'. pose proof (Forall2_length' _ _ _ Hd2'). assert (Hkn : nth_error data' k <> None) by congruence. apply nth_error_Some in Hkn. lia. }
          destruct Hkr as (row & Hrow). destruct (VtkProofs.Forall2_nth _ _ _ _ _ Hd2' Hrow) as (d' & Hd' & Hl). assert (d' = d) by congruence. subst d'. rewrite Hl. rewrite (proj1 (Hrows row ltac:(right; apply nth_error_In in Hrow; exact Hrow))). unfold zlen in Hjb. lia.
        - rewrite Z2Nat.id in El by lia. exists (l :: cols). cbn [mapM]. rewrite El. cbn [bind]. rewrite E. reflexivity. }
      apply Hall. intros j Hj. apply in_zrange in Hj. exact Hj. }
    destruct Hcols as (cols & ->). cbn [bind]. destruct (Hopt "nmode"%string ltac:(cbn; tauto)) as (nm & Enm). destruct (Hopt "snapshot"%string ltac:(cbn; tauto)) as (sn & ->). destruct (Hopt "avg"%string ltac:(cbn; tauto)) as (av & ->). destruct (Hopt "rms"%string ltac:(cbn; tauto)) as (rm & ->).
    destruct (Hopt "phase"%string ltac:(cbn; tauto)) as (ph & ->). assert (Hmn : modes o = oint nm). { apply modes_of. unfold opt, dget_err in Enm. destruct (dget String.eqb "nmode" o); [injection Enm as ->; reflexivity|discriminate]. }
    rewrite Enm. cbn [bind]. generalize (if otruth av then dset String.eqb (name ++ "_avg")%string (List.map avg cols) (if otruth sn then dset String.eqb name d0 out else out) else (if otruth sn then dset String.eqb name d0 out else out)) as out1. intros out1.
    assert (Hlen : zlen (d0 :: data') = zlen (c0 :: ik)) by (unfold zlen; rewrite (Forall2_length' _ _ _ Hd2); reflexivity). rewrite Hlen.
    destruct (Z.gtb_spec (oint nm) 0) as [Hg|Hg]; [|cbn [bind]; eexists; reflexivity].
    assert (Hfold : forall l out, (forall i, In i l -> i < zlen (c0 :: ik)) -> exists out', foldM (fun out0 i => if i <? zlen (c0 :: ik) then
        let out := dset String.eqb (kname name i) (List.map (mode i) cols) out0 in
        ph <- Ok ph;; Ok (if otruth ph then dset String.eqb (kname name i ++ "_phase")%string (List.map (phase i) cols) out else out) else Err IndexError) out l = Ok out').
    { induction l as [|i l IH]; intros out2 Hi; [eexists; reflexivity|]. cbn [foldM]. destruct (Z.ltb_spec i (zlen (c0 :: ik))) as [_|Hn]; [|specialize (Hi i (or_introl eq_refl)); lia]. cbn [bind]. apply IH. intros j Hj. apply Hi. right. exact Hj. }
    destruct (Hfold (zrange 1 (oint nm + 1)) out1) as (out2 & Eo). { intros i Hi. apply in_zrange in Hi. lia. }
    cbn [bind] in Eo |- *. rewrite Eo. cbn [bind]. eexists. reflexivity.
  Qed.

  (** A mesh made of at least two equal planes, each of them a copy of the first one, is accepted. *)
  Theorem C63_accepts : forall enum junk (g : grid Q) cs xypos zpos cell_data rms_ phase_ snapshot nmode select ds pls c0 r,
    set_enum enum -> grid_of g cs -> vertices_ok g cs -> (forall c, In c cs -> zlen (snd c) <= 254) -> zlen zpos = zlen cs -> zlen xypos = zlen cs ->
    (forall name vals, dget String.eqb name cell_data = Some vals -> zlen vals = zlen cs) ->
    directives (options0 rms_ phase_ snapshot nmode) select (dkeys cell_data) = Ok ds ->
    (forall name o, In (name, o) ds -> modes o < zlen pls) ->
    are_planes gap zle zpos pls -> pls = c0 :: r -> r <> [] -> (forall p q, In p pls -> In q pls -> List.length p = List.length q) ->
    (* same spacing between planes *)
    (forall pls' zp, Forall2 (@Permutation Z) pls' pls -> Forall2 (Forall2 (at_pos zpos)) pls' zp -> uneven zp = false) ->
    (* every cell is close to one cell of the first plane *)
    separated_planes xypos zpos -> (forall p c, In p r -> In c p -> exists a, In a c0 /\ close xypos a c) ->
    (forall a q ps, at_pos xypos a q -> Forall (fun p => dle (kdist q p) tol = true) ps -> spread (q :: ps) = false) ->
    exists new out, zconv enum junk g xypos zpos cell_data rms_ phase_ snapshot nmode select = Ok (new, out).
  Proof.
    intros enum junk g cs xypos zpos cell_data rms_ phase_ snapshot nmode select ds pls c0 r Henum Hg Hv Hsz Hlen Hlx Hdl Hds Hmodes Hp Epls Hr Heq Hun Hsep Hcl Hspread.
    unfold zconvolution. rewrite Hds. cbn [bind].
    assert (Hzne : zpos <> []). { intros ->. pose proof (ap_all _ _ _ _ Hp) as Hall. change (zrange 0 (zlen (@nil S))) with (@nil Z) in Hall. symmetry in Hall. apply Permutation_nil in Hall. rewrite Epls in Hall. pose proof (ap_some _ _ _ _ Hp) as Hs. rewrite Epls in Hs. inversion Hs as [|? ? Hc]; subst. destruct c0; [congruence|discriminate]. }
    destruct (planes_run gap zle gap_mono zle_refl zle_trans zpos argsort uneven Hsort Hzne) as (G & HG & _ & Hok & _).
    pose proof (planes_unique gap zle gap_sym gap_zero zpos G pls HG Hp) as Hu. pose proof (Forall2_length' _ _ _ Hu) as HlG.
    assert (HlenG : forall p q, In p G -> In q G -> List.length p = List.length q).
    { intros p q Hpi Hqi. apply In_nth_error in Hpi, Hqi. destruct Hpi as (i & Hi), Hqi as (j & Hj). destruct (VtkProofs.Forall2_nth _ _ _ _ _ Hu Hi) as (p' & Hp' & Ep). destruct (VtkProofs.Forall2_nth _ _ _ _ _ Hu Hj) as (q' & Hq' & Eq).
      rewrite (Permutation_length Ep), (Permutation_length Eq). apply Heq; [apply nth_error_In in Hp'; exact Hp'|apply nth_error_In in Hq'; exact Hq']. }
    rewrite Hok; [|rewrite HlG, Epls; destruct r; [congruence|cbn; lia]|exact HlenG|intros zp Hzp; apply (Hun G zp Hu Hzp)]. cbn [bind].
    subst pls. destruct G as [|d0 G]; [inversion Hu|]. inversion Hu as [|? ? ? ? Hd0 Hu']; subst.
    assert (Hrange : forall c, In c (List.concat (d0 :: G)) -> 0 <= c < zlen zpos) by (intros c Hc; rewrite (ap_all _ _ _ _ HG) in Hc; apply in_zrange in Hc; exact Hc).
    assert (Hne : d0 <> []) by (pose proof (ap_some _ _ _ _ HG) as Hs; inversion Hs; assumption).
    assert (HndC : NoDup (List.concat (d0 :: G))) by (rewrite (ap_all _ _ _ _ HG); apply NoDup_zrange).
    assert (Hapart : forall p a c, In p G -> In a d0 -> In c p -> ~ same_plane gap zpos a c).
    { intros p a c Hpr Ha Hc Hs. apply In_nth_error in Hpr. destruct Hpr as (k & Hk).
      pose proof (proj2 (same_class gap zle gap_sym gap_zero zpos (d0 :: G) a c HG Hs) 0%nat (Datatypes.S k)) as Hk0.
      discriminate Hk0; [exists d0; auto|exists p; auto]. }
    assert (Hd0len : forall p, In p (d0 :: G) -> List.length p = List.length d0) by (intros p Hpi; apply HlenG; [exact Hpi|left; reflexivity]).
    assert (HsepG : forall p a c c', In p G -> In a d0 -> In c p -> In c' p -> close xypos a c -> close xypos a c' -> c = c').
    { intros p a c c' Hpr Ha Hc Hc' H1 H3. apply (Hsep a); try assumption; [apply (Hapart p); assumption|]. apply (ap_joined _ _ _ _ HG p); try assumption. right. exact Hpr. }
    destruct (ikplanes_total nearest kdist dle tol spread dle_total dle_trans nearest_ok xypos d0 G Hne Hd0len HndC) as (ik & Eik); try assumption.
    { intros c Hc. rewrite Hlx, <- Hlen. apply Hrange. exact Hc. }
    { intros p c Hpi Hc. apply In_nth_error in Hpi. destruct Hpi as (k & Hk). destruct (VtkProofs.Forall2_nth _ _ _ _ _ Hu' Hk) as (p' & Hp' & Ep). destruct (Hcl p' c) as (a & Ha & Hac); [apply nth_error_In in Hp'; exact Hp'|rewrite <- Ep; exact Hc|].
      exists a. split; [rewrite Hd0; exact Ha|exact Hac]. }
    rewrite Eik. cbn [bind]. change (py_get (d0 :: G) 0) with (Ok d0). cbn [bind].
    destruct (ikplanes_spec nearest kdist dle tol spread dle_total dle_trans nearest_ok xypos d0 G ik Hne Hd0len HndC) as (rows & -> & Hrows); try assumption.
    { apply Forall_forall. intros c Hc. apply Hrange. exact Hc. }
    destruct (C60_extract Q enum junk g cs d0 Henum Hg Hv Hne) as (g' & cs' & used & Eg & _).
    { intros id Hid. assert (Hb : 0 <= id < zlen zpos) by (apply Hrange; cbn [List.concat]; apply in_or_app; left; exact Hid). destruct (nth_error cs (Z.to_nat id)) as [c|] eqn:E; [exists c; split; [split; [lia|exact E]|]|].
      - apply nth_error_In in E. specialize (Hsz c E). lia.
      - apply nth_error_None in E. unfold zlen in *. lia. }
    { intros id r' c _ [_ Hc]. apply nth_error_In in Hc. apply Hsz. exact Hc. }
    rewrite Eg. cbn [bind].
    assert (Hfold : forall ds' out, (forall no, In no ds' -> In no ds) -> exists out', foldM (data_of avg rms mode phase (d0 :: rows) cell_data) out ds' = Ok out').
    { induction ds' as [|(name, o) ds' IH]; intros out Hin; [exists out; reflexivity|]. cbn [foldM]. destruct (directives_opts _ _ _ _ Hds name o (Hin _ (or_introl eq_refl))) as [Hname Hopts].
      assert (Hvals : exists vals, dget String.eqb name cell_data = Some vals). { destruct (dget String.eqb name cell_data) as [vals|] eqn:E; [eauto|]. apply (dget_None _ seqb_eq) in E. contradiction. }
      destruct Hvals as (vals & Hvals). destruct (data_total (d0 :: rows) cell_data out name o vals d0) as (out1 & Eo); try assumption; try reflexivity.
      - intros row Hrow. assert (Hperm : exists p, In p (d0 :: G) /\ Permutation row p).
        { destruct Hrow as [<-|Hrow]; [exists d0; split; [left; reflexivity|reflexivity]|]. apply In_nth_error in Hrow. destruct Hrow as (k & Hk). destruct (VtkProofs.Forall2_nth _ _ _ _ _ Hrows Hk) as (p & Hpk & Hpp & _). exists p. split; [right; apply nth_error_In in Hpk; exact Hpk|exact Hpp]. }
        destruct Hperm as (p & Hpi & Hpp). split; [rewrite (Permutation_length Hpp); apply Hd0len; exact Hpi|]. intros c Hc. rewrite Hpp in Hc. rewrite (Hdl name vals Hvals), <- Hlen. apply Hrange. apply in_concat. exists p. auto.
      - intros k Hk. apply Hopts. cbn in Hk. repeat destruct Hk as [<-|Hk]; try discriminate. destruct Hk.
      - specialize (Hmodes name o (Hin _ (or_introl eq_refl))). assert (Hl2 : zlen (d0 :: rows) = zlen (c0 :: r)). { unfold zlen. cbn [List.length]. rewrite (Forall2_length' _ _ _ Hrows), (Forall2_length' _ _ _ Hu'). reflexivity. }
        rewrite Hl2. exact Hmodes.
      - rewrite Eo. cbn [bind]. apply IH. intros no Hno. apply Hin. right. exact Hno. }
    destruct (Hfold ds [] (fun no H => H)) as (out & ->). cbn [bind]. eexists. eexists. reflexivity.
  Qed.

  (** Short of an impossible number of modes, the only refusal is ValueError: no other error and no
      index out of range comes from places that do not match. *)
  Theorem C63_refusal : forall enum junk (g : grid Q) cs xypos zpos cell_data rms_ phase_ snapshot nmode select ds,
    set_enum enum -> grid_of g cs -> vertices_ok g cs -> (forall c, In c cs -> zlen (snd c) <= 254) -> zlen zpos = zlen cs -> zlen xypos = zlen cs ->
    (forall name vals, dget String.eqb name cell_data = Some vals -> zlen vals = zlen cs) ->
    directives (options0 rms_ phase_ snapshot nmode) select (dkeys cell_data) = Ok ds ->
    (forall pls name o, are_planes gap zle zpos pls -> In (name, o) ds -> modes o < zlen pls) ->
    (exists new out, zconv enum junk g xypos zpos cell_data rms_ phase_ snapshot nmode select = Ok (new, out)) \/
    zconv enum junk g xypos zpos cell_data rms_ phase_ snapshot nmode select = Err ValueError.
  Proof.
    intros enum junk g cs xypos zpos cell_data rms_ phase_ snapshot nmode select ds Henum Hg Hv Hsz Hlen Hlx Hdl Hds Hmodes.
    unfold zconvolution. rewrite Hds. cbn [bind]. assert (Hd : zpos = [] \/ zpos <> []) by (destruct zpos; [left; reflexivity|right; discriminate]). destruct Hd as [Ez|Hzne].
    { right. assert (planes gap argsort uneven zpos = Err ValueError) as ->; [|reflexivity]. subst zpos. destruct (Hsort []) as [Hp _]. change (zrange 0 (zlen (@nil S))) with (@nil Z) in Hp. symmetry in Hp. apply Permutation_nil in Hp. unfold planes. rewrite Hp. reflexivity. }
    destruct (planes_run gap zle gap_mono zle_refl zle_trans zpos argsort uneven Hsort Hzne) as (G & HG & Hin2 & _ & [E|E]); rewrite E; cbn [bind]; [|right; reflexivity].
    destruct (Hin2 G E) as (_ & Hl2 & HlenG). clear Hin2 E. destruct G as [|d0 G]; [cbn in Hl2; lia|].
    assert (Hrange : forall c, In c (List.concat (d0 :: G)) -> 0 <= c < zlen zpos) by (intros c Hc; rewrite (ap_all _ _ _ _ HG) in Hc; apply in_zrange in Hc; exact Hc).
    pose proof (ap_some _ _ _ _ HG) as Hs. assert (Hne : d0 <> []) by (inversion Hs; assumption).
    destruct (ikplanes_either nearest kdist dle tol spread dle_total dle_trans nearest_ok xypos d0 G Hne) as [->|(rows & -> & Hlr & Hb)]; [intros p Hp; inversion Hs as [|? ? _ Hs']; subst; rewrite Forall_forall in Hs'; apply Hs'; exact Hp|intros c Hc; rewrite Hlx, <- Hlen; apply Hrange; exact Hc|right; reflexivity|].
    left. cbn [bind]. change (py_get (d0 :: G) 0) with (Ok d0). cbn [bind].
    destruct (C60_extract Q enum junk g cs d0 Henum Hg Hv Hne) as (g' & cs' & used & Eg & _).
    { intros id Hid. assert (Hbd : 0 <= id < zlen zpos) by (apply Hrange; cbn [List.concat]; apply in_or_app; left; exact Hid). destruct (nth_error cs (Z.to_nat id)) as [c|] eqn:E; [exists c; split; [split; [lia|exact E]|]|].
      - apply nth_error_In in E. specialize (Hsz c E). lia.
      - apply nth_error_None in E. unfold zlen in *. lia. }
    { intros id r' c _ [_ Hc]. apply nth_error_In in Hc. apply Hsz. exact Hc. }
    rewrite Eg. cbn [bind].
    assert (Hfold : forall ds' out, (forall no, In no ds' -> In no ds) -> exists out', foldM (data_of avg rms mode phase (d0 :: rows) cell_data) out ds' = Ok out').
    { induction ds' as [|(name, o) ds' IH]; intros out Hin; [exists out; reflexivity|]. cbn [foldM]. destruct (directives_opts _ _ _ _ Hds name o (Hin _ (or_introl eq_refl))) as [Hname Hopts].
      assert (Hvals : exists vals, dget String.eqb name cell_data = Some vals). { destruct (dget String.eqb name cell_data) as [vals|] eqn:E; [eauto|]. apply (dget_None _ seqb_eq) in E. contradiction. }
      destruct Hvals as (vals & Hvals). destruct (data_total (d0 :: rows) cell_data out name o vals d0) as (out1 & Eo); try assumption; try reflexivity.
      - intros row [<-|Hrow]; (split; [|intros c Hc; rewrite (Hdl name vals Hvals)]).
        + reflexivity.
        + rewrite <- Hlen. apply Hrange. cbn [List.concat]. apply in_or_app. left. exact Hc.
        + apply Hb. exact Hrow.
        + rewrite <- Hlx. apply (proj2 (Hb row Hrow)). exact Hc.
      - intros k Hk. apply Hopts. cbn in Hk. repeat destruct Hk as [<-|Hk]; try discriminate. destruct Hk.
      - specialize (Hmodes _ name o HG (Hin _ (or_introl eq_refl))). unfold zlen in *. cbn [List.length] in *. rewrite Hlr. exact Hmodes.
      - rewrite Eo. cbn [bind]. apply IH. intros no Hno. apply Hin. right. exact Hno. }
    destruct (Hfold ds [] (fun no H => H)) as (out & ->). cbn [bind]. eexists. eexists. reflexivity.
  Qed.

  (** ** Options *)
  (** No more Fourier modes than planes minus one can be asked for: the call fails. *)
  Lemma data_modes ik cell_data out name o out' : data_of avg rms mode phase ik cell_data out (name, o) = Ok out' -> 1 <= modes o -> modes o < zlen ik.
  Proof.
    intros H Hm. unfold data_of in H.
    apply bind_ok in H. destruct H as (vals & _ & H). apply bind_ok in H. destruct H as (data & Hdata & H). apply bind_ok in H. destruct H as (data0 & _ & H).
    apply bind_ok in H. destruct H as (cols & _ & H). apply bind_ok in H. destruct H as (nm & Hnm & H). apply bind_ok in H. destruct H as (snap & _ & H).
    apply bind_ok in H. destruct H as (av & _ & H). apply bind_ok in H. destruct H as (out2 & Hmodes & _).
    assert (Hmn : modes o = oint nm). { apply modes_of. unfold opt, dget_err in Hnm. destruct (dget String.eqb "nmode" o); [injection Hnm as ->; reflexivity|discriminate]. }
    rewrite <- Hmn in Hmodes. destruct (Z.gtb_spec (modes o) 0); [|lia].
    apply mapM_ok_len in Hdata. assert (Hl : zlen data = zlen ik) by (unfold zlen; rewrite Hdata; reflexivity). rewrite Hl in Hmodes.
    assert (Hin : In (modes o) (zrange 1 (modes o + 1))) by (apply in_zrange; lia). revert Hmodes Hin. generalize (modes o) at 2 4 as m. intros m. clear -m.
    match goal with |- foldM _ ?o _ = _ -> _ => generalize o end. generalize (zrange 1 (modes o + 1)). induction l as [|i l IH]; intros out0 H Hin; [destruct Hin|destruct Hin as [Hin|Hin]].
    - subst i. cbn [foldM] in H. apply bind_ok in H. destruct H as (? & H & _). destruct (Z.ltb_spec m (zlen ik)); [assumption|discriminate].
    - cbn [foldM] in H. apply bind_ok in H. destruct H as (? & _ & H). apply (IH _ H). assumption.
  Qed.
  Theorem C63_modes : forall enum junk (g : grid Q) xypos zpos cell_data rms_ phase_ snapshot nmode select ds pls name o new out,
    zconv enum junk g xypos zpos cell_data rms_ phase_ snapshot nmode select = Ok (new, out) ->
    directives (options0 rms_ phase_ snapshot nmode) select (dkeys cell_data) = Ok ds -> In (name, o) ds ->
    are_planes gap zle zpos pls -> modes o < zlen pls.
  Proof.
    intros enum junk g xypos zpos cell_data rms_ phase_ snapshot nmode select ds pls name o new out H Hds Hin Hp.
    unfold zconvolution in H. rewrite Hds in H. cbn [bind] in H. apply bind_ok in H. destruct H as (chunks & Hch & H). apply bind_ok in H. destruct H as (ik & Hik & H).
    apply bind_ok in H. destruct H as (c0 & Hc0 & H). apply bind_ok in H. destruct H as (new' & _ & H). apply bind_ok in H. destruct H as (out' & Hout & _).
    assert (Hl : zlen ik = zlen chunks). { unfold ikplanes in Hik. destruct chunks as [|d0 r]; [discriminate|]. apply bind_ok in Hik. destruct Hik as (ref & _ & Hik). apply bind_ok in Hik. destruct Hik as (rows & Hrows & Hik). apply bind_ok in Hik. destruct Hik as (cols & _ & Hik).
      destruct (existsb spread cols); [discriminate|]. injection Hik as <-. apply mapM_ok_len in Hrows. unfold zlen. cbn [List.length]. rewrite Hrows. reflexivity. }
    assert (Hzne : zpos <> []). { intros ->. pose proof (ap_all _ _ _ _ Hp) as Hall. pose proof (proj1 (Hsort [])) as Hs. change (zrange 0 (zlen (@nil S))) with (@nil Z) in Hs. symmetry in Hs. apply Permutation_nil in Hs. unfold planes in Hch. rewrite Hs in Hch. cbn in Hch. discriminate. }
    destruct (planes_run gap zle gap_mono zle_refl zle_trans zpos argsort uneven Hsort Hzne) as (G & HG & Hok & _). destruct (Hok _ Hch) as (-> & H2 & _).
    pose proof (Forall2_length' _ _ _ (planes_unique gap zle gap_sym gap_zero zpos G pls HG Hp)) as Hlp.
    replace (zlen pls) with (zlen ik) by (rewrite Hl; unfold zlen; lia).
    destruct (Z.leb_spec 1 (modes o)) as [Hm|Hm]; [|rewrite Hl; unfold zlen; lia].
    revert out' Hout Hin Hm. clear Hds. generalize (@nil (string * list V)). induction ds as [|no ds IH]; intros out0 out' Hout Hin Hm; [destruct Hin|destruct Hin as [Hin|Hin]].
    - subst no. cbn [foldM] in Hout. apply bind_ok in Hout. destruct Hout as (? & Hd & _). apply (data_modes _ _ _ _ _ _ Hd Hm).
    - cbn [foldM] in Hout. apply bind_ok in Hout. destruct Hout as (? & _ & Hout). apply (IH _ _ Hout); assumption.
  Qed.

  (** A selection naming an array the mesh does not have is refused, whatever the mesh. *)
  Theorem C63_unknown : forall enum junk (g : grid Q) xypos zpos cell_data rms_ phase_ snapshot nmode sel key value,
    In (key, value) sel -> ~ In key (dkeys cell_data) ->
    zconv enum junk g xypos zpos cell_data rms_ phase_ snapshot nmode (Some sel) = Err ValueError.
  Proof.
    intros enum junk g xypos zpos cell_data rms_ phase_ snapshot nmode sel key value Hin Hn. unfold zconvolution, directives.
    match goal with |- bind ?x _ = _ => assert (E : x = Err ValueError); [|rewrite E; reflexivity] end.
    clear -Hin Hn. generalize (@nil (string * dict string oval)). induction sel as [|(k, v) sel IH]; intros acc; [destruct Hin|].
    cbn [foldM]. destruct (existsb (String.eqb k) (dkeys cell_data)) eqn:E; [|reflexivity]. cbn [bind].
    destruct Hin as [Hin|Hin]; [|apply IH; exact Hin]. injection Hin as -> ->. exfalso. apply Hn. apply existsb_exists in E. destruct E as (k' & Hk & E). apply String.eqb_eq in E. subst k'. exact Hk.
  Qed.
End C63.
Print Assumptions C63_planes.
Print Assumptions C63_columns.
Print Assumptions C63_unique.
Print Assumptions C63_accepts.
Print Assumptions C63_refusal.
Print Assumptions C63_modes.
Print Assumptions C63_unknown.

(** What an item of a selection says about the options. *)
Definition says (i : sitem) : list (string * oval) :=
  match i with
  | IStr s => [if string_dec s "no_avg" then ("avg"%string, OB false) else (s, OB true)]
  | IDict d => d
  end.
(** The last value given to option [k], or its default. *)
Definition last_said (k : string) (l : list (string * oval)) (dflt v : oval) : Prop :=
  (exists l1 l2, l = l1 ++ (k, v) :: l2 /\ ~ In k (List.map fst l2)) \/ (~ In k (List.map fst l) /\ v = dflt).

Lemma fold_dset k : forall (l : list (string * oval)) (o : dict string oval) d, dget String.eqb k o = Some d ->
  exists v, dget String.eqb k (fold_left (fun o kv => dset String.eqb (fst kv) (snd kv) o) l o) = Some v /\ last_said k l d v.
Proof.
  induction l as [|(k', v') l IH]; intros o d Ho; [exists d; split; [exact Ho|right; split; [intros []|reflexivity]]|]. cbn [fold_left fst snd].
  destruct (string_dec k' k) as [->|Hne].
  - destruct (IH (dset String.eqb k v' o) v') as (v & Hv & Hl); [apply (dget_dset_eq _ seqb_eq)|]. exists v. split; [exact Hv|]. left.
    destruct Hl as [(l1 & l2 & -> & Hn)|[Hn ->]]; [exists ((k, v') :: l1), l2; split; [reflexivity|exact Hn]|exists [], l; split; [reflexivity|exact Hn]].
  - destruct (IH (dset String.eqb k' v' o) d) as (v & Hv & Hl); [rewrite (dget_dset_neq _ seqb_eq); [exact Ho|congruence]|]. exists v. split; [exact Hv|].
    destruct Hl as [(l1 & l2 & -> & Hn)|[Hn ->]]; [left; exists ((k', v') :: l1), l2; split; [reflexivity|exact Hn]|right; split; [|reflexivity]]. intros [E|Hi]; [apply Hne; exact E|contradiction].
Qed.
Lemma fold_items items : forall o, fold_left apply_item items o = fold_left (fun o kv => dset String.eqb (fst kv) (snd kv) o) (flat_map says items) o.
Proof.
  induction items as [|i items IH]; intros o; [reflexivity|]. cbn [fold_left flat_map]. rewrite fold_left_app, IH. f_equal. destruct i as [s|d]; [|reflexivity].
  cbn [says apply_item fold_left]. destruct (String.eqb_spec s "no_avg"); destruct (string_dec s "no_avg"); try contradiction; reflexivity.
Qed.

(** With a selection of known arrays, only these are averaged, and each option of an array is the last
    value given to it in the selection, or the general value. *)
Theorem C63_select : forall rms_ phase_ snapshot nmode sel names,
  NoDup (dkeys sel) -> (forall k, In k (dkeys sel) -> In k names) ->
  exists ds, directives (options0 rms_ phase_ snapshot nmode) (Some sel) names = Ok ds /\
    Forall2 (fun kv no => fst no = fst kv /\
      let said := flat_map says (items_of (snd kv)) in
      exists av rm ph nm sn, last_said "avg" said (OB true) av /\ last_said "rms" said (OB rms_) rm /\ last_said "phase" said (OB phase_) ph /\
        last_said "nmode" said (OI nmode) nm /\ last_said "snapshot" said (OB snapshot) sn /\
        flag (snd no) "avg" = on av /\ flag (snd no) "rms" = on rm /\ flag (snd no) "phase" = on ph /\
        modes (snd no) = count nm /\ flag (snd no) "snapshot" = on sn) sel ds.
Proof.
  intros rms_ phase_ snapshot nmode sel names Hnd Hk. set (cur := options0 rms_ phase_ snapshot nmode).
  assert (E : directives cur (Some sel) names = Ok (List.map (fun kv => (fst kv, fold_left apply_item (items_of (snd kv)) cur)) sel)).
  { cbn [directives]. assert (Hg : forall sel acc, NoDup (dkeys acc ++ dkeys sel) -> (forall k, In k (dkeys sel) -> In k names) ->
      foldM (fun d '(key, value) => if existsb (String.eqb key) names then Ok (dset String.eqb key (fold_left apply_item (items_of value) cur) d) else Err ValueError) acc sel
      = Ok (acc ++ List.map (fun kv => (fst kv, fold_left apply_item (items_of (snd kv)) cur)) sel)).
    { clear. induction sel as [|(k, v) sel IH]; intros acc Hnd Hk; [cbn; rewrite app_nil_r; reflexivity|]. cbn [foldM].
      assert (existsb (String.eqb k) names = true) as ->. { apply existsb_exists. exists k. split; [apply Hk; left; reflexivity|apply String.eqb_refl]. }
      cbn [bind]. rewrite (dset_notin _ seqb_eq). 2:{ apply NoDup_app in Hnd. destruct Hnd as (_ & _ & Hd). intros Hi. apply (Hd _ Hi). left. reflexivity. }
      rewrite IH; [rewrite <- app_assoc; reflexivity|unfold dkeys in *; rewrite map_app, <- app_assoc; exact Hnd|intros k' Hk'; apply Hk; right; exact Hk']. }
    rewrite Hg; [reflexivity|exact Hnd|exact Hk]. }
  eexists. split; [exact E|]. clear E Hnd Hk. induction sel as [|(k, v) sel IH]; [constructor|]. cbn [List.map fst snd]. constructor; [|exact IH]. cbn [fst snd]. split; [reflexivity|].
  cbv zeta. rewrite fold_items.
  destruct (fold_dset "avg" (flat_map says (items_of v)) cur (OB true) eq_refl) as (av & Ha & La). destruct (fold_dset "rms" (flat_map says (items_of v)) cur (OB rms_) eq_refl) as (rm & Hr & Lr).
  destruct (fold_dset "phase" (flat_map says (items_of v)) cur (OB phase_) eq_refl) as (ph & Hph & Lp). destruct (fold_dset "nmode" (flat_map says (items_of v)) cur (OI nmode) eq_refl) as (nm & Hnm & Ln).
  destruct (fold_dset "snapshot" (flat_map says (items_of v)) cur (OB snapshot) eq_refl) as (sn & Hsn & Ls).
  exists av, rm, ph, nm, sn. unfold flag, modes. rewrite Ha, Hr, Hph, Hnm, Hsn. repeat split; assumption.
Qed.
Print Assumptions C63_select.

(** The example of the documentation: average of Q; rms and two modes with phases of U. *)
Example ex_select : exists ds, directives (options0 false false false 0)
    (Some [("Q", SStr "avg"); ("U", SList [IStr "no_avg"; IStr "rms"; IDict [("nmode", OI 2)]; IStr "phase"])]) ["U"; "p"; "Q"] = Ok ds /\
  List.map produced ds = [["Q_avg"]; ["U_k1"; "U_k1_phase"; "U_k2"; "U_k2_phase"; "U_rms"]].
Proof. eexists. split; vm_compute; reflexivity. Qed.

(** ** Examples: cells on a plane at integer positions, [x] across and [z] along. *)
Section Examples.
  Let zd (a b : Z) : Z := Z.abs (a - b).
  (** A stable sort of the indices. *)
  Fixpoint ins (zpos : list Z) (i : Z) (l : list Z) : list Z :=
    match l with [] => [i] | j :: r => if nth (Z.to_nat i) zpos 0 <=? nth (Z.to_nat j) zpos 0 then i :: l else j :: ins zpos i r end.
  Definition zargsort (zpos : list Z) : list Z := fold_right (ins zpos) [] (zrange 0 (zlen zpos)).
  Lemma ins_perm zpos i l : Permutation (ins zpos i l) (i :: l).
  Proof. induction l as [|j l IH]; [reflexivity|]. cbn [ins]. destruct (_ <=? _); [reflexivity|]. rewrite IH. apply perm_swap. Qed.
  Let key zpos i := nth (Z.to_nat i) zpos 0.
  Lemma ins_sorted zpos i l : StronglySorted Z.le (List.map (key zpos) l) -> StronglySorted Z.le (List.map (key zpos) (ins zpos i l)).
  Proof.
    induction l as [|j l IH]; intros H; [repeat constructor|]. cbn [ins]. inversion H as [|? ? Hs Hf]; subst. fold (key zpos i) (key zpos j). destruct (Z.leb_spec (key zpos i) (key zpos j)).
    - cbn [List.map]. constructor; [exact H|]. constructor; [assumption|]. rewrite Forall_forall in Hf |- *. intros x Hx. specialize (Hf x Hx). lia.
    - cbn [List.map]. constructor; [apply IH; exact Hs|]. rewrite Forall_forall in Hf |- *. intros x Hx. apply in_map_iff in Hx. destruct Hx as (k & <- & Hk). rewrite ins_perm in Hk. destruct Hk as [<-|Hk]; [lia|]. apply Hf. apply in_map. exact Hk.
  Qed.
  Example zargsort_sorts : sorts Z.le zargsort.
  Proof.
    intros zpos. split.
    - unfold zargsort. induction (zrange 0 (zlen zpos)) as [|i l IH]; [reflexivity|]. cbn [fold_right]. rewrite ins_perm, IH. reflexivity.
    - intros zs Hzs. assert (zs = List.map (key zpos) (zargsort zpos)) as ->.
      { revert zs Hzs. induction (zargsort zpos) as [|i l IH]; intros [|z zs] H; try discriminate; [reflexivity|]. cbn [List.map] in H |- *. injection H as H1 H2. rewrite <- (IH zs H2). f_equal. unfold key. symmetry. apply nth_error_nth. exact H1. }
      unfold zargsort. induction (zrange 0 (zlen zpos)) as [|i l IH]; [constructor|]. cbn [fold_right]. apply ins_sorted. exact IH.
  Qed.
  Let zgap (a b : Z) : bool := zd a b >? 2.
  Let zsum (l : list Z) : Z := fold_right Z.add 0 l.
  Let zsp (l : list Z) : bool := match l with [] => false | q :: r => existsb (fun p => zd q p >? 2) r end.
  Let zc := zconvolution (Q := string) (V := Z) zgap zargsort (fun _ => false) znear zd Z.leb 2 zsp zsum (fun l => fold_right Z.max 0 l) (fun i l => i + zsum l) (fun i l => i - zsum l).
  (** Four cells: two planes [z] about 0 and 10, each with cells at [x] about 0 and 100, the second one in the
      other order. *)
  Let cs : list (Z * list Z) := [(9, [0;1;4;3]); (9, [4;5;8;7]); (9, [1;2;5;4]); (9, [3;4;7;6])].
  Let g : grid string := Grid string [4;0;1;4;3; 4;4;5;8;7; 4;1;2;5;4; 4;3;4;7;6] [0;4;8;12;16] [9;9;9;9] ["p0"; "p1"; "p2"; "p3"; "p4"; "p5"; "p6"; "p7"; "p8"].
  Let xypos := [0; 101; 100; 1].
  Let zpos := [0; 10; 1; 10].
  Example ex_zconv : match zc (fun l => np_unique l) (fun i => 0) g xypos zpos [("u", [1; 20; 2; 10]); ("v", [0; 0; 0; 0])] true true true 1 (Some [("u", SStr "rms")]) with Ok (_, out) => Some out | Err _ => None end
    = Some [("u", [1; 2]); ("u_avg", [11; 22]); ("u_k1", [12; 23]); ("u_k1_phase", [-10; -21]); ("u_rms", [10; 20])].
  Proof. vm_compute. reflexivity. Qed.
  Example ex_planes : are_planes zgap Z.le zpos [[0; 2]; [3; 1]].
  Proof.
    constructor.
    - apply NoDup_Permutation; [repeat (constructor; [cbn; lia|]); constructor|apply NoDup_zrange|]. intros x. rewrite in_zrange. cbn. unfold zlen; cbn. lia.
    - repeat constructor; discriminate.
    - intros p a b Hp Ha Hb. cbn in Hp. repeat destruct Hp as [<-|Hp]; try destruct Hp; cbn in Ha, Hb; (repeat destruct Ha as [<-|Ha]; try destruct Ha; repeat destruct Hb as [<-|Hb]; try destruct Hb);
        apply rst_step; (split; [lia|]); (split; [lia|]); eexists; eexists; (split; [reflexivity|]); (split; [reflexivity|]); reflexivity.
    - intros i j p p' a b za zb Hij Hp Hp' Ha Hb Hza Hzb. destruct i as [|[|i]]; [|destruct j as [|[|j]]; cbn in Hp'; try lia; destruct j; discriminate|cbn in Hp; destruct i; discriminate].
      destruct j as [|[|j]]; [lia| |cbn in Hp'; destruct j; discriminate]. cbn in Hp, Hp'. injection Hp as <-. injection Hp' as <-.
      cbn in Ha, Hb. repeat destruct Ha as [<-|Ha]; try destruct Ha; repeat destruct Hb as [<-|Hb]; try destruct Hb; cbn in Hza, Hzb; injection Hza as <-; injection Hzb as <-; split; try lia; reflexivity.
  Qed.
  Example ex_order_hyps : (forall a b c d, a <= b -> b <= c -> c <= d -> zgap b c = true -> zgap a d = true) /\ (forall a b, zgap a b = zgap b a) /\ (forall a b, a <= b -> b <= a -> zgap a b = false).
  Proof.
    unfold zgap, zd. repeat split; intros; [rewrite Z.gtb_lt in *; lia|f_equal; lia|].
    match goal with |- (?x >? ?y) = false => destruct (Z.gtb_spec x y) end; [lia|reflexivity].
  Qed.
  Example ex_hyps : grid_of g cs /\ vertices_ok g cs.
  Proof.
    split.
    - constructor; try reflexivity. intros k Hk. destruct k as [|[|[|[|[|k]]]]]; try reflexivity. cbn in Hk. lia.
    - intros c v Hc Hv. cbn in Hc. repeat destruct Hc as [<-|Hc]; try destruct Hc; cbn in Hv; cbn; lia.
  Qed.
  Lemma ex_at : forall c p, at_pos xypos c p -> (c = 0 /\ p = 0) \/ (c = 1 /\ p = 101) \/ (c = 2 /\ p = 100) \/ (c = 3 /\ p = 1).
  Proof.
    intros c p [H0 H]. unfold xypos in H. destruct (Z.to_nat c) as [|[|[|[|n]]]] eqn:E; cbn in H; [| | | |destruct n; discriminate];
    injection H as H; subst p; [left|right; left|right; right; left|right; right; right]; (split; [|reflexivity]); clear -H0 E; lia.
  Qed.
  Lemma ex_apart : forall a b, (a = 0 /\ b = 3) \/ (a = 1 /\ b = 2) -> ~ same_plane zgap zpos a b.
  Proof.
    destruct ex_order_hyps as (_ & Hs & Hz). intros a b Hab H.
    pose proof (proj2 (same_class zgap Z.le Hs Hz zpos [[0; 2]; [3; 1]] a b ex_planes H)) as Hc. clear H. destruct Hab as [[-> ->]|[-> ->]].
    - discriminate (Hc 0%nat 1%nat); [exists [0; 2]|exists [3; 1]]; (split; [reflexivity|]); [left|left]; reflexivity.
    - discriminate (Hc 1%nat 0%nat); [exists [3; 1]|exists [0; 2]]; (split; [reflexivity|]); right; left; reflexivity.
  Qed.
  Example ex_separated_planes : separated_planes zgap zd Z.leb 2 xypos zpos.
  Proof.
    intros a c c' _ Hcc (q & p & Hq & Hp & H1) (q' & p' & Hq' & Hp' & H2). apply ex_at in Hq, Hp, Hq', Hp'. apply Z.leb_le in H1, H2. unfold zd in H1, H2.
    assert (Hd : c = c' \/ ((c = 0 /\ c' = 3) \/ (c = 1 /\ c' = 2)) \/ ((c' = 0 /\ c = 3) \/ (c' = 1 /\ c = 2))) .
    { clear -Hq Hp Hq' Hp' H1 H2. destruct Hq as [[-> ->]|[[-> ->]|[[-> ->]|[-> ->]]]]; (destruct Hp as [[-> ->]|[[-> ->]|[[-> ->]|[-> ->]]]]; try (exfalso; clear -H1; lia));
      (destruct Hq' as [[E ->]|[[E ->]|[[E ->]|[E ->]]]]; try discriminate E); (destruct Hp' as [[-> ->]|[[-> ->]|[[-> ->]|[-> ->]]]]; try (exfalso; clear -H2; lia)); auto. }
    destruct Hd as [Hd|[Hd|Hd]]; [exact Hd|destruct (ex_apart c c' Hd Hcc)|destruct (ex_apart c' c Hd (rst_sym _ _ _ _ Hcc))].
  Qed.
  (** When centres of a plane are not separated the leftover entries point to cell 0: both cells of the second
      plane are near cell 1 of the first one, and the column of cell 0 counts cell 0 twice. *)
  Example ex_leftover : match zc (fun l => np_unique l) (fun i => 0) g [0; 101; 100; 99] zpos [("u", [1; 20; 2; 10])] false false false 0 None with Ok (_, out) => Some out | Err _ => None end
    = Some [("u_avg", [2; 12])].
  Proof. vm_compute. reflexivity. Qed.
  (** Places that do not match, and planes of different sizes. *)
  Example ex_refusal : zc (fun l => np_unique l) (fun i => 0) g [0; 101; 200; 1] zpos [("u", [1; 20; 2; 10])] false false false 0 None = Err ValueError /\
    zc (fun l => np_unique l) (fun i => 0) g xypos [0; 10; 10; 10] [("u", [1; 20; 2; 10])] false false false 0 None = Err ValueError.
  Proof. vm_compute. split; reflexivity. Qed.
  (** Too many modes. *)
  Example ex_modes : zc (fun l => np_unique l) (fun i => 0) g xypos zpos [("u", [1; 20; 2; 10])] false false false 2 None = Err IndexError.
  Proof. vm_compute. reflexivity. Qed.
  (** The average of [u] overwrites the copy of an array called [u_avg]. *)
  Example ex_names : match zc (fun l => np_unique l) (fun i => 0) g xypos zpos [("u_avg", [5; 6; 7; 8]); ("u", [1; 20; 2; 10])] false false true 0 None with Ok (_, out) => Some out | Err _ => None end
    = Some [("u_avg", [11; 22]); ("u_avg_avg", [13; 13]); ("u", [1; 2])].
  Proof. vm_compute. reflexivity. Qed.
End Examples.
