(** * C61: reading lists of VTK files. *)
From Coq Require Import Permutation Lia.
From Verif Require Import Py PyFacts ConnProofs VtkProofs VtkList.

Lemma nodup_full (l : list Z) n : NoDup l -> zlen l = n -> (forall x, In x l -> 0 <= x < n) -> forall j, 0 <= j < n -> In j l.
Proof.
  intros Hnd Hl Hb j Hj. assert (Hp : Permutation l (zrange 0 n)).
  { apply NoDup_bounded_perm; assumption. }
  symmetry in Hp. apply (Permutation_in _ Hp). apply in_zrange. exact Hj.
Qed.

Lemma upd_nth_eq {A} (l : list A) n v : (n < List.length l)%nat -> nth_error (upd_nat l n v) n = Some v.
Proof. intros H. rewrite nth_error_upd_nat, Nat.eqb_refl. apply Nat.ltb_lt in H. rewrite H. reflexivity. Qed.
Lemma upd_nth_neq {A} (l : list A) n v m : n <> m -> nth_error (upd_nat l n v) m = nth_error l m.
Proof. intros H. rewrite nth_error_upd_nat. apply Nat.eqb_neq in H. rewrite H. reflexivity. Qed.

Lemma np_put_ok {A} : forall (idx : list Z) (vals : list A) l, List.length idx = List.length vals -> (forall j, In j idx -> 0 <= j < zlen l) ->
  exists l', np_put l idx vals = Ok l' /\ List.length l' = List.length l /\
    (forall j, 0 <= j -> ~ In j idx -> nth_error l' (Z.to_nat j) = nth_error l (Z.to_nat j)) /\
    (forall j, In j idx -> exists k v, nth_error idx k = Some j /\ nth_error vals k = Some v /\ nth_error l' (Z.to_nat j) = Some v).
Proof.
  induction idx as [|i idx IH]; intros vals l Hl Hb.
  - destruct vals; [|discriminate]. exists l. split; [reflexivity|]. split; [reflexivity|]. split; [reflexivity|intros j []].
  - destruct vals as [|v vals]; [discriminate|]. cbn [np_put]. pose proof (Hb i (or_introl eq_refl)) as Hi.
    rewrite py_set_nonneg by exact Hi. cbn [bind].
    destruct (IH vals (upd_nat l (Z.to_nat i) v)) as (l' & E & El & Hno & Hyes).
    { cbn in Hl. lia. }
    { intros j Hj. unfold zlen. rewrite upd_nat_length. apply Hb. right. exact Hj. }
    exists l'. split; [exact E|]. split; [rewrite El; apply upd_nat_length|]. split.
    + intros j Hj0 Hj. rewrite Hno; [|exact Hj0|intros X; apply Hj; right; exact X].
      apply upd_nth_neq. intros X. apply Hj. left. lia.
    + intros j Hj. destruct (in_dec Z.eq_dec j idx) as [Hin|Hni].
      * destruct (Hyes j Hin) as (k & w & H1 & H2 & H3). exists (S k), w. auto.
      * destruct Hj as [<-|Hj]; [|contradiction]. exists 0%nat, v. split; [reflexivity|]. split; [reflexivity|].
        rewrite Hno; [|lia|exact Hni]. apply upd_nth_eq. unfold zlen in Hi. lia.
Qed.

Section C61.
  Context {P D V T : Type} (mdist kdist : P -> P -> D) (dle : D -> D -> bool)
          (nearest : list P -> P -> Z) (truth : T -> bool).
  Hypothesis dle_total : forall a b, dle a b = true \/ dle b a = true.
  Hypothesis dle_trans : forall a b c, dle a b = true -> dle b c = true -> dle a c = true.
  (** A nearest-neighbour search returns a reference point no farther than any other. *)
  Hypothesis nearest_ok : forall ref p, ref <> [] ->
    0 <= nearest ref p /\ exists q, nth_error ref (Z.to_nat (nearest ref p)) = Some q /\
                                   forall q', In q' ref -> dle (kdist q p) (kdist q' p) = true.

  Notation file := (vfile P V T).
  Notation rd := (read_file mdist kdist dle nearest truth).

  (** ** Maximum *)
  Lemma fold_dmax l : forall x, In (fold_left (dmax2 dle) l x) (x :: l) /\ forall y, In y (x :: l) -> dle y (fold_left (dmax2 dle) l x) = true.
  Proof.
    assert (Hrefl : forall a, dle a a = true) by (intros a; destruct (dle_total a a); assumption).
    induction l as [|a l IH]; intros x; [cbn; split; [left; reflexivity|intros y [<-|[]]; apply Hrefl]|].
    cbn [fold_left]. destruct (IH (dmax2 dle x a)) as [Hin Hmax]. split.
    - destruct Hin as [<-|Hin]; [|right; right; exact Hin]. unfold dmax2. destruct (dle x a); [right; left; reflexivity|left; reflexivity].
    - intros y Hy. assert (Hxa : dle x (dmax2 dle x a) = true /\ dle a (dmax2 dle x a) = true).
      { unfold dmax2. destruct (dle x a) eqn:E; [split; [exact E|apply Hrefl]|]. destruct (dle_total x a) as [H|H]; [congruence|]. split; [apply Hrefl|exact H]. }
      pose proof (Hmax _ (or_introl eq_refl)) as Hm.
      destruct Hy as [<-|[<-|Hy]]; [apply (dle_trans _ _ _ (proj1 Hxa) Hm)|apply (dle_trans _ _ _ (proj2 Hxa) Hm)|apply Hmax; right; exact Hy].
  Qed.
  Lemma np_max_spec l d : np_max dle l = Ok d -> In d l /\ forall y, In y l -> dle y d = true.
  Proof. destruct l as [|x l]; [discriminate|]. cbn. intros H. injection H as <-. apply fold_dmax. Qed.
  Lemma np_max_total l : l <> [] -> exists d, np_max dle l = Ok d.
  Proof. destruct l as [|x l]; [congruence|]. intros _. eexists. reflexivity. Qed.
  Lemma np_max_le l d tol : np_max dle l = Ok d -> (dgt dle d tol = false <-> forall y, In y l -> dle y tol = true).
  Proof.
    intros H. destruct (np_max_spec _ _ H) as [Hin Hmax]. unfold dgt. rewrite Bool.negb_false_iff. split.
    - intros Hd y Hy. apply (dle_trans _ d); [apply Hmax; exact Hy|exact Hd].
    - intros Hy. apply Hy. exact Hin.
  Qed.

  (** ** Distances *)
  Lemma distances_same (a b : list P) : zlen a = zlen b -> distances mdist a b = Ok (List.map (fun pq => mdist (fst pq) (snd pq)) (combine a b)).
  Proof. intros H. unfold distances. rewrite H, Z.eqb_refl. reflexivity. Qed.
  Lemma combine_nth_in {A B} (a : list A) (b : list B) k x y : nth_error a k = Some x -> nth_error b k = Some y -> In (x, y) (combine a b).
  Proof.
    revert b k. induction a as [|u a IH]; intros [|v b] [|k] Hx Hy; try discriminate; cbn in *.
    - injection Hx as ->. injection Hy as ->. left. reflexivity.
    - right. apply (IH b k); assumption.
  Qed.
  Lemma combine_in_nth {A B} (a : list A) (b : list B) x y : In (x, y) (combine a b) -> exists k, nth_error a k = Some x /\ nth_error b k = Some y.
  Proof.
    revert b. induction a as [|u a IH]; intros [|v b] H; try destruct H.
    - exists 0%nat. injection H as -> ->. split; reflexivity.
    - destruct (IH b H) as (k & H1 & H2). exists (S k). split; assumption.
  Qed.

  (** ** The picked data *)
  Lemma pick_ok (g : list V -> res (list V)) names data : (forall n, In n names -> exists v w, dget String.eqb n data = Some v /\ g v = Ok w) ->
    exists d : dict string (dval V T), pick names data g = Ok d.
  Proof.
    unfold pick. intros H. generalize (@nil (string * dval V T)) as acc. induction names as [|n names IH]; intros acc; [exists acc; reflexivity|].
    cbn [foldM]. destruct (H n (or_introl eq_refl)) as (v & w & Hv & Hw). unfold dget_err at 1. rewrite Hv. cbn [bind]. rewrite Hw. cbn [bind].
    apply IH. intros m Hm. apply H. right. exact Hm.
  Qed.
  Lemma pick_get (g : list V -> res (list V)) names data : forall (acc d : dict string (dval V T)),
    foldM (fun d name => v <- dget_err String.eqb name data ;; w <- g v ;; Ok (dset String.eqb name (DArr w) d)) acc names = Ok d ->
    forall n, dget String.eqb n d = (if in_dec string_dec n names then
        match dget String.eqb n data with Some v => match g v with Ok w => Some (DArr w) | Err _ => None end | None => None end
      else dget String.eqb n acc).
  Proof.
    induction names as [|m names IH]; intros acc d H n.
    - cbn in H. injection H as <-. destruct (in_dec string_dec n []) as [[]|_]. reflexivity.
    - cbn [foldM] in H. apply bind_ok in H. destruct H as (acc' & H0 & H). apply bind_ok in H0. destruct H0 as (v & Hv & H0).
      apply bind_ok in H0. destruct H0 as (w & Hw & H0). injection H0 as <-. unfold dget_err in Hv. destruct (dget String.eqb m data) as [v'|] eqn:Em; [|discriminate]. injection Hv as ->.
      rewrite (IH _ _ H n). destruct (in_dec string_dec n names) as [Hin|Hni]; destruct (in_dec string_dec n (m :: names)) as [Hin'|Hni'].
      + reflexivity.
      + exfalso. apply Hni'. right. exact Hin.
      + destruct Hin' as [->|Hin']; [|contradiction]. rewrite (dget_dset_eq _ seqb_eq), Em, Hw. reflexivity.
      + apply (dget_dset_neq _ seqb_eq). intros ->. apply Hni'. left. reflexivity.
  Qed.

  (** ** Statements *)

  (** No two cells of the file are within [tol] of the same reference cell. *)
  Definition separated (ref : list P) (tol : D) (ctr : list P) : Prop :=
    forall i1 i2 p1 p2 q, nth_error ctr i1 = Some p1 -> nth_error ctr i2 = Some p2 -> In q ref ->
      dle (kdist q p1) tol = true -> dle (kdist q p2) tol = true -> i1 = i2.

  (** The arrays a file has for the names asked for. *)
  Definition names_of (filterdata : list string) (f : file) : list string :=
    match filterdata with [] => dkeys (v_data f) | _ => filterdata end.

  Lemma take_rindex (data : list V) rindex arr : np_take data rindex = Ok arr -> Forall (fun i => 0 <= i) rindex ->
    Forall2 (fun i v => nth_error data (Z.to_nat i) = Some v) rindex arr.
  Proof.
    intros H. unfold np_take in H. apply mapM_ok_Forall2 in H. induction H as [|i v rindex arr Hg _ IH]; intros Hf; [constructor|].
    inversion Hf; subst. constructor; [|apply IH; assumption]. apply py_get_nonneg in Hg; assumption.
  Qed.

  (** Nearest references of the cells of a file that passed the distance test. *)
  Lemma query_ok ref ctr tol dfinal dm : ref <> [] ->
    mapM (fun p => q <- py_get ref (nearest ref p) ;; Ok (kdist q p)) ctr = Ok dfinal -> np_max dle dfinal = Ok dm -> dgt dle dm tol = false ->
    forall p, In p ctr -> exists q, nth_error ref (Z.to_nat (nearest ref p)) = Some q /\ 0 <= nearest ref p < zlen ref /\ dle (kdist q p) tol = true.
  Proof.
    intros Hr Hm Hx Hd p Hp. destruct (nearest_ok ref p Hr) as (H0 & q & Hq & _). exists q. split; [exact Hq|].
    assert (Hlt : (Z.to_nat (nearest ref p) < List.length ref)%nat) by (apply nth_error_Some; congruence).
    split; [unfold zlen; lia|]. apply (proj1 (np_max_le _ _ _ Hx) Hd). apply mapM_ok_Forall2 in Hm.
    apply In_nth_error in Hp. destruct Hp as (k & Hk). destruct (VtkProofs.Forall2_nth _ _ _ _ _ Hm Hk) as (y & Hy & E).
    apply py_get_nth with (i := nearest ref p) in Hq; [|exact H0]. rewrite Hq in E. cbn [bind] in E. injection E as <-.
    apply nth_error_In in Hy. exact Hy.
  Qed.

  (** Every array read has one value per reference cell: the value of a file cell at that place, each
      file cell being used once. *)
  Theorem C61_read : forall ref filterdata tol (f : file) dl,
    rd ref filterdata tol f = Ok dl ->
    zlen (v_centers f) = zlen ref -> separated ref tol (v_centers f) ->
    forall name arr, dget String.eqb name dl = Some (DArr arr) ->
    exists data, dget String.eqb name (v_data f) = Some data /\
      (zlen data = zlen ref -> Permutation arr data /\
       forall j q v, nth_error ref j = Some q -> nth_error arr j = Some v ->
         exists i p, nth_error (v_centers f) i = Some p /\ nth_error data i = Some v /\
                     (dle (mdist q p) tol = true \/ dle (kdist q p) tol = true)).
  Proof.
    intros ref filterdata tol f dl H Hn Hsep name arr Harr. unfold read_file in H. rewrite (distances_same _ _ (eq_sym Hn)) in H. cbn [bind] in H.
    apply bind_ok in H. destruct H as (d & Hd & H). apply bind_ok in H. destruct H as (dl0 & H0 & H).
    set (ctr := v_centers f) in *.
    assert (Harr0 : dget String.eqb name dl0 = Some (DArr arr)).
    { injection H as <-. destruct (v_time f) as [t|]; [|exact Harr]. destruct (truth t); [|exact Harr].
      destruct (string_dec name "time") as [->|Hne]; [rewrite (dget_dset_eq _ seqb_eq) in Harr; discriminate|].
      rewrite (dget_dset_neq _ seqb_eq) in Harr by exact Hne. exact Harr. }
    clear H. assert (Hne : ctr <> [] /\ ref <> []).
    { destruct ctr, ref; try discriminate; split; try discriminate; unfold zlen in Hn; cbn in Hn; lia. }
    destruct Hne as [Hne Hnr]. change (match filterdata with [] => dkeys (v_data f) | _ => filterdata end) with (names_of filterdata f) in H0.
    destruct (dgt dle d tol) eqn:Edgt.
    - apply bind_ok in H0. destruct H0 as (rindex & Hri & H0). apply bind_ok in H0. destruct H0 as (dfinal & Hdf & H0).
      apply bind_ok in H0. destruct H0 as (dm & Hdm & H0). destruct (dgt dle dm tol) eqn:Edm; [discriminate|].
      pose proof (query_ok ref ctr tol dfinal dm Hnr Hdf Hdm Edm) as Hq. set (index := List.map (nearest ref) ctr) in *.
      assert (Hli : zlen index = zlen ref) by (unfold index; rewrite zlen_map; exact Hn).
      assert (Hib : forall j, In j index -> 0 <= j < zlen ref).
      { intros j Hj. unfold index in Hj. apply in_map_iff in Hj. destruct Hj as (p & <- & Hp). destruct (Hq p Hp) as (q & _ & Hb & _). exact Hb. }
      assert (Hnd : NoDup index).
      { unfold index. apply NoDup_nth_error. intros i j Hi Hij. rewrite map_length in Hi. rewrite !nth_error_map in Hij.
        destruct (nth_error ctr i) as [p|] eqn:Ei; [|apply nth_error_None in Ei; lia].
        destruct (nth_error ctr j) as [p'|] eqn:Ej; [|discriminate]. cbn in Hij. injection Hij as Hij.
        destruct (Hq p ltac:(apply nth_error_In in Ei; exact Ei)) as (q & Hnq & _ & Hk).
        destruct (Hq p' ltac:(apply nth_error_In in Ej; exact Ej)) as (q' & Hnq' & _ & Hk'). rewrite <- Hij, Hnq in Hnq'. injection Hnq' as <-.
        apply (Hsep i j p p' q Ei Ej); [apply nth_error_In in Hnq; exact Hnq|exact Hk|exact Hk']. }
      destruct (np_put_ok index (zrange 0 (zlen index)) index) as (l' & El' & Hll' & _ & Hyes).
      { rewrite zrange_length. unfold zlen. lia. }
      { rewrite Hli. exact Hib. }
      rewrite El' in Hri. injection Hri as ->.
      unfold pick in H0. rewrite (pick_get _ _ _ _ _ H0 name) in Harr0. destruct (in_dec string_dec name (names_of filterdata f)) as [Hinn|]; [|discriminate].
      destruct (dget String.eqb name (v_data f)) as [data|] eqn:Edata; [|discriminate]. destruct (np_take data rindex) as [arr'|] eqn:Etake; [|discriminate].
      injection Harr0 as ->. exists data. split; [reflexivity|]. intros Hld.
      assert (Hrval : forall j, (j < List.length index)%nat -> exists k, nth_error index k = Some (Z.of_nat j) /\ nth_error rindex j = Some (Z.of_nat k) /\ (k < List.length index)%nat).
      { intros j Hj. assert (Hjin : In (Z.of_nat j) index). { apply (nodup_full index (zlen ref) Hnd Hli Hib). rewrite <- Hli. unfold zlen. lia. }
        destruct (Hyes _ Hjin) as (k & v & Hk1 & Hk2 & Hk3). exists k. rewrite Nat2Z.id in Hk3.
        assert (Hkl : (k < List.length index)%nat) by (apply nth_error_Some; congruence).
        rewrite nth_error_zrange in Hk2 by (unfold zlen; lia). injection Hk2 as <-. auto. }
      assert (Hrpos : Forall (fun i => 0 <= i) rindex).
      { apply Forall_forall. intros x Hx. apply In_nth_error in Hx. destruct Hx as (j & Hj).
        assert (Hjl : (j < List.length index)%nat) by (rewrite <- Hll'; apply nth_error_Some; congruence).
        destruct (Hrval j Hjl) as (k & _ & Hk & _). rewrite Hj in Hk. injection Hk as ->. lia. }
      pose proof (take_rindex data rindex arr Etake Hrpos) as Hta.
      assert (Hrperm : Permutation rindex (zrange 0 (zlen data))).
      { apply NoDup_bounded_perm.
        - apply NoDup_nth_error. intros i j Hi Hij. rewrite Hll' in Hi.
          destruct (Hrval i Hi) as (k & Hk1 & Hk2 & _). assert (Hj : (j < List.length index)%nat). { rewrite <- Hll'. apply nth_error_Some. rewrite <- Hij, Hk2. discriminate. }
          destruct (Hrval j Hj) as (k' & Hk1' & Hk2' & _). rewrite Hk2, Hk2' in Hij. injection Hij as Hij. assert (k = k') by lia. subst k'.
          rewrite Hk1 in Hk1'. injection Hk1' as Hk1'. lia.
        - intros x Hx. apply In_nth_error in Hx. destruct Hx as (j & Hj).
          assert (Hjl : (j < List.length index)%nat) by (rewrite <- Hll'; apply nth_error_Some; congruence).
          destruct (Hrval j Hjl) as (k & _ & Hk & Hkl). rewrite Hj in Hk. injection Hk as ->. rewrite Hld, <- Hli. unfold zlen. lia.
        - unfold zlen in *. rewrite Hll'. lia. }
      split.
      + pose proof (np_take_seq_id data) as Hid. unfold np_take in Hid, Etake.
        assert (Hpm : forall (a b : list Z) x y, Permutation a b -> mapM (py_get data) a = Ok x -> mapM (py_get data) b = Ok y -> Permutation x y).
        { clear. intros a b x y Hp. revert x y. induction Hp as [|u a b Hp IH|u w a|a b c Hp1 IH1 Hp2 IH2]; intros x y Hx Hy.
          - cbn in Hx, Hy. injection Hx as <-. injection Hy as <-. constructor.
          - cbn [mapM] in Hx, Hy. apply bind_ok in Hx. destruct Hx as (v & Hv & Hx). apply bind_ok in Hx. destruct Hx as (x' & Hx' & Hx). injection Hx as <-.
            rewrite Hv in Hy. cbn [bind] in Hy. apply bind_ok in Hy. destruct Hy as (y' & Hy' & Hy). injection Hy as <-. constructor. apply IH; assumption.
          - cbn [mapM] in Hx, Hy. destruct (py_get data w) as [vw|]; [|discriminate]. destruct (py_get data u) as [vu|]; [|discriminate].
            cbn [bind] in Hx, Hy. destruct (mapM (py_get data) a) as [r|]; [|discriminate]. cbn [bind] in Hx, Hy. injection Hx as <-. injection Hy as <-. apply perm_swap.
          - assert (Hm : exists m, mapM (py_get data) b = Ok m).
            { apply mapM_ok_Forall2 in Hx. assert (Hall : forall i, In i b -> exists v, py_get data i = Ok v).
              { intros i Hi. symmetry in Hp1. apply (Permutation_in _ Hp1) in Hi. apply In_nth_error in Hi. destruct Hi as (k & Hk).
                destruct (VtkProofs.Forall2_nth _ _ _ _ _ Hx Hk) as (v & _ & Hv). exists v. exact Hv. }
              clear -Hall. induction b as [|i b IH]; [exists []; reflexivity|]. destruct (Hall i (or_introl eq_refl)) as (v & Hv).
              destruct IH as (r & Hr); [intros j Hj; apply Hall; right; exact Hj|]. exists (v :: r). cbn [mapM]. rewrite Hv. cbn [bind]. rewrite Hr. reflexivity. }
            destruct Hm as (m & Hm). transitivity m; [apply IH1; assumption|apply IH2; assumption]. }
        exact (Hpm _ _ _ _ Hrperm Etake Hid).
      + intros j q v Hjq Hjv.
        assert (Hjl : (j < List.length index)%nat). { assert ((j < List.length ref)%nat) by (apply nth_error_Some; congruence). unfold zlen in Hli. lia. }
        destruct (Hrval j Hjl) as (k & Hk1 & Hk2 & Hkl). destruct (VtkProofs.Forall2_nth _ _ _ _ _ Hta Hk2) as (v' & Hv' & Hdk). rewrite Hjv in Hv'. injection Hv' as <-.
        rewrite Nat2Z.id in Hdk. unfold index in Hk1. rewrite nth_error_map in Hk1. destruct (nth_error ctr k) as [p|] eqn:Ek; [|discriminate]. cbn in Hk1. injection Hk1 as Hk1.
        exists k, p. split; [exact Ek|]. split; [exact Hdk|]. right.
        destruct (Hq p ltac:(apply nth_error_In in Ek; exact Ek)) as (q' & Hq' & _ & Hle). rewrite Hk1, Nat2Z.id, Hjq in Hq'. injection Hq' as <-. exact Hle.
    - unfold pick in H0. rewrite (pick_get _ _ _ _ _ H0 name) in Harr0. destruct (in_dec string_dec name (names_of filterdata f)) as [Hinn|]; [|discriminate].
      destruct (dget String.eqb name (v_data f)) as [data|] eqn:Edata; [|discriminate]. injection Harr0 as ->. exists arr. split; [reflexivity|]. intros Hld.
      split; [reflexivity|]. intros j q v Hjq Hjv.
      assert (Hjl : (j < List.length ctr)%nat). { assert ((j < List.length ref)%nat) by (apply nth_error_Some; congruence). unfold zlen in Hn. lia. }
      destruct (nth_error ctr j) as [p|] eqn:Ej; [|apply nth_error_None in Ej; lia]. exists j, p. split; [exact Ej|]. split; [exact Hjv|]. left.
      apply (proj1 (np_max_le _ _ _ Hd) Edgt). apply in_map_iff. exists (q, p). split; [reflexivity|]. apply (combine_nth_in _ _ j); assumption.
  Qed.

  (** It succeeds when every centre of the file is within [tol] of a reference centre and the names
      asked for are in the file. *)
  Theorem C61_accepts : forall ref filterdata tol (f : file),
    zlen (v_centers f) = zlen ref -> ref <> [] ->
    (forall p, In p (v_centers f) -> exists q, In q ref /\ dle (kdist q p) tol = true) ->
    (forall n, In n (names_of filterdata f) -> exists data, dget String.eqb n (v_data f) = Some data /\ zlen data = zlen ref) ->
    exists dl, rd ref filterdata tol f = Ok dl.
  Proof.
    intros ref filterdata tol f Hn Hnr Hnear Hnames. unfold read_file. rewrite (distances_same _ _ (eq_sym Hn)). cbn [bind].
    set (ctr := v_centers f) in *. assert (Hne : ctr <> []). { destruct ctr; [|discriminate]. destruct ref; [congruence|]. unfold zlen in Hn; cbn in Hn; lia. }
    destruct (np_max_total (List.map (fun pq => mdist (fst pq) (snd pq)) (combine ref ctr))) as (d & Hd).
    { destruct ref, ctr; try congruence; discriminate. }
    rewrite Hd. cbn [bind]. change (match filterdata with [] => dkeys (v_data f) | _ => filterdata end) with (names_of filterdata f).
    assert (Hgo : forall r : res (dict string (dval V T)), (exists d0, r = Ok d0) -> exists dl, (datalist <- r ;;
       Ok (match v_time f with Some t => if truth t then dset String.eqb "time" (DTime t) datalist else datalist | None => datalist end)) = Ok dl).
    { intros r (d0 & ->). eexists. reflexivity. }
    apply Hgo. destruct (dgt dle d tol).
    - set (index := List.map (nearest ref) ctr).
      assert (Hib : forall j, In j index -> 0 <= j < zlen index).
      { intros j Hj. unfold index in *. rewrite zlen_map, Hn. apply in_map_iff in Hj. destruct Hj as (p & <- & _). destruct (nearest_ok ref p Hnr) as (H0 & q & Hq & _).
        assert (Hlt : (Z.to_nat (nearest ref p) < List.length ref)%nat) by (apply nth_error_Some; congruence). unfold zlen. lia. }
      destruct (np_put_ok index (zrange 0 (zlen index)) index) as (rindex & El & Hll & Hno & Hyes); [rewrite zrange_length; unfold zlen; lia|exact Hib|].
      rewrite El. cbn [bind].
      assert (Hdf : exists dfinal, mapM (fun p => q <- py_get ref (nearest ref p) ;; Ok (kdist q p)) ctr = Ok dfinal /\ forall y, In y dfinal -> dle y tol = true).
      { clear -Hnear nearest_ok dle_trans Hnr. induction ctr as [|p ctr IH]; [exists []; split; [reflexivity|intros y []]|].
        destruct IH as (df & E & Hall); [intros p' Hp'; apply Hnear; right; exact Hp'|].
        destruct (nearest_ok ref p Hnr) as (H0 & q & Hq & Hmin). apply py_get_nth in Hq; [|exact H0].
        exists (kdist q p :: df). split; [cbn [mapM]; rewrite Hq; cbn [bind]; rewrite E; reflexivity|]. intros y [<-|Hy]; [|apply Hall; exact Hy].
        destruct (Hnear p (or_introl eq_refl)) as (q' & Hq' & Hle). apply (dle_trans _ (kdist q' p)); [apply Hmin; exact Hq'|exact Hle]. }
      destruct Hdf as (dfinal & Edf & Hall). rewrite Edf. cbn [bind].
      destruct (np_max_total dfinal) as (dm & Hdm). { apply mapM_ok_len in Edf. destruct dfinal, ctr; try congruence; discriminate. }
      rewrite Hdm. cbn [bind]. assert (dgt dle dm tol = false) as -> by (apply (np_max_le _ _ _ Hdm); exact Hall).
      apply pick_ok. intros n Hnn. destruct (Hnames n Hnn) as (data & Hdat & Hld). exists data.
      assert (Hrb : forall i, In i rindex -> 0 <= i < zlen data).
      { intros i Hi. rewrite Hld. apply In_nth_error in Hi. destruct Hi as (j & Hj).
        assert (Hjl : (j < List.length index)%nat) by (rewrite <- Hll; apply nth_error_Some; congruence).
        assert (Eli : zlen index = zlen ref) by (unfold index; rewrite zlen_map; exact Hn).
        destruct (in_dec Z.eq_dec (Z.of_nat j) index) as [Hin|Hni].
        - destruct (Hyes _ Hin) as (k & v & Hk1 & Hk2 & Hk3). rewrite Nat2Z.id, Hj in Hk3. injection Hk3 as <-.
          assert (Hkl : (k < List.length index)%nat) by (apply nth_error_Some; congruence).
          rewrite nth_error_zrange in Hk2 by (unfold zlen; lia). injection Hk2 as <-. unfold zlen in *. lia.
        - specialize (Hno (Z.of_nat j) ltac:(lia) Hni). rewrite Nat2Z.id, Hj in Hno. symmetry in Hno. apply nth_error_In in Hno. apply Hib in Hno. lia. }
      assert (Htk : exists w, np_take data rindex = Ok w).
      { unfold np_take. clear -Hrb. induction rindex as [|i r IH]; [exists []; reflexivity|]. destruct (py_get_total data i) as (v & Hv); [specialize (Hrb i (or_introl eq_refl)); lia|].
        destruct IH as (w & Hw); [intros k Hk; apply Hrb; right; exact Hk|]. exists (v :: w). cbn [mapM]. rewrite Hv. cbn [bind]. rewrite Hw. reflexivity. }
      destruct Htk as (w & Hw). exists w. split; assumption.
    - apply pick_ok. intros n Hnn. destruct (Hnames n Hnn) as (data & Hdat & _). exists data, data. split; [exact Hdat|reflexivity].
  Qed.

  (** A file with a cell farther than [tol] from every reference cell is refused. *)
  Theorem C61_too_far : forall ref filterdata tol (f : file) p,
    zlen (v_centers f) = zlen ref -> In p (v_centers f) ->
    (forall q, In q ref -> dle (mdist q p) tol = false /\ dle (kdist q p) tol = false) ->
    rd ref filterdata tol f = Err ValueError.
  Proof.
    intros ref filterdata tol f p Hn Hp Hfar. unfold read_file. rewrite (distances_same _ _ (eq_sym Hn)). cbn [bind].
    set (ctr := v_centers f) in *. apply In_nth_error in Hp. destruct Hp as (k & Hk).
    assert (Hkl : (k < List.length ctr)%nat) by (apply nth_error_Some; congruence).
    destruct (nth_error ref k) as [q|] eqn:Eq; [|apply nth_error_None in Eq; unfold zlen in Hn; lia].
    assert (Hnr : ref <> []) by (intros ->; destruct k; discriminate). assert (Hnc : ctr <> []) by (intros E; rewrite E in Hk; destruct k; discriminate).
    destruct (np_max_total (List.map (fun pq => mdist (fst pq) (snd pq)) (combine ref ctr))) as (d & Hd).
    { destruct ref, ctr; try congruence; discriminate. }
    rewrite Hd. cbn [bind].
    assert (Egt : dgt dle d tol = true).
    { destruct (dgt dle d tol) eqn:E; [reflexivity|]. pose proof (proj1 (np_max_le _ _ _ Hd) E (mdist q p)) as Hle.
      rewrite (proj1 (Hfar q ltac:(apply nth_error_In in Eq; exact Eq))) in Hle. apply Hle.
      apply in_map_iff. exists (q, p). split; [reflexivity|]. apply (combine_nth_in _ _ k); assumption. }
    rewrite Egt. set (index := List.map (nearest ref) ctr).
    assert (Hib : forall j, In j index -> 0 <= j < zlen index).
    { intros j Hj. unfold index in *. rewrite zlen_map, Hn. apply in_map_iff in Hj. destruct Hj as (p' & <- & _). destruct (nearest_ok ref p' Hnr) as (H0 & q' & Hq' & _).
      assert (Hlt : (Z.to_nat (nearest ref p') < List.length ref)%nat) by (apply nth_error_Some; congruence). unfold zlen. lia. }
    destruct (np_put_ok index (zrange 0 (zlen index)) index) as (rindex & El & _); [rewrite zrange_length; unfold zlen; lia|exact Hib|].
    rewrite El. cbn [bind].
    assert (Hdf : exists dfinal, mapM (fun p => q <- py_get ref (nearest ref p) ;; Ok (kdist q p)) ctr = Ok dfinal).
    { clear -nearest_ok Hnr. induction ctr as [|p' ctr IH]; [exists []; reflexivity|]. destruct IH as (df & E).
      destruct (nearest_ok ref p' Hnr) as (H0 & q' & Hq' & _). apply py_get_nth in Hq'; [|exact H0].
      exists (kdist q' p' :: df). cbn [mapM]. rewrite Hq'. cbn [bind]. rewrite E. reflexivity. }
    destruct Hdf as (dfinal & Edf). rewrite Edf. cbn [bind].
    destruct (np_max_total dfinal) as (dm & Hdm). { apply mapM_ok_len in Edf. destruct dfinal, ctr; try congruence; discriminate. }
    rewrite Hdm. cbn [bind].
    assert (Egt2 : dgt dle dm tol = true).
    { destruct (dgt dle dm tol) eqn:E; [reflexivity|]. destruct (query_ok ref ctr tol dfinal dm Hnr Edf Hdm E p) as (q' & Hq' & _ & Hle).
      - apply nth_error_In in Hk. exact Hk.
      - rewrite (proj2 (Hfar q' ltac:(apply nth_error_In in Hq'; exact Hq'))) in Hle. discriminate. }
    rewrite Egt2. reflexivity.
  Qed.

  (** Separation is needed: when a moved file is accepted although two of its cells have the same nearest
      reference cell, some reference cell silently gets the value of a cell whose nearest reference is
      another one. *)
  Theorem C61_collision : forall ref filterdata tol (f : file) dl i1 i2 p1 p2 k q0 p0,
    rd ref filterdata tol f = Ok dl -> zlen (v_centers f) = zlen ref ->
    nth_error ref k = Some q0 -> nth_error (v_centers f) k = Some p0 -> dle (mdist q0 p0) tol = false ->
    nth_error (v_centers f) i1 = Some p1 -> nth_error (v_centers f) i2 = Some p2 -> i1 <> i2 -> nearest ref p1 = nearest ref p2 ->
    exists j i p, 0 <= j < zlen ref /\ nth_error (v_centers f) i = Some p /\ nearest ref p <> j /\
      forall name arr, dget String.eqb name dl = Some (DArr arr) ->
        exists data v, dget String.eqb name (v_data f) = Some data /\ nth_error data i = Some v /\ nth_error arr (Z.to_nat j) = Some v.
  Proof.
    intros ref filterdata tol f dl i1 i2 p1 p2 k q0 p0 H Hn Hq0 Hp0 Hmoved H1 H2 H12 Hsame. unfold read_file in H.
    rewrite (distances_same _ _ (eq_sym Hn)) in H. cbn [bind] in H.
    apply bind_ok in H. destruct H as (d & Hd & H). apply bind_ok in H. destruct H as (dl0 & H0 & H).
    set (ctr := v_centers f) in *.
    assert (Egt : dgt dle d tol = true).
    { destruct (dgt dle d tol) eqn:E; [reflexivity|]. pose proof (proj1 (np_max_le _ _ _ Hd) E (mdist q0 p0)) as Hle. rewrite Hmoved in Hle. apply Hle.
      apply in_map_iff. exists (q0, p0). split; [reflexivity|]. apply (combine_nth_in _ _ k); assumption. }
    rewrite Egt in H0. assert (Hnr : ref <> []) by (intros ->; destruct k; discriminate).
    apply bind_ok in H0. destruct H0 as (rindex & Hri & H0). apply bind_ok in H0. destruct H0 as (dfinal & Hdf & H0).
    apply bind_ok in H0. destruct H0 as (dm & Hdm & H0). destruct (dgt dle dm tol) eqn:Edm; [discriminate|].
    set (index := List.map (nearest ref) ctr) in *.
    assert (Hli : zlen index = zlen ref) by (unfold index; rewrite zlen_map; exact Hn).
    assert (Hib : forall j, In j index -> 0 <= j < zlen index).
    { intros j Hj. rewrite Hli. unfold index in Hj. apply in_map_iff in Hj. destruct Hj as (p' & <- & _). destruct (nearest_ok ref p' Hnr) as (Hx & q' & Hq' & _).
      assert (Hlt : (Z.to_nat (nearest ref p') < List.length ref)%nat) by (apply nth_error_Some; congruence). unfold zlen. lia. }
    assert (Hdup : ~ NoDup index).
    { intros Hnd. rewrite NoDup_nth_error in Hnd. apply H12. apply Hnd.
      - unfold index. rewrite map_length. apply nth_error_Some. congruence.
      - unfold index. rewrite !nth_error_map, H1, H2. cbn. rewrite Hsame. reflexivity. }
    assert (Hmiss : exists j, 0 <= j < zlen ref /\ ~ In j index).
    { destruct (existsb (fun j => negb (zmem j index)) (zrange 0 (zlen ref))) eqn:E.
      - apply existsb_exists in E. destruct E as (j & Hj & Hm). apply in_zrange in Hj. exists j. split; [exact Hj|]. intros Hin. apply zmem_in in Hin. rewrite Hin in Hm. discriminate.
      - exfalso. apply Hdup. assert (Hincl : incl (zrange 0 (zlen ref)) index).
        { intros j Hj. destruct (zmem j index) eqn:Em; [apply zmem_in; exact Em|]. exfalso.
          assert (Ht : existsb (fun j => negb (zmem j index)) (zrange 0 (zlen ref)) = true). { apply existsb_exists. exists j. split; [exact Hj|]. rewrite Em. reflexivity. }
          rewrite E in Ht. discriminate. }
        apply (@NoDup_incl_NoDup _ (zrange 0 (zlen ref)) index); [apply NoDup_zrange|rewrite zrange_length; unfold zlen in *; lia|exact Hincl]. }
    destruct Hmiss as (j & Hj & Hnj).
    destruct (np_put_ok index (zrange 0 (zlen index)) index) as (l' & El & Hll & Hno & _); [rewrite zrange_length; unfold zlen; lia|exact Hib|].
    rewrite El in Hri. injection Hri as ->.
    specialize (Hno j ltac:(lia) Hnj).
    assert (Hjl : (Z.to_nat j < List.length index)%nat) by (unfold zlen in *; lia).
    destruct (nth_error index (Z.to_nat j)) as [i|] eqn:Ei; [|apply nth_error_None in Ei; lia].
    assert (Hi : 0 <= i < zlen index). { apply Hib. apply nth_error_In in Ei. exact Ei. }
    destruct (nth_error ctr (Z.to_nat i)) as [p|] eqn:Ep.
    2:{ apply nth_error_None in Ep. unfold index, zlen in Hi. rewrite map_length in Hi. lia. }
    exists j, (Z.to_nat i), p. split; [exact Hj|]. split; [exact Ep|]. split.
    { intros E. apply Hnj. unfold index. apply in_map_iff. exists p. split; [exact E|]. apply nth_error_In in Ep. exact Ep. }
    intros name arr Harr.
    assert (Harr0 : dget String.eqb name dl0 = Some (DArr arr)).
    { injection H as <-. destruct (v_time f) as [t|]; [|exact Harr]. destruct (truth t); [|exact Harr].
      destruct (string_dec name "time") as [->|Hne]; [rewrite (dget_dset_eq _ seqb_eq) in Harr; discriminate|].
      rewrite (dget_dset_neq _ seqb_eq) in Harr by exact Hne. exact Harr. }
    unfold pick in H0. rewrite (pick_get _ _ _ _ _ H0 name) in Harr0. destruct (in_dec string_dec name _) as [Hinn|]; [|discriminate].
    destruct (dget String.eqb name (v_data f)) as [data|] eqn:Edata; [|discriminate]. destruct (np_take data rindex) as [arr'|] eqn:Etake; [|discriminate].
    injection Harr0 as ->. exists data. unfold np_take in Etake. apply mapM_ok_Forall2 in Etake. destruct (VtkProofs.Forall2_nth _ _ _ _ _ Etake Hno) as (v & Hv & Hg).
    exists v. split; [reflexivity|]. split; [|exact Hv]. apply py_get_nonneg in Hg; [exact Hg|lia].
  Qed.

  (** Another number of cells is refused, unless one of the two is 1. *)
  Theorem C61_counts : forall ref filterdata tol (f : file),
    zlen (v_centers f) <> zlen ref -> zlen (v_centers f) <> 1 -> zlen ref <> 1 -> rd ref filterdata tol f = Err ValueError.
  Proof.
    intros ref filterdata tol f Hn H1 H2. unfold read_file, distances. destruct (Z.eqb_spec (zlen ref) (zlen (v_centers f))) as [E|_]; [congruence|].
    destruct ref as [|a [|a' ref]]; [|exfalso; apply H2; reflexivity|].
    - destruct (v_centers f) as [|b [|b' c]]; [exfalso; apply Hn; reflexivity|exfalso; apply H1; reflexivity|reflexivity].
    - destruct (v_centers f) as [|b [|b' c]]; [reflexivity|exfalso; apply H1; reflexivity|reflexivity].
  Qed.
  (** A file of one cell is accepted if its centre is at the first reference cell, and its arrays stay of length 1. *)
  Theorem C61_single : forall ref filterdata tol (f : file) p q r v name,
    ref = q :: r -> r <> [] -> v_centers f = [p] -> nearest ref p = 0 -> dle (kdist q p) tol = true ->
    filterdata = [name] -> dget String.eqb name (v_data f) = Some [v] -> v_time f = None ->
    rd ref filterdata tol f = Ok [(name, DArr [v])].
  Proof.
    intros ref filterdata tol f p q r v name -> Hr Hc Hnear Hle -> Hd Ht. unfold read_file. rewrite Hc, Ht.
    assert (Hdist : distances mdist (q :: r) [p] = Ok (List.map (fun x => mdist x p) (q :: r))).
    { unfold distances. destruct r as [|a r]; [congruence|]. destruct (Z.eqb_spec (zlen (q :: a :: r)) (zlen [p])) as [E|_]; [unfold zlen in E; cbn in E; lia|]. reflexivity. }
    rewrite Hdist. cbn [bind]. destruct (np_max_total (List.map (fun x => mdist x p) (q :: r))) as (d & Hdm); [discriminate|]. rewrite Hdm. cbn [bind].
    assert (Hpick : forall g : list V -> res (list V), g [v] = Ok [v] -> pick [name] (v_data f) g = Ok [(name, DArr [v])] :> res (dict string (dval V T))).
    { intros g Hg. unfold pick. cbn [foldM]. unfold dget_err. rewrite Hd. cbn [bind]. rewrite Hg. reflexivity. }
    destruct (dgt dle d tol).
    - cbn [List.map mapM]. rewrite Hnear.
      change (np_put [0] [0] (zrange 0 (zlen [0]))) with (Ok [0]). cbn [bind]. change (py_get (q :: r) 0) with (@Ok P q). cbn [bind np_max fold_left]. unfold dgt. rewrite Hle. cbn [negb].
      rewrite Hpick by reflexivity. reflexivity.
    - rewrite Hpick by reflexivity. reflexivity.
  Qed.

  (** Before any file was allocated, [check_order] asserts. *)
  Theorem C61_no_files : forall (pos : file -> list P) tol, check_order mdist dle pos tol [] = Err AssertionError.
  Proof. reflexivity. Qed.
  (** [check_order] tells whether all files have their positions, one by one, within [tol] of the first file's. *)
  Theorem C61_check_order : forall (pos : file -> list P) tol f0 files n,
    0 < n -> (forall f, In f (f0 :: files) -> zlen (pos f) = n) ->
    exists b, check_order mdist dle pos tol (f0 :: files) = Ok b /\
      (b = true <-> forall f k p q, In f (f0 :: files) -> nth_error (pos f0) k = Some q -> nth_error (pos f) k = Some p -> dle (mdist q p) tol = true).
  Proof.
    intros pos tol f0 files n Hpos Hlen. unfold check_order.
    assert (Hds : forall l, (forall f, In f l -> zlen (pos f) = n) -> exists ds,
       mapM (fun f => l0 <- distances mdist (pos f0) (pos f) ;; np_max dle l0) l = Ok ds /\
       Forall2 (fun f d => dgt dle d tol = false <-> forall k p q, nth_error (pos f0) k = Some q -> nth_error (pos f) k = Some p -> dle (mdist q p) tol = true) l ds).
    { intros l. assert (H0 : zlen (pos f0) = n) by (apply Hlen; left; reflexivity). induction l as [|f l IH]; intros Hl; [exists []; split; [reflexivity|constructor]|].
      destruct IH as (ds & E & Hf); [intros g Hg; apply Hl; right; exact Hg|].
      assert (Hnf : zlen (pos f) = n) by (apply Hl; left; reflexivity).
      destruct (np_max_total (List.map (fun pq => mdist (fst pq) (snd pq)) (combine (pos f0) (pos f)))) as (d & Hd).
      { destruct (pos f0), (pos f); unfold zlen in *; cbn in *; try lia; discriminate. }
      exists (d :: ds). split.
      - cbn [mapM]. rewrite distances_same by congruence. cbn [bind]. rewrite Hd. cbn [bind]. rewrite E. reflexivity.
      - constructor; [|exact Hf]. rewrite (np_max_le _ _ _ Hd). split.
        + intros H k p q Hq Hp. apply H. apply in_map_iff. exists (q, p). split; [reflexivity|]. apply (combine_nth_in _ _ k); assumption.
        + intros H y Hy. apply in_map_iff in Hy. destruct Hy as ((q, p) & <- & Hin). apply combine_in_nth in Hin. destruct Hin as (k & Hk1 & Hk2). apply (H k); assumption. }
    destruct (Hds (f0 :: files) Hlen) as (ds & E & Hf). rewrite E. cbn [bind]. eexists. split; [reflexivity|].
    rewrite Z.eqb_eq. split.
    - intros Hz f k p q Hin Hq Hp. apply In_nth_error in Hin. destruct Hin as (i & Hi). destruct (VtkProofs.Forall2_nth _ _ _ _ _ Hf Hi) as (d & Hd & Hiff).
      apply (proj1 Hiff) with (k := k); [|exact Hq|exact Hp]. destruct (dgt dle d tol) eqn:Eg; [|reflexivity]. exfalso.
      assert (Hin : In d (filter (fun d => dgt dle d tol) ds)) by (apply filter_In; split; [apply nth_error_In in Hd; exact Hd|exact Eg]).
      destruct (filter (fun d => dgt dle d tol) ds); [destruct Hin|]. rewrite zlen_cons in Hz. pose proof (zlen_nonneg l). lia.
    - intros H. assert (Hall : forall d, In d ds -> dgt dle d tol = false).
      { intros d Hd. apply In_nth_error in Hd. destruct Hd as (i & Hi). assert (Hil : (i < List.length (f0 :: files))%nat).
        { rewrite (Forall2_length' _ _ _ Hf). apply nth_error_Some. congruence. }
        destruct (nth_error (f0 :: files) i) as [f|] eqn:Ef; [|apply nth_error_None in Ef; lia].
        destruct (VtkProofs.Forall2_nth _ _ _ _ _ Hf Ef) as (d' & Hd' & Hiff). rewrite Hi in Hd'. injection Hd' as <-. apply Hiff. intros k p q Hq Hp.
        apply (H f k p q); [apply nth_error_In in Ef; exact Ef|exact Hq|exact Hp]. }
      clear -Hall. induction ds as [|d ds IH]; [reflexivity|]. cbn [filter]. rewrite (Hall d (or_introl eq_refl)). apply IH. intros x Hx. apply Hall. right. exact Hx.
  Qed.

  (** [read] gives one data set per file, each read against the first file. *)
  Theorem C61_list : forall filterdata tol (f0 : file) files dls,
    read_list mdist kdist dle nearest truth filterdata tol (f0 :: files) = Ok dls <->
    Forall2 (fun (f : file) dl => rd (v_centers f0) filterdata tol f = Ok dl) (f0 :: files) dls.
  Proof.
    intros. unfold read_list. split; [apply mapM_ok_Forall2|apply mapM_Forall2].
  Qed.
End C61.

Print Assumptions C61_read.
Print Assumptions C61_accepts.
Print Assumptions C61_too_far.
Print Assumptions C61_collision.
Print Assumptions C61_counts.
Print Assumptions C61_single.
Print Assumptions C61_no_files.
Print Assumptions C61_check_order.
Print Assumptions C61_list.

(** ** Examples: cells on a line, at integer positions. *)
Section Examples.
  Let zd (a b : Z) : Z := Z.abs (a - b).
  Fixpoint znear (ref : list Z) (p : Z) : Z :=
    match ref with
    | [] => 0
    | q :: r => match r with
                | [] => 0
                | _ => let k := znear r p in if zd q p <=? zd (nth (Z.to_nat k) r 0) p then 0 else 1 + k
                end
    end.
  Example znear_ok : forall ref p, ref <> [] ->
    0 <= znear ref p /\ exists q, nth_error ref (Z.to_nat (znear ref p)) = Some q /\ forall q', In q' ref -> (zd q p <=? zd q' p) = true.
  Proof.
    induction ref as [|q r IH]; intros p H; [congruence|]. destruct r as [|q2 r].
    - split; [cbn; lia|]. exists q. split; [reflexivity|]. intros q' [<-|[]]. apply Z.leb_refl.
    - destruct (IH p ltac:(discriminate)) as (H0 & m & Hm & Hmin). change (znear (q :: q2 :: r) p) with (let k := znear (q2 :: r) p in if zd q p <=? zd (nth (Z.to_nat k) (q2 :: r) 0) p then 0 else 1 + k).
      cbv zeta. set (k := znear (q2 :: r) p) in *. rewrite (nth_error_nth _ _ 0 Hm). destruct (zd q p <=? zd m p) eqn:E.
      + split; [lia|]. exists q. split; [reflexivity|]. intros q' [<-|Hq']; [apply Z.leb_refl|]. apply Z.leb_le. apply Z.leb_le in E. specialize (Hmin q' Hq'). apply Z.leb_le in Hmin. lia.
      + split; [lia|]. exists m. split; [replace (Z.to_nat (1 + k)) with (S (Z.to_nat k)) by lia; exact Hm|].
        intros q' [<-|Hq']; [|apply Hmin; exact Hq']. apply Z.leb_gt in E. apply Z.leb_le. lia.
  Qed.
  Let rdz := read_file (V := Z) (T := Z) zd zd Z.leb znear (fun t => negb (t =? 0)).
  Let ref := [0; 100; 200].
  (** The same cells in another order, moved a little. *)
  Let f := @VFile Z Z Z [201; 1; 99] [] [("rho", [7; 8; 9]); ("u", [1; 2; 3])] (Some 5).
  Example ex_read : rdz ref [] 3 f = Ok [("rho", DArr [8; 9; 7]); ("u", DArr [2; 3; 1]); ("time", DTime 5)].
  Proof. reflexivity. Qed.
  Example ex_filter : rdz ref ["u"] 3 f = Ok [("u", DArr [2; 3; 1]); ("time", DTime 5)].
  Proof. reflexivity. Qed.
  Example ex_separated : separated zd Z.leb ref 3 (v_centers f).
  Proof.
    intros i1 i2 p1 p2 q H1 H2 Hq. destruct i1 as [|[|[|[|i1]]]]; cbn in H1; try discriminate; injection H1 as <-;
    destruct i2 as [|[|[|[|i2]]]]; cbn in H2; try discriminate; injection H2 as <-; destruct Hq as [<-|[<-|[<-|[]]]]; vm_compute; intros; congruence.
  Qed.
  Example ex_far : rdz ref [] 0 f = Err ValueError.
  Proof. reflexivity. Qed.
  (** Two cells near the second reference cell, none near the third: cell 2 gets the value of the file's
      cell 0, which is at position 99. *)
  Example ex_collision : rdz [0; 100; 102] [] 3 (@VFile Z Z Z [99; 101; 0] [] [("rho", [7; 8; 9])] None) = Ok [("rho", DArr [9; 8; 7])].
  Proof. reflexivity. Qed.
  Example ex_single : rdz ref ["rho"] 3 (@VFile Z Z Z [1] [] [("rho", [7])] None) = Ok [("rho", DArr [7])].
  Proof. reflexivity. Qed.
  Example ex_order : check_order zd Z.leb (@v_centers Z Z Z) 3 [f; f] = Ok true /\
                     check_order zd Z.leb (@v_centers Z Z Z) 3 [f; @VFile Z Z Z ref [] [] None] = Ok false.
  Proof. split; reflexivity. Qed.
End Examples.
