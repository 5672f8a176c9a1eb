(** * Property C73 (maps of probe lines). *)
From Coq Require Import Ascii Lia List.
From Verif Require Import Py PyFacts Probes ProbesProps ProbePlot.

Lemma times_of {F : Type} c (rows : list (list F)) : 1 <= c -> Forall (fun r => zlen r = 3 + c) rows -> exists t, mapM (fun row => py_get row 1) rows = Ok t /\ Forall2 (fun row y => nth_error row 1 = Some y) rows t.
  Proof.
    intros C AL. induction rows as [| r rows IH]; [exists []; split; [reflexivity | constructor] |]. apply Forall_cons_iff in AL. destruct AL as (A & B). destruct (IH B) as (t & T1 & T2). destruct (py_get_total r 1) as (y & Hy); [lia |]. exists (y :: t). cbn [mapM]. rewrite Hy. cbn [bind]. rewrite T1. split; [reflexivity |].
    constructor; [| exact T2]. unfold py_get in Hy. cbn -[nth_error] in Hy. change (Pos.to_nat 1) with 1%nat in Hy. destruct (nth_error r 1); congruence.
  Qed.

Section Props.
  Context {F : Type} (mag : values (F := F) -> values (F := F) -> values (F := F) -> res (values (F := F)))
          (quot sound invp invm entropy : values (F := F) -> values (F := F) -> res (values (F := F)))
          (steady : list F -> list (list F) -> bool) (files : string -> option (rdata (F := F))).
  Context (dtavg : values (F := F) -> F) (fftfreq : Z -> F -> list F) (psd : list (list F) -> list (list F)).
  Notation values := (values (F := F)).
  Notation data := (data (F := F)).
  Notation check := (check_data mag quot sound invp invm entropy steady files).
  Notation look d k := (dget String.eqb k%string d).
  Notation plot := (plotline dtavg fftfreq psd (check 2)).

  (** ** Which names can be loaded by a request *)
  Inductive needs : string -> string -> Prop :=
  | N_self v : needs v v
  | N_dep v deps dep k : dget String.eqb v dependency_vars = Some deps -> In dep deps -> needs dep k -> needs v k.

  Lemma look_put d k j (x : values) y : look (put k x d) j = Some y -> j = k \/ look d j = Some y.
  Proof.
    destruct (String.eqb_spec j k) as [-> | N]; [auto |]. intros H. right. unfold put in H. rewrite (dget_dset_neq _ String.eqb_eq) in H; congruence.
  Qed.
  Lemma read_adds v prefix c d k x : look (snd (read_data steady files v prefix c d)) k = Some x -> k = v \/ k = "time"%string \/ look d k = Some x.
  Proof.
    unfold read_data. destruct (files _) as [[q | row | rows] |]; cbn [snd]; auto.
    - intros H. apply look_put in H. tauto.
    - destruct c.
      + destruct rows as [| first rows]; cbn [snd]; auto. intros H.
        assert (H' : look (put v (V1 (after3 first)) d) k = Some x) by (destruct (steady _ _); exact H). apply look_put in H'. tauto.
      + destruct (dmem String.eqb "time" _); cbn [snd]; [intros H; apply look_put in H; tauto |].
        destruct (mapM _ rows); cbn [snd]; intros H; [apply look_put in H; destruct H as [-> | H]; [auto |] |]; apply look_put in H; tauto.
  Qed.
  Lemma check_adds n : forall v prefix d k x, look (snd (check n v prefix d)) k = Some x -> needs v k \/ k = "time"%string \/ look d k = Some x.
  Proof.
    induction n as [n IH] using (well_founded_induction PeanoNat.Nat.lt_wf_0). intros v prefix d k x. rewrite check_eq. destruct (dmem String.eqb v d); [rewrite finish_snd; auto |].
    assert (R := read_adds v prefix (existsb (String.eqb v) coordinates) d). destruct (read_data steady files v prefix _ d) as [r d1]. cbn [snd] in R.
    assert (R' : look d1 k = Some x -> needs v k \/ k = "time"%string \/ look d k = Some x).
    { intros H. destruct (R k x H) as [-> | H']; [left; constructor | right; exact H']. }
    destruct r as [[|] | e]; [rewrite finish_snd; exact R' | | exact R'].
    destruct (dget String.eqb v dependency_vars) as [deps |] eqn:DV; [| exact R']. destruct n as [| n]; [exact R' |].
    assert (A : forall l d2, incl l deps -> forall y, look (snd (check_all (fun dep => check n dep prefix) l d2)) k = Some y -> needs v k \/ k = "time"%string \/ look d2 k = Some y).
    { induction l as [| dep l IHl]; intros d2 SUB y H; [auto |]. cbn [check_all] in H. assert (C := fun z => IH n (Nat.lt_succ_diag_r n) dep prefix d2 k z).
      assert (C' : forall z, look (snd (check n dep prefix d2)) k = Some z -> needs v k \/ k = "time"%string \/ look d2 k = Some z).
      { intros z Hz. destruct (C z Hz) as [N | N]; [left; apply (N_dep v deps dep k DV); [apply SUB; left; reflexivity | exact N] | right; exact N]. }
      destruct (check n dep prefix d2) as [[b | e] d3]; cbn [snd] in *; [| apply C'; exact H].
      assert (IHl' := IHl d3 (fun a I => SUB a (or_intror I)) y). destruct (check_all _ l d3) as [[b' | e] d4]; cbn [snd] in *; destruct (IHl' H) as [N | [N | N]]; auto. }
    specialize (A deps d1 (incl_refl _)). destruct (check_all _ deps d1) as [[[|] | e] d2]; cbn [snd] in A; try (intros H; destruct (A x H) as [N | [N | N]]; auto; fail).
    destruct (compute _ _ _ _ _ _ v d2) as [u | e]; [rewrite finish_snd; intros H; apply look_put in H; destruct H as [-> | H]; [left; constructor |] | intros H]; destruct (A x H) as [N | [N | N]]; auto.
  Qed.

  (** Names with two letters or more never need the name made of their first letter. *)
  Lemma needs_coord v k : In v ["X"; "Y"; "Z"]%string -> needs v k -> k = v.
  Proof. intros I N. inversion N as [| ? deps ? ? E]; subst; [reflexivity |]. exfalso. repeat (destruct I as [<- | I]; [vm_compute in E; discriminate |]). destruct I. Qed.
  Lemma needs_list v k : needs v k -> k = v \/ In k ["P"; "RHO"; "U-X"; "U-Y"; "U-Z"; "U"; "Asound"]%string.
  Proof.
    induction 1 as [v | v deps dep k E I N IH]; [auto |]. right. destruct IH as [-> | IH]; [| exact IH].
    unfold dependency_vars in E. cbn [dget] in E.
    repeat match type of E with (if ?b then _ else _) = _ => destruct b; [injection E as <-; cbn in I; intuition (subst; cbn; tauto) |] end. discriminate.
  Qed.
  Lemma needs_first c s k : s <> EmptyString -> needs (String c s) k -> k <> String c EmptyString.
  Proof.
    intros NE N. inversion N as [| ? deps dep ? E I N']; subst; [intros Q; injection Q as Q; congruence |].
    intros ->. unfold dependency_vars in E. cbn [dget] in E.
    repeat match type of E with (if ?b then _ else _) = _ => let B := fresh "B" in destruct b eqn:B; [apply String.eqb_eq in B; injection B as -> ->; try (exfalso; apply NE; reflexivity);
      injection E as <-; clear NE N; cbn in I; repeat (destruct I as [<- | I]; [apply needs_list in N'; cbn in N'; intuition discriminate |]); destruct I |] end. discriminate.
  Qed.

  (** After both requests a coordinate is a line. *)
  Lemma coord_line n v prefix d x : In v ["X"; "Y"; "Z"]%string -> (forall y, look d v = Some y -> exists r, y = V1 r) ->
    look (snd (check n v prefix d)) v = Some x -> exists r, x = V1 r.
  Proof.
    intros I L. rewrite check_eq. destruct (dmem String.eqb v d); [rewrite finish_snd; apply L |].
    assert (CO : existsb (String.eqb v) coordinates = true) by (apply existsb_exists; exists v; split; [exact I | apply String.eqb_refl]). rewrite CO.
    assert (R : forall y, look (snd (read_data steady files v prefix true d)) v = Some y -> exists r, y = V1 r).
    { unfold read_data. destruct (files _) as [[q | row | rows] |]; cbn [snd]; [apply L | | | apply L].
      - intros y H. unfold put in H. rewrite (dget_dset_eq _ String.eqb_eq) in H. injection H as <-. eauto.
      - destruct rows as [| first rows]; cbn [snd]; [apply L |]. intros y H.
        assert (H' : look (put v (V1 (after3 first)) d) v = Some y) by (destruct (steady _ _); exact H). unfold put in H'. rewrite (dget_dset_eq _ String.eqb_eq) in H'. injection H' as <-. eauto. }
    destruct (read_data steady files v prefix true d) as [[[|] | e] d1]; cbn [snd] in R; [rewrite finish_snd; apply R | | apply R].
    replace (dget String.eqb v dependency_vars) with (@None (list string)); [apply R |]. repeat (destruct I as [<- | I]; [reflexivity |]). destruct I.
  Qed.

  (** A variable whose name has several letters is never drawn: the first letter is looked up instead. *)
  Theorem C73_long_names verbose kind prefix v axis fig :
    In axis ["X"; "Y"; "Z"]%string -> plot verbose kind prefix v axis = Ok fig -> String.length v = 1%nat.
  Proof.
    intros AX. unfold plotline. assert (A1 := check_adds 2 v prefix []). destruct (check 2 v prefix []) as [[b | e] d1] eqn:C1; [| discriminate]. cbn [snd] in A1.
    assert (A2 := check_adds 2 axis prefix d1). assert (L2 := fun x => coord_line 2 axis prefix d1 x AX).
    destruct (check 2 axis prefix d1) as [[b' | e] d2] eqn:C2; [| discriminate]. cbn [snd] in *.
    destruct v as [| c s].
    { destruct kind; discriminate. }
    intros H. destruct s as [| c' s']; [reflexivity | exfalso]. set (s := String c' s') in *. assert (NS : s <> EmptyString) by discriminate.
    assert (KEY : forall z, look d2 (String c EmptyString) = Some z -> String c EmptyString = axis).
    { intros z HZ. destruct (A2 _ _ HZ) as [N | [N | N]]; [apply (needs_coord _ _ AX); exact N | discriminate N |].
      destruct (A1 _ _ N) as [M | [M | M]]; [exfalso; apply (needs_first c s _ NS M); reflexivity | discriminate M | discriminate M]. }
    assert (LN : forall z, look d2 axis = Some z -> exists r, z = V1 r \/ String c EmptyString <> axis).
    { intros z HZ. destruct (String.eqb_spec (String c EmptyString) axis) as [E | E]; [| exists []; auto].
      destruct (L2 z) as (r & ->); [| exact HZ | eauto]. intros y HY. exfalso.
      destruct (A1 _ _ HY) as [M | [M | M]]; [rewrite <- E in M; apply (needs_first c s _ NS M); reflexivity | | discriminate M]. subst axis. discriminate M. }
    destruct kind; unfold plot_timemap, plot_freqmap in H; cbn [first_letter bind] in H.
    - apply bind_ok in H. destruct H as (u & _ & H). apply bind_ok in H. destruct H as (a & HA & H). apply bind_ok in H. destruct H as (a' & HA' & H). apply bind_ok in H. destruct H as (t & _ & H). apply bind_ok in H. destruct H as (z & HZ & H).
      unfold get, dget_err in HA, HZ. destruct (look d2 (String c EmptyString)) as [z' |] eqn:EZ; [| discriminate]. injection HZ as ->. assert (E := KEY z eq_refl).
      rewrite E in EZ. destruct (LN z EZ) as (r & [-> | N]); [discriminate H | contradiction].
    - apply bind_ok in H. destruct H as (t & _ & H). apply bind_ok in H. destruct H as (u & _ & H). apply bind_ok in H. destruct H as (z & HZ & H). apply bind_ok in H. destruct H as (u' & _ & H).
      apply bind_ok in H. destruct H as (a & HA & H). apply bind_ok in H. destruct H as (a' & HA' & H).
      unfold get, dget_err in HA, HZ. destruct (look d2 (String c EmptyString)) as [z' |] eqn:EZ; [| discriminate]. injection HZ as ->. assert (E := KEY z eq_refl).
      rewrite E in EZ. destruct (LN z EZ) as (r & [-> | N]); [discriminate H | contradiction].
  Qed.

  (** ** What is drawn *)
  (** The file of a variable: [rows] lines of [3 + c] numbers, the second one the time. *)
  Definition table (prefix v : string) (c : Z) (rows : list (list F)) : Prop :=
    files (prefix ++ "." ++ v)%string = Some (R2 rows) /\ Forall (fun r => zlen r = 3 + c) rows.
  (** The file of a coordinate: a line, or lines that do not change. *)
  Definition line (prefix v : string) (row : list F) : Prop :=
    files (prefix ++ "." ++ v)%string = Some (R1 row) \/
    exists rows, files (prefix ++ "." ++ v)%string = Some (R2 (row :: rows)) /\ steady (after3 row) (List.map after3 (row :: rows)) = true.

  Section Drawn.
    Context (prefix v axis : string) (c : Z) (rows : list (list F)) (row : list F).
    Hypothesis ONE : String.length v = 1%nat.
    Hypothesis NOT : ~ In v ["X"; "Y"; "Z"]%string.
    Hypothesis AX : In axis ["X"; "Y"; "Z"]%string.
    Hypothesis TB : table prefix v c rows.
    Hypothesis LI : line prefix axis row.
    Hypothesis LR : zlen row = 3 + c.
    Hypothesis C2 : 2 <= c.
    Hypothesis R2 : 2 <= zlen rows.

    Lemma loaded : exists t d1 d2, Forall2 (fun r y => nth_error r 1 = Some y) rows t /\ check 2 v prefix [] = (Ok true, d1) /\ check 2 axis prefix d1 = (Ok true, d2) /\
      look d2 v = Some (V2 (List.map after3 rows)) /\ look d2 axis = Some (V1 (after3 row)) /\ look d2 "time" = Some (V1 t).
    Proof.
      destruct TB as (T1 & T2). destruct (times_of c rows) as (t & M1 & M2); [lia | exact T2 |].
      assert (V_T : v <> "time"%string) by (intros ->; discriminate ONE). assert (A_T : axis <> "time"%string) by (intros ->; cbn in AX; intuition discriminate). assert (V_A : v <> axis) by (intros ->; contradiction).
      set (d1 := put "time" (V1 t) (put v (V2 (List.map after3 rows)) [])). set (d2 := put axis (V1 (after3 row)) d1). exists t, d1, d2.
      assert (CV : existsb (String.eqb v) coordinates = false). { destruct (existsb _ _) eqn:E; [| reflexivity]. apply existsb_exists in E. destruct E as (w & I & E). apply String.eqb_eq in E. subst. contradiction. }
      assert (CA : existsb (String.eqb axis) coordinates = true) by (apply existsb_exists; exists axis; split; [exact AX | apply String.eqb_refl]).
      assert (GV : look d1 v = Some (V2 (List.map after3 rows))). { unfold d1, put. rewrite (dget_dset_neq _ String.eqb_eq) by congruence. apply (dget_dset_eq _ String.eqb_eq). }
      assert (GT : look d1 "time" = Some (V1 t)) by (unfold d1, put; apply (dget_dset_eq _ String.eqb_eq)).
      assert (GA : look d1 axis = None). { unfold d1, put. rewrite !(dget_dset_neq _ String.eqb_eq) by congruence. reflexivity. }
      assert (RN : rows <> []) by (intros ->; cbn in R2; lia).
      split; [exact M2 |]. split; [| split; [| split; [| split]]].
      - rewrite check_eq. cbn [dmem dget]. change (dmem String.eqb v []) with false. cbv iota. unfold read_data. rewrite T1, CV.
        replace (dmem String.eqb "time" (put v (V2 (List.map after3 rows)) [])) with false by (symmetry; apply dmem_none; unfold put; rewrite (dget_dset_neq _ String.eqb_eq) by congruence; reflexivity).
        rewrite M1. unfold finish. fold d1. unfold get, dget_err. rewrite GV. cbn [bind]. unfold log_stats.
        destruct (Z.eqb_spec (size (V2 (List.map after3 rows))) 0) as [E | _]; [| reflexivity]. exfalso. revert E. apply (table_size steady); [exact RN |]. apply (Forall_impl _ (P := fun r => zlen r = 3 + c)); [intros; lia | exact T2].
      - rewrite check_eq. replace (dmem String.eqb axis d1) with false by (symmetry; apply dmem_none; exact GA). rewrite CA.
        assert (FIN : finish axis d2 = (Ok true, d2)).
        { unfold finish, get, dget_err, d2, put. rewrite (dget_dset_eq _ String.eqb_eq). cbn [bind]. unfold log_stats. cbn [size]. destruct (Z.eqb_spec (zlen (after3 row)) 0) as [E | _]; [| reflexivity]. exfalso. revert E. apply (after3_len steady). lia. }
        unfold read_data. destruct LI as [L | (rs & L & ST)]; rewrite L; [exact FIN |]. rewrite ST. exact FIN.
      - unfold d2, put. rewrite (dget_dset_neq _ String.eqb_eq) by congruence. exact GV.
      - unfold d2, put. apply (dget_dset_eq _ String.eqb_eq).
      - unfold d2, put. rewrite (dget_dset_neq _ String.eqb_eq) by congruence. exact GT.
    Qed.
    Lemma after3_zlen (r : list F) : zlen r = 3 + c -> zlen (after3 r) = c.
    Proof. unfold after3, zlen. rewrite skipn_length. lia. Qed.
    Lemma one_letter : first_letter v = Ok v.
    Proof. destruct v as [| a [| b s]]; try discriminate ONE. reflexivity. Qed.
    Lemma map_cols : ncols (List.map after3 rows) = c.
    Proof. destruct TB as (_ & T2). destruct rows as [| r l]; [cbn in R2; lia |]. apply Forall_cons_iff in T2. cbn [List.map ncols]. apply after3_zlen. apply T2. Qed.

    (** Time map of a variable with a one-letter name: the coordinates of its file, the times and the values. *)
    Theorem C73_time_map verbose : exists t, Forall2 (fun r y => nth_error r 1 = Some y) rows t /\
      plot verbose TimeMap prefix v axis = Ok (Figure (prefix ++ "." ++ v ++ ".time.png") (skipn 3 row) t (List.map (skipn 3) rows)).
    Proof.
      destruct loaded as (t & d1 & d2 & M & E1 & E2 & G1 & G2 & G3). exists t. split; [exact M |]. unfold plotline. rewrite E1, E2. unfold plot_timemap. rewrite one_letter. cbn [bind].
      unfold get, dget_err. rewrite G1, G2, G3. destruct verbose; cbn [bind check_axis contourf]; rewrite map_cols, zlen_map.
      all: replace (zlen rows <? 2) with false by (symmetry; apply Z.ltb_ge; lia); replace (c <? 2) with false by (symmetry; apply Z.ltb_ge; lia); cbn [orb].
      all: rewrite (after3_zlen row LR), Z.eqb_refl; assert (LT : zlen t = zlen rows) by (unfold zlen; f_equal; symmetry; eapply Forall2_length'; exact M); rewrite LT, Z.eqb_refl; reflexivity.
    Qed.

    (** Frequency map: the modes 1 to n // 200 - 1 of n samples; there must be at least 600 samples. *)
    Hypothesis PS : forall x, List.map zlen (psd x) = List.map zlen x.
    Hypothesis FQ : forall n dt, 0 <= n -> zlen (fftfreq n dt) = n.
    Theorem C73_freq_map verbose : let n := zlen rows in
      exists t, Forall2 (fun r y => nth_error r 1 = Some y) rows t /\
      (n < 600 -> plot verbose FreqMap prefix v axis = Err TypeError) /\
      (600 <= n -> exists f z, plot verbose FreqMap prefix v axis = Ok (Figure (prefix ++ "." ++ v ++ ".freq.png") (skipn 3 row) f z) /\
         zlen f = n / 200 - 1 /\ zlen z = n / 200 - 1 /\
         forall k, 1 <= k < n / 200 -> nth_error f (Z.to_nat (k - 1)) = nth_error (fftfreq n (dtavg (V1 t))) (Z.to_nat k) /\
                                       nth_error z (Z.to_nat (k - 1)) = nth_error (psd (List.map (skipn 3) rows)) (Z.to_nat k)).
    Proof.
      intros n. destruct loaded as (t & d1 & d2 & M & E1 & E2 & G1 & G2 & G3). exists t. split; [exact M |].
      assert (LT : zlen t = zlen rows) by (unfold zlen; f_equal; symmetry; eapply Forall2_length'; exact M).
      set (P := psd (List.map (skipn 3) rows)). set (Q := fftfreq n (dtavg (V1 t))).
      assert (LP : zlen P = n). { assert (X := f_equal (@zlen Z) (PS (List.map (skipn 3) rows))). rewrite !zlen_map in X. exact X. }
      assert (LQ : zlen Q = n) by (apply FQ; unfold n; lia).
      assert (Q0 : 0 <= n / 200 <= n). { split; [apply Z.div_pos; lia |]. apply Z.div_le_upper_bound; lia. }
      assert (SL : forall A (l : list A), zlen l = n -> 1 <= n / 200 -> py_slice l 1 (n / 200) = firstn (Z.to_nat (n / 200 - 1)) (skipn 1 l)).
      { intros A l L H. unfold py_slice, slice_bound. rewrite L. cbn [Z.ltb Z.compare]. replace (n / 200 <? 0) with false by (symmetry; apply Z.ltb_ge; lia).
        replace (Z.max 0 (Z.min n 1)) with 1 by lia. replace (Z.max 0 (Z.min n (n / 200))) with (n / 200) by lia. reflexivity. }
      assert (SZ : forall A (l : list A), zlen l = n -> zlen (py_slice l 1 (n / 200)) = Z.max 0 (n / 200 - 1)).
      { intros A l L. unfold py_slice, slice_bound. rewrite L. cbn [Z.ltb Z.compare]. replace (n / 200 <? 0) with false by (symmetry; apply Z.ltb_ge; lia).
        replace (Z.max 0 (Z.min n 1)) with 1 by lia. replace (Z.max 0 (Z.min n (n / 200))) with (n / 200) by lia. unfold zlen in *. rewrite firstn_length, skipn_length. lia. }
      assert (PL : plot verbose FreqMap prefix v axis = contourf (prefix ++ "." ++ v ++ ".freq.png") (V1 (skipn 3 row)) (V1 (py_slice Q 1 (n / 200))) (V2 (py_slice P 1 (n / 200)))).
      { unfold plotline. rewrite E1, E2. unfold plot_freqmap. rewrite one_letter. cbn [bind]. unfold get, dget_err. rewrite G1, G2, G3. cbn [bind no_steps]. rewrite LT. replace (zlen rows <? 2) with false by (symmetry; apply Z.ltb_ge; lia).
        cbn [bind]. rewrite zlen_map. replace (zlen rows =? 0) with false by (symmetry; apply Z.eqb_neq; lia). cbn [bind check_axis]. reflexivity. }
      rewrite PL. cbn [contourf]. split.
      - intros N6. rewrite (SZ _ P LP). replace (Z.max 0 (n / 200 - 1) <? 2) with true; [reflexivity |]. symmetry. apply Z.ltb_lt. assert (n / 200 < 3) by (apply Z.div_lt_upper_bound; lia). lia.
      - intros N6. assert (D3 : 3 <= n / 200) by (apply Z.div_le_lower_bound; lia). exists (py_slice Q 1 (n / 200)), (py_slice P 1 (n / 200)).
        assert (NC : ncols (py_slice P 1 (n / 200)) = c).
        { rewrite SL by (exact LP || lia). destruct P as [| p0 [| p1 Q']] eqn:EP; [cbn in LP; lia | cbn in LP; lia |]. cbn [skipn]. destruct (Z.to_nat (n / 200 - 1)) as [| q] eqn:EQ; [lia |]. cbn [firstn ncols].
          assert (X := PS (List.map (skipn 3) rows)). fold P in X. rewrite EP in X. cbn [List.map] in X. destruct TB as (_ & T2). destruct rows as [| r0 [| r1 rs]]; [discriminate X | discriminate X |]. cbn [List.map] in X. injection X as _ X _. rewrite X.
          apply Forall_cons_iff in T2. destruct T2 as (_ & T2). apply Forall_cons_iff in T2. apply (after3_zlen r1). apply T2. }
        rewrite NC, !SZ by assumption. replace (Z.max 0 (n / 200 - 1)) with (n / 200 - 1) by lia. replace (n / 200 - 1 <? 2) with false by (symmetry; apply Z.ltb_ge; lia). replace (c <? 2) with false by (symmetry; apply Z.ltb_ge; lia). cbn [orb].
        replace (zlen (skipn 3 row)) with c by (symmetry; apply (after3_zlen row LR)). rewrite !Z.eqb_refl. cbn [andb]. split; [reflexivity |]. split; [reflexivity |]. split; [reflexivity |].
        intros k K. rewrite !SL by (assumption || lia). 
        assert (NF : forall A (l : list A) i j, (i < j)%nat -> nth_error (firstn j l) i = nth_error l i). { clear. intros A l i j. revert l i. induction j as [| j IH]; intros l i H; [lia |]. destruct l as [| a l]; [reflexivity |]. destruct i as [| i]; [reflexivity |]. cbn. apply IH. lia. }
        assert (NS : forall A (l : list A) i, nth_error (skipn 1 l) i = nth_error l (S i)). { clear. intros A [| a l] i; [destruct i; reflexivity | reflexivity]. }
        rewrite !NF, !NS by lia. replace (Z.to_nat k) with (S (Z.to_nat (k - 1))) by lia. auto.
    Qed.
  End Drawn.

  (** An axis given by several lines that is not a coordinate cannot be used. *)
  Theorem C73_axis verbose kind prefix v axis fig : plot verbose kind prefix v axis = Ok fig ->
    exists d r, look d axis = Some (V1 r) /\ fg_x fig = r /\ d = snd (check 2 axis prefix (snd (check 2 v prefix []))).
  Proof.
    unfold plotline. destruct (check 2 v prefix []) as [[b | e] d1]; [| discriminate]. cbn [snd]. destruct (check 2 axis prefix d1) as [[b' | e] d2]; [| discriminate]. cbn [snd].
    assert (CF : forall name x y z, contourf (F := F) name x y z = Ok fig -> exists r, x = V1 r /\ fg_x fig = r).
    { intros name x y z. unfold contourf. destruct z as [| zr]; [discriminate |]. destruct (_ || _); [discriminate |]. destruct x as [xr |], y as [yr |]; try discriminate. destruct (_ && _); [| discriminate]. intros H. injection H as <-. eauto. }
    assert (CA : forall a a', check_axis (F := F) a = Ok a' -> a' = a). { intros [r | rs] a'; cbn; [congruence | destruct (_ =? 0); discriminate]. }
    destruct kind; unfold plot_timemap, plot_freqmap; intros H.
    - apply bind_ok in H. destruct H as (var & _ & H). apply bind_ok in H. destruct H as (u & _ & H). apply bind_ok in H. destruct H as (a & HA & H). apply bind_ok in H. destruct H as (a' & HA' & H). apply bind_ok in H. destruct H as (t & _ & H). apply bind_ok in H. destruct H as (z & _ & H).
      apply CA in HA'. subst a'. apply CF in H. destruct H as (r & -> & H). exists d2, r. unfold get, dget_err in HA. destruct (look d2 axis); [injection HA as ->; auto | discriminate].
    - apply bind_ok in H. destruct H as (var & _ & H). apply bind_ok in H. destruct H as (t & _ & H). apply bind_ok in H. destruct H as (u & _ & H). apply bind_ok in H. destruct H as (z & _ & H). apply bind_ok in H. destruct H as (u' & _ & H). apply bind_ok in H. destruct H as (a & HA & H). apply bind_ok in H. destruct H as (a' & HA' & H).
      apply CA in HA'. subst a'. destruct z; [discriminate |]. apply CF in H. destruct H as (r & -> & H). exists d2, r. unfold get, dget_err in HA. destruct (look d2 axis); [injection HA as ->; auto | discriminate].
  Qed.
End Props.
Print Assumptions C73_long_names.
Print Assumptions C73_time_map.
Print Assumptions C73_freq_map.
Print Assumptions C73_axis.

(** ** Concrete cases: a line of three points, [n] samples *)
Definition ex_rows (n : Z) : list (list Z) := List.map (fun i => [i; 10 * i; 3; 100 + i; 200 + i; 300 + i]) (zrange 0 n).
Definition ex_line : list Z := [0; 0; 3; 5; 6; 7].
Definition ex_files (n : Z) (name : string) : option (rdata (F := Z)) :=
  dget String.eqb name [("run.P", R2 (ex_rows n)); ("run.RHO", R2 (ex_rows n)); ("run.X", R1 ex_line); ("run.Y", R2 [ex_line; ex_line])]%string.
Definition ex_plot (n : Z) (kind : map_kind) (v axis : string) : res (figure Z) :=
  plotline (fun _ => 10) (fun n dt => List.map (fun k => k * dt) (zrange 0 n)) (fun x => x)
    (check_data (fun x _ _ => Ok x) (fun x _ => Ok x) (fun x _ => Ok x) (fun x _ => Ok x) (fun x _ => Ok x) (fun x _ => Ok x) (fun _ _ => true) (ex_files n) 2) true kind "run" v axis.
Example c73_case : table (ex_files 600) "run" "P" 3 (ex_rows 600) /\ line (fun _ _ => true) (ex_files 600) "run" "X" ex_line /\ line (fun _ _ => true) (ex_files 600) "run" "Y" ex_line /\
  zlen ex_line = 3 + 3 /\ 600 <= zlen (ex_rows 600) /\ zlen (ex_rows 3) < 600.
Proof.
  split; [split; [reflexivity |] |].
  - unfold ex_rows. apply Forall_forall. intros r I. apply in_map_iff in I. destruct I as (i & <- & _). reflexivity.
  - split; [left; reflexivity |]. split; [right; exists [ex_line]; split; reflexivity |]. split; [reflexivity |]. split; vm_compute; congruence.
Qed.
Example c73_time : ex_plot 3 TimeMap "P" "Y" = Ok (Figure "run.P.time.png" [5; 6; 7] [0; 10; 20] [[100; 200; 300]; [101; 201; 301]; [102; 202; 302]]).
Proof. vm_compute. reflexivity. Qed.
Example c73_long : ex_plot 3 TimeMap "RHO" "X" = Err KeyError.
Proof. vm_compute. reflexivity. Qed.
Example c73_freq : ex_plot 600 FreqMap "P" "X" = Ok (Figure "run.P.freq.png" [5; 6; 7] [10; 20] [[101; 201; 301]; [102; 202; 302]]).
Proof. vm_compute. reflexivity. Qed.
Example c73_few : ex_plot 599 FreqMap "P" "X" = Err TypeError.
Proof. vm_compute. reflexivity. Qed.
(** [S] is computed from [P] and [RHO]: a table, not a line. *)
Example c73_axis : ex_plot 3 TimeMap "P" "S" = Err TypeError.
Proof. vm_compute. reflexivity. Qed.
