(** * Sharing of meshes: the first mesh exported after reading. *)
From Verif Require Import PyFacts.
From Verif Require Export ReaderHeapReads.
From Coq Require Import Lia.
#[local] Notation F := Z (only parsing).
Local Open Scope nat_scope.

(** ** Marks *)
Definition named_marks (bs : list (mark F)) : list (string * mark F) := List.map (fun b => (mk_name b, b)) bs.
Definition to_dict (bs : list (string * mark F)) : dict string (mark F) := fold_left (fun d '(k, b) => dset String.eqb k b d) bs [].
Lemma locs_marks bs : forall os, mapM (mark_at (os ++ List.map OMk bs)) (mark_locs (List.length os) bs) = Ok (named_marks bs).
Proof.
  unfold mark_locs. induction bs as [|b bs IH]; intros os; [reflexivity|]. cbn [List.map List.length seq combine mapM mark_at named_marks].
  unfold get_mark at 1. rewrite nth_error_app2 by lia. rewrite Nat.sub_diag. cbn [nth_error bind].
  specialize (IH (os ++ [OMk b])). rewrite app_length, <- app_assoc in IH. cbn [List.length app] in IH. rewrite Nat.add_1_r in IH. rewrite IH. reflexivity.
Qed.
Lemma bocos_marks os ms bs : mapM (mark_at os) ms = Ok bs -> mapM (mark_at os) (as_bocos ms) = Ok (to_dict bs).
Proof.
  unfold as_bocos, to_dict. enough (G : forall d d', mapM (mark_at os) d = Ok d' -> mapM (mark_at os) ms = Ok bs ->
    mapM (mark_at os) (fold_left (fun d '(k, l) => dset String.eqb k l d) ms d) = Ok (fold_left (fun d '(k, b) => dset String.eqb k b d) bs d')) by now apply G.
  revert bs. induction ms as [|(k & l) ms IH]; intros bs d d' Hd Hb; cbn [mapM mark_at] in Hb.
  - injection Hb as <-. exact Hd.
  - osplit. injection Hb as <-. injection E as <-. cbn [fold_left]. apply IH; [|reflexivity]. now apply marks_dset.
Qed.
Lemma add_bocos bs : forall m : mesh F, fold_left add_boco bs m = with_bocos m (fold_left (fun d '(k, b) => dset String.eqb k b d) (named_marks bs) (me_bocos m)).
Proof. induction bs as [|b bs IH]; intros m; cbn; [now destruct m|]. now rewrite IH. Qed.
Lemma coords_bocos (m : mesh F) c rows : me_bocos (snd (set_coords_nd m c rows)) = me_bocos m.
Proof. unfold set_coords_nd. destruct (_ =? _)%Z; [|reflexivity]. cbn [fold_left]. repeat (destruct (column rows c _); [|reflexivity]). reflexivity. Qed.
Lemma faces_bocos (m : mesh F) t a b : me_bocos (snd (add_faces m t a b)) = me_bocos m.
Proof. unfold add_faces. destruct (existsb _ _); reflexivity. Qed.
Lemma export_value rs fm : export_mesh rs = Ok fm -> me_bocos (fm_mesh fm) = to_dict (named_marks (r_bocos rs)) /\
  fm = FM (fm_mesh fm) (FSet (r_cells rs)) (FSet (r_nodes rs)) (dupdate (params_of rs) (r_sim rs)) (fm_part fm).
Proof.
  intros E. unfold export_mesh in E. destruct (set_coords_nd _ _ _) as (e & m1) eqn:E1. osplit. destruct (add_faces _ _ _ _) as (e2 & m2) eqn:E4. osplit. injection E as <-. cbn [fm_mesh fm_part].
  split; [|reflexivity]. rewrite add_bocos. cbn [me_bocos with_bocos]. unfold to_dict. f_equal.
  replace m2 with (snd (add_faces m1 "mixed" a1 (Some a0))) by now rewrite E4. rewrite faces_bocos. replace m1 with (snd (set_coords_nd (new_mesh (r_cv rs) (r_no rs)) 3 (r_coords rs))) by now rewrite E1. now rewrite coords_bocos.
Qed.
Lemma export_value4 rs fm : export_mesh4 rs = Ok fm -> exists n, new_dataset "nodal" 1 "instant" = Ok n /\ me_bocos (fm_mesh fm) = to_dict (named_marks (r4_bocos rs)) /\
  fm = FM (fm_mesh fm) (FSet (r4_cells rs)) (FSet n) (dupdate (params4 rs) (r4_sim rs)) (fm_part fm).
Proof.
  intros E. unfold export_mesh4 in E. destruct (set_coords_nd _ _ _) as (e & m1) eqn:E1. osplit. destruct (add_faces _ _ _ _) as (e2 & m2) eqn:E4. osplit. injection E as <-. cbn [fm_mesh fm_part].
  eexists. split; [reflexivity|]. split; [|reflexivity]. rewrite add_bocos. cbn [me_bocos with_bocos]. unfold to_dict. f_equal.
  replace m2 with (snd (add_faces m1 "mixed" a1 (Some a0))) by now rewrite E4. rewrite faces_bocos. replace m1 with (snd (set_coords_nd (new_mesh (r4_cv rs) (r4_no rs)) 3 (r4_coords rs))) by now rewrite E1. now rewrite coords_bocos.
Qed.

(** ** A reader that no mesh has been exported from since it has new objects *)
Definition unused (p : list cmd) (r : var) : Prop := forall j, source p j <> Some (home_of p r) /\ batch p j <> Some (call_of p r).
Definition unsold (p : list cmd) (r : var) : Prop := forall j, source p j <> Some (home_of p r).
Definition quiet (r : var) (k : cmd) : Prop := reads r k = false /\ k <> KExport r.
Definition holds (os : list obj) (h : home) d c n (bs : list (mark F)) : Prop :=
  get_params os (ho_params h) = Ok d /\ get_set os (ho_cells h) = Ok c /\ get_set os (ho_nodes h) = Ok n /\ mapM (mark_at os) (ho_marks h) = Ok (named_marks bs).
Definition its_home (x : reader) (h : home) : Prop := match x with R23 None => False | R23 (Some (_, h')) | RV4 _ _ _ h' => h' = h end.
Lemma batch_lt p i : batch p i <> None -> i < List.length p.
Proof. unfold batch. intros H. apply nth_error_Some. destruct (nth_error p i); congruence. Qed.

Lemma quiet_unused p k r : unused p r -> quiet r k -> unused (p ++ [k]) r.
Proof.
  intros U (R & X) j. assert (R' : renews r k = false) by (destruct k; cbn in *; congruence || exact R). rewrite home_same, call_same by assumption.
  destruct (Nat.lt_trichotomy j (List.length p)) as [L|[->|L]].
  - rewrite source_snoc, batch_snoc by exact L. apply U.
  - rewrite source_last, batch_last. destruct k; try (split; discriminate). split; intros Q; injection Q as Q; unfold home_of, call_of in Q; congruence.
  - split; intros Q; [assert (Y : j < List.length (p ++ [k])) by (apply source_lt; congruence)|assert (Y : j < List.length (p ++ [k])) by (apply batch_lt; congruence)]; rewrite app_length in Y; cbn in Y; lia.
Qed.
Lemma quiet_holds p s ts M k s' r x h d c n bs : inv p s ts M -> nth_error (vars s) r = Some (VReader x) -> its_home x h -> unused p r -> quiet r k -> exec s k = Ok s' ->
  holds (objs s) h d c n bs -> nth_error (vars s') r = Some (VReader x) /\ holds (objs s') h d c n bs.
Proof.
  intros I Hx Hh U (R & X) E (A & B & C & D). split; [now apply (exec_reader _ _ _ _ _ E)|].
  destruct (home_of_reader _ _ _ _ _ _ (i_reader _ _ _ _ I _ _ Hx) Hh) as (HA & HB & HP & HC & HN & HK).
  assert (W := fun l t kd => exec_writes p s ts M k s' l t kd I E).
  assert (Keep : forall l kd, nth_error ts l = Some (From (home_of p r), kd) -> nth_error (objs s') l = nth_error (objs s) l).
  { intros l kd Hl. destruct (W _ _ _ Hl) as [Q|Q]; [exact Q|exfalso]. destruct k; cbn [writes] in Q; try (now elim Q).
    - destruct Q as (_ & Q). injection Q as Q. cbn in R. rewrite Q, Nat.eqb_refl in R. discriminate R.
    - destruct Q as (_ & Q). injection Q as Q. apply X. congruence.
    - destruct Q as (_ & [Q|(g & Q & Q' & _)]); [discriminate Q|]. injection Q as <-. exact (proj1 (U i) Q').
    - destruct Q as (_ & [Q|(g & Q & Q' & _)]); [discriminate Q|]. injection Q as <-. exact (proj1 (U i) Q').
    - destruct Q as (_ & [Q|(g & Q & Q' & _)]); discriminate Q. }
  split; [unfold get_params; rewrite (Keep _ _ HP); exact A|]. split; [unfold get_set; rewrite (Keep _ _ HC); exact B|]. split.
  - unfold get_set. destruct (W _ _ _ HN) as [->|Q]; [exact C|exfalso]. destruct k; cbn [writes] in Q; try (now elim Q); try (destruct Q as (_ & Q); discriminate Q);
      destruct Q as (_ & [Q|(g & Q & _)]); discriminate Q.
  - rewrite <- D. apply mapM_ext. intros (name & l) Il. cbn. unfold get_mark. destruct (W _ _ _ (HK _ _ Il)) as [->|Q]; [reflexivity|exfalso].
    destruct k; cbn [writes] in Q; try (now elim Q); try (destruct Q as (_ & Q); discriminate Q); destruct Q as (Q0 & [Q|(g & Q & Q' & _)]); try discriminate Q.
    injection Q as <-. exact (proj2 (U i) Q').
Qed.
Lemma quiet_run q : forall p s r x h d c n bs s', run p = Ok s -> nth_error (vars s) r = Some (VReader x) -> its_home x h -> unused p r -> Forall (quiet r) q -> run (p ++ q) = Ok s' ->
  holds (objs s) h d c n bs -> nth_error (vars s') r = Some (VReader x) /\ holds (objs s') h d c n bs /\ unused (p ++ q) r.
Proof.
  induction q as [|k q IH]; intros p s r x h d c n bs s' R Hx Hh U Q R' H.
  - rewrite app_nil_r in *. assert (s' = s) by congruence. now subst.
  - inversion Q as [|? ? Q1 Q2]; subst. change (p ++ k :: q) with (p ++ [k] ++ q) in *. rewrite app_assoc in *.
    assert (R1 : exists s1, run (p ++ [k]) = Ok s1) by (unfold run in R' |- *; rewrite run_from_app in R'; osplit; eauto). destruct R1 as (s1 & R1).
    assert (E := R1). rewrite run_snoc, R in E. cbn [bind] in E. destruct (run_inv _ _ R) as (ts & M & I).
    destruct (quiet_holds _ _ _ _ _ _ _ _ _ _ _ _ _ I Hx Hh U Q1 E H) as (Hx1 & H1). eapply IH; eauto using quiet_unused.
Qed.

(** New objects. *)
Lemma source_used p s ts M j g : inv p s ts M -> source p j = Some g -> used p g.
Proof. intros I S. destruct (i_source _ _ _ _ I j) as (m & Hm); [congruence|]. destruct (i_mesh _ _ _ _ I _ _ Hm) as (g' & c & S' & B & U & _). congruence. Qed.
Lemma batch_called p s ts M j g : inv p s ts M -> batch p j = Some g -> called p g.
Proof.
  intros I B. assert (S : source p j <> None) by (unfold batch in B; unfold source; destruct (nth_error p j) as [[]|]; congruence).
  destruct (i_source _ _ _ _ I j S) as (m & Hm). destruct (i_mesh _ _ _ _ I _ _ Hm) as (g' & c & S' & B' & U & C & _). congruence.
Qed.
Lemma new_unused p s ts M k r : inv p s ts M -> (forall r', k <> KExport r') -> ~ called p (call_of (p ++ [k]) r) ->
  ~ used p (home_of (p ++ [k]) r) \/ (unsold p r /\ renews r k = false) -> unused (p ++ [k]) r.
Proof.
  intros I X NC NU j. destruct (Nat.lt_trichotomy j (List.length p)) as [L|[->|L]].
  - rewrite source_snoc, batch_snoc by exact L. split; intros Q.
    + destruct NU as [NU|(NS & R)]; [now apply NU, (source_used _ _ _ _ _ _ I Q)|]. rewrite home_same in Q by exact R. now apply (NS j).
    + now apply NC, (batch_called _ _ _ _ _ _ I Q).
  - rewrite source_last, batch_last. destruct k; try (split; discriminate). now elim (X r0).
  - split; intros Q; [assert (Y : j < List.length (p ++ [k])) by (apply source_lt; congruence)|assert (Y : j < List.length (p ++ [k])) by (apply batch_lt; congruence)]; rewrite app_length in Y; cbn in Y; lia.
Qed.

Lemma export_seen p s r s' x fm sim h d c n bs : run p = Ok s -> exec s (KExport r) = Ok s' -> nth_error (vars s) r = Some (VReader x) -> its_home x h -> holds (objs s) h d c n bs ->
  match x with R23 (Some (rs, _)) => export_mesh rs = Ok fm /\ sim = r_sim rs | RV4 _ (Some rs) sim' _ => export_mesh4 rs = Ok fm /\ sim = sim' | _ => False end ->
  seen s' (List.length p) = Ok (FM (with_bocos (fm_mesh fm) (to_dict (named_marks bs))) (FSet c) (FSet n) (dupdate d sim) (fm_part fm)).
Proof.
  intros R E Hx Hh (A & B & C & D) Hf. destruct (run_inv _ _ R) as (ts & M & I). assert (Lv := i_len _ _ _ _ I). assert (T := i_typed _ _ _ _ I).
  destruct (home_of_reader _ _ _ _ _ _ (i_reader _ _ _ _ I _ _ Hx) Hh) as (HA & HB & HP & HC & HN & HK).
  assert (Q : export_as s fm sim h = Ok s').
  { cbn [exec] in E. rewrite (proj2 (find_reader_nth _ _ _) Hx) in E. cbn [bind] in E. destruct x as [[(rs & h')|]|named [rs|] sim' h']; try (destruct Hf; fail); cbn in Hh; subst h'; destruct Hf as (Ef & ->); rewrite Ef in E; exact E. }
  unfold export_as in Q. rewrite A in Q. cbn [bind] in Q. injection Q as <-. rewrite <- Lv.
  match goal with |- seen (Mem ?os (?vs ++ [VMesh ?m])) _ = _ => rewrite (seen_now (Mem os (vs ++ [VMesh m])) _ m (nth_last vs (VMesh m))) end. cbn [objs].
  rewrite (now_eq _ _ (dupdate d sim) c n (to_dict (named_marks bs))); cbn [hm_params hm_cells hm_nodes hm_marks]; [reflexivity| | | |].
  - unfold get_params. now rewrite upd_eq by (eapply typed_lt; eassumption).
  - unfold get_set. rewrite (upd_ne ts _ _ _ _ _ _ HP HC) by congruence. exact B.
  - unfold get_set. rewrite (upd_ne ts _ _ _ _ _ _ HP HN) by congruence. exact C.
  - rewrite marks_upd; [now apply bocos_marks|]. intros k l Hl. apply as_bocos_inv in Hl. specialize (HK _ _ Hl). apply (upd_ne ts _ _ _ _ _ _ HP HK). congruence.
Qed.

Lemma first_export p r b f q s : run (p ++ KRead r b f :: q ++ [KExport r]) = Ok s -> Forall (quiet r) q ->
  seen s (List.length (p ++ KRead r b f :: q)) = read_mesh b f.
Proof.
  intros R Q. replace (p ++ KRead r b f :: q ++ [KExport r]) with (((p ++ [KRead r b f]) ++ q) ++ [KExport r]) in R by now rewrite <- !app_assoc.
  replace (p ++ KRead r b f :: q) with ((p ++ [KRead r b f]) ++ q) by now rewrite <- app_assoc.
  rewrite run_snoc in R. destruct (run ((p ++ [KRead r b f]) ++ q)) as [s2|] eqn:R2; [|discriminate R]. cbn [bind] in R.
  assert (R1 : exists s1, run (p ++ [KRead r b f]) = Ok s1) by (unfold run in R2 |- *; rewrite run_from_app in R2; osplit; eauto). destruct R1 as (s1 & R1).
  destruct (run_step _ _ _ R1) as (s0 & ts & M & R0 & E & I). assert (Lv := i_len _ _ _ _ I). cbn [exec] in E. osplit. destruct a; [|discriminate E]. osplit. injection E as Es.
  apply find_reader_nth in E0. rename a into rs. set (h := Home (List.length (objs s0)) (S (List.length (objs s0))) (S (S (List.length (objs s0)))) (mark_locs (S (S (S (List.length (objs s0))))) (r_bocos rs))) in *.
  assert (Hx : nth_error (vars s1) r = Some (VReader (R23 (Some (rs, h))))) by (subst s1; cbn [vars]; apply upd_var; eapply var_lt; eassumption).
  assert (H : holds (objs s1) h (params_of rs) (r_cells rs) (r_nodes rs) (r_bocos rs)).
  { subst s1. unfold holds, h. cbn [objs ho_params ho_cells ho_nodes ho_marks]. unfold get_params, get_set.
    rewrite !nth_error_app2 by lia. rewrite Nat.sub_diag, (Nat.sub_succ_l _ _ (le_n _)), Nat.sub_diag. replace (S (S (List.length (objs s0))) - List.length (objs s0)) with 2 by lia. cbn [nth_error].
    split; [reflexivity|]. split; [reflexivity|]. split; [reflexivity|].
    assert (L := locs_marks (r_bocos rs) (objs s0 ++ [OPar (params_of rs); OSet (r_cells rs); OSet (r_nodes rs)])). rewrite app_length, <- app_assoc in L. cbn [List.length] in L.
    rewrite (Nat.add_comm _ 3) in L. exact L. }
  assert (U : unused (p ++ [KRead r b f]) r).
  { eapply new_unused; eauto; [discriminate| |left; apply new_home]. apply new_call. cbn. apply Nat.eqb_refl. }
  destruct (quiet_run _ _ _ _ _ _ _ _ _ _ _ R1 Hx eq_refl U Q R2 H) as (Hx2 & H2 & _).
  unfold read_mesh. rewrite E1. cbn [bind]. assert (Ex : exists fm, export_mesh rs = Ok fm).
  { cbn [exec] in R. rewrite (proj2 (find_reader_nth _ _ _) Hx2) in R. cbn [bind] in R. osplit. eauto. }
  destruct Ex as (fm & Ef). destruct (export_value _ _ Ef) as (Vb & Vf).
  rewrite (export_seen _ _ _ _ _ fm (r_sim rs) h _ _ _ _ R2 R Hx2 eq_refl H2) by auto. rewrite Ef. rewrite <- Vb. rewrite Vf at 4. f_equal. f_equal. now destruct (fm_mesh fm).
Qed.

(** ** Version 4 *)
Lemma reparams0 rs : reparams rs params0 = Ok (params4 rs).
Proof.
  unfold reparams, params0, add_nboco. destruct (Z.eqb_spec (zlen (r4_bocos rs)) 0) as [Q|Q].
  - unfold params4. rewrite Q. reflexivity.
  - cbn. unfold params4. reflexivity.
Qed.
Lemma read_split f sl rs : read_data4 f None = Ok rs -> forall c, new_dataset "cellaverage" 1 "instant" = Ok c ->
  r4_cells rs = c /\ r4_sim rs = [("step"%string, SNum (NInt 0)); ("time"%string, SNum (NInt 0))] /\
  forall c', read_vars4 (m4_cv f) sl c = Ok c' ->
    read_data4 f (Some sl) = Ok (R4 (r4_no rs) (r4_fa rs) (r4_cv rs) (r4_noofa rs) (r4_csr rs) (r4_cvofa rs) (r4_bocos rs) (r4_coords rs) (read_info4 sl) c').
Proof.
  intros E c Ec. unfold read_data4 in *. osplit. injection E as <-. injection Ec as <-. cbn [r4_cells r4_sim r4_no r4_fa r4_cv r4_noofa r4_csr r4_cvofa r4_bocos r4_coords].
  split; [reflexivity|]. split; [reflexivity|]. intros c' Ev. cbn [bind]. rewrite E2. cbn [bind]. now rewrite Ev.
Qed.
Lemma export_same rs c' sim : export_mesh4 (R4 (r4_no rs) (r4_fa rs) (r4_cv rs) (r4_noofa rs) (r4_csr rs) (r4_cvofa rs) (r4_bocos rs) (r4_coords rs) sim c') =
  (fm <- export_mesh4 rs ;; Ok (FM (fm_mesh fm) (FSet c') (fm_nodes fm) (dupdate (params4 rs) sim) (fm_part fm))).
Proof.
  unfold export_mesh4. cbn [r4_cells r4_sim r4_no r4_fa r4_cv r4_noofa r4_csr r4_cvofa r4_bocos r4_coords]. destruct (set_coords_nd _ _ _) as (e & m1). destruct e; [|reflexivity]. cbn [bind].
  destruct (ii_set _); [|reflexivity]. cbn [bind]. destruct (ec_import_csr _ _); [|reflexivity]. cbn [bind]. destruct (add_faces _ _ _ _) as (e & m2). destruct e; [|reflexivity]. cbn [bind].
  destruct (new_dataset _ _ _); [|reflexivity]. reflexivity.
Qed.

Lemma first_export4 p named q1 f sol q2 s : let r := List.length p in
  run (p ++ KReader4 named :: q1 ++ KRead4 r f sol :: q2 ++ [KExport r]) = Ok s -> Forall (quiet r) q1 -> Forall (quiet r) q2 ->
  (named = true -> sol <> None) /\ seen s (List.length (p ++ KReader4 named :: q1 ++ KRead4 r f sol :: q2)) = read4 f (if named then sol else None).
Proof.
  intros r R Q1 Q2. set (p1 := (p ++ [KReader4 named]) ++ q1). set (p2 := p1 ++ [KRead4 r f sol]).
  replace (p ++ KReader4 named :: q1 ++ KRead4 r f sol :: q2 ++ [KExport r]) with ((p2 ++ q2) ++ [KExport r]) in R by (unfold p2, p1; repeat (rewrite <- app_assoc; cbn [app]); reflexivity).
  replace (p ++ KReader4 named :: q1 ++ KRead4 r f sol :: q2) with (p2 ++ q2) by (unfold p2, p1; repeat (rewrite <- app_assoc; cbn [app]); reflexivity).
  rewrite run_snoc in R. destruct (run (p2 ++ q2)) as [s4|] eqn:R4; [|discriminate R]. cbn [bind] in R.
  assert (R3 : exists s3, run p2 = Ok s3) by (unfold run in R4 |- *; rewrite run_from_app in R4; osplit; eauto). destruct R3 as (s3 & R3).
  destruct (run_step p1 _ _ R3) as (s2 & ts2 & M2 & R2 & E2 & I2).
  assert (R1 : exists s1, run (p ++ [KReader4 named]) = Ok s1) by (unfold p1, run in R2 |- *; rewrite run_from_app in R2; osplit; eauto). destruct R1 as (s1 & R1).
  destruct (run_step _ _ _ R1) as (s0 & ts0 & M0 & R0 & E0 & I0). assert (Lv := i_len _ _ _ _ I0). cbn [exec] in E0.
  destruct (new_dataset "cellaverage" 1 "instant") as [cells|] eqn:Ec; [|discriminate E0]. cbn [bind] in E0. destruct (new_dataset "nodal" 1 "instant") as [nodes|] eqn:En; [|discriminate E0]. cbn [bind] in E0. injection E0 as Es.
  set (h := Home (List.length (objs s0)) (S (List.length (objs s0))) (S (S (List.length (objs s0)))) []) in *. set (sim0 := [("step"%string, SNum (NInt 0)); ("time"%string, SNum (NInt 0))]) in *.
  assert (Hx : nth_error (vars s1) r = Some (VReader (RV4 named None sim0 h))) by (subst s1; cbn [vars]; unfold r; rewrite <- Lv; apply nth_last).
  assert (H : holds (objs s1) h params0 cells nodes []).
  { subst s1. unfold holds, h. cbn [objs ho_params ho_cells ho_nodes ho_marks]. unfold get_params, get_set.
    rewrite !nth_error_app2 by lia. rewrite Nat.sub_diag, (Nat.sub_succ_l _ _ (le_n _)), Nat.sub_diag. replace (S (S (List.length (objs s0))) - List.length (objs s0)) with 2 by lia. cbn [nth_error].
    split; [reflexivity|]. split; [reflexivity|]. split; reflexivity. }
  assert (U : unused (p ++ [KReader4 named]) r).
  { eapply new_unused; eauto; [discriminate| |left]; intros (L & _); cbn in L; unfold r in L; lia. }
  destruct (quiet_run q1 _ _ _ _ _ _ _ _ _ _ R1 Hx eq_refl U Q1 R2 H) as (Hx2 & (Ha & Hb & Hc & Hd) & U2). fold p1 in U2.
  cbn [exec] in E2. rewrite (proj2 (find_reader_nth _ _ _) Hx2) in E2. cbn [bind] in E2. destruct (read_data4 f None) as [rs|] eqn:Er; [|discriminate E2]. cbn [bind] in E2.
  rewrite Ha in E2. cbn [bind] in E2. rewrite reparams0 in E2. cbn [bind] in E2. rewrite Hb in E2. cbn [bind] in E2.
  match type of E2 with bind ?u _ = _ => destruct u as [(c' & sim')|] eqn:Ev end; [|discriminate E2]. cbn [bind] in E2. injection E2 as Es3.
  set (h' := Home (ho_params h) (ho_cells h) (ho_nodes h) (mark_locs (List.length (objs s2)) (r4_bocos rs))) in *.
  destruct (home_of_reader _ _ _ _ _ h (i_reader _ _ _ _ I2 _ _ Hx2) eq_refl) as (HA & HB & HP & HC & HN & HK). assert (T2 := i_typed _ _ _ _ I2).
  assert (Hx3 : nth_error (vars s3) r = Some (VReader (RV4 named (Some rs) sim' h'))) by (subst s3; cbn [vars]; apply upd_var; eapply var_lt; eassumption).
  assert (H3 : holds (objs s3) h' (params4 rs) c' nodes (r4_bocos rs)).
  { set (os1 := upd_nat (upd_nat (objs s2) (ho_params h) (OPar (params4 rs))) (ho_cells h) (OSet c')) in *.
    assert (Ln : List.length os1 = List.length (objs s2)) by (unfold os1; now rewrite !upd_nat_length).
    assert (Oq : objs s3 = os1 ++ List.map OMk (r4_bocos rs)) by (subst s3; reflexivity). rewrite Oq. unfold holds, h'. cbn [ho_params ho_cells ho_nodes ho_marks]. unfold get_params, get_set.
    rewrite !app_same by (rewrite Ln; eapply typed_lt; eassumption). unfold os1.
    split; [rewrite (upd_ne ts2 _ _ _ _ _ _ HC HP) by congruence; now rewrite upd_eq by (eapply typed_lt; eassumption)|].
    split; [rewrite upd_eq; [reflexivity|rewrite upd_nat_length; eapply typed_lt; eassumption]|].
    split; [rewrite (upd_ne ts2 _ _ _ _ _ _ HC HN), (upd_ne ts2 _ _ _ _ _ _ HP HN) by congruence; exact Hc|].
    fold os1. rewrite <- Ln. apply locs_marks. }
  assert (U3 : unused p2 r).
  { unfold p2. eapply new_unused; eauto; [discriminate|apply new_call; cbn; apply Nat.eqb_refl|right; split; [|reflexivity]]. intros j. apply U2. }
  destruct (quiet_run q2 _ _ _ _ _ _ _ _ _ _ R3 Hx3 eq_refl U3 Q2 R4 H3) as (Hx4 & H4 & _).
  assert (Ex : exists fm, export_mesh4 rs = Ok fm).
  { cbn [exec] in R. rewrite (proj2 (find_reader_nth _ _ _) Hx4) in R. cbn [bind] in R. osplit. eauto. }
  destruct Ex as (fm & Ef). destruct (export_value4 _ _ Ef) as (n & Vn & Vb & Vf). rewrite En in Vn. injection Vn as <-.
  rewrite (export_seen _ _ _ _ _ fm sim' h' _ _ _ _ R4 R Hx4 eq_refl H4) by auto. rewrite <- Vb.
  assert (Wb : with_bocos (fm_mesh fm) (me_bocos (fm_mesh fm)) = fm_mesh fm) by now destruct (fm_mesh fm). rewrite Wb.
  destruct named.
  - destruct sol as [sl|]; [|discriminate Ev]. osplit. injection Ev as <- <-. split; [discriminate|]. destruct (read_split f sl rs Er cells Ec) as (_ & _ & Rd). unfold read4. rewrite (Rd _ E). cbn [bind].
    rewrite export_same, Ef. cbn [bind]. rewrite Vf. reflexivity.
  - injection Ev as <- <-. split; [discriminate|]. unfold read4. rewrite Er. cbn [bind]. rewrite Ef. rewrite Vf at 3.
    destruct (read_split f (S4 [] [] None) rs Er cells Ec) as (-> & -> & _); reflexivity.
Qed.
