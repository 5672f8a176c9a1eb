(** * C87: the meshes of one reader share their parameters, data and marks. *)
From Verif Require Import PyFacts.
From Verif Require Ic3V4Props Ic3FileProps.
From Verif Require Export ReaderHeapFirst.
From Coq Require Import Lia Permutation.
#[local] Notation F := Z (only parsing).
Local Open Scope nat_scope.

(** ** Counts and variables read again *)
Lemma count_positions (p : Z -> bool) (l : list Z) : exists ks : list nat, NoDup ks /\ count_if p l = zlen ks /\
  forall k, In k ks <-> exists x, nth_error l k = Some x /\ p x = true.
Proof.
  enough (G : forall n, exists ks : list nat, NoDup ks /\ count_if p l = zlen ks /\ forall k, In k ks <-> n <= k /\ exists x, nth_error l (k - n) = Some x /\ p x = true).
  { destruct (G 0) as (ks & N & C & H). exists ks. split; [exact N|]. split; [exact C|]. intros k. rewrite (H k), Nat.sub_0_r. split; [tauto|]. intros Q. split; [lia|exact Q]. }
  unfold count_if. induction l as [|a l IH]; intros n.
  - exists []. split; [constructor|]. split; [reflexivity|]. intros k. split; [intros []|]. intros (_ & x & E & _). destruct (k - n); discriminate E.
  - destruct (IH (S n)) as (ks & N & C & H). cbn [filter]. destruct (p a) eqn:P.
    + exists (n :: ks). split; [constructor; [|exact N]; intros I; apply H in I; lia|]. split; [unfold zlen in *; cbn [List.length]; rewrite !Nat2Z.inj_succ; now rewrite C|].
      intros k. cbn [In]. rewrite (H k). split.
      * intros [<-|(L & x & E & Q)]; [split; [lia|]; rewrite Nat.sub_diag; now exists a|]. split; [lia|]. exists x. split; [|exact Q]. replace (k - n) with (S (k - S n)) by lia. exact E.
      * intros (L & x & E & Q). destruct (Nat.eq_dec n k) as [D|D]; [now left|right]. split; [lia|]. exists x. split; [|exact Q]. replace (k - n) with (S (k - S n)) in E by lia. exact E.
    + exists ks. split; [exact N|]. split; [exact C|]. intros k. rewrite (H k). split.
      * intros (L & x & E & Q). split; [lia|]. exists x. split; [|exact Q]. replace (k - n) with (S (k - S n)) by lia. exact E.
      * intros (L & x & E & Q). destruct (Nat.eq_dec n k) as [->|D]; [rewrite Nat.sub_diag in E; cbn in E; congruence|]. split; [lia|]. exists x. split; [|exact Q].
        replace (k - n) with (S (k - S n)) in E by lia. exact E.
Qed.

Lemma count_rows rs (c : Z -> bool) (P : Z -> Prop) : (forall x, c x = true <-> P x) ->
  exists l : list nat, NoDup l /\ count_if c (second_cells (r4_cvofa rs)) = zlen l /\ forall k, In k l <-> exists row, nth_error (r4_cvofa rs) k = Some row /\ P (nth 1 row 0%Z).
Proof.
  intros CP. destruct (count_positions c (second_cells (r4_cvofa rs))) as (l & N & C & H). exists l. split; [exact N|]. split; [exact C|]. intros k. rewrite (H k).
  unfold second_cells. rewrite nth_error_map. destruct (nth_error (r4_cvofa rs) k) as [row|]; cbn [option_map].
  - split; intros (x & Q & Q'); injection Q as <-; eexists; (split; [reflexivity|]); now apply CP.
  - split; intros (x & Q & _); discriminate Q.
Qed.
Ltac str_neq := let Q := fresh in intros Q; discriminate Q.
Ltac dget_other := repeat (rewrite (dget_dset_neq String.eqb String.eqb_eq) by str_neq).
Lemma reparams_recounted f rs d d' : read_data4 f None = Ok rs -> reparams rs d = Ok d' -> recounted f rs d d'.
Proof.
  intros Er E. assert (A : r4_no rs = m4_no f /\ r4_fa rs = m4_fa f /\ r4_cv rs = m4_cv f /\ r4_noofa rs = zsum (m4_noofa_i f)).
  { unfold read_data4 in Er. osplit. injection Er as <-. auto. }
  destruct A as (A1 & A2 & A3 & A4). unfold reparams, add_nboco in E.
  set (d0 := dset String.eqb "nfa_bp"%string _ _) in E.
  assert (G : forall k, k <> "nboco"%string -> dget String.eqb k d' = dget String.eqb k d0).
  { intros k D. destruct (Z.eqb (zlen (r4_bocos rs)) 0); [injection E as <-; reflexivity|]. osplit. destruct a as [[n|n]|]; try discriminate E. injection E as <-. apply (dget_dset_neq String.eqb String.eqb_eq). exact D. }
  unfold recounted. rewrite <- A1, <- A2, <- A3, <- A4. split; [|split; [|split; [|split]]].
  - repeat split; (rewrite G by str_neq); unfold d0; dget_other; apply (dget_dset_eq String.eqb String.eqb_eq).
  - eexists. split; [rewrite G by str_neq; unfold d0; dget_other; apply (dget_dset_eq String.eqb String.eqb_eq)|]. destruct (count_rows rs (fun c => Z.eqb c (-1)) (fun c => c = (-1)%Z) (fun x => Z.eqb_eq x (-1))) as (l & N & C & H). exists l. auto.
  - eexists. split; [rewrite G by str_neq; unfold d0; apply (dget_dset_eq String.eqb String.eqb_eq)|]. destruct (count_rows rs (fun c => Z.ltb c (-1)) (fun c => (c < -1)%Z) (fun x => Z.ltb_lt x (-1))) as (l & N & C & H). exists l. auto.
  - intros n Hn. assert (H0 : dget String.eqb "nboco"%string d0 = Some (SNum (NInt n))) by (unfold d0; dget_other; exact Hn).
    destruct (Z.eqb_spec (zlen (r4_bocos rs)) 0) as [Q|Q]; [injection E as <-; rewrite Q, Z.add_0_r; exact H0|]. unfold dget_err in E. rewrite H0 in E. cbn [bind] in E. injection E as <-. apply (dget_dset_eq String.eqb String.eqb_eq).
  - intros k NI. cbn [In] in NI. rewrite G by (intros ->; tauto). unfold d0. repeat (rewrite (dget_dset_neq String.eqb String.eqb_eq) by (intros ->; tauto)). reflexivity.
Qed.

Lemma read_vars_fold cv vars names : forall d d', foldM (read_var4 cv vars) d names = Ok d' ->
  (ds_xrep d' = ds_xrep d /\ ds_trep d' = ds_trep d /\ ds_ndof d' = ds_ndof d) /\ (forall v, In v names -> exists vals, dget String.eqb v vars = Some vals) /\
  forall name, (exists v vals a, In v names /\ upper v = name /\ dget String.eqb v vars = Some vals /\ dget String.eqb name (ds_data d') = Some a /\ a_val a = vals) \/
    (dget String.eqb name (ds_data d') = dget String.eqb name (ds_data d) /\ forall v, In v names -> upper v <> name).
Proof.
  induction names as [|v names IH]; intros d d' E; cbn [foldM] in E.
  - injection E as <-. split; [auto|]. split; [intros v []|]. intros name. right. split; [reflexivity|]. intros v [].
  - osplit. destruct (IH _ _ E) as ((A1 & A2 & A3) & B & C). unfold read_var4 in E0. osplit. rename a0 into vals, a1 into arr. injection E0 as <-.
    assert (G : dget String.eqb v vars = Some vals) by (unfold dget_err in E1; destruct (dget String.eqb v vars); [now injection E1 as ->|discriminate E1]).
    assert (Av : a_val arr = vals) by (destruct (1 <? _)%Z; [destruct (_ =? 0)%Z; [|discriminate E2]; now injection E2 as <-|osplit; now injection E2 as <-]).
    split; [auto|]. split; [intros w [<-|I]; eauto|]. intros name. destruct (C name) as [(w & wv & a & I & U & Gw & Q)|(Q & N)]; [left; exists w, wv, a; split; [now right|]; auto|].
    cbn [add_data ds_data] in Q. destruct (String.eqb_spec name (upper v)) as [->|D].
    + left. exists v, vals, arr. split; [now left|]. split; [reflexivity|]. split; [exact G|]. split; [|exact Av]. rewrite Q. apply (dget_dset_eq String.eqb String.eqb_eq).
    + right. rewrite (dget_dset_neq String.eqb String.eqb_eq) in Q by exact D. split; [exact Q|]. intros w [<-|I]; [congruence|now apply N].
Qed.
Lemma read_vars_retaken cv sl c c' : read_vars4 cv sl c = Ok c' -> retaken sl c c'.
Proof.
  intros E. unfold read_vars4 in E. osplit. rename a into c1. destruct (read_vars_fold _ _ _ _ _ E0) as ((A1 & A2 & A3) & B & C).
  assert (H2 : (ds_xrep c' = ds_xrep c1 /\ ds_trep c' = ds_trep c1 /\ ds_ndof c' = ds_ndof c1) /\
    forall name, (exists v vals a w vs, s4_stats sl = Some (w, vs) /\ upper v = name /\ dget String.eqb v vs = Some vals /\ dget String.eqb name (ds_data c') = Some a /\ a_val a = vals) \/
      (dget String.eqb name (ds_data c') = dget String.eqb name (ds_data c1) /\ forall w vs v vals, s4_stats sl = Some (w, vs) -> dget String.eqb v vs = Some vals -> upper v <> name)).
  { destruct (s4_stats sl) as [(w & vs)|].
    - destruct (read_vars_fold _ _ _ _ _ E) as (A' & B' & C'). split; [exact A'|]. intros name. destruct (C' name) as [(v & vals & a & I & U & G & Q)|(Q & N)].
      + left. exists v, vals, a, w, vs. auto.
      + right. split; [exact Q|]. intros w' vs' v vals Q' G. injection Q' as <- <-. apply N. unfold sorted_names. eapply Permutation_in; [apply Permutation_sym, isort_perm|].
        apply (dget_in _ String.eqb_eq) in G. apply in_map_iff. now exists (v, vals).
    - injection E as <-. split; [auto|]. intros name. right. split; [reflexivity|]. discriminate. }
  destruct H2 as ((D1 & D2 & D3) & H2). split; [congruence|]. split; [congruence|]. split; [congruence|]. split.
  - intros v vals V. destruct (H2 (upper v)) as [(v' & vals' & a & w & vs & S & U & G & Q & Qa)|(Q & N)].
    + exists v', vals', a. split; [right; eauto|]. auto.
    + destruct (C (upper v)) as [(v' & vals' & a & I & U & G & Q' & Qa)|(Q' & N')].
      * exists v', vals', a. split; [left; auto|]. split; [exact U|]. split; [congruence|exact Qa].
      * exfalso. destruct V as [(I & G)|(w & vs & S & G)]; [now apply (N' v I)|now apply (N w vs v vals S G)].
  - intros name NV. destruct (H2 name) as [(v' & vals' & a & w & vs & S & U & G & Q & Qa)|(Q & N)]; [exfalso; apply (NV v' vals'); [right; eauto|exact U]|].
    rewrite Q. destruct (C name) as [(v' & vals' & a & I & U & G & Q' & Qa)|(Q' & N')]; [exfalso; apply (NV v' vals'); [left; auto|exact U]|exact Q'].
Qed.

(** ** C87 *)

(** A variable shows a mesh exactly when its command is export_mesh. *)
Theorem C87_defined p s i : run p = Ok s -> (exists fm, seen s i = Ok fm) <-> (exists r, nth_error p i = Some (KExport r)).
Proof.
  intros R. destruct (run_inv _ _ R) as (ts & M & I). rewrite (seen_mesh _ _ _ _ _ I). unfold source. destruct (nth_error p i) as [k|]; [|split; [congruence|intros (r & Q); discriminate Q]].
  destruct k; split; try congruence; try (intros (r' & Q); discriminate Q); try (intros _; eauto; fail); intros _ Q; discriminate Q.
Qed.
Print Assumptions C87_defined.

(** Commands that are not in [alters] leave a mesh as it is: reading files with a reader of version 2 or 3,
    other readers, and changes to meshes that share nothing with it. *)
Theorem C87_apart p k i s s' : run p = Ok s -> run (p ++ [k]) = Ok s' -> source p i <> None -> ~ alters p k i -> seen s' i = seen s i.
Proof. intros R R' S NA. destruct (run_step _ _ _ R') as (s0 & ts & M & R0 & E & I). assert (s0 = s) by congruence. subst s0. eapply step_apart; eauto. Qed.
Print Assumptions C87_apart.

(** Parameters, data and marks of a mesh are those of all meshes with the same source. *)
Theorem C87_shared p i s s' fm : run p = Ok s -> seen s i = Ok fm ->
  (forall j q, shares_params p j i -> run (p ++ [KUpdate j q]) = Ok s' -> seen s' i = Ok (with_params fm (dupdate (fm_params fm) q))) /\
  (forall j name a, shares_cells p j i -> run (p ++ [KData j name a]) = Ok s' -> exists d, fm_cells fm = FSet d /\ seen s' i = Ok (with_cells fm (add_data name a None d))) /\
  (forall j name b, shares_mark p name j i -> run (p ++ [KMark j name b]) = Ok s' ->
     (exists b0, dget String.eqb name (me_bocos (fm_mesh fm)) = Some b0) /\
     seen s' i = Ok (with_marks fm (dset String.eqb name (renamed name b) (me_bocos (fm_mesh fm))))).
Proof.
  intros R Se. split; [|split].
  - intros j q Sh R'. destruct (run_step _ _ _ R') as (s0 & ts & M & R0 & E & I). assert (s0 = s) by congruence. subst s0. eapply step_update; eauto.
  - intros j name a Sh R'. destruct (run_step _ _ _ R') as (s0 & ts & M & R0 & E & I). assert (s0 = s) by congruence. subst s0. eapply step_data; eauto.
  - intros j name b Sh R'. destruct (run_step _ _ _ R') as (s0 & ts & M & R0 & E & I). assert (s0 = s) by congruence. subst s0. eapply step_mark; eauto.
Qed.
Print Assumptions C87_shared.

(** Parts of its own, and coordinates. *)
Theorem C87_own p i s s' fm : run p = Ok s -> seen s i = Ok fm ->
  (forall q, run (p ++ [KParams i q]) = Ok s' -> seen s' i = Ok (with_params fm q)) /\
  (forall d, run (p ++ [KCells i d]) = Ok s' -> seen s' i = Ok (with_cells fm d)) /\
  (forall b, run (p ++ [KAdd i b]) = Ok s' -> seen s' i = Ok (with_marks fm (dset String.eqb (mk_name b) b (me_bocos (fm_mesh fm))))) /\
  (forall name, run (p ++ [KRemove i name]) = Ok s' ->
     dmem String.eqb name (me_bocos (fm_mesh fm)) = true /\ seen s' i = Ok (with_marks fm (dpop String.eqb name (me_bocos (fm_mesh fm))))) /\
  (forall g, run (p ++ [KCoords i g]) = Ok s' -> exists m', morph g (fm_mesh fm) = (Ok tt, m') /\ seen s' i = Ok (with_mesh fm m')).
Proof.
  intros R Se. repeat split; intros; match goal with R' : run (_ ++ _) = Ok _ |- _ => destruct (run_step _ _ _ R') as (s0 & ts & M & R0 & E & I) end; assert (s0 = s) by congruence; subst s0.
  - eapply step_params; eauto.
  - eapply step_cells; eauto.
  - eapply step_add; eauto.
  - eapply step_remove; eauto.
  - eapply step_remove; eauto.
  - eapply step_coords; eauto.
Qed.
Print Assumptions C87_own.

(** Exporting: the new mesh has the geometry of the last file read and shares the rest; the parameters of
    the meshes with the same source get the state of the reader again. *)
Theorem C87_export p r s s' : run p = Ok s -> run (p ++ [KExport r]) = Ok s' ->
  exists fm0 sim fm', geometry_of p r fm0 /\ state_of p r sim /\ seen s' (List.length p) = Ok fm' /\
    fm_part fm' = fm_part fm0 /\ with_bocos (fm_mesh fm') [] = with_bocos (fm_mesh fm0) [] /\
    forall i fm, seen s i = Ok fm -> source p i = Some (home_of p r) ->
      (never (own_params i) p -> fm_params fm' = dupdate (fm_params fm) sim /\ seen s' i = Ok (with_params fm (fm_params fm'))) /\
      (never (own_cells i) p -> fm_cells fm' = fm_cells fm) /\ fm_nodes fm' = fm_nodes fm /\
      (batch p i = Some (call_of p r) ->
        (forall name, never (own_mark i name) p -> dget String.eqb name (me_bocos (fm_mesh fm')) = dget String.eqb name (me_bocos (fm_mesh fm))) /\
        ((forall name, never (own_mark i name) p) -> me_bocos (fm_mesh fm') = me_bocos (fm_mesh fm))).
Proof.
  intros R R'. destruct (run_step _ _ _ R') as (s0 & ts & M & R0 & E & I). assert (s0 = s) by congruence. subst s0. eapply step_export; eauto. now apply run_knows.
Qed.
Print Assumptions C87_export.

(** Reading a file again with the same reader of version 4 changes the meshes it has exported. *)
Theorem C87_reread p r f sol s s' : run p = Ok s -> run (p ++ [KRead4 r f sol]) = Ok s' ->
  exists named rs, nth_error p r = Some (KReader4 named) /\ read_data4 f None = Ok rs /\
  forall i fm, seen s i = Ok fm -> source p i = Some (home_of p r) ->
    exists d' c', seen s' i = Ok (FM (fm_mesh fm) (FSet c') (fm_nodes fm) d' (fm_part fm)) /\
      (never (own_params i) p -> recounted f rs (fm_params fm) d') /\ ((exists k, In k p /\ own_params i k) -> d' = fm_params fm) /\
      (never (own_cells i) p -> exists c, fm_cells fm = FSet c /\ (if named then exists sl, sol = Some sl /\ retaken sl c c' else c' = c)) /\
      ((exists k, In k p /\ own_cells i k) -> fm_cells fm = FSet c').
Proof.
  intros R R'. destruct (run_step _ _ _ R') as (s0 & ts & M & R0 & E & I). assert (s0 = s) by congruence. subst s0.
  destruct (step_reread _ _ _ _ _ _ _ _ I (run_knows _ _ R) E) as (named & rs & A & B & C). exists named, rs. split; [exact A|]. split; [exact B|].
  intros i fm Se S. destruct (C i fm Se S) as (d' & c' & D & G1 & G2 & G3 & G4). exists d', c'. split; [exact D|].
  split; [intros Y; apply reparams_recounted; [exact B|now apply G1]|]. split; [exact G2|]. split; [|exact G4].
  intros Y. destruct (G3 Y) as (c & Q & Q'). exists c. split; [exact Q|]. destruct named; [|exact Q']. destruct Q' as (sl & Q1 & Q2). exists sl. split; [exact Q1|]. eapply read_vars_retaken. exact Q2.
Qed.
Print Assumptions C87_reread.

(** The first mesh exported after reading is the one in the file, whatever happened before, and whatever
    happens in between with other readers and meshes. *)
Theorem C87_first p r b f q s : run (p ++ KRead r b f :: q ++ [KExport r]) = Ok s -> Forall (fun k => reads r k = false /\ k <> KExport r) q ->
  seen s (List.length (p ++ KRead r b f :: q)) = read_mesh b f.
Proof. apply first_export. Qed.
Print Assumptions C87_first.
(** For version 4, when this is the first file its reader reads. *)
Theorem C87_first4 p named q1 f sol q2 s : let r := List.length p in
  run (p ++ KReader4 named :: q1 ++ KRead4 r f sol :: q2 ++ [KExport r]) = Ok s ->
  Forall (fun k => reads r k = false /\ k <> KExport r) q1 -> Forall (fun k => reads r k = false /\ k <> KExport r) q2 ->
  (named = true -> sol <> None) /\ seen s (List.length (p ++ KReader4 named :: q1 ++ KRead4 r f sol :: q2)) = read4 f (if named then sol else None).
Proof. apply first_export4. Qed.
Print Assumptions C87_first4.

(** ** Concrete cases *)
Import Ic3FileProps Ic3V4Props.
Definition ex87_file : list Z := bytes_of (ex_write V3 (ex_fm ex_marks "A" "B")).
Definition ex87_mesh4 : mesh4 := ex4_mesh_file (ex4_fm ex4_tiles "RHO").
Definition ex87_sol4 : sol4 := ex4_sol_file (ex4_fm ex4_tiles "RHO").
Definition ex87_step : dict string sval := [("step"%string, SNum (NInt 99))].
Definition ex87_param (k : string) (r : res mem) (i : var) : option sval :=
  match r with Ok s => match seen s i with Ok fm => dget String.eqb k (fm_params fm) | Err _ => None end | Err _ => None end.
Definition ex87_prog : list cmd := [KReader; KRead 0 true ex87_file; KExport 0; KExport 0].
Definition ex87_prog4 : list cmd := [KReader4 true; KRead4 0 ex87_mesh4 (Some ex87_sol4); KExport 0; KExport 0].
(** Changing the step of one mesh changes it in the other; exporting again sets both back. *)
Example c87_shared_case : shares_params ex87_prog 2 3 /\ source ex87_prog 2 = Some (0, 1) /\
  ex87_param "step" (run (ex87_prog ++ [KUpdate 2 ex87_step])) 3 = Some (SNum (NInt 99)) /\
  ex87_param "step" (run ((ex87_prog ++ [KUpdate 2 ex87_step]) ++ [KExport 0])) 3 = Some (SNum (NInt 7)).
Proof.
  split; [right|].
  - split; [vm_compute; discriminate|]. split; [reflexivity|]. split; intros k I (q & ->); cbn in I; repeat (destruct I as [I|I]; [discriminate I|]); destruct I.
  - split; [reflexivity|]. split; vm_compute; reflexivity.
Qed.
(** A mesh with parameters of its own, and one read before the file was read again. *)
Example c87_apart_case : ~ alters (ex87_prog ++ [KParams 3 []]) (KUpdate 2 ex87_step) 3 /\
  ex87_param "step" (run ((ex87_prog ++ [KParams 3 []]) ++ [KUpdate 2 ex87_step])) 3 = None /\
  ~ alters (ex87_prog ++ [KRead 0 true ex87_file; KExport 0]) (KUpdate 5 ex87_step) 3 /\
  ex87_param "step" (run ((ex87_prog ++ [KRead 0 true ex87_file; KExport 0]) ++ [KUpdate 5 ex87_step])) 3 = Some (SNum (NInt 7)).
Proof.
  split; [|split; [vm_compute; reflexivity|split; [|vm_compute; reflexivity]]].
  - intros [Q|(_ & _ & _ & N)]; [discriminate Q|]. apply (N (KParams 3 [])); [cbn; tauto|]. now exists [].
  - intros [Q|(_ & Q & _)]; [discriminate Q|]. vm_compute in Q. discriminate Q.
Qed.
(** A mesh of version 4: its file has 3 zones, and after reading it a second time the mesh counts 6. *)
Example c87_reread_case : source ex87_prog4 2 = Some (home_of ex87_prog4 0) /\ ex87_param "nboco" (run ex87_prog4) 2 = Some (SNum (NInt 3)) /\
  ex87_param "nboco" (run (ex87_prog4 ++ [KRead4 0 ex87_mesh4 (Some ex87_sol4)])) 2 = Some (SNum (NInt 6)) /\
  ex87_param "nboco" (run ((ex87_prog4 ++ [KParams 2 [("nboco"%string, SNum (NInt 3))]]) ++ [KRead4 0 ex87_mesh4 (Some ex87_sol4)])) 2 = Some (SNum (NInt 3)).
Proof. split; [reflexivity|]. repeat split; vm_compute; reflexivity. Qed.
(** The first mesh of a reader that has read another file before. *)
Example c87_first_case : exists s, run ((ex87_prog ++ [KUpdate 2 ex87_step]) ++ KRead 0 true ex87_file :: [KParams 2 []; KReader4 false] ++ [KExport 0]) = Ok s /\
  Forall (fun k => reads 0 k = false /\ k <> KExport 0) [KParams 2 []; KReader4 false] /\ seen s 8 = read_mesh true ex87_file.
Proof.
  destruct (run ((ex87_prog ++ [KUpdate 2 ex87_step]) ++ KRead 0 true ex87_file :: [KParams 2 []; KReader4 false] ++ [KExport 0])) as [s|] eqn:R; [|vm_compute in R; discriminate R].
  exists s. split; [reflexivity|]. assert (Q : Forall (fun k => reads 0 k = false /\ k <> KExport 0) [KParams 2 []; KReader4 false]).
  { constructor; [split; [reflexivity|discriminate]|]. constructor; [split; [reflexivity|discriminate]|]. constructor. }
  split; [exact Q|]. exact (C87_first (ex87_prog ++ [KUpdate 2 ex87_step]) 0 true ex87_file [KParams 2 []; KReader4 false] s R Q).
Qed.
Example c87_first4_case : exists s fm, run ([KReader] ++ KReader4 true :: [] ++ KRead4 1 ex87_mesh4 (Some ex87_sol4) :: [] ++ [KExport 1]) = Ok s /\ seen s 3 = Ok fm /\
  read4 ex87_mesh4 (Some ex87_sol4) = Ok fm /\ dget String.eqb "step" (fm_params fm) = Some (SNum (NInt 7)).
Proof.
  destruct (run ([KReader] ++ KReader4 true :: [] ++ KRead4 1 ex87_mesh4 (Some ex87_sol4) :: [] ++ [KExport 1])) as [s|] eqn:R; [|vm_compute in R; discriminate R].
  destruct (C87_first4 [KReader] true [] ex87_mesh4 (Some ex87_sol4) [] s R (Forall_nil _) (Forall_nil _)) as (_ & Q). cbn [List.length app] in Q.
  destruct (read4 ex87_mesh4 (Some ex87_sol4)) as [fm|] eqn:E; [|vm_compute in E; discriminate E]. exists s, fm. split; [reflexivity|]. split; [exact Q|]. split; [reflexivity|].
  apply (f_equal (fun x => match x with Ok fm => dget String.eqb "step" (fm_params fm) | Err _ => None end)) in E. rewrite <- E. vm_compute. reflexivity.
Qed.
(** Marks: shared by the meshes of one reading only; removing one on a mesh leaves the other. *)
Example c87_mark_case : forall b, shares_mark ex87_prog "out" 2 3 /\ batch ex87_prog 2 = Some (0, 1) /\
  (forall k, In k (ex87_prog ++ [KMark 2 "out" b; KRemove 2 "wall"]) -> ~ own_mark 3 "wall" k).
Proof.
  intros b. split; [right|].
  - split; [vm_compute; discriminate|]. split; [reflexivity|]. split; intros k I [(c & -> & _)| ->]; cbn in I; repeat (destruct I as [I|I]; [discriminate I|]); destruct I.
  - split; [reflexivity|]. intros k I [(c & -> & _)| ->]; cbn in I; repeat (destruct I as [I|I]; [discriminate I|]); destruct I.
Qed.
