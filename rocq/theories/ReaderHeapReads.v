(** * Sharing of meshes: readers, and the meshes they export. *)
From Verif Require Import PyFacts.
From Verif Require Export ReaderHeapSteps.
From Coq Require Import Lia.
#[local] Notation F := Z (only parsing).
Local Open Scope nat_scope.

Lemma exec_reader s k s' r x : exec s k = Ok s' -> nth_error (vars s) r = Some (VReader x) -> reads r k = false -> nth_error (vars s') r = Some (VReader x).
Proof.
  intros E Hr R. assert (Lr := var_lt _ _ _ Hr).
  assert (Um : forall j m m' os w, find_mesh s j = Ok m -> nth_error (vars (Mem os (upd_nat (vars s) j (VMesh m') ++ [w]))) r = Some (VReader x)).
  { intros j m m' os w Hj. apply find_mesh_nth in Hj. cbn [vars]. rewrite app_same by (rewrite upd_nat_length; exact Lr). rewrite nth_error_upd_nat.
    destruct (Nat.eqb_spec j r) as [->|D]; [congruence|exact Hr]. }
  destruct k; cbn [exec] in E; unfold on_mesh in E; osplit; cbn [reads] in R.
  - injection E as <-. cbn [vars]. now rewrite app_same.
  - injection E as <-. cbn [vars]. now rewrite app_same.
  - destruct a; [|discriminate E]. osplit. injection E as <-. cbn [vars]. rewrite app_same by (rewrite upd_nat_length; exact Lr). rewrite nth_error_upd_nat, R. exact Hr.
  - destruct a; [discriminate E|]. osplit. match goal with x : (dataset * dict string sval)%type |- _ => destruct x as (c' & sim') end. injection E as <-. cbn [vars].
    rewrite app_same by (rewrite upd_nat_length; exact Lr). rewrite nth_error_upd_nat, R. exact Hr.
  - assert (Q : exists fm sim h, export_as s fm sim h = Ok s') by (destruct a as [[(rs & h)|]|named [rs|] sim h]; try discriminate E; osplit; eauto).
    clear E. destruct Q as (fm & sim & h & E). unfold export_as in E. osplit. injection E as <-. cbn [vars]. now rewrite app_same.
  - match goal with x : (hmesh * list obj)%type |- _ => destruct x end. injection E as <-. eauto.
  - injection E as <-. eauto.
  - match goal with x : (hmesh * list obj)%type |- _ => destruct x end. injection E as <-. eauto.
  - injection E as <-. eauto.
  - match goal with x : (hmesh * list obj)%type |- _ => destruct x end. injection E as <-. eauto.
  - injection E as <-. eauto.
  - match goal with x : (hmesh * list obj)%type |- _ => destruct x end. injection E as <-. eauto.
  - match goal with x : (hmesh * list obj)%type |- _ => destruct x end. injection E as <-. eauto.
Qed.

(** ** What a reader knows *)
Definition knows (p : list cmd) (r : var) (x : reader) : Prop :=
  match x with
  | R23 None => True
  | R23 (Some (rs, _)) => exists b f, last_read p r b f /\ read_data b f = Ok rs
  | RV4 named st sim _ => nth_error p r = Some (KReader4 named) /\ sim = (if named then state4 p r else state4 [] r) /\
      forall rs, st = Some rs -> exists f, last_read4 p r f /\ read_data4 f None = Ok rs
  end.
Lemma last_snoc p k r b f : last_read p r b f -> reads r k = false -> last_read (p ++ [k]) r b f.
Proof.
  intros (p1 & p2 & -> & N) R. exists p1, (p2 ++ [k]). split; [now rewrite <- app_assoc|]. intros x I Q. apply in_app_or in I. destruct I as [I|[<-|[]]]; [now apply (N x I)|congruence].
Qed.
Lemma last4_snoc p k r f : last_read4 p r f -> reads r k = false -> last_read4 (p ++ [k]) r f.
Proof.
  intros (p1 & sol & p2 & -> & N) R. exists p1, sol, (p2 ++ [k]). split; [now rewrite <- app_assoc|]. intros x I Q. apply in_app_or in I. destruct I as [I|[<-|[]]]; [now apply (N x I)|congruence].
Qed.
Lemma last_here p r b f : last_read (p ++ [KRead r b f]) r b f.
Proof. exists p, []. split; [reflexivity|]. intros x []. Qed.
Lemma last4_here p r f sol : last_read4 (p ++ [KRead4 r f sol]) r f.
Proof. exists p, sol, []. split; [reflexivity|]. intros x []. Qed.
Lemma state4_snoc p k r : state4 (p ++ [k]) r = match k with KRead4 r' _ (Some sl) => if Nat.eqb r' r then puts sl (state4 p r) else state4 p r | _ => state4 p r end.
Proof. unfold state4. rewrite fold_left_app. reflexivity. Qed.
Lemma put_numbers l : forall d : dict string sval, fold_left (fun d '(k, x) => dset String.eqb k (SNum x) d) l d = dupdate d (numbers l).
Proof. unfold dupdate. induction l as [|(k & x) l IH]; intros d; cbn; [reflexivity|]. apply IH. Qed.
Lemma restate_puts sl d : restate sl d = puts sl d.
Proof. unfold restate, puts. rewrite put_numbers. destruct (s4_stats sl) as [(w & v)|]; [apply put_numbers|reflexivity]. Qed.

Lemma state4_fresh p r : (forall k, In k p -> reads r k = false) -> state4 p r = state4 [] r.
Proof.
  induction p as [|k p IH] using rev_ind; intros H; [reflexivity|]. rewrite state4_snoc. rewrite IH by (intros x I; apply H, in_or_app; now left).
  assert (R : reads r k = false) by (apply H, in_or_app; right; now left). destruct k; try reflexivity. destruct sol; [|reflexivity]. cbn in R. now rewrite R.
Qed.
Definition scoped (p : list cmd) : Prop := forall k r, In k p -> reads r k = true -> r < List.length p.
Lemma run_scoped p : forall s, run p = Ok s -> scoped p.
Proof.
  induction p as [|k p IH] using rev_ind; intros s E; [intros k r []|]. destruct (run_step _ _ _ E) as (s0 & ts & M & R0 & E0 & I). intros x r Ix Rx. rewrite app_length.
  apply in_app_or in Ix. destruct Ix as [Ix|[<-|[]]]; [specialize (IH _ R0 _ _ Ix Rx); lia|]. enough (r < List.length p) by lia. rewrite <- (i_len _ _ _ _ I).
  destruct k; cbn in Rx; try discriminate Rx; apply Nat.eqb_eq in Rx; subst r0; cbn [exec] in E0; osplit; apply find_reader_nth in E1; eapply var_lt; eassumption.
Qed.

Lemma exec_knows p s ts M k s' : inv p s ts M -> scoped p -> (forall r x, nth_error (vars s) r = Some (VReader x) -> knows p r x) -> exec s k = Ok s' ->
  forall r x, nth_error (vars s') r = Some (VReader x) -> knows (p ++ [k]) r x.
Proof.
  intros I Sc IH E r x Hx. assert (Lv := i_len _ _ _ _ I).
  assert (Old : forall y, nth_error (vars s) r = Some (VReader y) -> reads r k = false -> nth_error (vars s') r = Some (VReader x) -> knows (p ++ [k]) r x).
  { intros y Hy R _. assert (Q := exec_reader _ _ _ _ _ E Hy R). rewrite Hx in Q. injection Q as <-. specialize (IH _ _ Hy).
    assert (Lr : r < List.length p) by (rewrite <- Lv; eapply var_lt; eassumption).
    destruct x as [[(rs & h)|]|named st sim h]; cbn [knows] in *; auto.
    - destruct IH as (b & f & La & Rd). exists b, f. split; [now apply last_snoc|exact Rd].
    - destruct IH as (A & B & C). rewrite app_same by exact Lr. split; [exact A|]. split.
      + rewrite B. destruct named; [|reflexivity]. rewrite state4_snoc. destruct k; try reflexivity. destruct sol; [|reflexivity]. cbn in R. now rewrite R.
      + intros rs Q. destruct (C rs Q) as (f & La & Rd). exists f. split; [now apply last4_snoc|exact Rd]. }
  destruct (reads r k) eqn:R.
  - clear Old. destruct k; cbn in R; try discriminate R; apply Nat.eqb_eq in R; subst r0; cbn [exec] in E; osplit; apply find_reader_nth in E0; assert (Lr := var_lt _ _ _ E0).
    + destruct a; [|discriminate E]. osplit. injection E as <-. cbn [vars] in Hx. rewrite upd_var in Hx by exact Lr. injection Hx as <-. cbn [knows]. eauto using last_here.
    + destruct a as [|named st sim h]; [discriminate E|]. osplit. match goal with x : (dataset * dict string sval)%type |- _ => destruct x as (c' & sim') end. injection E as <-. cbn [vars] in Hx. rewrite upd_var in Hx by exact Lr. injection Hx as <-.
      cbn [knows]. destruct (IH _ _ E0) as (A & B & _). rewrite app_same by (rewrite <- Lv; exact Lr). split; [exact A|]. split.
      * destruct named; [|injection E5 as _ <-; exact B]. destruct sol as [sl|]; [|discriminate E5]. osplit. injection E5 as _ <-. rewrite state4_snoc, Nat.eqb_refl, restate_puts. now rewrite B.
      * intros rs Q. injection Q as <-. exists f. split; [apply last4_here|assumption].
  - destruct (nth_error (vars s) r) as [v|] eqn:Hv.
    + destruct v as [|y|m].
      * exfalso. clear Old. assert (Lr := var_lt _ _ _ Hv).
        assert (Um : forall j m m' os w, find_mesh s j = Ok m -> nth_error (vars (Mem os (upd_nat (vars s) j (VMesh m') ++ [w]))) r = Some VNone).
        { intros j m m' os w Hj. apply find_mesh_nth in Hj. cbn [vars]. rewrite app_same by (rewrite upd_nat_length; exact Lr). rewrite nth_error_upd_nat.
          destruct (Nat.eqb_spec j r) as [->|D]; [congruence|exact Hv]. }
        destruct k; cbn [exec] in E; unfold on_mesh in E; osplit; cbn [reads] in R;
          try (injection E as <-; first [cbn [vars] in Hx; rewrite app_same in Hx by exact Lr; congruence | erewrite Um in Hx by eassumption; discriminate Hx]);
          try (match goal with x : (hmesh * list obj)%type |- _ => destruct x end; injection E as <-; erewrite Um in Hx by eassumption; discriminate Hx).
        -- destruct a; [|discriminate E]. osplit. injection E as <-. cbn [vars] in Hx. rewrite app_same in Hx by (rewrite upd_nat_length; exact Lr). rewrite nth_error_upd_nat, R in Hx. congruence.
        -- destruct a; [discriminate E|]. osplit. match goal with x : (dataset * dict string sval)%type |- _ => destruct x as (c' & sim') end. injection E as <-. cbn [vars] in Hx.
           rewrite app_same in Hx by (rewrite upd_nat_length; exact Lr). rewrite nth_error_upd_nat, R in Hx. congruence.
        -- assert (Q : exists fm sim h, export_as s fm sim h = Ok s') by (destruct a as [[(rs & h)|]|named [rs|] sim h]; try discriminate E; osplit; eauto).
           clear E. destruct Q as (fm & sim & h & E). unfold export_as in E. osplit. injection E as <-. cbn [vars] in Hx. rewrite app_same in Hx by exact Lr. congruence.
      * eapply Old; eauto.
      * exfalso. destruct (exec_inv _ _ _ _ _ _ I E) as (ts' & M' & I').
        assert (S : source p r <> None) by (destruct (i_mesh _ _ _ _ I _ _ Hv) as (g & c & S & _); congruence).
        assert (Lr : r < List.length p) by (rewrite <- Lv; eapply var_lt; eassumption).
        destruct (i_source _ _ _ _ I' r) as (m' & Q); [now rewrite source_snoc|]. congruence.
    + (* the new variable *) clear Old. apply nth_error_None in Hv.
      assert (Q : r = List.length (vars s)).
      { destruct (exec_inv _ _ _ _ _ _ I E) as (ts' & M' & I'). assert (L' := i_len _ _ _ _ I'). apply var_lt in Hx. rewrite L', app_length in Hx. cbn in Hx. lia. }
      subst r. destruct k; cbn [exec] in E; unfold on_mesh in E; osplit;
        try (injection E as <-; cbn [vars] in Hx; rewrite ?upd_snoc_last, ?nth_last in Hx; discriminate Hx);
        try (match goal with x : (hmesh * list obj)%type |- _ => destruct x end; injection E as <-; cbn [vars] in Hx; rewrite upd_snoc_last in Hx; discriminate Hx).
      * injection E as <-. cbn [vars] in Hx. rewrite nth_last in Hx. injection Hx as <-. exact Logic.I.
      * injection E as <-. cbn [vars] in Hx. rewrite nth_last in Hx. injection Hx as <-. cbn [knows]. rewrite Lv, nth_last. split; [reflexivity|]. split; [|discriminate].
        destruct named; [|reflexivity]. rewrite state4_snoc. symmetry. apply state4_fresh. intros y Iy. destruct (reads (List.length p) y) eqn:Ry; [|reflexivity]. specialize (Sc _ _ Iy Ry). lia.
      * destruct a; [|discriminate E]. osplit. injection E as <-. cbn [vars] in Hx. rewrite upd_snoc_last in Hx. discriminate Hx.
      * destruct a; [discriminate E|]. osplit. match goal with x : (dataset * dict string sval)%type |- _ => destruct x as (c' & sim') end. injection E as <-. cbn [vars] in Hx. rewrite upd_snoc_last in Hx. discriminate Hx.
      * assert (Q : exists fm sim h, export_as s fm sim h = Ok s') by (destruct a as [[(rs & h)|]|named [rs|] sim h]; try discriminate E; osplit; eauto).
        clear E. destruct Q as (fm & sim & h & E). unfold export_as in E. osplit. injection E as <-. cbn [vars] in Hx. rewrite nth_last in Hx. discriminate Hx.
Qed.
Lemma run_knows p : forall s, run p = Ok s -> forall r x, nth_error (vars s) r = Some (VReader x) -> knows p r x.
Proof.
  induction p as [|k p IH] using rev_ind; intros s E r x Hx; [injection E as <-; destruct r; discriminate Hx|].
  destruct (run_step _ _ _ E) as (s0 & ts & M & R0 & E0 & I). eapply exec_knows; eauto using run_scoped.
Qed.

(** ** Exporting *)
Lemma export_inv p s r s' : (forall r x, nth_error (vars s) r = Some (VReader x) -> knows p r x) -> exec s (KExport r) = Ok s' ->
  exists x fm sim h d, nth_error (vars s) r = Some (VReader x) /\ geometry_of p r fm /\ state_of p r sim /\ get_params (objs s) (ho_params h) = Ok d /\
    (match x with R23 None => False | R23 (Some (_, h')) | RV4 _ _ _ h' => h' = h end) /\
    s' = Mem (upd_nat (objs s) (ho_params h) (OPar (dupdate d sim)))
             (vars s ++ [VMesh (HM (fm_mesh fm) (as_bocos (ho_marks h)) (ho_params h) (ho_cells h) (ho_nodes h) (fm_part fm))]).
Proof.
  intros K E. cbn [exec] in E. osplit. apply find_reader_nth in E0. specialize (K _ _ E0). exists a.
  destruct a as [[(rs & h)|]|named [rs|] sim h]; try discriminate E; cbn [knows] in K; osplit; unfold export_as in E; osplit; injection E as <-.
  - destruct K as (b & f & La & Rd). exists a, (r_sim rs), h, a0. split; [exact E0|]. split; [left; exists b, f; split; [exact La|]; unfold read_mesh; now rewrite Rd|].
    split; [left; eauto 8|]. auto.
  - destruct K as (A & B & C). destruct (C rs eq_refl) as (f & La & Rd). exists a, sim, h, a0. split; [exact E0|]. split; [right; exists f; split; [exact La|]; unfold read4; now rewrite Rd|].
    split; [right; destruct named; auto|]. auto.
Qed.
Lemma home_of_reader ts M p r x h : reader_ok ts M p r x -> (match x with R23 None => False | R23 (Some (_, h')) | RV4 _ _ _ h' => h' = h end) -> home_ok ts M (home_of p r) (call_of p r) h.
Proof. destruct x as [[(rs & h0)|]|named st sim h0]; cbn; intros H Q; subst; try exact H; destruct Q. Qed.

Lemma step_export p s ts M r s' : inv p s ts M -> (forall r x, nth_error (vars s) r = Some (VReader x) -> knows p r x) -> exec s (KExport r) = Ok s' ->
  exists fm0 sim fm', geometry_of p r fm0 /\ state_of p r sim /\ seen s' (List.length p) = Ok fm' /\
    fm_part fm' = fm_part fm0 /\ with_bocos (fm_mesh fm') [] = with_bocos (fm_mesh fm0) [] /\
    forall i fm, seen s i = Ok fm -> source p i = Some (home_of p r) ->
      (never (own_params i) p -> fm_params fm' = dupdate (fm_params fm) sim /\ seen s' i = Ok (with_params fm (fm_params fm'))) /\
      (never (own_cells i) p -> fm_cells fm' = fm_cells fm) /\ fm_nodes fm' = fm_nodes fm /\
      (batch p i = Some (call_of p r) ->
        (forall name, never (own_mark i name) p -> dget String.eqb name (me_bocos (fm_mesh fm')) = dget String.eqb name (me_bocos (fm_mesh fm))) /\
        ((forall name, never (own_mark i name) p) -> me_bocos (fm_mesh fm') = me_bocos (fm_mesh fm))).
Proof.
  intros I K E. destruct (exec_inv _ _ _ _ _ _ I E) as (ts' & M' & I'). destruct (export_inv _ _ _ _ K E) as (x & fm0 & sim & h & d & Hx & Ge & St & Hd & Hh & Es).
  assert (HO := home_of_reader _ _ _ _ _ _ (i_reader _ _ _ _ I _ _ Hx) Hh). destruct HO as (HA & HB & HP & HC & HN & HK).
  assert (Lv := i_len _ _ _ _ I). assert (T := i_typed _ _ _ _ I).
  assert (Hm : nth_error (vars s') (List.length p) = Some (VMesh (HM (fm_mesh fm0) (as_bocos (ho_marks h)) (ho_params h) (ho_cells h) (ho_nodes h) (fm_part fm0)))) by (subst s'; cbn [vars]; rewrite <- Lv; apply nth_last).
  destruct (shows _ _ _ _ _ _ I' Hm) as (d' & c' & n' & bs' & Hd' & Hc' & Hn' & Hb' & Se'). cbn [hm_params hm_cells hm_nodes hm_marks hm_base hm_part] in *.
  assert (Od : objs s' = upd_nat (objs s) (ho_params h) (OPar (dupdate d sim))) by (subst s'; reflexivity). rewrite Od in Hd', Hc', Hn', Hb'.
  unfold get_params in Hd'. rewrite upd_eq in Hd' by (eapply typed_lt; eassumption). injection Hd' as <-.
  unfold get_set in Hc', Hn'. rewrite (upd_ne ts _ _ _ _ _ _ HP HC) in Hc' by congruence. rewrite (upd_ne ts _ _ _ _ _ _ HP HN) in Hn' by congruence.
  destruct (as_bocos_inv (ho_marks h)) as (ND & Inm).
  rewrite marks_upd in Hb'. 2: { intros k l Hl. specialize (HK _ _ (Inm _ _ Hl)). apply (upd_ne ts _ _ _ _ _ _ HP HK). congruence. }
  exists fm0, sim, (FM (with_bocos (fm_mesh fm0) bs') (FSet c') (FSet n') (dupdate d sim) (fm_part fm0)).
  split; [exact Ge|]. split; [exact St|]. split; [exact Se'|]. split; [reflexivity|]. split; [reflexivity|].
  intros i fm Se S. destruct (seen_inv _ _ _ Se) as (m & Hi & _). destruct (shows _ _ _ _ _ _ I Hi) as (di & ci & ni & bi & Hdi & Hci & Hni & Hbi & Sei).
  rewrite Se in Sei. injection Sei as ->. cbn [fm_params fm_cells fm_nodes fm_mesh me_bocos with_bocos].
  destruct (i_mesh _ _ _ _ I _ _ Hi) as (g & c & Sg & B & U & C & P & P' & D & D' & N & N' & Ki & Ma & Ma' & Mb & O1 & O2 & O3).
  rewrite S in Sg. injection Sg as <-. rewrite HA in P', D', N'. cbn [fst snd] in P', D', N'.
  split.
  { intros Y. rewrite (P' Y) in Hdi. rewrite Hd in Hdi. injection Hdi as <-. split; [reflexivity|].
    rewrite (seen_now _ _ _ (exec_var _ _ _ _ _ E Hi (fun x => x))), Od, <- (P' Y). eapply put_params; eauto. eapply mesh_leads. eapply i_mesh; eassumption. }
  split.
  { intros Y. unfold get_set in Hci. rewrite (D' Y) in Hci. rewrite Hci in Hc'. injection Hc' as <-. reflexivity. }
  split.
  { unfold get_set in Hni. rewrite N' in Hni. rewrite Hni in Hn'. injection Hn' as <-. reflexivity. }
  intros Bi. rewrite Bi in B. injection B as <-. rewrite HB in Ma', Mb. split.
  - intros name Y. specialize (Ma' _ Y). destruct (dget String.eqb name (hm_marks m)) as [l|] eqn:G.
    + destruct (marks_get _ _ _ _ _ Hbi G) as (b1 & G1 & Q1). symmetry in Ma'. destruct (marks_get _ _ _ _ _ Hb' Ma') as (b2 & G2 & Q2). congruence.
    + assert (X1 := marks_mem _ _ _ name Hbi). symmetry in Ma'. assert (X2 := marks_mem _ _ _ name Hb'). unfold dmem in X1, X2. rewrite G in X1. rewrite Ma' in X2.
      destruct (dget String.eqb name bi); [discriminate X1|]. destruct (dget String.eqb name bs'); [discriminate X2|reflexivity].
  - intros Y. rewrite (Mb Y) in Hbi. congruence.
Qed.

(** ** Reading again with a reader of version 4 *)
Lemma step_reread p s ts M r f sol s' : inv p s ts M -> (forall r x, nth_error (vars s) r = Some (VReader x) -> knows p r x) -> exec s (KRead4 r f sol) = Ok s' ->
  exists named rs, nth_error p r = Some (KReader4 named) /\ read_data4 f None = Ok rs /\
  forall i fm, seen s i = Ok fm -> source p i = Some (home_of p r) ->
    exists d' c', seen s' i = Ok (FM (fm_mesh fm) (FSet c') (fm_nodes fm) d' (fm_part fm)) /\
      (never (own_params i) p -> reparams rs (fm_params fm) = Ok d') /\ (once (own_params i) p -> d' = fm_params fm) /\
      (never (own_cells i) p -> exists c, fm_cells fm = FSet c /\ (if named then exists sl, sol = Some sl /\ read_vars4 (m4_cv f) sl c = Ok c' else c' = c)) /\
      (once (own_cells i) p -> fm_cells fm = FSet c').
Proof.
  intros I K E0. assert (E := E0). cbn [exec] in E. osplit. destruct a as [|named st sim h]; [discriminate E|]. osplit. match goal with x : (dataset * dict string sval)%type |- _ => destruct x as (c' & sim') end.
  injection E as Es. rename a into rs, a0 into d, a1 into d', a2 into c. apply find_reader_nth in E1. destruct (K _ _ E1) as (A & _). exists named, rs. split; [exact A|]. split; [reflexivity|].
  intros i fm Se S. destruct (seen_inv _ _ _ Se) as (m & Hi & _). destruct (shows _ _ _ _ _ _ I Hi) as (di & ci & ni & bi & Hdi & Hci & Hni & Hbi & Sei).
  rewrite Se in Sei. injection Sei as ->. cbn [fm_params fm_cells fm_nodes fm_mesh fm_part].
  destruct (i_mesh _ _ _ _ I _ _ Hi) as (g & cc & Sg & B & U & C & P & P' & D & D' & N & N' & Ki & Ma & Ma' & Mb & O1 & O2 & O3).
  rewrite S in Sg. injection Sg as <-. destruct (i_reader _ _ _ _ I _ _ E1) as (HA & HB & HP & HC & HN & HK). rewrite HA in P', D', N'. cbn [fst snd] in P', D', N'.
  assert (T := i_typed _ _ _ _ I).
  set (os1 := upd_nat (upd_nat (objs s) (ho_params h) (OPar d')) (ho_cells h) (OSet c')) in *.
  assert (T1 : typed ts os1) by (unfold os1; eapply typed_upd; [eapply typed_upd; eauto|exact HC|reflexivity]).
  rewrite (seen_now _ _ _ (exec_var _ _ _ _ _ E0 Hi (fun x => x))). subst s'. cbn [objs].
  assert (Pd : exists dm, get_params os1 (hm_params m) = Ok dm /\ (never (own_params i) p -> dm = d') /\ (once (own_params i) p -> dm = di)).
  { destruct P as [P|P].
    - assert (Y : never (own_params i) p) by (apply not_once; intros Y; apply O1 in Y; congruence). exists d'. split; [|split; [reflexivity|intros (k & Ik & W); now elim (Y k Ik)]].
      rewrite (P' Y). unfold get_params, os1. rewrite (upd_ne ts _ _ _ _ _ _ HC HP) by congruence. now rewrite upd_eq by (eapply typed_lt; eassumption).
    - exists di. split; [|split; [|reflexivity]].
      + unfold get_params, os1. rewrite (upd_ne ts _ _ _ _ _ _ HC P), (upd_ne ts _ _ _ _ _ _ HP P) by congruence. exact Hdi.
      + intros Y. rewrite (P' Y) in P. congruence. }
  assert (Pc : exists cm, get_set os1 (hm_cells m) = Ok cm /\ (never (own_cells i) p -> cm = c' /\ ci = c) /\ (once (own_cells i) p -> cm = ci)).
  { destruct D as [D|D].
    - assert (Y : never (own_cells i) p) by (apply not_once; intros Y; apply O2 in Y; congruence). exists c'. split; [|split; [|intros (k & Ik & W); now elim (Y k Ik)]].
      + rewrite (D' Y). unfold get_set, os1. rewrite upd_eq; [reflexivity|]. rewrite upd_nat_length. eapply typed_lt; eassumption.
      + intros _. split; [reflexivity|]. rewrite (D' Y) in Hci. congruence.
    - exists ci. split; [|split; [|reflexivity]].
      + unfold get_set, os1. rewrite (upd_ne ts _ _ _ _ _ _ HC D), (upd_ne ts _ _ _ _ _ _ HP D) by congruence. exact Hci.
      + intros Y. rewrite (D' Y) in D. congruence. }
  destruct Pd as (dm & Gd & Gd1 & Gd2), Pc as (cm & Gc & Gc1 & Gc2).
  assert (Gn : get_set os1 (hm_nodes m) = Ok ni) by (unfold get_set, os1; rewrite (upd_ne ts _ _ _ _ _ _ HC N), (upd_ne ts _ _ _ _ _ _ HP N) by congruence; exact Hni).
  assert (Gb : mapM (mark_at os1) (hm_marks m) = Ok bi).
  { unfold os1. rewrite !marks_upd; [exact Hbi| |].
    - intros k l Hl. destruct (Ma _ _ Hl) as [Q|Q]; apply (upd_ne ts _ _ _ _ _ _ HP Q); congruence.
    - intros k l Hl. destruct (Ma _ _ Hl) as [Q|Q]; apply (upd_ne ts _ _ _ _ _ _ HC Q); congruence. }
  destruct (leads_app os1 (List.map OMk (r4_bocos rs)) m _ _ _ _ Gd Gc Gn Gb) as (Gd' & Gc' & Gn' & Gb').
  exists dm, cm. split; [now apply now_eq|].
  split; [intros Y; rewrite (Gd1 Y); rewrite (P' Y) in Hdi; congruence|]. split; [exact Gd2|]. split.
  - intros Y. destruct (Gc1 Y) as (-> & ->). exists c. split; [reflexivity|]. destruct named; [|congruence]. destruct sol as [sl|]; [|discriminate]. osplit.
    match goal with Q : Ok _ = Ok (c', sim') |- _ => injection Q as <- <- end. eauto.
  - intros Y. now rewrite (Gc2 Y).
Qed.
