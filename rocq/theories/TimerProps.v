(** * Property C49 (Timer protocol). *)
From Coq Require Import Reals Lra List.
From Flocq Require Import Core.
From Verif Require Import Py PyFacts Timer.

(** Which operations are refused: those out of turn; nothing but the number of elements changes. *)
Theorem C49_refused t now n :
  (tm_start t <> None -> start now t = (Err TimerError, t)) /\
  (tm_start t = None -> pause now t = (Err TimerError, t)) /\
  (tm_start t = None -> stop n now t = (Err TimerError, Timer_ None (tm_task t) (tm_elapsed t) (match n with None => tm_nelem t | Some _ => n end))).
Proof.
  split; [| split].
  - intros H. unfold start. destruct (tm_start t); [reflexivity | congruence].
  - intros H. unfold pause. rewrite H. reflexivity.
  - intros H. unfold stop. destruct n as [n |]; unfold pause; cbn [tm_start]; rewrite H; [reflexivity |]. destruct t. cbn in H |- *. rewrite H. reflexivity.
Qed.

(** What an operation did, seen from its outcome: begin or end of an interval, or back to zero, with
    the reported time. *)
Inductive label : Type := Begin (t : R) | End (t : R) | Clear | Report (t : R) (e : R).
Definition label_of (x : op * res (option R)) : list label :=
  match x with
  | (Reset, Ok _) => [Clear]
  | (Start t, Ok _) => [Begin t]
  | (Pause t, Ok _) => [End t]
  | (Stop _ t, Ok (Some e)) => [Report t e]
  | (Stop _ t, Err ZeroDivisionError) => [End t]
  | _ => []
  end.
(** The rounded sum of the lengths of intervals. *)
Definition total (l : list (R * R)) : R := fold_left (fun e '(a, b) => fl (e + fl (b - a))) l 0%R.
Definition intervals (l : list (R * R)) : list label := flat_map (fun '(a, b) => [Begin a; End b]) l.
(** [pre] is nothing, or ends with a return to zero. *)
Definition at_zero (pre : list label) : Prop := pre = [] \/ exists p, pre = p ++ [Clear] \/ exists t e, pre = p ++ [Report t e].
(** Every reported time is the total of the intervals since the last return to zero, the last one
    ending with the report. *)
Definition reports_right (l : list label) : Prop :=
  forall a t e b, l = a ++ Report t e :: b -> exists pre ivs s, a = pre ++ intervals ivs ++ [Begin s] /\ at_zero pre /\ e = total (ivs ++ [(s, t)]).

(** After any operations on a new timer: the effects are, since the last return to zero, complete
    intervals and possibly one that is running; [elapsed] is their rounded total; reports are right.
    Refused operations (TimerError) have no effect. *)
Theorem C49_protocol task n l tr t : run_ops l (new_timer task n) = (tr, t) ->
  reports_right (flat_map label_of tr) /\
  exists pre ivs, at_zero pre /\ tm_elapsed t = total ivs /\
    match tm_start t with
    | None => flat_map label_of tr = pre ++ intervals ivs
    | Some s => flat_map label_of tr = pre ++ intervals ivs ++ [Begin s]
    end.
Proof.
  revert task n l tr t.
  (* a sequence from any timer whose past is known *)
  assert (G : forall l past t tr t', (reports_right past /\ exists pre ivs, at_zero pre /\ tm_elapsed t = total ivs /\
      match tm_start t with None => past = pre ++ intervals ivs | Some s => past = pre ++ intervals ivs ++ [Begin s] end) ->
    run_ops l t = (tr, t') ->
    reports_right (past ++ flat_map label_of tr) /\ exists pre ivs, at_zero pre /\ tm_elapsed t' = total ivs /\
      match tm_start t' with None => past ++ flat_map label_of tr = pre ++ intervals ivs | Some s => past ++ flat_map label_of tr = pre ++ intervals ivs ++ [Begin s] end).
  { assert (RS : forall past x, reports_right past -> (forall t e, x <> Report t e) -> reports_right (past ++ [x])).
    { intros past x H NX a t e b E. destruct b as [| y b _] using rev_ind.
      - apply app_inj_tail in E. destruct E as (_ & E). destruct (NX t e E).
      - change (a ++ Report t e :: b ++ [y]) with (a ++ (Report t e :: b) ++ [y]) in E. rewrite app_assoc in E. apply app_inj_tail in E. destruct E as (E & _). exact (H a t e b E). }
    assert (TS : forall ivs a b, total (ivs ++ [(a, b)]) = fl (total ivs + fl (b - a))) by (intros; unfold total; rewrite fold_left_app; reflexivity).
    assert (IS : forall ivs a b, intervals (ivs ++ [(a, b)]) = intervals ivs ++ [Begin a; End b]) by (intros; unfold intervals; rewrite flat_map_app; reflexivity).
    assert (AS : forall (p q r : list label), (p ++ q) ++ r = p ++ q ++ r) by (intros; symmetry; apply app_assoc).
    induction l as [| o l IH]; intros past t tr t' P H.
    - cbn in H. injection H as <- <-. cbn. rewrite app_nil_r. exact P.
    - cbn [run_ops] in H. destruct (apply_op o t) as [r t1] eqn:AO. destruct (run_ops l t1) as [tr1 t2] eqn:RO. injection H as <- <-. cbn [flat_map]. rewrite app_assoc.
      apply (IH (past ++ label_of (o, r)) t1 tr1 t2); [| exact RO]. clear IH RO. destruct P as (RR & pre & ivs & AZ & EL & ST).
      assert (KEEP : label_of (o, r) = [] -> tm_elapsed t1 = tm_elapsed t -> tm_start t1 = tm_start t ->
        reports_right (past ++ label_of (o, r)) /\ exists pre ivs, at_zero pre /\ tm_elapsed t1 = total ivs /\ match tm_start t1 with None => past ++ label_of (o, r) = pre ++ intervals ivs | Some s => past ++ label_of (o, r) = pre ++ intervals ivs ++ [Begin s] end).
      { intros -> E1 E2. rewrite app_nil_r, E1, E2. split; [exact RR |]. exists pre, ivs. auto. }
      assert (ENDS : forall s now, tm_start t = Some s -> label_of (o, r) = [End now] -> tm_elapsed t1 = fl (tm_elapsed t + fl (now - s)) -> tm_start t1 = None ->
        reports_right (past ++ label_of (o, r)) /\ exists pre ivs, at_zero pre /\ tm_elapsed t1 = total ivs /\ match tm_start t1 with None => past ++ label_of (o, r) = pre ++ intervals ivs | Some s => past ++ label_of (o, r) = pre ++ intervals ivs ++ [Begin s] end).
      { intros s now S -> E1 E2. rewrite E1, E2. rewrite S in ST. split; [apply RS; [exact RR | discriminate] |]. exists pre, (ivs ++ [(s, now)]). split; [exact AZ |]. rewrite TS, IS, EL. split; [reflexivity |]. rewrite ST, !AS. reflexivity. }
      destruct o as [| now | now | nn now]; cbn [apply_op] in AO.
      + injection AO as <- <-. cbn [label_of]. split; [apply RS; [exact RR | discriminate] |]. exists (past ++ [Clear]), []. split; [right; exists past; left; reflexivity |]. split; [reflexivity |]. cbn. rewrite app_nil_r. reflexivity.
      + unfold start in AO. destruct (tm_start t) as [s |] eqn:S; injection AO as <- <-.
        * apply KEEP; first [reflexivity | congruence].
        * cbn [bind label_of tm_elapsed tm_start]. split; [apply RS; [exact RR | discriminate] |]. exists pre, ivs. split; [exact AZ |]. split; [exact EL |]. rewrite ST, AS. reflexivity.
      + unfold pause in AO. destruct (tm_start t) as [s |] eqn:S; injection AO as <- <-.
        * apply (ENDS s now); reflexivity.
        * apply KEEP; first [reflexivity | congruence].
      + unfold stop in AO. set (tn := match nn with None => t | Some n0 => Timer_ (tm_start t) (tm_task t) (tm_elapsed t) (Some n0) end) in *.
        assert (QS : tm_start tn = tm_start t) by (unfold tn; destruct nn; reflexivity). assert (QE : tm_elapsed tn = tm_elapsed t) by (unfold tn; destruct nn; reflexivity).
        unfold pause in AO. rewrite QS, QE in AO. destruct (tm_start t) as [s |] eqn:S.
        * cbn [tm_nelem tm_elapsed] in AO.
          assert (REP : forall e t3, label_of (Stop nn now, r) = [Report now e] -> e = fl (tm_elapsed t + fl (now - s)) -> t1 = t3 -> tm_elapsed t3 = 0%R -> tm_start t3 = None ->
            reports_right (past ++ label_of (Stop nn now, r)) /\ exists pre ivs, at_zero pre /\ tm_elapsed t1 = total ivs /\ match tm_start t1 with None => past ++ label_of (Stop nn now, r) = pre ++ intervals ivs | Some s => past ++ label_of (Stop nn now, r) = pre ++ intervals ivs ++ [Begin s] end).
          { intros e t3 -> -> -> E1 E2. rewrite E1, E2. split.
            - intros a t4 e4 b E. destruct b as [| y b _] using rev_ind.
              + apply app_inj_tail in E. destruct E as (<- & E). injection E as <- <-. exists pre, ivs, s. split; [exact ST |]. split; [exact AZ |]. rewrite TS, EL. reflexivity.
              + change (a ++ Report t4 e4 :: b ++ [y]) with (a ++ (Report t4 e4 :: b) ++ [y]) in E. rewrite app_assoc in E. apply app_inj_tail in E. destruct E as (E & _). exact (RR a t4 e4 b E).
            - exists (past ++ [Report now (fl (tm_elapsed t + fl (now - s)))]), []. split; [right; exists past; right; eauto |]. split; [reflexivity |]. cbn. rewrite app_nil_r. reflexivity. }
          destruct (tm_nelem tn) as [[| p | p] |]; injection AO as <- <-.
          -- apply (ENDS s now); reflexivity.
          -- eapply REP; reflexivity.
          -- eapply REP; reflexivity.
          -- eapply REP; reflexivity.
        * injection AO as <- <-. apply KEEP; [reflexivity | exact QE | congruence]. }
  intros task n l tr t H. apply (G l [] (new_timer task n) tr t); [| exact H].
  split; [intros a t0 e b E; destruct a; discriminate |]. exists [], []. split; [left; reflexivity |]. split; reflexivity.
Qed.

(** With a clock that does not go back, the elapsed time never decreases, except by a return to zero,
    and is never negative.  The readings of the clock are doubles. *)
Lemma fl_nonneg x : (0 <= x)%R -> (0 <= fl x)%R.
Proof. intros H. apply round_ge_generic; [apply FLT_exp_valid; reflexivity | apply valid_rnd_N | apply generic_format_0 | exact H]. Qed.
Definition double (x : R) : Prop := generic_format radix2 (FLT_exp (-1074) 53) x.
Lemma fl_double x : double (fl x).
Proof. apply generic_format_round; [apply FLT_exp_valid; reflexivity | apply valid_rnd_N]. Qed.
Lemma fl_ge x y : double x -> (x <= y)%R -> (x <= fl y)%R.
Proof. intros D H. apply round_ge_generic; [apply FLT_exp_valid; reflexivity | apply valid_rnd_N | exact D | exact H]. Qed.

(** The readings of the clock in a sequence of operations increase, starting from [t0]. *)
Definition reading (o : op) : list R := match o with Reset => [] | Start t | Pause t | Stop _ t => [t] end.
Fixpoint increasing (t0 : R) (l : list R) : Prop := match l with [] => True | t :: l => (t0 <= t)%R /\ increasing t l end.
Definition clear_op (o : op) : Prop := match o with Reset | Stop _ _ => True | _ => False end.

Theorem C49_monotone task n l o tr t r t' : increasing 0 (flat_map reading (l ++ [o])) ->
  run_ops l (new_timer task n) = (tr, t) -> apply_op o t = (r, t') ->
  (0 <= tm_elapsed t)%R /\ ((tm_elapsed t <= tm_elapsed t')%R \/ (tm_elapsed t' = 0%R /\ clear_op o)).
Proof.
  revert task n l o tr t r t'.
  assert (INC : forall l t0, increasing t0 (flat_map reading l) -> forall t tr t', double (tm_elapsed t) -> (0 <= tm_elapsed t)%R -> (forall s, tm_start t = Some s -> (s <= t0)%R) ->
    run_ops l t = (tr, t') -> double (tm_elapsed t') /\ (0 <= tm_elapsed t')%R /\ exists t1, (forall s, tm_start t' = Some s -> (s <= t1)%R) /\ forall m, increasing t0 (flat_map reading (l ++ m)) -> increasing t1 (flat_map reading m)).
  { induction l as [| x l0 IH]; intros t0 I u tr0 u' D P S H.
    - cbn in H. injection H as <- <-. split; [exact D |]. split; [exact P |]. exists t0. auto.
    - cbn [run_ops] in H. destruct (apply_op x u) as [rx u1] eqn:AO. destruct (run_ops l0 u1) as [tr1 u2] eqn:RO. injection H as <- <-.
      assert (Z0 : double 0) by apply generic_format_0.
      assert (STEP : exists t1, increasing t1 (flat_map reading l0) /\ double (tm_elapsed u1) /\ (0 <= tm_elapsed u1)%R /\ (forall s, tm_start u1 = Some s -> (s <= t1)%R) /\ forall m, increasing t0 (flat_map reading ((x :: l0) ++ m)) -> increasing t1 (flat_map reading (l0 ++ m))).
      { destruct x as [| now | now | nn now]; cbn [apply_op] in AO; cbn [flat_map reading app increasing] in I.
        - injection AO as <- <-. exists t0. cbn. split; [exact I |]. split; [exact Z0 |]. split; [lra |]. split; [discriminate | auto].
        - destruct I as (I0 & I). exists now. split; [exact I |]. unfold start in AO. destruct (tm_start u) as [s |] eqn:SU; injection AO as <- <-.
          + split; [exact D |]. split; [exact P |]. split; [intros s' Q; rewrite SU in Q; injection Q as <-; specialize (S s eq_refl); lra |]. intros m M. cbn in M. apply M.
          + cbn. split; [exact D |]. split; [exact P |]. split; [intros s' Q; injection Q as <-; lra |]. intros m M. apply M.
        - destruct I as (I0 & I). exists now. split; [exact I |]. unfold pause in AO. destruct (tm_start u) as [s |] eqn:SU; injection AO as <- <-.
          + specialize (S s eq_refl). cbn. split; [apply fl_double |]. split; [| split; [discriminate | intros m M; apply M]]. apply fl_nonneg. assert (Q := fl_nonneg (now - s) ltac:(lra)). lra.
          + split; [exact D |]. split; [exact P |]. split; [intros s' Q; congruence |]. intros m M. apply M.
        - destruct I as (I0 & I). exists now. split; [exact I |]. unfold stop in AO.
          set (tn := match nn with None => u | Some n0 => Timer_ (tm_start u) (tm_task u) (tm_elapsed u) (Some n0) end) in *.
          assert (QS : tm_start tn = tm_start u) by (unfold tn; destruct nn; reflexivity). assert (QE : tm_elapsed tn = tm_elapsed u) by (unfold tn; destruct nn; reflexivity).
          unfold pause in AO. rewrite QS, QE in AO. destruct (tm_start u) as [s |] eqn:SU.
          + specialize (S s eq_refl). assert (Q := fl_nonneg (now - s) ltac:(lra)). cbn [tm_nelem] in AO.
            destruct (tm_nelem tn) as [[| p | p] |]; injection AO as <- <-; cbn; (split; [first [apply fl_double | exact Z0] |]); (split; [first [apply fl_nonneg; lra | lra] |]); (split; [discriminate | intros m M; apply M]).
          + injection AO as <- <-. rewrite QS, QE. split; [exact D |]. split; [exact P |]. split; [discriminate |]. intros m M. apply M. }
      destruct STEP as (t1 & I1 & D1 & P1 & S1 & M1). destruct (IH t1 I1 u1 tr1 u2 D1 P1 S1 RO) as (D2 & P2 & t2 & S2 & M2).
      split; [exact D2 |]. split; [exact P2 |]. exists t2. split; [exact S2 |]. intros m M. apply M2, M1, M. }
  intros task n l o tr t r t' I R A. assert (I' := I). rewrite flat_map_app in I'.
  assert (PRE : forall a b t0, increasing t0 (a ++ b) -> increasing t0 a).
  { induction a as [| x a IH]; intros b t0 H; [exact Logic.I |]. cbn in H |- *. destruct H as (H1 & H2). split; [exact H1 | exact (IH _ _ H2)]. }
  apply PRE in I'. destruct (INC l 0%R I' (new_timer task n) tr t) as (D & P & t1 & S & M); [apply generic_format_0 | cbn; lra | discriminate | exact R |].
  split; [exact P |]. specialize (M [o] I). cbn [flat_map] in M. rewrite app_nil_r in M.
  destruct o as [| now | now | nn now]; cbn [apply_op] in A.
  - injection A as <- <-. right. split; [reflexivity | exact Logic.I].
  - left. unfold start in A. destruct (tm_start t); injection A as <- <-; cbn; lra.
  - left. cbn in M. unfold pause in A. destruct (tm_start t) as [s |] eqn:ST; injection A as <- <-; [| lra]. specialize (S s eq_refl). cbn. apply fl_ge; [exact D |]. assert (Q := fl_nonneg (now - s) ltac:(lra)). lra.
  - cbn in M. unfold stop in A. set (tn := match nn with None => t | Some n0 => Timer_ (tm_start t) (tm_task t) (tm_elapsed t) (Some n0) end) in *.
    assert (QS : tm_start tn = tm_start t) by (unfold tn; destruct nn; reflexivity). assert (QE : tm_elapsed tn = tm_elapsed t) by (unfold tn; destruct nn; reflexivity).
    unfold pause in A. rewrite QS, QE in A. destruct (tm_start t) as [s |] eqn:ST.
    + cbn [tm_nelem] in A. destruct (tm_nelem tn) as [[| p | p] |]; injection A as <- <-; try (right; split; [reflexivity | exact Logic.I]).
      left. cbn. specialize (S s eq_refl). apply fl_ge; [exact D |]. assert (Q := fl_nonneg (now - s) ltac:(lra)). lra.
    + injection A as <- <-. left. rewrite QE. lra.
Qed.

(** [with timer: body]: if the body leaves the timer alone, its outcome, value or exception, is that of
    the block, and the timer is back at zero; with no element to normalise by, ZeroDivisionError takes
    the place of any outcome; if the body itself stops the timer, TimerError does. *)
Theorem C49_with {A} t0 t1 (body : timer -> res A * timer) t : tm_start t = None ->
  let running := Timer_ (Some t0) (tm_task t) (tm_elapsed t) (tm_nelem t) in
  (snd (body running) = running -> tm_nelem t <> Some 0%Z -> with_timer t0 t1 body t = (fst (body running), Timer_ None "" 0%R (tm_nelem t))) /\
  (snd (body running) = running -> tm_nelem t = Some 0%Z -> fst (with_timer t0 t1 body t) = Err ZeroDivisionError) /\
  (tm_start (snd (body running)) = None -> fst (with_timer t0 t1 body t) = Err TimerError).
Proof.
  intros S running. unfold with_timer, start. rewrite S. fold running. destruct (body running) as [r u]. cbn [fst snd]. split; [| split].
  - intros -> N. unfold stop, pause, running. cbn [tm_start tm_nelem]. destruct (tm_nelem t) as [[| p | p] |]; [congruence | reflexivity | reflexivity | reflexivity].
  - intros -> N. unfold stop, pause, running. cbn [tm_start tm_nelem]. rewrite N. reflexivity.
  - intros U. unfold stop, pause. rewrite U. reflexivity.
Qed.
Print Assumptions C49_refused.
Print Assumptions C49_protocol.
Print Assumptions C49_monotone.
Print Assumptions C49_with.

(** ** A concrete case: a sequence with refused operations and a failing normalisation. *)
Example c49_run : let '(tr, t) := run_ops [Pause 1; Start 2; Start 3; Pause 4; Start 5; Stop (Some 0%Z) 7; Start 8]%R (new_timer "x" None) in
  List.map snd tr = [Err TimerError; Ok None; Err TimerError; Ok None; Ok None; Err ZeroDivisionError; Ok None] /\
  flat_map label_of tr = [] ++ intervals [(2, 4); (5, 7)]%R ++ [Begin 8] /\ tm_start t = Some 8%R /\
  increasing 0 (flat_map reading ([Pause 1; Start 2; Start 3; Pause 4; Start 5; Stop (Some 0%Z) 7]%R ++ [Start 8%R])).
Proof. cbn. repeat split; lra. Qed.
