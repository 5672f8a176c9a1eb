(** * What a failing writer leaves is never accepted by the reader: proofs. *)
From Coq Require Import ZArith List Bool String Lia.
From Verif Require Import Py PyFacts Conn Mesh Ic3Bytes Ic3BytesProofs Ic3 Ic3Fail Ic3HeaderSpec Ic3HeaderProofs Ic3FuelProofs Ic3FileSpec Ic3FileProofs Ic3WriteProofs Ic3PartsProofs Ic3CutProofs Ic3BodyProofs.

Lemma run_app a b : run_calls (a ++ b) =
  match run_calls a with (x, Ok _) => let '(y, r) := run_calls b in (x ++ y, r) | (x, Err e) => (x, Err e) end.
Proof.
  induction a as [| [z | e] a IH]; cbn [run_calls app].
  - destruct (run_calls b). reflexivity.
  - rewrite IH. destruct (run_calls a) as (x, [u | e]); [| reflexivity]. destruct (run_calls b). rewrite app_assoc. reflexivity.
  - reflexivity.
Qed.

Definition bw (o : order) : code * Z * list Z -> res (list Z) := fun '(c, n, vals) => binary_write o c n vals.

(** The arrays of a section. *)
Lemma run_loads o : forall ps g r, run_calls (List.map (fun l => '(c, n, vals) <- l ;; binary_write o c n vals) (List.map Ok ps)) = (g, r) ->
  match r with
  | Ok _ => exists l, mapM (bw o) ps = Ok l /\ g = List.concat l
  | Err e => mapM (bw o) ps = Err e /\ exists p1 p2 l, ps = p1 ++ p2 /\ mapM (bw o) p1 = Ok l /\ g = List.concat l
  end.
Proof.
  induction ps as [| ((c, n), vals) ps IH]; intros g r H.
  - injection H as <- <-. exists []. auto.
  - cbn [List.map bind] in H. cbn [mapM bw]. destruct (binary_write o c n vals) as [b | e] eqn:W; cbn [run_calls bind] in *.
    + destruct (run_calls (List.map (fun l => '(c, n, vals) <- l ;; binary_write o c n vals) (List.map Ok ps))) as (g', r') eqn:R. injection H as <- <-.
      specialize (IH _ _ eq_refl). destruct r' as [u | e].
      * destruct IH as (l & -> & ->). cbn [bind]. exists (b :: l). auto.
      * destruct IH as (-> & p1 & p2 & l & -> & M & ->). cbn [bind]. split; [reflexivity |]. exists ((c, n, vals) :: p1), p2, (b :: l). split; [reflexivity |]. split; [| reflexivity].
        cbn [mapM bw]. rewrite W, M. reflexivity.
    + injection H as <- <-. split; [reflexivity |]. exists [], ((c, n, vals) :: ps), []. auto.
Qed.

(** A header that can begin a section of the body, and that announces at least [n] bytes. *)
Definition opens (h : header) (n : Z) : Prop :=
  header_arrays h /\ 256 + n <= h_skip h /\ ~ deof (h_name h) /\ h_id h <> EOF /\ (In (h_id h) [I0; D0] -> h_skip h = 256).

(** The calls that write a section. *)
Inductive by_calls (o : order) : res section -> list (res (list Z)) -> Prop :=
| by_all rs : by_calls o rs (calls_of o rs)
| by_late h e : opens h 0 -> by_calls o (Err e) (section_calls o (Ok h) [Err e])
| by_header e l : by_calls o (Err e) (section_calls o (Err e) l).

(** The beginning of a section. *)
Definition begun (o : order) (rs : res section) (g : list Z) : Prop :=
  g = [] \/ exists h hb load, write_header o h = Ok hb /\ g = hb ++ load /\
    ((load = [] /\ opens h 0) \/ exists p1 p2 l, rs = Ok (h, p1 ++ p2) /\ mapM (bw o) p1 = Ok l /\ load = List.concat l).

Lemma run_section o rs cs g r : by_calls o rs cs -> run_calls cs = (g, r) ->
  match r with
  | Ok _ => exists s, rs = Ok s /\ write_section o s = Ok g
  | Err e => (exists e', (s <- rs ;; write_section o s) = Err e') /\ begun o rs g
  end.
Proof.
  intros [rs0 | h e0 OP | e0 l] H.
  - destruct rs0 as [(h, ps) | e0]; cbn [calls_of] in H.
    + unfold section_calls in H. cbn [bind run_calls] in H. destruct (write_header o h) as [hb | e1] eqn:WH.
      * destruct (run_calls (List.map (fun l => '(c, n, vals) <- l ;; binary_write o c n vals) (List.map Ok ps))) as (g', r') eqn:R. injection H as <- <-.
        apply run_loads in R. destruct r' as [u | e1].
        -- destruct R as (l & M & ->). exists (h, ps). split; [reflexivity |]. unfold write_section. cbn [fst snd]. rewrite WH. cbn [bind]. change (mapM (fun '(c, n, vals) => binary_write o c n vals) ps) with (mapM (bw o) ps). rewrite M. reflexivity.
        -- destruct R as (M & p1 & p2 & l & -> & M1 & ->). split.
           ++ exists e1. unfold write_section. cbn [fst snd bind]. rewrite WH. cbn [bind]. change (mapM (fun '(c, n, vals) => binary_write o c n vals) (p1 ++ p2)) with (mapM (bw o) (p1 ++ p2)). rewrite M. reflexivity.
           ++ right. exists h, hb, (List.concat l). split; [exact WH |]. split; [reflexivity |]. right. exists p1, p2, l. auto.
      * injection H as <- <-. split; [| left; reflexivity]. exists e1. unfold write_section. cbn [fst snd bind]. rewrite WH. reflexivity.
    + injection H as <- <-. split; [exists e0; reflexivity | left; reflexivity].
  - unfold section_calls in H. cbn [bind run_calls List.map] in H. destruct (write_header o h) as [hb | e1] eqn:WH; injection H as <- <-; (split; [exists e0; reflexivity |]); [| left; reflexivity].
    right. exists h, hb, []. rewrite app_nil_r. auto.
  - unfold section_calls in H. cbn [bind run_calls] in H. injection H as <- <-. split; [exists e0; reflexivity | left; reflexivity].
Qed.

(** All the sections. *)
Lemma run_sections o : forall secs css, Forall2 (by_calls o) secs css -> forall g r, run_calls (List.concat css) = (g, r) ->
  match r with
  | Ok _ => exists bs, mapM (fun rs => s <- rs ;; write_section o s) secs = Ok bs /\ g = List.concat bs
  | Err e => (exists e', mapM (fun rs => s <- rs ;; write_section o s) secs = Err e') /\
      exists ss rs rest bs part, secs = List.map Ok ss ++ rs :: rest /\ mapM (write_section o) ss = Ok bs /\ begun o rs part /\ g = List.concat bs ++ part
  end.
Proof.
  induction 1 as [| rs cs secs css B F IH]; intros g r H.
  - injection H as <- <-. exists []. auto.
  - cbn [List.concat] in H. rewrite run_app in H. destruct (run_calls cs) as (x, [u | e]) eqn:R.
    + apply (run_section o rs cs _ _ B) in R. destruct R as (s & -> & WS). destruct (run_calls (List.concat css)) as (y, r') eqn:R'. injection H as <- <-.
      specialize (IH _ _ eq_refl). cbn [mapM bind]. rewrite WS. cbn [bind]. destruct r' as [u' | e].
      * destruct IH as (bs & -> & ->). exists (x :: bs). auto.
      * destruct IH as ((e' & ->) & ss & rs & rest & bs & part & -> & M & BG & ->). split; [exists e'; reflexivity |].
        exists (s :: ss), rs, rest, (x :: bs), part. split; [reflexivity |]. split; [cbn [mapM]; rewrite WS; cbn [bind]; rewrite M; reflexivity |].
        split; [exact BG |]. cbn [List.concat]. rewrite app_assoc. reflexivity.
    + apply (run_section o rs cs _ _ B) in R. destruct R as ((e' & E') & BG). injection H as <- <-. split; [exists e'; cbn [mapM]; rewrite E'; reflexivity |].
      exists [], rs, secs, [], x. auto.
Qed.

(** ** The reader *)
Lemma eof_written o : exists e, wrote o eof_sec e.
Proof.
  assert (W : exists b, write_section o eof_sec = Ok b) by (destruct o; eexists; vm_compute; reflexivity).
  destruct W as (b & W). destruct (write_section_wrote o eof_sec b) as (fs & WR & _); [| exact W | exists fs; exact WR].
  apply sec0_wf; cbn; [lia | lia | constructor].
Qed.

Lemma load_nonneg l : 0 <= load_size l.
Proof. unfold load_size. induction l as [| ((c, n), vals) l IH]; cbn [List.map zsum fold_right]; [lia |]. unfold zsum in IH. assert (0 <= Z.of_nat (code_size c) * Z.max 0 n) by (apply Z.mul_nonneg_nonneg; lia). lia. Qed.
Lemma load_app a b : load_size (a ++ b) = load_size a + load_size b.
Proof. unfold load_size. rewrite map_app. unfold zsum. induction (List.map (fun '(c, n, _) => Z.of_nat (code_size c) * Z.max 0 n) a) as [| x l IH]; cbn [app fold_right]; [lia |]. rewrite IH. lia. Qed.

(** A section that was begun can be completed. *)
Lemma begun_completes o h hb load : write_header o h = Ok hb -> opens h (zlen load) -> exists fill fs, fsec_ok o fs /\ ~ stops fs /\ (In (h_id (s_hdr fs)) [I0; D0] -> s_load fs = []) /\ fsec_all fs = hb ++ load ++ fill.
Proof.
  intros WH (A & SK & D & E & I). assert (Q := write_header_ok o _ _ WH A). destruct Q as (PK & _ & IH).
  exists (repeat 0 (Z.to_nat (h_skip h - 256 - zlen load))), (FS hb (cut_header h) (load ++ repeat 0 (Z.to_nat (h_skip h - 256 - zlen load)))).
  split; [| split; [| split]].
  - split; [exact IH |]. cbn [s_hdr s_load cut_header h_skip]. rewrite zlen_app. unfold zlen at 2. rewrite repeat_length. lia.
  - intros [S | S]; cbn [s_hdr] in S; [apply D; apply (proj1 (deof_cut _)); exact S | exact (E S)].
  - cbn [s_hdr cut_header h_id s_load]. intros J. specialize (I J). assert (Z := zlen_nonneg load). assert (zlen load = 0) by lia.
    destruct load as [| b load]; [| unfold zlen in *; cbn [List.length] in *; lia]. cbn [app]. rewrite I. reflexivity.
  - reflexivity.
Qed.

(** What stands for a section of the body. *)
Definition body_sec (s : section) : Prop :=
  sec_wf s /\ ~ deof (h_name (fst s)) /\ h_id (fst s) <> EOF /\ (In (h_id (fst s)) [I0; D0] -> snd s = []).

Lemma body_opens h p1 p2 : body_sec (h, p1 ++ p2) -> opens h (load_size p1).
Proof.
  intros ((A & SK & _) & D & E & I). cbn [fst snd] in *. rewrite load_app in SK. assert (Q := load_nonneg p2). split; [exact A |]. split; [lia |]. split; [exact D |]. split; [exact E |].
  intros J. specialize (I J). apply app_eq_nil in I. destruct I as (-> & ->). rewrite SK. reflexivity.
Qed.

Lemma failed_refused o v m ss bs rs part integrity : Forall body_sec ss -> (forall s, rs = Ok s -> body_sec s) ->
  binary_write o Ci 2 [MAGIC; version_number v] = Ok m -> mapM (write_section o) ss = Ok bs -> begun o rs part ->
  forall r, read_data integrity (m ++ List.concat bs ++ part) <> Ok r.
Proof.
  intros BS BR HM MB BG r.
  assert (W : exists fs, Forall2 (wrote o) ss fs /\ List.concat bs = secs_bytes fs).
  { destruct (write_secs o (List.map Ok ss) bs) as (ss' & fs & E & F & C).
    - clear -MB. revert bs MB. induction ss as [| s ss IH]; intros bs MB; [exact MB |]. cbn [List.map mapM bind] in *. destruct (write_section o s) as [b | e]; [| discriminate]. cbn [bind] in *.
      destruct (mapM (write_section o) ss) as [bs' | e]; [| discriminate]. rewrite (IH _ eq_refl). exact MB.
    - intros s I. apply in_map_iff in I. destruct I as (s' & Q & I). injection Q as ->. rewrite Forall_forall in BS. apply (BS _ I).
    - assert (ss' = ss) by (clear -E; revert ss' E; induction ss as [| s ss IH]; intros [| s' ss'] E; try discriminate; [reflexivity | injection E as -> E; f_equal; apply IH; exact E]). subst ss'. exists fs. auto. }
  destruct W as (fs & F & ->). destruct (eof_written o) as (e & We). destruct (eof_stops o e We) as (OE & SE & LE).
  assert (C : exists t more, m ++ secs_bytes fs ++ part ++ t = m ++ secs_bytes (fs ++ more) ++ fsec_all e /\ Forall (fsec_ok o) more /\ Forall (fun s => ~ stops s) more /\ Forall (fun s => In (h_id (s_hdr s)) [I0; D0] -> s_load s = []) more /\ t <> []).
  { assert (NE : fsec_all e <> []). { destruct OE as ((L & _) & _). unfold fsec_all. intros Q. apply app_eq_nil in Q. destruct Q as (Q & _). rewrite Q in L. discriminate L. }
    destruct BG as [-> | (h & hb & load & WH & -> & CA)].
    - exists (fsec_all e), []. rewrite app_nil_r. auto.
    - assert (OP : opens h (zlen load)).
      { destruct CA as [(-> & OP) | (p1 & p2 & l & -> & ML & ->)]; [exact OP |]. rewrite (loads_len o p1 l ML). apply (body_opens h p1 p2), BR. reflexivity. }
      destruct (begun_completes o h hb load WH OP) as (fill & f & FO & NS & NL & FA).
      exists (fill ++ fsec_all e), [f]. split; [| repeat split; try (constructor; [assumption | constructor])].
      + rewrite secs_app, secs_cons. change (secs_bytes []) with (@nil Z). rewrite app_nil_r, FA, <- !app_assoc. reflexivity.
      + intros Q. apply app_eq_nil in Q. exact (NE (proj2 Q)). }
  destruct C as (t & more & E & O & NS & NL & NT).
  apply (cut_raises integrity o (m ++ secs_bytes fs ++ part) t m (fs ++ more) e (version_number v) OE SE LE); try assumption.
  - apply binary_write_ok in HM. destruct HM as (_ & -> & _). reflexivity.
  - rewrite <- !app_assoc. exact E.
  - apply Forall_app. split; [eapply wrote_ok; exact F | exact O].
  - apply Forall_app. split; [| exact NS]. eapply wrote_not_stops; [exact F |]. eapply Forall_impl; [| exact BS]. intros s (_ & A & B & _). auto.
  - apply Forall_app. split; [| exact NL]. eapply wrote_no_load; [exact F |]. eapply Forall_impl; [| exact BS]. intros s (_ & _ & _ & B). exact B.
  - rewrite <- !app_assoc. apply (restart_header_read o (version_number v)); [| exact HM]. destruct v; split; vm_compute; congruence.
Qed.

(** ** The sections of a writer state *)
Section Calls.
  Context (i2d : Z -> Z) (f2i : Z -> res Z).

  Lemma split_sections v o w : exists css, file_calls i2d f2i v o w = (binary_write o Ci 2 [MAGIC; version_number v] :: List.concat css)%list /\
    (0 <= w_fa w -> 0 <= w_cv w -> Forall2 (by_calls o) (sections i2d f2i v w) css).
  Proof.
    set (no := w_no w). set (fa := w_fa w). set (cv := w_cv w). set (noofa := zlen (w_noofa w)).
    exists ([calls_of o (plain "NO_FA_CV_NOOFA_COUNTS" COUNTS [no; fa; cv; noofa] [])]
      ++ List.map (calls_of o) (check_sections v w)
      ++ [section_calls o (mk_hdr "NOOFA_I_AND_V" NOOFA (256 + 4 * fa + 4 * noofa) [fa; noofa] []) [Ok (Ci, fa, w_nno w); Ok (Ci, noofa, w_noofa w)]; cvofa_calls o w]
      ++ List.map (calls_of o) (List.map zone_section (w_bocos w))
      ++ [calls_of o (plain "internal-domain" FA_ZONE [6; last_boco (w_bocos w) + 1; fa - 1] []); part_calls o w;
          section_calls o (mk_hdr "X_NO" X_NO (256 + 8 * no * 3) [no; 3] []) [Ok (Cd, Z.max 0 no * 3, List.concat (w_coords w))]]
      ++ List.map (calls_of o) (info_sections i2d f2i w) ++ List.map (calls_of o) (var_sections i2d v w) ++ [calls_of o (plain "EOF" EOF [] [])]).
    split.
    - unfold file_calls. f_equal. unfold conn_calls. rewrite !concat_app, !flat_map_concat_map. fold no fa cv noofa. cbn [List.concat]. rewrite !app_nil_r, <- !app_assoc. reflexivity.
    - intros FA CV. assert (ALL : forall l, Forall2 (by_calls o) l (List.map (calls_of o) l)) by (intros l; induction l; cbn; constructor; [constructor | assumption]).
      unfold sections, conn_sections. fold no fa cv noofa. rewrite <- !app_assoc.
      apply Forall2_app; [repeat constructor |]. apply Forall2_app; [apply ALL |].
      apply Forall2_app.
      { constructor; [| constructor; [| constructor]].
        - destruct (mk_hdr "NOOFA_I_AND_V" NOOFA (256 + 4 * fa + 4 * noofa) [fa; noofa] []) as [h | e]; cbn [bind]; [| constructor]. exact (by_all o (Ok (h, [(Ci, fa, w_nno w); (Ci, noofa, w_noofa w)]))).
        - unfold cvofa_calls. fold fa. destruct (mk_hdr "CVOFA" CVOFA (256 + 4 * fa * 2) [fa; 2] []) as [h | e] eqn:E; cbn [bind]; [| constructor].
          destruct (w_f2e w) as [m |]; cbn [or_err bind]; [exact (by_all o (Ok (h, [(Ci, Z.max 0 fa * 2, List.concat (m_rows m))]))) |].
          apply by_late. apply mk_hdr_ok in E. destruct E as (-> & _). split; [apply hdr8_arrays; cbn; [lia | lia | constructor] |].
          cbn [hdr8 h_skip h_name h_id]. split; [unfold fa; lia |]. split; [discriminate |]. split; [discriminate |]. intros [Q | [Q | []]]; discriminate. }
      apply Forall2_app; [apply ALL |]. apply Forall2_app.
      { constructor; [constructor |]. constructor; [| constructor; [| constructor]].
        - unfold part_calls. fold cv. destruct (w_part w) as [(np, icv) |]; cbn [or_err bind]; [| constructor].
          destruct (mk_hdr "CV_PART" CV_PART (256 + 4 * cv) [cv; np] []) as [h | e] eqn:E; cbn [bind]; [| constructor].
          destruct icv as [icv |]; cbn [or_err bind]; [exact (by_all o (Ok (h, [(Ci, cv, icv)]))) |].
          apply by_late. apply mk_hdr_ok in E. destruct E as (-> & _). split; [apply hdr8_arrays; cbn; [lia | lia | constructor] |].
          cbn [hdr8 h_skip h_name h_id]. split; [unfold cv; lia |]. split; [discriminate |]. split; [discriminate |]. intros [Q | [Q | []]]; discriminate.
        - destruct (mk_hdr "X_NO" X_NO (256 + 8 * no * 3) [no; 3] []) as [h | e]; cbn [bind]; [| constructor]. exact (by_all o (Ok (h, [(Cd, Z.max 0 no * 3, List.concat (w_coords w))]))). }
      apply Forall2_app; [apply ALL |]. apply Forall2_app; [apply ALL |]. constructor; [constructor | constructor].
  Qed.

  (** Names and ids. *)
  Definition labelled (names : list string) (s : section) : Prop :=
    (In (h_name (fst s)) names \/ ~ deof (h_name (fst s))) /\ h_id (fst s) <> EOF /\ (In (h_id (fst s)) [I0; D0] -> snd s = []).
  Ltac lab := split; [first [right; discriminate | left; assumption] | split; [discriminate | first [reflexivity | intros [Q | [Q | []]]; discriminate Q]]].
  Lemma scalar_labelled names id_d id_q v l n name a : In name names -> ~ In id_d [I0; D0; EOF] -> ~ In id_q [I0; D0; EOF] -> labelled names (scalar_sec i2d id_d id_q v l n name a).
  Proof.
    intros N D Q. unfold scalar_sec, labelled. destruct (match v with V2 => false | V3 => a_int a end); cbn [sec1 fst snd hdr8 h_name h_id]; (split; [left; exact N |]).
    - split; [intros E; apply Q; right; right; left; symmetry; exact E |]. intros I. exfalso. apply Q. cbn in *. tauto.
    - split; [intros E; apply D; right; right; left; symmetry; exact E |]. intros I. exfalso. apply D. cbn in *. tauto.
  Qed.
  Lemma block_labelled names id l n name a : In name names -> ~ In id [I0; D0; EOF] -> labelled names (block_sec i2d id l n name a).
  Proof.
    intros N D. unfold block_sec, labelled. cbn [sec1 fst snd hdr8 h_name h_id]. split; [left; exact N |]. split; [intros E; apply D; right; right; left; symmetry; exact E |].
    intros I. exfalso. apply D. cbn in *. tauto.
  Qed.
  Lemma plain_labelled names name id l r s : plain name id l r = Ok s -> In name names \/ ~ deof name -> id <> EOF -> labelled names s.
  Proof. intros H N E. apply plain_ok in H. destruct H as (-> & _). split; [exact N |]. split; [exact E | reflexivity]. Qed.
  Lemma body_labelled v w s : 0 <= w_no w -> 0 <= w_cv w -> match w_cells w with FSet d => 0 <= ds_ndof d | FDict _ => True end ->
    In (Ok s) (conn_sections v w ++ info_sections i2d f2i w ++ var_sections i2d v w) -> labelled (user_names w) s.
  Proof.
    intros NO CV ND I. assert (NS : forall x, In x [NO_D1; NO_II1; NO_D3; CV_D1; CV_II1; CV_D3; CV_D33] -> ~ In x [I0; D0; EOF]).
    { intros x X Y. repeat (destruct X as [<- | X]; [cbn in Y; repeat (destruct Y as [Y | Y]; [discriminate Y |]); exact Y |]). exact X. }
    apply in_app_or in I. destruct I as [I | I]; [| apply in_app_or in I; destruct I as [I | I]].
    - unfold conn_sections in I. apply in_app_or in I; destruct I as [[I | []] | I]; [apply (plain_labelled _ _ _ _ _ _ I); [right; discriminate | discriminate] |].
      apply in_app_or in I; destruct I as [I | I].
      { destruct v; cbn in I; [| tauto]. repeat (destruct I as [I | I]; [unfold check_section in I; apply bind_ok in I; destruct I as (h & HH & I); apply mk_hdr_ok in HH; destruct HH as (-> & _); apply ok_inj in I; subst s; lab |]). tauto. }
      apply in_app_or in I; destruct I as [[I | [I | []]] | I].
      { apply bind_ok in I; destruct I as (h & HH & I). apply mk_hdr_ok in HH. destruct HH as (-> & _). apply ok_inj in I; subst s. lab. }
      { apply bind_ok in I; destruct I as (h & HH & I). apply mk_hdr_ok in HH. destruct HH as (-> & _). apply bind_ok in I; destruct I as (m & _ & I). apply ok_inj in I; subst s. lab. }
      apply in_app_or in I; destruct I as [I | [I | [I | [I | []]]]].
      { apply in_map_iff in I. destruct I as ((key, b) & E & J). apply zone_section_ok in E. destruct E as (t & kind & lo & hi & _ & _ & _ & _ & _ & -> & _).
        assert (K : In key (user_names w)) by (unfold user_names; apply in_or_app; left; apply in_map_iff; exists (key, b); auto). lab. }
      { apply (plain_labelled _ _ _ _ _ _ I); [right; discriminate | discriminate]. }
      { apply bind_ok in I; destruct I as ((npart, icv) & _ & I). apply bind_ok in I; destruct I as (h & HH & I). apply mk_hdr_ok in HH. destruct HH as (-> & _). apply bind_ok in I; destruct I as (icv' & _ & I). apply ok_inj in I; subst s. lab. }
      { apply bind_ok in I; destruct I as (h & HH & I). apply mk_hdr_ok in HH. destruct HH as (-> & _). apply ok_inj in I; subst s. lab. }
    - unfold info_sections in I. apply in_app_or in I; destruct I as [[I | [I | [I | [I | []]]]] | I].
      1: apply (plain_labelled _ _ _ _ _ _ I); [right; discriminate | discriminate].
      1-3: apply bind_ok in I; destruct I as (n & _ & I); apply (plain_labelled _ _ _ _ _ _ I); [right; discriminate | discriminate].
      destruct (w_wgt w) as [n | d] eqn:EW; [destruct I as [I | []]; discriminate |].
      apply in_map_iff in I. destruct I as ((k, x) & E & J). apply bind_ok in E; destruct E as (n & _ & E). apply (plain_labelled _ _ _ _ _ _ E); [| discriminate].
      left. unfold user_names. rewrite EW. apply in_or_app. right. apply in_or_app. left. cbn [wgt_names]. apply in_map_iff. exists (k, x). auto.
    - assert (NN : forall name a, In (name, a) (fd_items (w_nodes w)) -> In name (user_names w)).
      { intros name a J. unfold user_names. apply in_or_app. right. apply in_or_app. right. apply in_or_app. left. apply in_map_iff. exists (name, a). auto. }
      assert (NC : forall name a, In (name, a) (fd_items (w_cells w)) -> In name (user_names w)).
      { intros name a J. unfold user_names. apply in_or_app. right. apply in_or_app. right. apply in_or_app. right. apply in_map_iff. exists (name, a). auto. }
      unfold var_sections in I. apply in_app_or in I; destruct I as [I | I]; [| apply in_app_or in I; destruct I as [I | I]].
      + apply scalars_in in I. destruct I as (name & a & J & E). apply node_scalar_ok in E. subst s. apply scalar_labelled; [exact (NN _ _ J) | apply NS; cbn; tauto | apply NS; cbn; tauto].
      + apply of_dim_in in I. destruct I as (name & a & J & E). apply node_vector_ok in E; [| exact NO]. subst s. apply block_labelled; [exact (NN _ _ J) | apply NS; cbn; tauto].
      + assert (G : forall v ndof d, 0 <= ndof -> (forall name a, In (name, a) d -> In name (user_names w)) -> In (Ok s) (cell_sections i2d v (w_cv w) ndof d) -> labelled (user_names w) s).
        { clear I. intros v' ndof d N ND' I. assert (TT : 0 <= ndof * w_cv w) by (apply Z.mul_nonneg_nonneg; assumption).
          destruct v'; cbn [cell_sections] in I; apply in_app_or in I; destruct I as [I | I]; try (apply in_app_or in I; destruct I as [I | I]);
            [apply scalars_in in I | apply of_dim_in in I | apply of_dim_in in I | apply scalars_in in I | apply of_dim_in in I | apply of_dim_in in I];
            destruct I as (name & a & J & E); first [apply cell_scalar_ok in E | apply cell_vector_ok in E; [| lia] | apply cell_tensor_ok in E; [| lia]]; subst s;
            first [apply scalar_labelled | apply block_labelled]; try (apply NS; cbn; tauto); exact (ND' _ _ J). }
        destruct (w_cells w) as [d | d], v; cbn [fd_items] in *.
        * apply (G V2 1 d); try assumption; [lia |]. destruct d; exact I.
        * destruct d; [destruct I | destruct I as [I | []]; discriminate].
        * apply (G V2 (ds_ndof d) (ds_data d)); assumption.
        * apply (G V3 (ds_ndof d) (ds_data d)); assumption.
  Qed.

  (** The end of [write_data]. *)
  Lemma file_calls_end v o w g r : 0 <= w_fa w -> 0 <= w_cv w -> run_calls (file_calls i2d f2i v o w) = (g, r) ->
    match r with
    | Ok _ => write_data i2d f2i v o w = Ok g
    | Err e => (exists e', write_data i2d f2i v o w = Err e') /\
        exists m ss rs rest bs part, binary_write o Ci 2 [MAGIC; version_number v] = Ok m /\
          sections i2d f2i v w = List.map Ok ss ++ rs :: rest /\ mapM (write_section o) ss = Ok bs /\ begun o rs part /\ g = m ++ List.concat bs ++ part
    end.
  Proof.
    intros FA CV H. destruct (split_sections v o w) as (css & E & F). specialize (F FA CV). rewrite E in H. unfold write_data.
    assert (BM : exists m, binary_write o Ci 2 [MAGIC; version_number v] = Ok m) by (destruct o, v; eexists; vm_compute; reflexivity).
    destruct BM as (m & BM). rewrite BM in *. cbn [run_calls bind] in *. destruct (run_calls (List.concat css)) as (g', r') eqn:R. injection H as <- <-.
    apply (run_sections o _ _ F) in R. destruct r' as [u | e].
    - destruct R as (bs & -> & ->). reflexivity.
    - destruct R as ((e' & ->) & ss & rs & rest & bs & part & ES & MB & BG & ->). split; [exists e'; reflexivity |]. exists m, ss, rs, rest, bs, part. auto 6.
  Qed.

  Lemma failed_write v o w g e integrity : w_typed i2d w -> Forall (fun k => ~ deof k) (user_names w) ->
    run_calls (file_calls i2d f2i v o w) = (g, Err e) -> forall r, read_data integrity g <> Ok r.
  Proof.
    intros T D H. assert (T' := T). destruct T' as (P & NO & FA & CV & ND & _).
    destruct (file_calls_end v o w g (Err e) FA CV H) as (_ & m & ss & rs & rest & bs & part & BM & ES & MB & BG & ->).
    assert (WF : forall s, In (Ok s) (List.map Ok ss ++ [rs]) -> In (Ok s) (conn_sections v w ++ info_sections i2d f2i w ++ var_sections i2d v w) -> body_sec s).
    { intros s I J. split; [apply (sections_wf i2d f2i v w s T); rewrite ES; apply in_app_or in I; apply in_or_app; destruct I as [I | [I | []]]; [left; exact I | right; left; exact I] |].
      destruct (body_labelled v w s NO CV ND J) as ([L | L] & E & N); (split; [| split; [exact E | exact N]]); [| exact L]. rewrite Forall_forall in D. exact (D _ L). }
    assert (EB : exists body, conn_sections v w ++ info_sections i2d f2i w ++ var_sections i2d v w = body /\ body ++ [plain "EOF" EOF [] []] = List.map Ok ss ++ rs :: rest).
    { eexists. split; [reflexivity |]. rewrite <- ES. unfold sections. rewrite <- !app_assoc. reflexivity. }
    destruct EB as (body & EB & E2). rewrite EB in WF.
    assert (NR : rest <> [] \/ rest = [] /\ rs = plain "EOF" EOF [] [] /\ body = List.map Ok ss).
    { destruct rest as [| x rest]; [right | left; discriminate]. apply app_inj_tail in E2. destruct E2. auto. }
    destruct NR as [NR | (-> & -> & EBB)].
    - destruct (exists_last NR) as (rest' & x & ->). rewrite app_comm_cons, app_assoc in E2. apply app_inj_tail in E2. destruct E2 as (E2 & _).
      apply (failed_refused o v m ss bs rs part integrity); try assumption.
      + apply Forall_forall. intros s I. apply WF; [apply in_or_app; left; apply in_map; exact I |]. rewrite E2. apply in_or_app. left. apply in_map. exact I.
      + intros s ->. apply WF; [apply in_or_app; right; left; reflexivity |]. rewrite E2. apply in_or_app. right. left. reflexivity.
    - (* the closing section never fails *)
      exfalso. assert (FO : exists f, write_data i2d f2i v o w = Ok f).
      { unfold write_data. rewrite BM. cbn [bind]. rewrite ES.
        assert (ME : exists b, mapM (fun rs => s <- rs ;; write_section o s) (List.map Ok ss ++ [plain "EOF" EOF [] []]) = Ok b).
        { clear -MB. revert bs MB. induction ss as [| s ss IH]; intros bs MB.
          - cbn [List.map app mapM]. assert (W : exists b, (s <- plain "EOF" EOF [] [] ;; write_section o s) = Ok b) by (destruct o; eexists; vm_compute; reflexivity). destruct W as (b & ->). eexists. reflexivity.
          - cbn [List.map app mapM bind] in *. destruct (write_section o s) as [b | ?]; [| discriminate]. cbn [bind] in *. destruct (mapM (write_section o) ss) as [bs' | ?]; [| discriminate].
            destruct (IH _ eq_refl) as (b' & ->). eexists. reflexivity. }
        destruct ME as (b & ->). eexists. reflexivity. }
      destruct FO as (f & FO). destruct (file_calls_end v o w _ (Err e) FA CV H) as ((e' & FE) & _). congruence.
  Qed.
End Calls.

(** ** The constructor keeps the types of a mesh *)
Lemma ec_add_nonneg c t m i c' : 0 <= ec_nelem c -> ec_add c t m i = Ok c' -> 0 <= ec_nelem c'.
Proof.
  intros N H. assert (L := zlen_nonneg (m_rows m)). unfold ec_add in H. destruct (dget String.eqb t (ec_dict c)) as [ed |].
  - apply bind_ok in H; destruct H as (a & _ & H). apply bind_ok in H; destruct H as (b & _ & H). apply ok_inj in H. subst c'. cbn. unfold m_nrow. lia.
  - apply ok_inj in H. subst c'. cbn. unfold m_nrow. lia.
Qed.
Lemma create_nonneg tbl c fs : ec_create_faces tbl c = Ok fs -> 0 <= ec_nelem (fs_int fs) /\ 0 <= ec_nelem (fs_bnd fs).
Proof.
  unfold ec_create_faces. intros H. apply bind_ok in H; destruct H as (fn & _ & H).
  assert (G : forall fn f0 fs, 0 <= ec_nelem (fs_int f0) /\ 0 <= ec_nelem (fs_bnd f0) -> foldM find_duplicates_step f0 fn = Ok fs ->
    0 <= ec_nelem (fs_int fs) /\ 0 <= ec_nelem (fs_bnd fs)).
  { clear. induction fn as [| (t, l) fn IH]; intros f0 fs N H; cbn [foldM] in H; [apply ok_inj in H; subst; exact N |].
    apply bind_ok in H; destruct H as (f1 & E & H). apply (IH f1 fs); [| exact H]. clear IH H. unfold find_duplicates_step in E.
    repeat (apply bind_ok in E; let a := fresh "a" in let A := fresh "A" in destruct E as (a & A & E)). apply ok_inj in E. subst f1. cbn [fs_int fs_bnd].
    destruct N.
    split; match goal with A : ec_add _ _ _ _ = Ok ?x |- 0 <= ec_nelem ?x => apply ec_add_nonneg in A; assumption end. }
  apply (G fn _ fs) in H; [exact H |]. cbn. lia.
Qed.

Definition marks_kept (m m' : mesh Z) : Prop :=
  me_ncell m' = me_ncell m /\ me_nodes m' = me_nodes m /\ (0 <= me_nface m -> 0 <= me_nface m') /\
  forall k b, In (k, b) (me_bocos m') -> (exists b0, In (k, b0) (me_bocos m) /\ mk_perio b = mk_perio b0) \/ k = "unmarked"%string /\ mk_perio b = Some None.
Lemma kept_refl m : marks_kept m m.
Proof. repeat split; auto. intros k b I. left. exists b. auto. Qed.
Lemma kept_trans a b c : marks_kept a b -> marks_kept b c -> marks_kept a c.
Proof.
  intros (A1 & A2 & A3 & A4) (B1 & B2 & B3 & B4). split; [congruence |]. split; [congruence |]. split; [auto |].
  intros k x I. destruct (B4 k x I) as [(y & J & E) | Q]; [| right; exact Q]. destruct (A4 k y J) as [(z & K & E') | (Q & E')]; [left; exists z | right]; (split; [assumption | congruence]).
Qed.
Lemma each_mark_kept f bs r bs' : (forall b, mk_perio (snd (f b)) = mk_perio b) -> each_mark (F:=Z) f bs = (r, bs') ->
  forall k b, In (k, b) bs' -> exists b0, In (k, b0) bs /\ mk_perio b = mk_perio b0.
Proof.
  intros P. revert r bs'. induction bs as [| (k0, b0) bs IH]; intros r bs' H k b I; cbn [each_mark] in H.
  - injection H as <- <-. destruct I.
  - assert (P0 := P b0). destruct (f b0) as ([u | e], b1); cbn [snd] in P0.
    + destruct (each_mark f bs) as (r2, bs2). injection H as <- <-. destruct I as [I | I].
      * injection I as <- <-. exists b0. split; [left; reflexivity | exact P0].
      * destruct (IH _ _ eq_refl k b I) as (y & J & E). exists y. split; [right; exact J | exact E].
    + injection H as <- <-. destruct I as [I | I].
      * injection I as <- <-. exists b0. split; [left; reflexivity | exact P0].
      * exists b. split; [right; exact I | reflexivity].
Qed.

Lemma dset_in_or {A} k (v : A) d k' v' : In (k', v') (dset String.eqb k v d) -> In (k', v') d \/ k' = k /\ v' = v.
Proof.
  induction d as [| (a, x) d IH]; cbn [dset]; [intros [I | []]; injection I as <- <-; auto |].
  destruct (String.eqb k a) eqn:E; intros [I | I].
  - injection I as <- <-. right. apply String.eqb_eq in E. auto.
  - left. right. exact I.
  - left. left. exact I.
  - destruct (IH I) as [J | J]; [left; right; exact J | right; exact J].
Qed.
Lemma bocos_kept m bs : (forall k b, In (k, b) bs -> exists b0, In (k, b0) (me_bocos m) /\ mk_perio b = mk_perio b0) -> marks_kept m (with_bocos m bs).
Proof. intros H. repeat split; auto. Qed.
Lemma prepare_kept tbl enum m r m' : prepare_mesh tbl enum m = (r, m') -> marks_kept m m'.
Proof.
  unfold prepare_mesh. intros H.
  destruct (match me_faces m with [] => make_face_connectivity tbl m | _ => (Ok tt, m) end) as (r1, m1) eqn:E1.
  assert (K1 : marks_kept m m1).
  { destruct (me_faces m) as [| x l] eqn:EF; [| injection E1 as _ <-; apply kept_refl].
    unfold make_face_connectivity in E1. destruct (me_cell2node m) as [c |]; [| injection E1 as _ <-; apply kept_refl].
    destruct (ec_create_faces tbl c) as [fs | e] eqn:EC; [| injection E1 as _ <-; apply kept_refl]. apply create_nonneg in EC. destruct EC as (NI & NB).
    cbn in E1. rewrite EF in E1. cbn in E1. injection E1 as _ <-.
    split; [reflexivity |]. split; [reflexivity |]. split; [cbn; lia |]. intros k b I. left. exists b. auto. }
  destruct r1 as [u1 | e1]; [| injection H as _ <-; exact K1].
  destruct (if existsb (fun '(_, b) => nodebased b) (me_bocos m1) then bocomarks_set_node_to_face m1 else (Ok tt, m1)) as (r2, m2) eqn:E2.
  assert (K2 : marks_kept m1 m2).
  { destruct (existsb _ _); [| injection E2 as _ <-; apply kept_refl]. unfold bocomarks_set_node_to_face in E2.
    destruct (dget String.eqb "boundary" (me_faces m1)) as [b |]; [| injection E2 as _ <-; apply kept_refl].
    destruct (ec_tuples (f_f2n b)) as [tuples | e]; [| injection E2 as _ <-; apply kept_refl].
    destruct (each_mark _ (me_bocos m1)) as (r4, bs) eqn:EM. injection E2 as _ <-. apply bocos_kept. refine (each_mark_kept _ _ _ _ _ EM).
    intros b0. unfold set_node_to_face. destruct (nodebased b0); [| reflexivity]. destruct (mark_list b0); reflexivity. }
  assert (K12 := kept_trans _ _ _ K1 K2). destruct r2 as [u2 | e2]; [| injection H as _ <-; exact K12].
  destruct (if dmem String.eqb "boundary" (me_faces m2) then make_unmarked_BC enum "unmarked" m2 else (Ok [], m2)) as (r3, m3) eqn:E3.
  assert (K3 : marks_kept m2 m3).
  { destruct (dmem _ _ _); [| injection E3 as _ <-; apply kept_refl]. unfold make_unmarked_BC in E3.
    destruct (dget String.eqb "boundary" (me_faces m2)) as [b |]; [| injection E3 as _ <-; apply kept_refl].
    destruct (forallb _ _); [| injection E3 as _ <-; apply kept_refl].
    destruct (list_boco_index m2) as [marked |]; [| injection E3 as _ <-; apply kept_refl].
    destruct (ec_all_index (f_f2n b)) as [all |]; [| injection E3 as _ <-; apply kept_refl].
    destruct (enum _) as [| x l]; injection E3 as _ <-; [apply kept_refl |].
    split; [reflexivity |]. split; [reflexivity |]. split; [auto |]. cbn [add_boco with_bocos me_bocos mk_name]. intros k b' I.
    apply dset_in_or in I. destruct I as [I | (-> & ->)]; [left; exists b'; auto | right; auto]. }
  assert (K13 := kept_trans _ _ _ K12 K3). destruct r3 as [u3 | e3]; [| injection H as _ <-; exact K13].
  apply (kept_trans _ _ _ K13). clear -H. destruct (any_list (me_bocos m3)) as [[|] |]; [| injection H as _ <-; apply kept_refl | injection H as _ <-; apply kept_refl].
  unfold reindex_boundaryfaces in H. destruct (dget String.eqb "boundary" (me_faces m3)) as [b |]; [| injection H as _ <-; apply kept_refl].
  destruct (negb _); [injection H as _ <-; apply kept_refl |].
  destruct (bind (list_boco_index m3) _) as [(old, new) |]; [| injection H as _ <-; apply kept_refl].
  destruct (each_mark _ (me_bocos m3)) as (r1, bs) eqn:EM.
  assert (K : marks_kept m3 (with_bocos m3 bs)).
  { apply bocos_kept. refine (each_mark_kept _ _ _ _ _ EM). intros b0. unfold reindex_mark. destruct (bind (mark_list b0) _) as [l |]; [| reflexivity].
    unfold set_index. destruct (mk_geodim b0); [| reflexivity]. destruct (il_compress (ILlist l)); reflexivity. }
  destruct r1 as [u |]; [| injection H as _ <-; exact K].
  destruct (reindex_types new _) as ([u2 |], d); [destruct (reindex_f2c old (f_f2c b)) |]; injection H as _ <-; destruct K as (A & B & C & D); repeat split; auto.
Qed.

Lemma prepare_typed tbl enum fm r m : fmesh_typed fm -> prepare_mesh tbl enum (fm_mesh fm) = (r, m) ->
  fmesh_typed (FM m (fm_cells fm) (fm_nodes fm) (fm_params fm) (fm_part fm)) /\
  incl (List.map fst (me_bocos m)) ("unmarked"%string :: List.map fst (me_bocos (fm_mesh fm))).
Proof.
  intros (FA & CV & TX & TB & TR) H. destruct (prepare_kept _ _ _ _ _ H) as (A & B & C & D). split.
  - unfold fmesh_typed. cbn [fm_mesh fm_cells fm_nodes fm_params]. split; [auto |]. split; [congruence |]. split; [rewrite B; exact TX |]. split; [| exact TR].
    rewrite Forall_forall in *. intros (k, b) I. unfold mark_typed. destruct (D k b I) as [(b0 & J & ->) | (_ & ->)]; [exact (TB _ J) | exact Logic.I].
  - intros k I. apply in_map_iff in I. destruct I as ((k', b) & <- & I). destruct (D k' b I) as [(b0 & J & _) | (-> & _)]; [right | left; reflexivity].
    apply in_map_iff. exists (k', b0). auto.
Qed.
