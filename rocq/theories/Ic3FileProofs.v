(** * Files as lists of sections: what the loops of the reader see in a written file. *)
From Coq Require Import ZArith List Bool String Lia.
From Verif Require Import Py PyFacts Ic3Bytes Ic3BytesProofs Ic3 Ic3HeaderSpec Ic3HeaderProofs Ic3FuelProofs Ic3FileSpec.

(** ** The search does not depend on the fuel *)
Lemma read_var_more : forall k f o ids skip p, stops_ok (read_var k f o ids skip p) ->
  read_var (S k) f o ids skip p = read_var k f o ids skip p.
Proof.
  induction k as [| k IH]; intros f o ids skip p H; [exfalso; apply H; reflexivity |].
  cbn [read_var] in H. change (read_var (S (S k)) f o ids skip p) with
    (let p0 := if 0 <? skip then p + (skip - 256) else p in
      match rd f p0 256 with
      | (None, _) => Err TypeError
      | (Some b, p') =>
          name <- hdr_name b ;;
          if String.prefix "DEOF" name then Ok (None, p')
          else
            let h := hdr_of o name b in
            if zmem (h_id h) ids then Ok (Some h, p')
            else if h_id h =? EOF then Ok (None, p')
            else read_var (S k) f o ids (h_skip h) p'
      end).
  cbn [read_var]. cbv zeta. destruct (rd f (if 0 <? skip then p + (skip - 256) else p) 256) as ([b |], p'); [| reflexivity].
  destruct (hdr_name b) as [name | e]; [| reflexivity]. cbn [bind] in *.
  destruct (String.prefix "DEOF" name); [reflexivity |].
  destruct (zmem _ ids); [reflexivity |]. destruct (_ =? EOF); [reflexivity |].
  fold (read_var (S k)). apply IH. exact H.
Qed.

Definition read_at (f : list Z) (o : order) (ids : list Z) (p : Z) : res (option header * Z) :=
  read_var (fuel_of f) f o ids 0 p.

Lemma at_pass o ids s pre post : fsec_ok o s -> passed ids s ->
  let f := pre ++ fsec_all s ++ post in
  read_at f o ids (zlen pre) = read_at f o ids (zlen (pre ++ fsec_all s)).
Proof.
  intros OK P f. unfold read_at. unfold fuel_of at 1. unfold f at 2. rewrite read_var_pass by assumption.
  fold f. rewrite <- zlen_app. unfold fuel_of. symmetry. apply read_var_more.
  apply read_var_stops; unfold start; change (0 <? 0) with false; cbv iota.
  - apply zlen_nonneg.
  - assert (Q := zlen_nonneg (pre ++ fsec_all s)). unfold zlen in *. lia.
  - unfold f. destruct OK as ((L & _) & _). unfold fsec_all. unfold zlen in L. rewrite !app_length. lia.
Qed.
Lemma at_hit o ids s pre post : fsec_ok o s -> ~ deof (h_name (s_hdr s)) -> In (h_id (s_hdr s)) ids ->
  let f := pre ++ fsec_all s ++ post in
  read_at f o ids (zlen pre) = Ok (Some (s_hdr s), zlen pre + 256).
Proof. intros. apply read_var_hit; assumption. Qed.
Lemma at_stop o ids s pre post : fsec_ok o s -> stops s -> ~ In EOF ids ->
  let f := pre ++ fsec_all s ++ post in
  read_at f o ids (zlen pre) = Ok (None, zlen pre + 256).
Proof. intros. apply read_var_stop; assumption. Qed.
Lemma at_passes o ids : forall l pre post, Forall (fsec_ok o) l -> Forall (passed ids) l ->
  let f := pre ++ secs_bytes l ++ post in
  read_at f o ids (zlen pre) = read_at f o ids (zlen (pre ++ secs_bytes l)).
Proof.
  induction l as [| s l IH]; intros pre post O P f.
  - cbn. rewrite app_nil_r. reflexivity.
  - inversion O; subst. inversion P; subst. unfold f. rewrite secs_cons, <- app_assoc.
    rewrite at_pass by assumption. rewrite app_assoc. rewrite IH by assumption.
    rewrite <- !(app_assoc pre). reflexivity.
Qed.

(** ** Written sections *)

(** A section whose header announces its payload. *)
Definition load_size (l : list (code * Z * list Z)) : Z :=
  zsum (List.map (fun '(c, n, _) => Z.of_nat (code_size c) * Z.max 0 n) l).
Definition sec_wf (s : section) : Prop :=
  header_arrays (fst s) /\ h_skip (fst s) = 256 + load_size (snd s) /\
  Forall (fun '(c, n, vals) => c = Cd -> Forall pattern vals) (snd s).

(** [fs] is what lies in the file after writing [s]. *)
Definition wrote (o : order) (s : section) (fs : fsec) : Prop :=
  fsec_ok o fs /\ s_hdr fs = cut_header (fst s) /\ packable (fst s) /\
  exists ps, mapM (fun '(c, n, vals) => binary_write o c n vals) (snd s) = Ok ps /\ s_load fs = List.concat ps.

Lemma loads_len o l ps : mapM (fun '(c, n, vals) => binary_write o c n vals) l = Ok ps -> zlen (List.concat ps) = load_size l.
Proof.
  intros H. apply mapM_ok_Forall2 in H. induction H as [| ((c, n), vals) p l ps W _ IH]; [reflexivity |].
  cbn [List.concat]. rewrite zlen_app, IH. apply binary_write_ok in W. destruct W as (_ & -> & _). reflexivity.
Qed.
Lemma write_section_wrote o s b : sec_wf s -> write_section o s = Ok b -> exists fs, wrote o s fs /\ b = fsec_all fs.
Proof.
  intros (A & SK & _) H. unfold write_section in H. apply bind_ok in H; destruct H as (hb & WH & H).
  apply bind_ok in H; destruct H as (ps & WP & H). inversion H; subst b; clear H.
  exists (FS hb (cut_header (fst s)) (List.concat ps)). split; [| reflexivity].
  assert (Q := write_header_ok o _ _ WH A). destruct Q as (PK & _ & IH).
  split; [split; [exact IH |] | split; [reflexivity | split; [exact PK | exists ps; auto]]].
  cbn. rewrite SK. apply loads_len in WP. rewrite WP. reflexivity.
Qed.

Lemma write_secs o : forall l bs, mapM (fun rs => s <- rs ;; write_section o s) l = Ok bs ->
  (forall s, In (Ok s) l -> sec_wf s) ->
  exists ss fs, l = List.map Ok ss /\ Forall2 (wrote o) ss fs /\ List.concat bs = secs_bytes fs.
Proof.
  induction l as [| rs l IH]; intros bs H WF.
  - inversion H. exists [], []. split; [reflexivity | split; [constructor | reflexivity]].
  - cbn [mapM] in H. apply bind_ok in H; destruct H as (b & HB & H). apply bind_ok in H; destruct H as (bs' & HL & H).
    inversion H; subst bs; clear H. apply bind_ok in HB; destruct HB as (s & -> & HB).
    destruct (IH bs' HL) as (ss & fs & -> & F & E); [intros x I; apply WF; right; exact I |].
    destruct (write_section_wrote o s b (WF s (or_introl eq_refl)) HB) as (f & WR & ->).
    exists (s :: ss), (f :: fs). split; [reflexivity | split; [constructor; assumption |]].
    cbn [List.concat]. rewrite secs_cons, E. reflexivity.
Qed.

Lemma wrote_ok o ss fs : Forall2 (wrote o) ss fs -> Forall (fsec_ok o) fs.
Proof. induction 1 as [| s f ss fs (A & _) _ IH]; constructor; assumption. Qed.
Lemma wrote_id o s fs : wrote o s fs -> h_id (s_hdr fs) = h_id (fst s).
Proof. intros (_ & -> & _). reflexivity. Qed.
Lemma wrote_deof o s fs : wrote o s fs -> (deof (h_name (s_hdr fs)) <-> deof (h_name (fst s))).
Proof. intros (_ & -> & _). apply deof_cut. Qed.
(** Sections that a search for [ids] passes, seen from the writer. *)
Definition spassed (ids : list Z) (s : section) : Prop :=
  ~ deof (h_name (fst s)) /\ h_id (fst s) <> EOF /\ ~ In (h_id (fst s)) ids.
Lemma wrote_passed o ids s fs : wrote o s fs -> spassed ids s -> passed ids fs.
Proof.
  intros W (D & E & N). split; [intros [S | S] |].
  - apply (wrote_deof _ _ _ W) in S. exact (D S).
  - rewrite (wrote_id _ _ _ W) in S. exact (E S).
  - rewrite (wrote_id _ _ _ W). exact N.
Qed.
Lemma wrote_passed_all o ids ss fs : Forall2 (wrote o) ss fs -> Forall (spassed ids) ss -> Forall (passed ids) fs.
Proof.
  intros W F. revert F. induction W as [| s f ss fs W _ IH]; intros F; [constructor |].
  inversion F; subst. constructor; [eapply wrote_passed; eassumption | apply IH; assumption].
Qed.

(** Reading the first block of the payload, at the position [pos] where it begins. *)
Lemma read_block o c n vals p pre post : binary_write o c n vals = Ok p -> 0 <= n ->
  (c = Cd -> Forall pattern vals) -> Z.of_nat (code_size c) * n < 2 ^ 63 ->
  binary_read (pre ++ p ++ post) o c n (zlen pre) = Ok (Some vals, zlen pre + zlen p).
Proof.
  intros W N P M. apply binary_write_ok in W. destruct W as (_ & L & _ & V).
  apply binary_read_at; try assumption; [rewrite L; f_equal; lia | apply V; exact P].
Qed.

(** ** Loops over a written file *)
Section Scan.
  Context {S : Type} (o : order) (ids : list Z) (step : S -> header -> Z -> res (S * Z)) (pure : S -> section -> res S).

  (** [step] on a section with id in [ids] does [pure] and consumes the payload. *)
  Definition exact_on (f : list Z) (s : section) : Prop :=
    forall fs pre post st, wrote o s fs -> f = pre ++ fsec_all fs ++ post ->
      step st (s_hdr fs) (zlen pre + 256) = (st' <- pure st s ;; Ok (st', zlen (pre ++ fsec_all fs))).

  Lemma scan_secs f e post : fsec_ok o e -> stops e -> ~ In EOF ids ->
    forall ss fs, Forall2 (wrote o) ss fs -> forall pre k st,
    f = pre ++ secs_bytes fs ++ fsec_all e ++ post ->
    Forall (fun s => ~ deof (h_name (fst s)) /\ h_id (fst s) <> EOF) ss ->
    Forall (fun s => In (h_id (fst s)) ids -> exact_on f s) ss -> (List.length ss < k)%nat ->
    scan k f o ids step st (zlen pre) = foldM pure st (filter (fun s : section => zmem (h_id (fst s)) ids) ss).
  Proof.
    intros OE SE NE. induction 1 as [| s sf ss fs W _ IH]; intros pre k st E D X K.
    - destruct k as [| k]; [lia |]. cbn [scan filter foldM]. fold (read_at f o ids (zlen pre)).
      rewrite E. cbn [secs_bytes List.map List.concat app]. rewrite at_stop by assumption. reflexivity.
    - inversion D as [| ? ? (D1 & D2) D']; subst. inversion X as [| ? ? X1 X']; subst.
      set (f := pre ++ secs_bytes (sf :: fs) ++ fsec_all e ++ post) in *.
      assert (E1 : f = pre ++ fsec_all sf ++ (secs_bytes fs ++ fsec_all e ++ post)) by (unfold f; rewrite secs_cons, <- !app_assoc; reflexivity).
      assert (E2 : f = (pre ++ fsec_all sf) ++ secs_bytes fs ++ fsec_all e ++ post) by (rewrite E1, <- app_assoc; reflexivity).
      cbn [List.length] in K. destruct k as [| k]; [lia |].
      cbn [filter]. destruct (zmem (h_id (fst s)) ids) eqn:M.
      + apply zmem_in in M. cbn [scan foldM]. fold (read_at f o ids (zlen pre)).
        replace (read_at f o ids (zlen pre)) with (@Ok (option header * Z) (Some (s_hdr sf), zlen pre + 256)).
        2: { symmetry. rewrite E1. apply at_hit; [exact (proj1 W) | |].
             - intros Q. apply (wrote_deof _ _ _ W) in Q. exact (D1 Q).
             - rewrite (wrote_id _ _ _ W). exact M. }
        cbn [bind]. rewrite (X1 M sf pre _ st W E1).
        destruct (pure st s) as [st' | e']; [| reflexivity]. cbn [bind].
        apply (IH (pre ++ fsec_all sf) k st'); try assumption. lia.
      + assert (P : passed ids sf).
        { eapply wrote_passed; [exact W |]. split; [exact D1 | split; [exact D2 |]].
          intros Q. apply zmem_in in Q. congruence. }
        rewrite <- (IH (pre ++ fsec_all sf) (Datatypes.S k) st); try assumption; [| lia].
        cbn [scan]. fold (read_at f o ids (zlen pre)). fold (read_at f o ids (zlen (pre ++ fsec_all sf))).
        rewrite E1. rewrite at_pass; [reflexivity | exact (proj1 W) | exact P].
  Qed.
End Scan.

(** Required sections: the first one with the id. *)
Lemma req_secs o ids f m ss1 fs1 s sf rest : zlen m = 8 -> Forall2 (wrote o) ss1 fs1 -> wrote o s sf ->
  f = m ++ secs_bytes fs1 ++ fsec_all sf ++ rest -> Forall (spassed ids) ss1 ->
  ~ deof (h_name (fst s)) -> In (h_id (fst s)) ids ->
  find_var f o ids = Ok (Some (cut_header (fst s)), zlen (m ++ secs_bytes fs1) + 256) /\
  find_req f o ids = Ok (cut_header (fst s), zlen (m ++ secs_bytes fs1) + 256).
Proof.
  intros M F W E P D I.
  assert (Q : find_var f o ids = Ok (Some (cut_header (fst s)), zlen (m ++ secs_bytes fs1) + 256)).
  { unfold find_var. rewrite <- M. fold (read_at f o ids (zlen m)). rewrite E.
    rewrite at_passes; [| eapply wrote_ok; exact F | eapply wrote_passed_all; eassumption].
    rewrite app_assoc. rewrite at_hit.
    - destruct W as (_ & -> & _). reflexivity.
    - exact (proj1 W).
    - intros Q. apply (wrote_deof _ _ _ W) in Q. exact (D Q).
    - rewrite (wrote_id _ _ _ W). exact I. }
  split; [exact Q |]. unfold find_req. rewrite Q. reflexivity.
Qed.
Lemma none_secs o ids f m ss1 fs1 e rest : zlen m = 8 -> Forall2 (wrote o) ss1 fs1 -> fsec_ok o e -> stops e ->
  f = m ++ secs_bytes fs1 ++ fsec_all e ++ rest -> Forall (spassed ids) ss1 -> ~ In EOF ids ->
  exists p, find_var f o ids = Ok (None, p).
Proof.
  intros M F OE SE E P N. eexists. unfold find_var. rewrite <- M. fold (read_at f o ids (zlen m)). rewrite E.
  rewrite at_passes; [| eapply wrote_ok; exact F | eapply wrote_passed_all; eassumption].
  rewrite app_assoc. apply at_stop; assumption.
Qed.
