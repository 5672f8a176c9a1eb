(** * Reading a written file, all together. *)
From Coq Require Import ZArith List Bool String Lia.
From Verif Require Import Py PyFacts ConnSpec CsrProofs Ic3Bytes Ic3BytesProofs Ic3 Ic3HeaderSpec Ic3HeaderProofs Ic3FuelProofs Ic3FileSpec Ic3FileProofs Ic3WriteProofs Ic3PartsProofs Ic3CutProofs Ic3BodyProofs Ic3ReadProofs Ic3VarProofs.

(** ** Conditions on the writer state under which the file can be read *)
Record sound (v : version) (w : wstate) (ls : list (list Z)) : Prop := {
  rd_no : 1 <= w_no w; rd_fa : 1 <= w_fa w; rd_cv : 1 <= w_cv w; rd_ndof : 1 <= w_ndof w;
  rd_nno : w_nno w = List.map zlen ls; rd_noofa : w_noofa w = List.concat ls;
  rd_f2e : forall m, w_f2e w = Some m -> Forall (fun r => List.length r = 2%nat) (m_rows m);
  rd_coords : Forall (fun r => List.length r = 3%nat) (w_coords w);
  rd_zones : Forall (fun '(_, b) => mk_type b <> Some "internal"%string /\
      forall lo hi, mk_index b = Some (ILrange lo hi) -> - w_fa w - 1 <= lo <= w_fa w) (w_bocos w);
  rd_last : last_boco (w_bocos w) < w_fa w;
  rd_names : Forall (fun k => ~ deof k) (user_names w);
  rd_loc : fd_items (w_cells w) = [] \/ (w_cv w <> w_no w /\ w_cv w <> w_fa w) \/ w_tot v w = w_cv w }.
(** The largest cell number, which the reader expects to be [ncell - 1]. *)
Definition top_cell (w : wstate) (k : Z) : Prop := forall m, w_f2e w = Some m -> py_max (List.concat (m_rows m)) = Ok k.
Record readable (v : version) (w : wstate) (ls : list (list Z)) : Prop := {
  rd_sound :> sound v w ls; rd_top : top_cell w (w_cv w - 1) }.

(** ** Required sections *)
Lemma req_body o ids f m ss1 s ss2 fs tail : zlen m = 8 -> Forall2 (wrote o) (ss1 ++ s :: ss2) fs ->
  f = m ++ secs_bytes fs ++ tail -> Forall (spassed ids) ss1 -> ~ deof (h_name (fst s)) -> In (h_id (fst s)) ids ->
  exists pre sf fs2, f = pre ++ fsec_all sf ++ (secs_bytes fs2 ++ tail) /\ wrote o s sf /\ Forall2 (wrote o) ss2 fs2 /\
    find_var f o ids = Ok (Some (cut_header (fst s)), zlen pre + 256) /\
    find_req f o ids = Ok (cut_header (fst s), zlen pre + 256).
Proof.
  intros M F E P D I. apply Forall2_app_inv_l in F. destruct F as (fs1 & fs' & F1 & F2 & ->).
  inversion F2 as [| ? sf ? fs2 W F3]; subst.
  exists (m ++ secs_bytes fs1), sf, fs2. split; [rewrite secs_app, secs_cons, <- !app_assoc; reflexivity |].
  split; [exact W |]. split; [exact F3 |].
  apply (req_secs o ids _ m ss1 fs1 s sf (secs_bytes fs2 ++ tail)); try assumption.
  rewrite secs_app, secs_cons, <- !app_assoc. reflexivity.
Qed.

Lemma allclose_refl : forall l, np_allclose l l = true.
Proof.
  induction l as [| x l IH]; [reflexivity |]. cbn. rewrite IH, andb_true_r. unfold np_close. apply Z.leb_le.
  replace (x - x) with 0 by lia. assert (Q := Z.abs_nonneg x). cbn [Z.abs]. lia.
Qed.

Lemma last_boco_nonneg (bs : dict string (mark Z)) : 0 <= last_boco bs.
Proof.
  unfold last_boco. set (g := fun (m : Z) '((_, b) : string * mark Z) => match mk_index b with Some (ILrange _ hi) => Z.max m hi | _ => m end).
  change (0 <= fold_left g bs 0).
  assert (G : forall l a, 0 <= a -> 0 <= fold_left g l a).
  { induction l as [| (k, b) l IH]; intros a A; [exact A |]. cbn [fold_left]. apply IH. unfold g. destruct (mk_index b) as [[] |]; lia. }
  apply G. lia.
Qed.

(** Payloads have the announced sizes. *)
Definition sized (s : section) : Prop := Forall (fun '(_, n, vals) => zlen vals = Z.max 0 n) (snd s).
Lemma wrote_sized o s sf : wrote o s sf -> sized s.
Proof.
  intros (_ & _ & _ & ps & MP & _). unfold sized. revert ps MP. generalize (snd s).
  induction l as [| ((c, n), vals) l IH]; intros ps MP; [constructor |]. cbn [mapM] in MP.
  apply bind_ok in MP; destruct MP as (p & W & MP). apply bind_ok in MP; destruct MP as (ps' & MP & _).
  constructor; [| eapply IH; exact MP]. apply binary_write_ok in W. apply W.
Qed.
Lemma wrote_sized_all o ss fs : Forall2 (wrote o) ss fs -> Forall sized ss.
Proof. induction 1; constructor; [eapply wrote_sized; eassumption | assumption]. Qed.

Section Round.
  Context (i2d : Z -> Z) (f2i : Z -> res Z).

  Definition exp_sim {w} (c : converted i2d f2i w) : dict string sval := fold_left place_info (tl (info_secs c)) sim0.
  Definition cells0 : dataset := DS "instant" "cellaverage" 1 [] [].
  Definition nodes0 : dataset := DS "instant" "nodal" 1 [] [].
  Definition exp_vars (v : version) (w : wstate) : vars :=
    let vn := version_number v in
    fold_left (place_tensor vn (w_cv w)) (celltens_secs i2d v w)
      (fold_left (place_vector vn (w_no w) (w_fa w) (w_cv w)) (nodevec_secs i2d w ++ cellvec_secs i2d v w)
         (fold_left (place_scalar vn (w_no w) (w_fa w)) (node_secs i2d v w ++ cell_secs i2d v w) (cells0, nodes0))).
  Definition expected (o : order) (v : version) (ls : list (list Z)) {w} (c : converted i2d f2i w) : rstate :=
    RS o (version_number v) (w_no w) (w_fa w) (w_cv w) (zlen (w_noofa w)) (csr_make ls) (m_rows (c_f2e c))
       (List.map mark_back (w_bocos w) ++ [int_mark (last_boco (w_bocos w) + 1) (w_fa w - 1)])
       (c_npart c) (Some (c_icv c)) (w_coords w) (exp_sim c) (fst (exp_vars v w)) (snd (exp_vars v w)).

  (** Data on faces, which the writers do not write. *)
  Definition face_sec (w : wstate) (s : section) : Prop :=
    ~ deof (h_name (fst s)) /\ sec_wf s /\ idata (fst s) 0 = w_fa w /\
    ((h_id (fst s) = FA_D1 /\ snd s = [(Cd, w_fa w, sec_vals s)]) \/ (h_id (fst s) = FA_D3 /\ snd s = [(Cd, w_fa w * 3, sec_vals s)])).

  Section File.
    Context (v : version) (o : order) (w : wstate) (ls : list (list Z)) (f : list Z) (c : converted i2d f2i w).
    Context (m : list Z) (fs : list fsec) (xs : list section) (fx : list fsec) (e : fsec) (rest tail : list Z).
    Hypothesis T : w_typed i2d w.
    Hypothesis R : sound v w ls.
    Hypothesis M : zlen m = 8.
    Hypothesis RH : read_restart_header f = Ok (o, version_number v).
    Hypothesis F : Forall2 (wrote o) (body_secs i2d f2i v c) fs.
    (** the sections are followed by sections of data on faces, then by a section where the searches stop *)
    Hypothesis FX : Forall2 (wrote o) xs fx.
    Hypothesis XS : Forall (face_sec w) xs.
    Hypothesis XN : xs = [] \/ w_fa w <> w_no w.
    Hypothesis OE : fsec_ok o e.
    Hypothesis SE : stops e.
    Hypothesis ET : tail = secs_bytes fx ++ fsec_all e ++ rest.
    Hypothesis EF : f = m ++ secs_bytes fs ++ tail.
    Hypothesis WF : Forall sec_wf (body_secs i2d f2i v c).

    Lemma EF' : f = m ++ secs_bytes fs ++ secs_bytes fx ++ fsec_all e ++ rest.
    Proof. rewrite <- ET. exact EF. Qed.
    Lemma body_wf s : In s (body_secs i2d f2i v c) -> sec_wf s.
    Proof. rewrite Forall_forall in WF. apply WF. Qed.

    Lemma fl : zlen ls = w_fa w.
    Proof.
      assert (I : In (noofa_sec w) (body_secs i2d f2i v c)).
      { unfold body_secs. right. apply in_or_app. right. left. reflexivity. }
      assert (Q : forall s l, Forall2 (wrote o) l fs -> In s l -> exists sf, wrote o s sf).
      { clear. intros s l F. induction F as [| a b l l' W F0 IH]; intros I; [destruct I |].
        destruct I as [<- | I]; [eauto | apply IH; assumption]. }
      destruct (Q _ _ F I) as (sf & _ & _ & _ & ps & MP & _). cbn [noofa_sec snd mapM] in MP.
      apply bind_ok in MP; destruct MP as (p & W & _). apply binary_write_ok in W. destruct W as (W & _).
      rewrite (rd_nno _ _ _ R), zlen_map in W. assert (Q2 := rd_fa _ _ _ R). lia.
    Qed.

    Lemma faces_plain : Forall (fun s => ~ deof (h_name (fst s)) /\ h_id (fst s) <> EOF) xs.
    Proof. eapply Forall_impl; [| exact XS]. intros s (D & _ & _ & [(-> & _) | (-> & _)]); split; [exact D | discriminate | exact D | discriminate]. Qed.
    Lemma faces_scalar s : face_sec w s -> In (h_id (fst s)) scalar_ids -> fit_scalar (version_number v) (w_no w) (w_fa w) (w_cv w) s.
    Proof.
      intros (_ & W & I & [(E & L) | (E & L)]) J; [| rewrite E in J; apply zmem_in in J; discriminate J].
      split; [exact W |]. exists (w_fa w). rewrite E. split; [| exact L]. split; [apply (rd_fa _ _ _ R) |]. rewrite I, Z.eqb_refl.
      destruct (w_fa w =? w_no w) eqn:Q; [apply Z.eqb_eq; exact Q | reflexivity].
    Qed.
    Lemma faces_vector s : face_sec w s -> In (h_id (fst s)) vector_ids -> fit_vector (version_number v) (w_no w) (w_fa w) (w_cv w) s.
    Proof.
      intros (_ & W & I & [(E & L) | (E & L)]) J; [rewrite E in J; apply zmem_in in J; discriminate J |].
      split; [exact W |]. exists (w_fa w). split; [| exact L]. split; [apply (rd_fa _ _ _ R) |]. rewrite I, Z.eqb_refl.
      destruct (w_fa w =? w_no w) eqn:Q; [apply Z.eqb_eq; exact Q | reflexivity].
    Qed.
    Lemma faces_nothing {S} (pure : S -> section -> S) ids st : (forall s st, In s xs -> In (h_id (fst s)) ids -> pure st s = st) ->
      fold_left pure (filter (fun s : section => zmem (h_id (fst s)) ids) xs) st = st.
    Proof.
      intros H. clear FX XS XN. induction xs as [| s l IH]; [reflexivity |]. cbn [filter]. destruct (zmem (h_id (fst s)) ids) eqn:E.
      - cbn [fold_left]. rewrite H; [apply IH; intros; apply H; [right; assumption | assumption] | left; reflexivity | apply zmem_in; exact E].
      - apply IH. intros; apply H; [right; assumption | assumption].
    Qed.

    (** A prefix of the body is passed. *)
    Definition front (n : nat) : list section := firstn n (body_secs i2d f2i v c).
    Lemma split_passed ids ss1 s ss2 : body_secs i2d f2i v c = ss1 ++ s :: ss2 ->
      Forall (sec_is (fun _ id => ~ In id ids)) ss1 -> Forall (spassed ids) ss1.
    Proof.
      intros E N. assert (P := body_plain i2d f2i v w c (rd_names _ _ _ R)). rewrite E in P. apply Forall_app in P. destruct P as (P & _).
      rewrite Forall_forall in *. intros x X. destruct (P x X) as (P1 & P2). split; [exact P1 | split; [exact P2 |]]. apply (N x X).
    Qed.
    Lemma plain_deof ss1 s ss2 : body_secs i2d f2i v c = ss1 ++ s :: ss2 -> ~ deof (h_name (fst s)).
    Proof.
      intros E. assert (P := body_plain i2d f2i v w c (rd_names _ _ _ R)). rewrite E in P. apply Forall_app in P. destruct P as (_ & P).
      inversion P as [| ? ? (P1 & _) _]; subst. exact P1.
    Qed.
    Lemma req ids ss1 s ss2 : body_secs i2d f2i v c = ss1 ++ s :: ss2 ->
      Forall (sec_is (fun _ id => ~ In id ids)) ss1 -> In (h_id (fst s)) ids ->
      exists pre sf fs2, f = pre ++ fsec_all sf ++ (secs_bytes fs2 ++ tail) /\ wrote o s sf /\ sec_wf s /\ Forall2 (wrote o) ss2 fs2 /\
        find_var f o ids = Ok (Some (cut_header (fst s)), zlen pre + 256) /\
        find_req f o ids = Ok (cut_header (fst s), zlen pre + 256).
    Proof.
      intros E N I. assert (F' := F). rewrite E in F'.
      destruct (req_body o ids f m ss1 s ss2 fs tail M F' EF) as (pre & sf & fs2 & A1 & A2 & A3 & A4 & A5).
      - eapply split_passed; eassumption.
      - eapply plain_deof; exact E.
      - exact I.
      - exists pre, sf, fs2. split; [exact A1 |]. split; [exact A2 |]. split; [| split; [exact A3 | split; assumption]].
        apply body_wf. rewrite E. apply in_or_app. right. left. reflexivity.
    Qed.

    (** Ids that are not in a list, decided. *)
    Lemma not_in i ids : zmem i ids = false -> ~ In i ids.
    Proof. intros A B. apply zmem_in in B. congruence. Qed.
    Ltac no_ids := repeat (constructor; [apply not_in; reflexivity |]); try constructor.

    Lemma zones_not ids : zmem FA_ZONE ids = false -> Forall (sec_is (fun _ id => ~ In id ids)) (c_zones c).
    Proof. intros N. apply zones_is. intros. apply not_in. exact N. Qed.
    Lemma checks_not ids : zmem NO_CHECK ids = false -> zmem FA_CHECK ids = false -> zmem CV_CHECK ids = false ->
      Forall (sec_is (fun _ id => ~ In id ids)) (check_secs v w).
    Proof. intros. destruct v; cbn [check_secs]; repeat (constructor; [apply not_in; assumption |]); constructor. Qed.

    Lemma got_counts : exists p, find_req f o [COUNTS] = Ok (cut_header (fst (counts_sec w)), p).
    Proof.
      destruct (req [COUNTS] [] (counts_sec w) _ eq_refl) as (pre & sf & fs2 & _ & _ & _ & _ & _ & Q); [constructor | left; reflexivity |].
      eexists; exact Q.
    Qed.

    Lemma zrange_nonneg_ok name id n pre post sf : check_sec name id n = check_sec name id n -> 0 <= n -> sec_wf (check_sec name id n) ->
      wrote o (check_sec name id n) sf -> f = pre ++ fsec_all sf ++ post -> check_list f o n (zlen pre + 256) = Ok tt.
    Proof.
      intros _ N WFs W E. unfold check_list. rewrite E.
      destruct (read_load1 o (check_sec name id n) sf pre post Ci n (zrange 0 n) WFs W eq_refl N) as (Q & _).
      rewrite Q. cbn [bind or_err]. rewrite allclose_refl. reflexivity.
    Qed.
    Lemma integrity_ok : check_integrity f o (w_no w) (w_fa w) (w_cv w) = Ok tt.
    Proof.
      assert (NO := rd_no _ _ _ R). assert (FA := rd_fa _ _ _ R). assert (CV := rd_cv _ _ _ R).
      unfold check_integrity. remember v as v' eqn:EV in |- *. destruct v'.
      - destruct (req [NO_CHECK] [counts_sec w] (check_sec "NO_CHECK" NO_CHECK (w_no w))
          (skipn 2 (body_secs i2d f2i v c))) as (p1 & s1 & r1 & E1 & W1 & F1 & _ & V1 & _).
        { rewrite <- EV. reflexivity. } { no_ids. } { left; reflexivity. }
        rewrite V1. cbn [bind]. change (idata (cut_header (fst (check_sec "NO_CHECK" NO_CHECK (w_no w)))) 0) with (w_no w).
        rewrite Z.eqb_refl. cbn [assertb bind].
        rewrite (zrange_nonneg_ok "NO_CHECK" NO_CHECK (w_no w) _ _ _ eq_refl ltac:(lia) F1 W1 E1). cbn [bind].
        destruct (req [FA_CHECK] [counts_sec w; check_sec "NO_CHECK" NO_CHECK (w_no w)] (check_sec "FA_CHECK" FA_CHECK (w_fa w))
          (skipn 3 (body_secs i2d f2i v c))) as (p2 & s2 & r2 & E2 & W2 & F2 & _ & _ & V2).
        { rewrite <- EV. reflexivity. } { no_ids. } { left; reflexivity. }
        rewrite V2. cbn [bind]. rewrite (zrange_nonneg_ok "FA_CHECK" FA_CHECK (w_fa w) _ _ _ eq_refl ltac:(lia) F2 W2 E2). cbn [bind].
        destruct (req [CV_CHECK] [counts_sec w; check_sec "NO_CHECK" NO_CHECK (w_no w); check_sec "FA_CHECK" FA_CHECK (w_fa w)] (check_sec "CV_CHECK" CV_CHECK (w_cv w))
          (skipn 4 (body_secs i2d f2i v c))) as (p3 & s3 & r3 & E3 & W3 & F3 & _ & _ & V3).
        { rewrite <- EV. reflexivity. } { no_ids. } { left; reflexivity. }
        rewrite V3. cbn [bind]. change (idata (cut_header (fst (check_sec "CV_CHECK" CV_CHECK (w_cv w)))) 0) with (w_cv w).
        rewrite Z.eqb_refl. cbn [assertb bind]. apply (zrange_nonneg_ok "CV_CHECK" CV_CHECK (w_cv w) _ _ _ eq_refl ltac:(lia) F3 W3 E3).
      - destruct (none_secs o [NO_CHECK] f m (body_secs i2d f2i v c ++ xs) (fs ++ fx) e rest M (Forall2_app F FX) OE SE) as (p & Q).
        + rewrite secs_app, <- app_assoc, <- ET. exact EF.
        + assert (B : Forall (sec_is (fun _ id => ~ In id [NO_CHECK])) (body_secs i2d f2i v c)).
          { rewrite <- EV. change (body_secs i2d f2i V3 c) with ([counts_sec w] ++ [noofa_sec w; cvofa_sec w (c_f2e c)] ++ c_zones c
              ++ [int_sec w; part_sec w (c_npart c) (c_icv c); xno_sec w] ++ info_secs c ++ var_secs i2d V3 w).
            apply Forall_app. split; [no_ids |]. apply Forall_app. split; [no_ids |]. apply Forall_app. split; [apply zones_not; reflexivity |].
            apply Forall_app. split; [no_ids |]. apply Forall_app. split.
            - unfold info_secs. apply Forall_app. split; [no_ids |]. apply wgts_is. intros; apply not_in; reflexivity.
            - unfold var_secs, node_secs, nodevec_secs, cell_secs, cellvec_secs, celltens_secs.
              repeat (apply Forall_app; split); apply data_secs_is; intros; try apply scalar_sec_is; apply not_in; reflexivity. }
          assert (P := body_plain i2d f2i v w c (rd_names _ _ _ R)). apply Forall_app. split.
          * apply Forall_forall. intros x X. rewrite Forall_forall in P, B. destruct (P x X) as (P1 & P2).
            split; [exact P1 | split; [exact P2 | apply (B x X)]].
          * eapply Forall_impl; [| exact XS]. intros s (D & _ & _ & [(E & _) | (E & _)]); (split; [exact D |]; rewrite E; split; [discriminate | apply not_in; reflexivity]).
        + apply not_in. reflexivity.
        + rewrite Q. reflexivity.
    Qed.

    Lemma got_noofa : read_noofa f o (w_fa w) (zlen (w_noofa w)) = Ok (csr_make ls).
    Proof.
      assert (FA := rd_fa _ _ _ R). assert (L := fl).
      destruct (req [NOOFA] (counts_sec w :: check_secs v w) (noofa_sec w)
        ([cvofa_sec w (c_f2e c)] ++ c_zones c ++ [int_sec w; part_sec w (c_npart c) (c_icv c); xno_sec w] ++ info_secs c ++ var_secs i2d v w))
        as (pre & sf & fs2 & E & W & WFs & _ & _ & Q).
      { reflexivity. } { constructor; [apply not_in; reflexivity | apply checks_not; reflexivity]. } { left; reflexivity. }
      unfold read_noofa. rewrite Q. cbn [bind].
      change (idata (cut_header (fst (noofa_sec w))) 0) with (w_fa w). change (idata (cut_header (fst (noofa_sec w))) 1) with (zlen (w_noofa w)).
      rewrite !Z.eqb_refl. cbn [assertb bind].
      assert (Q1 := read_load o (noofa_sec w) sf pre (secs_bytes fs2 ++ tail) [] Ci (w_fa w) (w_nno w) [(Ci, zlen (w_noofa w), w_noofa w)] WFs W eq_refl ltac:(lia)).
      change (load_size []) with 0 in Q1. rewrite Z.add_0_r in Q1. rewrite <- E in Q1. rewrite Q1. cbn [bind or_err].
      assert (Q2 := read_load o (noofa_sec w) sf pre (secs_bytes fs2 ++ tail) [(Ci, w_fa w, w_nno w)] Ci (zlen (w_noofa w)) (w_noofa w) [] WFs W eq_refl (zlen_nonneg _)).
      rewrite <- E in Q2. replace (load_size [(Ci, w_fa w, w_nno w)]) with (Z.of_nat (code_size Ci) * w_fa w) in Q2.
      2: { unfold load_size. cbn [List.map zsum fold_right]. rewrite Z.max_r by lia. lia. }
      destruct (@exists_last _ ls) as (ls' & r & EL).
      { intros ->. rewrite zlen_nil in L. lia. }
      rewrite (rd_nno _ _ _ R), (rd_noofa _ _ _ R).
      assert (LN : zlen (0 :: np_cumsum (List.map zlen ls)) = zlen ls + 1).
      { rewrite zlen_cons. unfold np_cumsum, zlen. rewrite cumsum_len, map_length. reflexivity. }
      assert (G1 : py_get (0 :: np_cumsum (List.map zlen ls)) (-2) = Ok (zlen (List.concat ls'))).
      { unfold np_cumsum. unfold py_get. unfold np_cumsum in LN. rewrite LN. change (-2 <? 0) with true. cbv iota.
        replace (-2 + (zlen ls + 1)) with (Z.of_nat (List.length ls')).
        2: { rewrite EL. rewrite zlen_app. unfold zlen. cbn [List.length]. lia. }
        replace (Z.of_nat (List.length ls') <? 0) with false by (symmetry; apply Z.ltb_ge; lia).
        rewrite Nat2Z.id, cumsum_nth by (rewrite EL, app_length; cbn; lia).
        rewrite EL, firstn_app, Nat.sub_diag, firstn_O, app_nil_r, firstn_all, Z.add_0_l. reflexivity. }
      rewrite G1. cbn [bind].
      assert (G2 : py_get (List.map zlen ls) (-1) = Ok (zlen r)).
      { rewrite EL, map_app. cbn [List.map]. apply py_get_last. }
      rewrite G2. cbn [bind].
      replace (zlen (List.concat ls') =? zlen (List.concat ls) - zlen r) with true.
      2: { symmetry. apply Z.eqb_eq. rewrite EL, concat_app. cbn [List.concat]. rewrite app_nil_r, zlen_app. lia. }
      cbn [assertb bind]. rewrite (rd_noofa _ _ _ R) in Q2. rewrite Q2. cbn [bind or_err].
      unfold csr_check. cbn [z_index z_value].
      change (py_get (0 :: np_cumsum (List.map zlen ls)) 0) with (@Ok Z 0). cbn [bind]. change (0 =? 0) with true. cbn [assertb bind].
      assert (MX : py_max (0 :: np_cumsum (List.map zlen ls)) = Ok (zlen (List.concat ls))).
      { apply py_max_ok. split.
        - apply (nth_error_In _ (List.length ls)). unfold np_cumsum. rewrite cumsum_nth by lia. rewrite firstn_all. f_equal; lia.
        - intros y Y. apply In_nth_error in Y. destruct Y as (k & Y).
          assert (K : (k <= List.length ls)%nat).
          { assert (KL : (k < List.length (0%Z :: np_cumsum (List.map zlen ls)))%nat) by (apply nth_error_Some; congruence).
            unfold np_cumsum in KL. cbn [List.length] in KL. rewrite cumsum_len, map_length in KL. lia. }
          unfold np_cumsum in Y. rewrite cumsum_nth in Y by exact K. inversion Y.
          rewrite <- (firstn_skipn k ls) at 2. rewrite concat_app, zlen_app. assert (Q3 := zlen_nonneg (List.concat (skipn k ls))). lia. }
      rewrite MX. cbn [bind]. rewrite Z.eqb_refl. reflexivity.
    Qed.

    (** The cell numbers are read, then checked. *)
    Lemma got_cvofa_gen k : top_cell w k -> exists pre fz fi post,
      read_cvofa f o (w_fa w) (w_cv w) =
        (if k =? w_cv w - 1 then Ok (m_rows (c_f2e c), zlen pre) else Err AssertionError) /\
      f = pre ++ secs_bytes fz ++ fsec_all fi ++ post /\ Forall2 (wrote o) (c_zones c) fz /\ wrote o (int_sec w) fi.
    Proof.
      intros TOP. assert (FA := rd_fa _ _ _ R).
      assert (R2 := rd_f2e _ _ _ R (c_f2e c) (c_f2e_ok _ _ _ c)). assert (MX := TOP (c_f2e c) (c_f2e_ok _ _ _ c)).
      destruct (req [CVOFA] (counts_sec w :: check_secs v w ++ [noofa_sec w]) (cvofa_sec w (c_f2e c))
        (c_zones c ++ [int_sec w; part_sec w (c_npart c) (c_icv c); xno_sec w] ++ info_secs c ++ var_secs i2d v w))
        as (pre & sf & fs2 & E & W & WFs & F2 & _ & Q).
      { unfold body_secs. cbn [app]. rewrite <- app_assoc. reflexivity. }
      { constructor; [apply not_in; reflexivity |]. apply Forall_app. split; [apply checks_not; reflexivity | no_ids]. }
      { left; reflexivity. }
      apply Forall2_app_inv_l in F2. destruct F2 as (fz & fr & FZ & F2 & ->).
      cbn [app] in F2. inversion F2 as [| ? fi ? fr' WI F3]; subst fr.
      exists (pre ++ fsec_all sf), fz, fi, (secs_bytes fr' ++ tail). split; [| split; [| split; assumption]].
      - unfold read_cvofa. rewrite Q. cbn [bind].
        change (idata (cut_header (fst (cvofa_sec w (c_f2e c)))) 0) with (w_fa w). change (idata (cut_header (fst (cvofa_sec w (c_f2e c)))) 1) with 2.
        rewrite !Z.eqb_refl. cbn [assertb bind]. rewrite E.
        destruct (read_load1 o (cvofa_sec w (c_f2e c)) sf pre (secs_bytes (fz ++ fi :: fr') ++ tail) Ci (w_fa w * 2) _ WFs W eq_refl ltac:(lia)) as (Q1 & _).
        rewrite Q1. cbn [bind or_err]. rewrite MX. cbn [bind].
        destruct (k =? w_cv w - 1) eqn:K.
        + apply Z.eqb_eq in K. replace (k <? w_cv w) with true by (symmetry; apply Z.ltb_lt; lia). cbn [assertb bind].
          unfold rows_of. rewrite chunks_concat by (lia || assumption). reflexivity.
        + destruct (k <? w_cv w); reflexivity.
      - rewrite E, secs_app, secs_cons, <- !app_assoc. reflexivity.
    Qed.

    (** Other cell numbers are refused. *)
    Lemma read_refused k integrity : top_cell w k -> k <> w_cv w - 1 -> read_data integrity f = Err AssertionError.
    Proof.
      intros TOP NE. unfold read_data. rewrite RH. cbn [bind]. destruct got_counts as (p & ->). cbn [bind].
      change (idata (cut_header (fst (counts_sec w))) 0) with (w_no w). change (idata (cut_header (fst (counts_sec w))) 1) with (w_fa w).
      change (idata (cut_header (fst (counts_sec w))) 2) with (w_cv w). change (idata (cut_header (fst (counts_sec w))) 3) with (zlen (w_noofa w)).
      replace (if integrity then check_integrity f o (w_no w) (w_fa w) (w_cv w) else Ok tt) with (@Ok unit tt) by (destruct integrity; [rewrite integrity_ok |]; reflexivity).
      cbn [bind]. rewrite got_noofa. cbn [bind]. destruct (got_cvofa_gen k TOP) as (pre & fz & fi & post & Q & _). rewrite Q.
      apply Z.eqb_neq in NE. rewrite NE. reflexivity.
    Qed.

    Hypothesis TOP : top_cell w (w_cv w - 1).
    Lemma got_cvofa : exists pre fz fi post, read_cvofa f o (w_fa w) (w_cv w) = Ok (m_rows (c_f2e c), zlen pre) /\
      f = pre ++ secs_bytes fz ++ fsec_all fi ++ post /\ Forall2 (wrote o) (c_zones c) fz /\ wrote o (int_sec w) fi.
    Proof. destruct (got_cvofa_gen _ TOP) as (pre & fz & fi & post & Q & H). rewrite Z.eqb_refl in Q. exists pre, fz, fi, post. auto. Qed.

    Lemma got_zones pre fz fi post : f = pre ++ secs_bytes fz ++ fsec_all fi ++ post ->
      Forall2 (wrote o) (c_zones c) fz -> wrote o (int_sec w) fi ->
      read_zones (fuel_of f) f o (csr_make ls) (zlen pre) =
      Ok (List.map mark_back (w_bocos w) ++ [int_mark (last_boco (w_bocos w) + 1) (w_fa w - 1)]).
    Proof.
      intros E FZ WI. assert (L := fl).
      assert (LZ : zlen (z_index (csr_make ls)) = w_fa w + 1).
      { unfold csr_make. cbn [z_index]. rewrite zlen_cons. unfold np_cumsum, zlen. rewrite cumsum_len, map_length. unfold zlen in L. lia. }
      assert (LB := last_boco_nonneg (w_bocos w)).
      assert (LL := rd_last _ _ _ R).
      destruct (py_get_total (z_index (csr_make ls)) (last_boco (w_bocos w) + 1)) as (x & X); [lia |].
      eapply (read_zones_back o (csr_make ls) f (w_bocos w) (c_zones c) fz (c_zones_ok _ _ _ c) FZ (int_sec w) fi pre post (fuel_of f) _ _ x E WI eq_refl X).
      - assert (D := rd_names _ _ _ R). assert (ZN := rd_zones _ _ _ R). rewrite Forall_forall in *.
        intros (key, b) I. split; [| split].
        + apply D. unfold user_names. apply in_or_app. left. apply in_map_iff. exists (key, b). auto.
        + apply (ZN _ I).
        + intros l h IL. destruct (ZN _ I) as (_ & ZN2). specialize (ZN2 l h IL). apply py_get_total. lia.
      - rewrite (Forall2_length' _ _ _ (c_zones_ok _ _ _ c)), (Forall2_length' _ _ _ FZ).
        assert (Q := secs_len o fz (wrote_ok _ _ _ FZ)). unfold fuel_of. rewrite E, !app_length. lia.
    Qed.

    Lemma got_part : read_part f o (w_cv w) = Ok (c_npart c, Some (c_icv c)).
    Proof.
      assert (CV := rd_cv _ _ _ R).
      destruct (req [CV_PART] (counts_sec w :: check_secs v w ++ [noofa_sec w; cvofa_sec w (c_f2e c)] ++ c_zones c ++ [int_sec w])
        (part_sec w (c_npart c) (c_icv c)) ([xno_sec w] ++ info_secs c ++ var_secs i2d v w)) as (pre & sf & fs2 & E & W & WFs & F2 & _ & Q).
      { unfold body_secs. cbn [app]. f_equal. rewrite <- !app_assoc. cbn [app]. rewrite <- !app_assoc. reflexivity. }
      { constructor; [apply not_in; reflexivity |]. apply Forall_app. split; [apply checks_not; reflexivity |].
        apply Forall_app. split; [no_ids |]. apply Forall_app. split; [apply zones_not; reflexivity | no_ids]. }
      { left; reflexivity. }
      unfold read_part. rewrite Q. cbn [bind]. rewrite E.
      destruct (read_load1 o _ sf pre (secs_bytes fs2 ++ tail) Ci (w_cv w) (c_icv c) WFs W eq_refl ltac:(lia)) as (Q1 & _).
      rewrite Q1. reflexivity.
    Qed.
    Lemma got_coords : read_coords f o (w_no w) = Ok (w_coords w).
    Proof.
      assert (NO := rd_no _ _ _ R).
      destruct (req [X_NO] (counts_sec w :: check_secs v w ++ [noofa_sec w; cvofa_sec w (c_f2e c)] ++ c_zones c ++ [int_sec w; part_sec w (c_npart c) (c_icv c)])
        (xno_sec w) (info_secs c ++ var_secs i2d v w)) as (pre & sf & fs2 & E & W & WFs & F2 & _ & Q).
      { unfold body_secs. cbn [app]. f_equal. rewrite <- !app_assoc. cbn [app]. rewrite <- !app_assoc. reflexivity. }
      { constructor; [apply not_in; reflexivity |]. apply Forall_app. split; [apply checks_not; reflexivity |].
        apply Forall_app. split; [no_ids |]. apply Forall_app. split; [apply zones_not; reflexivity | no_ids]. }
      { left; reflexivity. }
      unfold read_coords. rewrite Q. cbn [bind].
      change (idata (cut_header (fst (xno_sec w))) 0) with (w_no w). change (idata (cut_header (fst (xno_sec w))) 1) with 3.
      rewrite !Z.eqb_refl. cbn [assertb bind]. rewrite E.
      destruct (read_load1 o _ sf pre (secs_bytes fs2 ++ tail) Cd (w_no w * 3) (List.concat (w_coords w)) WFs W eq_refl ltac:(lia)) as (Q1 & _).
      rewrite Q1. cbn [bind or_err]. unfold rows_of. rewrite chunks_concat; [reflexivity | lia | apply (rd_coords _ _ _ R)].
    Qed.

    Lemma got_info : read_info f o = Ok (exp_sim c).
    Proof.
      unfold read_info. rewrite (loop_body i2d f2i o [I0; D0] info_step place_info v w c m fs xs fx e rest f sim0 M F FX faces_plain OE SE EF' (rd_names _ _ _ R)).
      - rewrite info_ids. f_equal. apply faces_nothing. intros s st I J. rewrite Forall_forall in XS.
        destruct (XS s I) as (_ & _ & _ & [(E & _) | (E & _)]); rewrite E in J; apply zmem_in in J; discriminate J.
      - apply not_in. reflexivity.
      - eapply Forall_impl; [| apply (info_no_load i2d f2i v w c)]. intros s H I. apply info_exact. apply H. exact I.
      - eapply Forall_impl; [| exact XS]. intros s (_ & _ & _ & [(E & _) | (E & _)]) J; rewrite E in J; apply zmem_in in J; discriminate J.
    Qed.

    Lemma tot_pos : 1 <= w_tot v w.
    Proof.
      assert (CV := rd_cv _ _ _ R). assert (ND := rd_ndof _ _ _ R). unfold w_tot. destruct v; [exact CV |].
      replace 1 with (1 * 1) by reflexivity. apply Z.mul_le_mono_nonneg; lia.
    Qed.
    Lemma tot_ndof n : n = match v with V2 => n | V3 => w_ndof w end -> w_tot v w = ndof_num (version_number v) n * w_cv w.
    Proof.
      intros E. assert (ND := rd_ndof _ _ _ R). unfold w_tot, ndof_num. destruct v; cbn [version_number].
      - change (2 <? 3) with true. cbv iota. lia.
      - change (3 <? 3) with false. cbv iota. rewrite E. replace (w_ndof w =? 0) with false by (symmetry; apply Z.eqb_neq; lia). reflexivity.
    Qed.
    Lemma cell_items (x : string * array) s n : In x (fd_items (w_cells w)) -> idata (fst s) 0 = w_cv w -> idata (fst s) 1 = n -> n = match v with V2 => n | V3 => w_ndof w end ->
      items (version_number v) (w_no w) (w_fa w) (w_cv w) s (w_tot v w).
    Proof.
      intros IX I0 I1 N. split; [apply tot_pos |]. rewrite I0, I1.
      destruct (w_cv w =? w_no w) eqn:E1; [| destruct (w_cv w =? w_fa w) eqn:E2].
      - apply Z.eqb_eq in E1. destruct (rd_loc _ _ _ R) as [A | [(A & _) | A]]; [rewrite A in IX; destruct IX | congruence | congruence].
      - apply Z.eqb_eq in E2. destruct (rd_loc _ _ _ R) as [A | [(_ & A) | A]]; [rewrite A in IX; destruct IX | congruence | congruence].
      - split; [reflexivity | apply tot_ndof; exact N].
    Qed.
    Lemma node_items s : idata (fst s) 0 = w_no w -> items (version_number v) (w_no w) (w_fa w) (w_cv w) s (w_no w).
    Proof. intros I0. split; [apply (rd_no _ _ _ R) |]. rewrite I0, Z.eqb_refl. reflexivity. Qed.

    Lemma scalar_sec_form id_d id_q l n name a : code_of id_d = Cd -> code_of id_q = Cq ->
      exists vals, snd (scalar_sec i2d id_d id_q v l n name a) = [(code_of (h_id (fst (scalar_sec i2d id_d id_q v l n name a))), n, vals)].
    Proof.
      intros D Q. unfold scalar_sec. destruct (match v with V2 => false | V3 => a_int a end); eexists; cbn [sec1 snd fst hdr8 h_id]; rewrite ?D, ?Q; reflexivity.
    Qed.
    Lemma scalar_sec_idata id_d id_q l n name a k : idata (fst (scalar_sec i2d id_d id_q v l n name a)) k = nth k (l ++ repeat 0 (8 - List.length l)) 0.
    Proof. unfold scalar_sec. destruct (match v with V2 => false | V3 => a_int a end); reflexivity. Qed.

    Lemma scalars_fit : Forall (fun s => In (h_id (fst s)) scalar_ids -> fit_scalar (version_number v) (w_no w) (w_fa w) (w_cv w) s) (body_secs i2d f2i v c).
    Proof.
      assert (G : Forall (fit_scalar (version_number v) (w_no w) (w_fa w) (w_cv w)) (filter (fun s : section => zmem (h_id (fst s)) scalar_ids) (body_secs i2d f2i v c))).
      { assert (SUB : forall s, In s (filter (fun s : section => zmem (h_id (fst s)) scalar_ids) (body_secs i2d f2i v c)) -> sec_wf s).
        { intros s I. apply filter_In in I. apply body_wf. apply I. }
        rewrite var_ids in * by (intros i I; apply in_or_app; left; exact I). rewrite var_scalar_ids in *.
        apply Forall_forall. intros s I. split; [apply SUB; exact I |]. clear SUB. apply in_app_or in I. destruct I as [I | I].
        - apply in_map_iff in I. destruct I as ((name, a) & <- & _). exists (w_no w). split.
          + apply node_items. rewrite scalar_sec_idata. reflexivity.
          + destruct (scalar_sec_form NO_D1 NO_II1 [w_no w] (w_no w) name a eq_refl eq_refl) as (vals & Q). unfold sec_vals. rewrite Q. reflexivity.
        - apply in_map_iff in I. destruct I as ((name, a) & <- & IX). apply filter_In in IX. exists (w_tot v w). split.
          + eapply cell_items; [apply IX | rewrite scalar_sec_idata; reflexivity | rewrite scalar_sec_idata; reflexivity |].
            unfold second. destruct v; reflexivity.
          + destruct (scalar_sec_form CV_D1 CV_II1 (w_cv w :: second v w) (w_tot v w) name a eq_refl eq_refl) as (vals & Q). unfold sec_vals. rewrite Q. reflexivity. }
      rewrite Forall_forall in *. intros s I J. apply G. apply filter_In. split; [exact I | apply zmem_in; exact J].
    Qed.
    Lemma vectors_fit : Forall (fun s => In (h_id (fst s)) vector_ids -> fit_vector (version_number v) (w_no w) (w_fa w) (w_cv w) s) (body_secs i2d f2i v c).
    Proof.
      assert (G : Forall (fit_vector (version_number v) (w_no w) (w_fa w) (w_cv w)) (filter (fun s : section => zmem (h_id (fst s)) vector_ids) (body_secs i2d f2i v c))).
      { assert (SUB : forall s, In s (filter (fun s : section => zmem (h_id (fst s)) vector_ids) (body_secs i2d f2i v c)) -> sec_wf s).
        { intros s I. apply filter_In in I. apply body_wf. apply I. }
        rewrite var_ids in * by (intros i I; apply in_or_app; right; apply in_or_app; left; exact I). rewrite var_vector_ids in *.
        apply Forall_forall. intros s I. split; [apply SUB; exact I |]. clear SUB. apply in_app_or in I. destruct I as [I | I].
        - apply in_map_iff in I. destruct I as ((name, a) & <- & _). exists (w_no w). split; [apply node_items; reflexivity | reflexivity].
        - apply in_map_iff in I. destruct I as ((name, a) & <- & IX). apply filter_In in IX. exists (w_tot v w). split; [| reflexivity].
          apply (cell_items (name, a) _ (second3 v w)); [apply IX | reflexivity | reflexivity |]. unfold second3. destruct v; reflexivity. }
      rewrite Forall_forall in *. intros s I J. apply G. apply filter_In. split; [exact I | apply zmem_in; exact J].
    Qed.
    Lemma tensors_fit : Forall (fun s => In (h_id (fst s)) [CV_D33] -> fit_tensor (version_number v) (w_cv w) s) (body_secs i2d f2i v c).
    Proof.
      assert (G : Forall (fit_tensor (version_number v) (w_cv w)) (filter (fun s : section => zmem (h_id (fst s)) [CV_D33]) (body_secs i2d f2i v c))).
      { assert (SUB : forall s, In s (filter (fun s : section => zmem (h_id (fst s)) [CV_D33]) (body_secs i2d f2i v c)) -> sec_wf s).
        { intros s I. apply filter_In in I. apply body_wf. apply I. }
        rewrite var_ids in * by (intros i I; apply in_or_app; right; apply in_or_app; right; exact I). rewrite var_tensor_ids in *.
        apply Forall_forall. intros s I. split; [apply SUB; exact I |]. clear SUB.
        apply in_map_iff in I. destruct I as ((name, a) & <- & _). exists (w_tot v w). split; [apply tot_pos |]. split; [reflexivity |]. split; [| reflexivity].
        apply (tot_ndof (second3 v w)). unfold second3. destruct v; reflexivity. }
      rewrite Forall_forall in *. intros s I J. apply G. apply filter_In. split; [exact I | apply zmem_in; exact J].
    Qed.

    Lemma face_scalar_nothing vn s st : In s xs -> In (h_id (fst s)) scalar_ids -> place_scalar vn (w_no w) (w_fa w) st s = st.
    Proof.
      intros I _. rewrite Forall_forall in XS. destruct (XS s I) as (_ & _ & E & _). destruct XN as [-> | N]; [destruct I |].
      unfold place_scalar. destruct st. change (idata (cut_header (fst s)) 0) with (idata (fst s) 0). rewrite E, Z.eqb_refl.
      replace (w_fa w =? w_no w) with false by (symmetry; apply Z.eqb_neq; exact N). reflexivity.
    Qed.
    Lemma face_vector_nothing vn s st : In s xs -> In (h_id (fst s)) vector_ids -> place_vector vn (w_no w) (w_fa w) (w_cv w) st s = st.
    Proof.
      intros I _. rewrite Forall_forall in XS. destruct (XS s I) as (_ & _ & E & _). destruct XN as [-> | N]; [destruct I |].
      unfold place_vector. destruct st. change (idata (cut_header (fst s)) 0) with (idata (fst s) 0). rewrite E, Z.eqb_refl.
      replace (w_fa w =? w_no w) with false by (symmetry; apply Z.eqb_neq; exact N). reflexivity.
    Qed.

    Lemma got_vars : read_vars (version_number v) (w_no w) (w_fa w) (w_cv w) f o (cells0, nodes0) = Ok (exp_vars v w).
    Proof.
      assert (VN : 0 <= version_number v) by (destruct v; cbn; lia).
      unfold read_vars.
      rewrite (loop_body i2d f2i o scalar_ids _ (place_scalar (version_number v) (w_no w) (w_fa w)) v w c m fs xs fx e rest f _ M F FX faces_plain OE SE EF' (rd_names _ _ _ R)).
      2: { apply not_in. reflexivity. }
      2: { eapply Forall_impl; [| exact scalars_fit]. intros s H I. apply scalar_exact; [exact VN | apply H; exact I]. }
      2: { eapply Forall_impl; [| exact XS]. intros s H I. apply scalar_exact; [exact VN | apply faces_scalar; assumption]. }
      rewrite (faces_nothing (place_scalar _ _ _)) by apply face_scalar_nothing.
      cbn [bind].
      rewrite (loop_body i2d f2i o vector_ids _ (place_vector (version_number v) (w_no w) (w_fa w) (w_cv w)) v w c m fs xs fx e rest f _ M F FX faces_plain OE SE EF' (rd_names _ _ _ R)).
      2: { apply not_in. reflexivity. }
      2: { eapply Forall_impl; [| exact vectors_fit]. intros s H I. apply vector_exact; [exact VN | apply H; exact I]. }
      2: { eapply Forall_impl; [| exact XS]. intros s H I. apply vector_exact; [exact VN | apply faces_vector; assumption]. }
      rewrite (faces_nothing (place_vector _ _ _ _)) by apply face_vector_nothing.
      cbn [bind].
      rewrite (loop_body i2d f2i o [CV_D33] _ (place_tensor (version_number v) (w_cv w)) v w c m fs xs fx e rest f _ M F FX faces_plain OE SE EF' (rd_names _ _ _ R)).
      2: { apply not_in. reflexivity. }
      2: { eapply Forall_impl; [| exact tensors_fit]. intros s H I. apply tensor_exact; [exact VN | apply H; exact I]. }
      2: { eapply Forall_impl; [| exact XS]. intros s (_ & _ & _ & [(E & _) | (E & _)]) J; rewrite E in J; apply zmem_in in J; discriminate J. }
      rewrite (faces_nothing (place_tensor _ _)).
      2: { intros s st I J. rewrite Forall_forall in XS. destruct (XS s I) as (_ & _ & _ & [(E & _) | (E & _)]); rewrite E in J; apply zmem_in in J; discriminate J. }
      f_equal. unfold exp_vars.
      rewrite (var_ids i2d f2i v w c scalar_ids) by (intros i I; apply in_or_app; left; exact I).
      rewrite (var_ids i2d f2i v w c vector_ids) by (intros i I; apply in_or_app; right; apply in_or_app; left; exact I).
      rewrite (var_ids i2d f2i v w c [CV_D33]) by (intros i I; apply in_or_app; right; apply in_or_app; right; exact I).
      rewrite var_scalar_ids, var_vector_ids, var_tensor_ids. reflexivity.
    Qed.

    Lemma read_file integrity : read_data integrity f = Ok (expected o v ls c).
    Proof.
      unfold read_data. rewrite RH. cbn [bind]. destruct got_counts as (p & ->). cbn [bind].
      change (idata (cut_header (fst (counts_sec w))) 0) with (w_no w). change (idata (cut_header (fst (counts_sec w))) 1) with (w_fa w).
      change (idata (cut_header (fst (counts_sec w))) 2) with (w_cv w). change (idata (cut_header (fst (counts_sec w))) 3) with (zlen (w_noofa w)).
      replace (if integrity then check_integrity f o (w_no w) (w_fa w) (w_cv w) else Ok tt) with (@Ok unit tt) by (destruct integrity; [rewrite integrity_ok |]; reflexivity).
      cbn [bind]. rewrite got_noofa. cbn [bind]. destruct got_cvofa as (pre & fz & fi & post & -> & E & FZ & WI). cbn [bind].
      rewrite (got_zones pre fz fi post E FZ WI). cbn [bind]. rewrite got_part. cbn [bind]. rewrite got_coords. cbn [bind].
      rewrite got_info. cbn [bind].
      change (new_dataset "cellaverage" 1 "instant") with (@Ok dataset cells0). cbn [bind].
      change (new_dataset "nodal" 1 "instant") with (@Ok dataset nodes0). cbn [bind].
      rewrite got_vars. cbn [bind]. unfold expected. destruct (exp_vars v w) as (cells, nodes). reflexivity.
    Qed.
  End File.

  Lemma read_all v o w ls f : w_typed i2d w -> sound v w ls -> write_data i2d f2i v o w = Ok f ->
    exists c : converted i2d f2i w, Forall sized (body_secs i2d f2i v c) /\
      (top_cell w (w_cv w - 1) -> forall integrity, read_data integrity f = Ok (expected o v ls c)) /\
      (forall k integrity, top_cell w k -> k <> w_cv w - 1 -> read_data integrity f = Err AssertionError).
  Proof.
    intros T R H. destruct (write_data_chain i2d f2i v o w f T H) as (m & ss & fs0 & M & RH & E & F & EF).
    assert (WF : Forall sec_wf ss).
    { apply Forall_forall. intros s I. apply (sections_wf i2d f2i v w s T). rewrite E. apply in_map. exact I. }
    apply (sections_parts i2d f2i v w ss T) in E. destruct E as (c & ->). rewrite all_body in F, WF.
    apply Forall_app in WF. destruct WF as (WF & _).
    apply Forall2_app_inv_l in F. destruct F as (fs1 & fs2 & F1 & F2 & ->).
    inversion F2 as [| ? e ? ? W N]; subst fs2. inversion N; subst.
    exists c. split; [eapply wrote_sized_all; exact F1 |]. destruct (eof_stops o e W) as (OE & SE & _).
    assert (EQ : m ++ secs_bytes (fs1 ++ [e]) = m ++ secs_bytes fs1 ++ (secs_bytes [] ++ fsec_all e ++ [])).
    { change (secs_bytes []) with (@nil Z). cbn [app]. rewrite app_nil_r, secs_app, secs_cons. change (secs_bytes []) with (@nil Z). rewrite app_nil_r. reflexivity. }
    split.
    - intros TOP integrity. eapply (read_file v o w ls _ c m fs1 [] [] e []); eauto.
    - intros k integrity TOP NE. eapply (read_refused v o w ls _ c m fs1 [] [] e []); eauto.
  Qed.
  Theorem read_back v o w ls f : w_typed i2d w -> readable v w ls -> write_data i2d f2i v o w = Ok f ->
    exists c : converted i2d f2i w, Forall sized (body_secs i2d f2i v c) /\
      forall integrity, read_data integrity f = Ok (expected o v ls c).
  Proof. intros T R H. destruct (read_all v o w ls f T R H) as (c & S & Q & _). exists c. split; [exact S |]. apply Q. apply R. Qed.
End Round.
