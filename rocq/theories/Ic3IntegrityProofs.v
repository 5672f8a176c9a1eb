(** * The integrity lists of the files. *)
From Coq Require Import ZArith List Bool String Lia.
From Verif Require Import Py PyFacts Ic3Bytes Ic3BytesProofs Ic3 Ic3HeaderSpec Ic3HeaderProofs Ic3FuelProofs Ic3FileSpec Ic3FileProofs Ic3WriteProofs Ic3PartsProofs Ic3CutProofs Ic3BodyProofs Ic3ReadProofs Ic3VarProofs Ic3RoundProofs Ic3RoundSpec Ic3StopProofs.

Definition list_sec (name : string) (id n : Z) (vals : list Z) : section := sec1 name id [n] Ci n vals.

Lemma list_sec_wf name id n vals : 0 <= n -> sec_wf (list_sec name id n vals).
Proof. intros N. apply sec1_wf; [cbn; lia | exact N | discriminate]. Qed.

Ltac notin := intros X; repeat (destruct X as [X | X]; [discriminate X |]); exact X.
Ltac f2 := repeat (apply Forall2_cons; [assumption |]); apply Forall2_nil.
Ltac spass := repeat (apply Forall_cons; [split; [discriminate | split; [discriminate | notin]] |]); apply Forall_nil.

Lemma integrity_lists o w f m s1 s2 s3 s4 rest l1 l2 l3 : zlen m = 8 -> 0 <= w_no w -> 0 <= w_fa w -> 0 <= w_cv w ->
  wrote o (counts_sec w) s1 -> wrote o (list_sec "NO_CHECK" NO_CHECK (w_no w) l1) s2 -> wrote o (list_sec "FA_CHECK" FA_CHECK (w_fa w) l2) s3 ->
  wrote o (list_sec "CV_CHECK" CV_CHECK (w_cv w) l3) s4 -> f = m ++ fsec_all s1 ++ fsec_all s2 ++ fsec_all s3 ++ fsec_all s4 ++ rest ->
  (exists p, find_req f o [COUNTS] = Ok (cut_header (fst (counts_sec w)), p)) /\
  check_integrity f o (w_no w) (w_fa w) (w_cv w) =
  (_ <- assertb (np_allclose l1 (zrange 0 (w_no w))) ;; _ <- assertb (np_allclose l2 (zrange 0 (w_fa w))) ;; assertb (np_allclose l3 (zrange 0 (w_cv w)))).
Proof.
  intros M NO FA CV W1 W2 W3 W4 E.
  destruct (req_secs o [COUNTS] f m [] [] _ s1 (fsec_all s2 ++ fsec_all s3 ++ fsec_all s4 ++ rest) M ltac:(f2) W1) as (_ & R1);
    [rewrite E; reflexivity | spass | discriminate | left; reflexivity |].
  destruct (req_secs o [NO_CHECK] f m [counts_sec w] [s1] _ s2 (fsec_all s3 ++ fsec_all s4 ++ rest) M ltac:(f2) W2) as (R2 & _);
    [rewrite E, secs_cons; cbn [secs_bytes List.map List.concat]; rewrite app_nil_r; reflexivity | spass | discriminate | left; reflexivity |].
  destruct (req_secs o [FA_CHECK] f m [counts_sec w; list_sec "NO_CHECK" NO_CHECK (w_no w) l1] [s1; s2] _ s3 (fsec_all s4 ++ rest) M ltac:(f2) W3) as (_ & R3);
    [rewrite E, !secs_cons; cbn [secs_bytes List.map List.concat]; rewrite app_nil_r, <- !app_assoc; reflexivity | spass | discriminate | left; reflexivity |].
  destruct (req_secs o [CV_CHECK] f m [counts_sec w; list_sec "NO_CHECK" NO_CHECK (w_no w) l1; list_sec "FA_CHECK" FA_CHECK (w_fa w) l2] [s1; s2; s3] _ s4 rest M ltac:(f2) W4) as (_ & R4);
    [rewrite E, !secs_cons; cbn [secs_bytes List.map List.concat]; rewrite app_nil_r, <- !app_assoc; reflexivity | spass | discriminate | left; reflexivity |].
  split; [eexists; exact R1 |].
  assert (CL : forall name id n l s pre post, 0 <= n -> wrote o (list_sec name id n l) s -> f = pre ++ fsec_all s ++ post ->
    check_list f o n (zlen pre + 256) = assertb (np_allclose l (zrange 0 n))).
  { intros name id n l s pre post N W EF. unfold check_list. rewrite EF.
    destruct (read_load1 o _ s pre post Ci n l (list_sec_wf name id n l N) W eq_refl N) as (Q & _). rewrite Q. reflexivity. }
  unfold check_integrity. rewrite R2. cbn [bind].
  change (idata (cut_header (fst (list_sec "NO_CHECK" NO_CHECK (w_no w) l1))) 0) with (w_no w). rewrite Z.eqb_refl. cbn [assertb bind].
  rewrite (CL "NO_CHECK"%string NO_CHECK (w_no w) l1 s2 _ (fsec_all s3 ++ fsec_all s4 ++ rest) NO W2) by (rewrite E, secs_cons; cbn [secs_bytes List.map List.concat]; rewrite app_nil_r, <- !app_assoc; reflexivity).
  destruct (np_allclose l1 (zrange 0 (w_no w))); cbn [assertb bind]; [| reflexivity].
  rewrite R3. cbn [bind].
  rewrite (CL "FA_CHECK"%string FA_CHECK (w_fa w) l2 s3 _ (fsec_all s4 ++ rest) FA W3) by (rewrite E, !secs_cons; cbn [secs_bytes List.map List.concat]; rewrite app_nil_r, <- !app_assoc; reflexivity).
  destruct (np_allclose l2 (zrange 0 (w_fa w))); cbn [assertb bind]; [| reflexivity].
  rewrite R4. cbn [bind].
  change (idata (cut_header (fst (list_sec "CV_CHECK" CV_CHECK (w_cv w) l3))) 0) with (w_cv w). rewrite Z.eqb_refl. cbn [assertb bind].
  apply (CL "CV_CHECK"%string CV_CHECK (w_cv w) l3 s4 _ rest CV W4). rewrite E, !secs_cons; cbn [secs_bytes List.map List.concat]; rewrite app_nil_r, <- !app_assoc; reflexivity.
Qed.

(** Closeness of the lists. *)
Lemma close_small x k : 0 <= k < 100000 -> np_close x k = true -> x = k.
Proof. intros K H. unfold np_close in H. apply Z.leb_le in H. change (10 ^ 8) with 100000000 in H. change (10 ^ 3) with 1000 in H. lia. Qed.
Lemma allclose_nth : forall a b k x y, np_allclose a b = true -> nth_error a k = Some x -> nth_error b k = Some y -> np_close x y = true.
Proof.
  induction a as [| u a IH]; intros [| v b] k x y H X Y; try discriminate; [destruct k; discriminate |].
  cbn in H. apply andb_true_iff in H. destruct H as (H1 & H2). destruct k as [| k].
  - inversion X; inversion Y; subst. exact H1.
  - exact (IH b k x y H2 X Y).
Qed.
Lemma altered_far vals n k x : nth_error vals k = Some x -> Z.of_nat k < n -> Z.of_nat k < 100000 -> x <> Z.of_nat k -> np_allclose vals (zrange 0 n) = false.
Proof.
  intros X K S N. destruct (np_allclose vals (zrange 0 n)) eqn:E; [| reflexivity]. exfalso. apply N.
  apply (close_small x); [lia |]. eapply allclose_nth; [exact E | exact X |].
  rewrite (nth_error_zrange 0 n k) by lia. reflexivity.
Qed.

Section Integrity.
  Context (i2d : Z -> Z) (f2i : Z -> res Z).

  (** The integrity lists of a written file are right. *)
  Lemma integrity_any v o w f : w_typed i2d w -> write_data i2d f2i v o w = Ok f ->
    check_integrity f o (w_no w) (w_fa w) (w_cv w) = Ok tt.
  Proof.
    intros T H. assert (NO : 0 <= w_no w) by apply T. assert (FA : 0 <= w_fa w) by apply T. assert (CV : 0 <= w_cv w) by apply T.
    destruct (write_chain i2d f2i v o w f T H) as (c & m & fs & e & M & RH & F & We & EF). destruct v.
    - unfold body_secs in F. cbn [check_secs app] in F.
      inversion F as [| ? s1 ? fs1 W1 F1]; subst fs. inversion F1 as [| ? s2 ? fs2 W2 F2]; subst fs1.
      inversion F2 as [| ? s3 ? fs3 W3 F3]; subst fs2. inversion F3 as [| ? s4 ? fs4 W4 F4]; subst fs3.
      rewrite !secs_cons, <- !app_assoc in EF.
      destruct (integrity_lists o w f m s1 s2 s3 s4 _ _ _ _ M NO FA CV W1 W2 W3 W4 EF) as (_ & ->).
      rewrite !allclose_refl. reflexivity.
    - assert (NI : forall id, id <> NO_CHECK -> ~ In id [NO_CHECK]) by (intros id A [B | []]; congruence).
      assert (B : Forall (sec_is (fun _ id => ~ In id [NO_CHECK])) (body_secs i2d f2i V3 c)).
      { change (body_secs i2d f2i V3 c) with ([counts_sec w] ++ [noofa_sec w; cvofa_sec w (c_f2e c)] ++ c_zones c
              ++ [int_sec w; part_sec w (c_npart c) (c_icv c); xno_sec w] ++ info_secs c ++ var_secs i2d V3 w).
        apply Forall_app. split; [repeat (apply Forall_cons; [apply NI; discriminate |]); apply Forall_nil |].
        apply Forall_app. split; [repeat (apply Forall_cons; [apply NI; discriminate |]); apply Forall_nil |].
        apply Forall_app. split; [apply zones_is; intros; apply NI; discriminate |].
        apply Forall_app. split; [repeat (apply Forall_cons; [apply NI; discriminate |]); apply Forall_nil |]. apply Forall_app. split.
        - unfold info_secs. apply Forall_app. split; [repeat (apply Forall_cons; [apply NI; discriminate |]); apply Forall_nil |]. apply wgts_is. intros; apply NI; discriminate.
        - unfold var_secs, node_secs, nodevec_secs, cell_secs, cellvec_secs, celltens_secs.
          repeat (apply Forall_app; split); apply data_secs_is; intros; try apply scalar_sec_is; apply NI; discriminate. }
      assert (BE := body_not_eof i2d f2i V3 w c).
      assert (Q : exists p, find_var f o [NO_CHECK] = Ok (None, p)).
      { destruct (Exists_dec (fun s : section => deof (h_name (fst s))) (body_secs i2d f2i V3 c)) as [D | D]; [intros; apply deof_dec | |].
        - apply first_deof in D. destruct D as (l1 & s & l2 & EB & D & FD). rewrite EB in F, B, BE.
          apply Forall2_app_inv_l in F. destruct F as (fs1 & fs2 & F1 & F2 & ->). inversion F2 as [| ? sf ? fs3 W N]; subst fs2.
          apply Forall_app in B. destruct B as (B & _). apply Forall_app in BE. destruct BE as (BE & _).
          apply (none_secs o [NO_CHECK] f m l1 fs1 sf (secs_bytes fs3 ++ fsec_all e) M F1 (proj1 W)).
          + left. apply (wrote_deof _ _ _ W). exact D.
          + rewrite EF, secs_app, secs_cons, <- !app_assoc. reflexivity.
          + apply Forall_forall. intros y Y. rewrite Forall_forall in FD, B, BE. split; [exact (FD y Y) | split; [exact (BE y Y) | exact (B y Y)]].
          + apply NI. discriminate.
        - destruct (eof_stops o e We) as (OE & SE & _).
          apply (none_secs o [NO_CHECK] f m _ fs e [] M F OE SE); [rewrite app_nil_r; exact EF | | apply NI; discriminate].
          apply Forall_Exists_neg in D. apply Forall_forall. intros y Y. rewrite Forall_forall in D, B, BE.
          split; [exact (D y Y) | split; [exact (BE y Y) | exact (B y Y)]]. }
      destruct Q as (p & Q). unfold check_integrity. rewrite Q. reflexivity.
  Qed.

  Lemma counts_found v o w f : w_typed i2d w -> write_data i2d f2i v o w = Ok f ->
    read_restart_header f = Ok (o, version_number v) /\ exists p, find_req f o [COUNTS] = Ok (cut_header (fst (counts_sec w)), p).
  Proof.
    intros T H. destruct (write_chain i2d f2i v o w f T H) as (c & m & fs & e & M & RH & F & We & EF). split; [exact RH |].
    inversion F as [| ? s1 ? fs1 W1 F1]; subst fs.
    destruct (req_secs o [COUNTS] f m [] [] _ s1 (secs_bytes fs1 ++ fsec_all e) M ltac:(f2) W1) as (_ & R1);
      [rewrite EF, secs_cons, <- !app_assoc; reflexivity | spass | discriminate | left; reflexivity |]. eexists. exact R1.
  Qed.

  Lemma integrity_changes_nothing v o w f : w_typed i2d w -> write_data i2d f2i v o w = Ok f -> read_data true f = read_data false f.
  Proof.
    intros T H. destruct (counts_found v o w f T H) as (RH & p & Q). unfold read_data. rewrite RH. cbn [bind]. rewrite Q. cbn [bind].
    change (idata (cut_header (fst (counts_sec w))) 0) with (w_no w). change (idata (cut_header (fst (counts_sec w))) 1) with (w_fa w).
    change (idata (cut_header (fst (counts_sec w))) 2) with (w_cv w). rewrite (integrity_any v o w f T H). reflexivity.
  Qed.

  (** Another list in the place of one of the three. *)
  Lemma split_at {A} (a b : list A) p : zlen a = p -> firstn (Z.to_nat p) (a ++ b) = a /\ skipn (Z.to_nat p) (a ++ b) = b.
  Proof.
    intros <-. unfold zlen. rewrite Nat2Z.id. split.
    - rewrite firstn_app, Nat.sub_diag, firstn_O, app_nil_r. apply firstn_all.
    - rewrite skipn_app, Nat.sub_diag, skipn_all. reflexivity.
  Qed.
  Lemma patch_eq pre s n vals o name id post b : wrote o (list_sec name id n vals) s -> 0 <= n -> zlen b = 4 * n ->
    patch (pre ++ fsec_all s ++ post) (zlen pre + 256) b = pre ++ (s_bytes s ++ b) ++ post.
  Proof.
    intros W N B. destruct W as ((( L & _) & _) & _ & _ & ps & MP & LD). unfold patch, fsec_all.
    assert (LP : zlen (s_load s) = 4 * n).
    { rewrite LD. apply loads_len in MP. rewrite MP. unfold load_size. cbn [list_sec sec1 snd List.map zsum fold_right code_size]. lia. }
    rewrite <- !app_assoc.
    destruct (split_at (pre ++ s_bytes s) (s_load s ++ post) (zlen pre + 256)) as (Q1 & _); [rewrite zlen_app; lia |].
    rewrite <- app_assoc in Q1. rewrite Q1.
    destruct (split_at (pre ++ s_bytes s ++ s_load s) post (zlen pre + 256 + zlen b)) as (_ & Q2); [rewrite !zlen_app; lia |].
    rewrite <- !app_assoc in Q2. rewrite Q2, <- !app_assoc. reflexivity.
  Qed.
  Lemma patched_wrote o name id n vals vals' s b : wrote o (list_sec name id n vals) s -> 0 <= n -> binary_write o Ci n vals' = Ok b ->
    wrote o (list_sec name id n vals') (FS (s_bytes s) (s_hdr s) b).
  Proof.
    intros W N B. assert (LB := proj1 (proj2 (binary_write_ok _ _ _ _ _ B))). destruct W as ((IH & SK) & HE & PA & ps & MP & LD).
    assert (LP : zlen (s_load s) = 4 * n).
    { rewrite LD. apply loads_len in MP. rewrite MP. unfold load_size. cbn [list_sec sec1 snd List.map zsum fold_right code_size]. lia. }
    split; [split; [exact IH |] | split; [exact HE | split; [exact PA |]]].
    - cbn [s_hdr s_load]. rewrite SK, LB, LP. cbn [code_size]. lia.
    - exists [b]. cbn [list_sec sec1 snd mapM s_load]. rewrite B. cbn [bind List.concat]. rewrite app_nil_r. auto.
  Qed.

  Lemma altered_checked o w f id n vals b h p : w_typed i2d w -> write_data i2d f2i V2 o w = Ok f ->
    In (id, n) [(NO_CHECK, w_no w); (FA_CHECK, w_fa w); (CV_CHECK, w_cv w)] -> find_var f o [id] = Ok (Some h, p) ->
    binary_write o Ci n vals = Ok b ->
    read_data true (patch f p b) = if np_allclose vals (zrange 0 n) then read_data false (patch f p b) else Err AssertionError.
  Proof.
    intros T H IN FV B. assert (NO : 0 <= w_no w) by apply T. assert (FA : 0 <= w_fa w) by apply T. assert (CV : 0 <= w_cv w) by apply T.
    destruct (write_chain i2d f2i V2 o w f T H) as (c & m & fs & e & M & RH & F & We & EF).
    unfold body_secs in F. cbn [check_secs app] in F.
    inversion F as [| ? s1 ? fs1 W1 F1]; subst fs. inversion F1 as [| ? s2 ? fs2 W2 F2]; subst fs1.
    inversion F2 as [| ? s3 ? fs3 W3 F3]; subst fs2. inversion F3 as [| ? s4 ? fs4 W4 F4]; subst fs3.
    rewrite !secs_cons, <- !app_assoc in EF. set (rest := secs_bytes fs4 ++ fsec_all e) in *.
    assert (LB : 0 <= n -> zlen b = 4 * n). { intros N. destruct (binary_write_ok _ _ _ _ _ B) as (_ & Q & _). rewrite Q. cbn [code_size]. lia. }
    assert (FIN : forall g t2 t3 t4 l1 l2 l3, g = m ++ fsec_all s1 ++ fsec_all t2 ++ fsec_all t3 ++ fsec_all t4 ++ rest ->
      wrote o (list_sec "NO_CHECK" NO_CHECK (w_no w) l1) t2 -> wrote o (list_sec "FA_CHECK" FA_CHECK (w_fa w) l2) t3 -> wrote o (list_sec "CV_CHECK" CV_CHECK (w_cv w) l3) t4 ->
      read_data true g = if np_allclose l1 (zrange 0 (w_no w)) && (np_allclose l2 (zrange 0 (w_fa w)) && np_allclose l3 (zrange 0 (w_cv w)))
        then read_data false g else Err AssertionError).
    { intros g t2 t3 t4 q1 q2 q3 EG X2 X3 X4. destruct (integrity_lists o w g m s1 t2 t3 t4 rest q1 q2 q3 M NO FA CV W1 X2 X3 X4 EG) as ((q0 & Q) & CI).
      assert (RG : read_restart_header g = Ok (o, version_number V2)).
      { revert RH. rewrite EF, EG. unfold read_restart_header, binary_read, rd.
        change ((2 <? 0) || (2 ^ 63 <=? Z.of_nat (code_size Ci) * 2)) with false. cbv iota. change (Z.to_nat (Z.of_nat (code_size Ci) * 2)) with 8%nat.
        cbn [Z.to_nat skipn]. assert (L8 : List.length m = 8%nat) by (unfold zlen in M; lia).
        rewrite !firstn_app, L8. cbn [Nat.sub firstn]. rewrite !app_nil_r. auto. }
      unfold read_data. rewrite RG. cbn [bind]. rewrite Q. cbn [bind].
      change (idata (cut_header (fst (counts_sec w))) 0) with (w_no w). change (idata (cut_header (fst (counts_sec w))) 1) with (w_fa w).
      change (idata (cut_header (fst (counts_sec w))) 2) with (w_cv w). rewrite CI.
      destruct (np_allclose q1 (zrange 0 (w_no w))); cbn [assertb bind andb]; [| reflexivity].
      destruct (np_allclose q2 (zrange 0 (w_fa w))); cbn [assertb bind andb]; [| reflexivity].
      destruct (np_allclose q3 (zrange 0 (w_cv w))); reflexivity. }
    destruct IN as [E | [E | [E | []]]]; inversion E; subst id n; clear E.
    - destruct (req_secs o [NO_CHECK] f m [counts_sec w] [s1] _ s2 (fsec_all s3 ++ fsec_all s4 ++ rest) M ltac:(f2) W2) as (R2 & _);
        [rewrite EF, secs_cons; cbn [secs_bytes List.map List.concat]; rewrite app_nil_r; reflexivity | spass | discriminate | left; reflexivity |].
      rewrite R2 in FV. apply ok_inj in FV. apply (f_equal snd) in FV. cbn [snd] in FV. subst p.
      rewrite (FIN (patch f (zlen (m ++ secs_bytes [s1]) + 256) b) (FS (s_bytes s2) (s_hdr s2) b) s3 s4 vals (zrange 0 (w_fa w)) (zrange 0 (w_cv w))); try assumption.
      + rewrite !allclose_refl, !andb_true_r. reflexivity.
      + rewrite EF, secs_cons. change (secs_bytes []) with (@nil Z). rewrite app_nil_r.
        replace (m ++ fsec_all s1 ++ fsec_all s2 ++ fsec_all s3 ++ fsec_all s4 ++ rest) with ((m ++ fsec_all s1) ++ fsec_all s2 ++ (fsec_all s3 ++ fsec_all s4 ++ rest)) by (rewrite <- !app_assoc; reflexivity).
        rewrite (patch_eq _ s2 (w_no w) _ o _ _ _ b W2 NO (LB NO)). rewrite <- !app_assoc. unfold fsec_all. cbn [s_bytes s_load]. rewrite <- !app_assoc. reflexivity.
      + eapply patched_wrote; eassumption.
    - destruct (req_secs o [FA_CHECK] f m [counts_sec w; check_sec "NO_CHECK" NO_CHECK (w_no w)] [s1; s2] _ s3 (fsec_all s4 ++ rest) M ltac:(f2) W3) as (R2 & _);
        [rewrite EF, !secs_cons; cbn [secs_bytes List.map List.concat]; rewrite app_nil_r, <- !app_assoc; reflexivity | spass | discriminate | left; reflexivity |].
      rewrite R2 in FV. apply ok_inj in FV. apply (f_equal snd) in FV. cbn [snd] in FV. subst p.
      rewrite (FIN (patch f (zlen (m ++ secs_bytes [s1; s2]) + 256) b) s2 (FS (s_bytes s3) (s_hdr s3) b) s4 (zrange 0 (w_no w)) vals (zrange 0 (w_cv w))); try assumption.
      + rewrite !allclose_refl, andb_true_r. reflexivity.
      + rewrite EF, !secs_cons. change (secs_bytes []) with (@nil Z). rewrite app_nil_r.
        replace (m ++ fsec_all s1 ++ fsec_all s2 ++ fsec_all s3 ++ fsec_all s4 ++ rest) with ((m ++ fsec_all s1 ++ fsec_all s2) ++ fsec_all s3 ++ (fsec_all s4 ++ rest)) by (rewrite <- !app_assoc; reflexivity).
        rewrite (patch_eq _ s3 (w_fa w) _ o _ _ _ b W3 FA (LB FA)). rewrite <- !app_assoc. unfold fsec_all. cbn [s_bytes s_load]. rewrite <- !app_assoc. reflexivity.
      + eapply patched_wrote; eassumption.
    - destruct (req_secs o [CV_CHECK] f m [counts_sec w; check_sec "NO_CHECK" NO_CHECK (w_no w); check_sec "FA_CHECK" FA_CHECK (w_fa w)] [s1; s2; s3] _ s4 rest M ltac:(f2) W4) as (R2 & _);
        [rewrite EF, !secs_cons; cbn [secs_bytes List.map List.concat]; rewrite app_nil_r, <- !app_assoc; reflexivity | spass | discriminate | left; reflexivity |].
      rewrite R2 in FV. apply ok_inj in FV. apply (f_equal snd) in FV. cbn [snd] in FV. subst p.
      rewrite (FIN (patch f (zlen (m ++ secs_bytes [s1; s2; s3]) + 256) b) s2 s3 (FS (s_bytes s4) (s_hdr s4) b) (zrange 0 (w_no w)) (zrange 0 (w_fa w)) vals); try assumption.
      + rewrite !allclose_refl. reflexivity.
      + rewrite EF, !secs_cons. change (secs_bytes []) with (@nil Z). rewrite app_nil_r.
        replace (m ++ fsec_all s1 ++ fsec_all s2 ++ fsec_all s3 ++ fsec_all s4 ++ rest) with ((m ++ fsec_all s1 ++ fsec_all s2 ++ fsec_all s3) ++ fsec_all s4 ++ rest) by (rewrite <- !app_assoc; reflexivity).
        rewrite (patch_eq _ s4 (w_cv w) _ o _ _ _ b W4 CV (LB CV)). rewrite <- !app_assoc. unfold fsec_all. cbn [s_bytes s_load]. rewrite <- !app_assoc. reflexivity.
      + eapply patched_wrote; eassumption.
  Qed.

  Lemma list_found o w f id n : w_typed i2d w -> write_data i2d f2i V2 o w = Ok f ->
    In (id, n) [(NO_CHECK, w_no w); (FA_CHECK, w_fa w); (CV_CHECK, w_cv w)] -> exists h p, find_var f o [id] = Ok (Some h, p).
  Proof.
    intros T H IN. destruct (write_chain i2d f2i V2 o w f T H) as (c & m & fs & e & M & RH & F & We & EF).
    unfold body_secs in F. cbn [check_secs app] in F.
    inversion F as [| ? s1 ? fs1 W1 F1]; subst fs. inversion F1 as [| ? s2 ? fs2 W2 F2]; subst fs1.
    inversion F2 as [| ? s3 ? fs3 W3 F3]; subst fs2. inversion F3 as [| ? s4 ? fs4 W4 F4]; subst fs3.
    rewrite !secs_cons, <- !app_assoc in EF. set (rest := secs_bytes fs4 ++ fsec_all e) in *.
    destruct IN as [E | [E | [E | []]]]; inversion E; subst id n; clear E.
    - destruct (req_secs o [NO_CHECK] f m [counts_sec w] [s1] _ s2 (fsec_all s3 ++ fsec_all s4 ++ rest) M ltac:(f2) W2) as (R2 & _);
        [rewrite EF, secs_cons; cbn [secs_bytes List.map List.concat]; rewrite app_nil_r; reflexivity | spass | discriminate | left; reflexivity |]. eauto.
    - destruct (req_secs o [FA_CHECK] f m [counts_sec w; check_sec "NO_CHECK" NO_CHECK (w_no w)] [s1; s2] _ s3 (fsec_all s4 ++ rest) M ltac:(f2) W3) as (R2 & _);
        [rewrite EF, !secs_cons; cbn [secs_bytes List.map List.concat]; rewrite app_nil_r, <- !app_assoc; reflexivity | spass | discriminate | left; reflexivity |]. eauto.
    - destruct (req_secs o [CV_CHECK] f m [counts_sec w; check_sec "NO_CHECK" NO_CHECK (w_no w); check_sec "FA_CHECK" FA_CHECK (w_fa w)] [s1; s2; s3] _ s4 rest M ltac:(f2) W4) as (R2 & _);
        [rewrite EF, !secs_cons; cbn [secs_bytes List.map List.concat]; rewrite app_nil_r, <- !app_assoc; reflexivity | spass | discriminate | left; reflexivity |]. eauto.
  Qed.
End Integrity.
