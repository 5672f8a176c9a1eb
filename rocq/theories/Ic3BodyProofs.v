(** * A written file as a chain of sections closed by EOF; truncation. *)
From Coq Require Import ZArith List Bool String Lia.
From Verif Require Import Py PyFacts Ic3Bytes Ic3BytesProofs Ic3 Ic3HeaderSpec Ic3HeaderProofs Ic3FuelProofs Ic3FileSpec Ic3FileProofs Ic3WriteProofs Ic3PartsProofs Ic3CutProofs.

Section Body.
  Context (i2d : Z -> Z) (f2i : Z -> res Z).

  Definition body_secs (v : version) {w} (c : converted i2d f2i w) : list section :=
    counts_sec w :: check_secs v w ++ [noofa_sec w; cvofa_sec w (c_f2e c)] ++ c_zones c
    ++ [int_sec w; part_sec w (c_npart c) (c_icv c); xno_sec w] ++ info_secs c ++ var_secs i2d v w.
  Lemma all_body v w (c : converted i2d f2i w) : all_secs v c = body_secs v c ++ [eof_sec].
  Proof. unfold all_secs, body_secs. cbn [app]. rewrite <- !app_assoc. cbn [app]. rewrite <- !app_assoc. cbn [app]. rewrite <- !app_assoc. reflexivity. Qed.

  Lemma write_chain v o w f : w_typed i2d w -> write_data i2d f2i v o w = Ok f ->
    exists (c : converted i2d f2i w) m fs e, zlen m = 8 /\ read_restart_header f = Ok (o, version_number v) /\
      Forall2 (wrote o) (body_secs v c) fs /\ wrote o eof_sec e /\ f = m ++ secs_bytes fs ++ fsec_all e.
  Proof.
    intros T H. destruct (write_data_chain i2d f2i v o w f T H) as (m & ss & fs & M & RH & E & F & ->).
    apply (sections_parts i2d f2i v w ss T) in E. destruct E as (c & ->). rewrite all_body in F.
    apply Forall2_app_inv_l in F. destruct F as (fs1 & fs2 & F1 & F2 & ->).
    inversion F2 as [| ? e ? ? W N]; subst. inversion N; subst.
    exists c, m, fs1, e. rewrite secs_app, secs_cons. change (secs_bytes []) with (@nil Z). rewrite app_nil_r.
    split; [exact M | split; [| split; [exact F1 | split; [exact W | reflexivity]]]].
    rewrite secs_app, secs_cons in RH. change (secs_bytes []) with (@nil Z) in RH. rewrite app_nil_r in RH. exact RH.
  Qed.

  (** Facts about every section of the body. *)
  Definition sec_is (P : string -> Z -> Prop) (s : section) : Prop := P (h_name (fst s)) (h_id (fst s)).
  Lemma scalar_sec_is (P : string -> Z -> Prop) id_d id_q v l n name a : P name id_d -> P name id_q -> sec_is P (scalar_sec i2d id_d id_q v l n name a).
  Proof. intros A B. unfold scalar_sec. destruct (match v with V2 => false | V3 => a_int a end); assumption. Qed.
  Lemma data_secs_is (P : string -> Z -> Prop) (g : string -> array -> section) (sel : string * array -> bool) d :
    (forall name a, In name (List.map fst d) -> sec_is P (g name a)) ->
    Forall (sec_is P) (List.map (fun '(name, a) => g name a) (filter sel d)).
  Proof.
    intros H. apply Forall_forall. intros s I. apply in_map_iff in I. destruct I as ((name, a) & <- & J).
    apply filter_In in J. destruct J as (J & _). apply H. apply in_map_iff. exists (name, a). auto.
  Qed.
  Lemma zones_is (P : string -> Z -> Prop) w (c : converted i2d f2i w) :
    (forall k, In k (List.map fst (w_bocos w)) -> P k FA_ZONE) -> Forall (sec_is P) (c_zones c).
  Proof.
    intros H. assert (Z := c_zones_ok _ _ _ c). induction Z as [| (k, b) s l zs E _ IH]; [constructor |].
    constructor; [| apply IH; intros x X; apply H; right; exact X].
    apply zone_section_ok in E. destruct E as (t & kind & lo & hi & _ & _ & _ & _ & _ & -> & _). apply H. left. reflexivity.
  Qed.
  Lemma wgts_is (P : string -> Z -> Prop) w (c : converted i2d f2i w) :
    (forall k, In k (wgt_names (w_wgt w)) -> P k D0) -> Forall (sec_is P) (List.map wgt_sec (c_wgt c)).
  Proof.
    intros H. destruct (c_wgt_ok _ _ _ c) as (d & E & F). rewrite E in H. cbn [wgt_names] in H. clear E.
    induction F as [| (k, x) (k', y) d ws (-> & _) _ IH]; [constructor |].
    constructor; [| apply IH; intros z Z; apply H; right; exact Z]. apply H. left. reflexivity.
  Qed.

  Lemma body_is (P : string -> Z -> Prop) v w (c : converted i2d f2i w) :
    P "NO_FA_CV_NOOFA_COUNTS"%string COUNTS -> P "NO_CHECK"%string NO_CHECK -> P "FA_CHECK"%string FA_CHECK -> P "CV_CHECK"%string CV_CHECK ->
    P "NOOFA_I_AND_V"%string NOOFA -> P "CVOFA"%string CVOFA -> (forall k, In k (List.map fst (w_bocos w)) -> P k FA_ZONE) ->
    P "internal-domain"%string FA_ZONE -> P "CV_PART"%string CV_PART -> P "X_NO"%string X_NO ->
    P "DATA"%string DATA -> P "STEP"%string I0 -> P "DT"%string D0 -> P "TIME"%string D0 ->
    (forall k, In k (wgt_names (w_wgt w)) -> P k D0) ->
    (forall k, In k (List.map fst (fd_items (w_nodes w))) -> P k NO_D1 /\ P k NO_II1 /\ P k NO_D3) ->
    (forall k, In k (List.map fst (fd_items (w_cells w))) -> P k CV_D1 /\ P k CV_II1 /\ P k CV_D3 /\ P k CV_D33) ->
    Forall (sec_is P) (body_secs v c).
  Proof.
    intros. unfold body_secs. constructor; [assumption |].
    apply Forall_app. split; [destruct v; cbn [check_secs]; [constructor; [assumption | constructor; [assumption | constructor; [assumption | constructor]]] | constructor] |].
    apply Forall_app. split; [constructor; [assumption | constructor; [assumption | constructor]] |].
    apply Forall_app. split; [apply zones_is; assumption |].
    apply Forall_app. split; [constructor; [assumption | constructor; [assumption | constructor; [assumption | constructor]]] |].
    apply Forall_app. split.
    { unfold info_secs. apply Forall_app. split; [| apply wgts_is; assumption].
      constructor; [assumption | constructor; [assumption | constructor; [assumption | constructor; [assumption | constructor]]]]. }
    unfold var_secs, node_secs, nodevec_secs, cell_secs, cellvec_secs, celltens_secs.
    apply Forall_app. split; [apply data_secs_is; intros name a I; apply scalar_sec_is; apply (H14 name I) |].
    apply Forall_app. split; [apply data_secs_is; intros name a I; apply (H14 name I) |].
    apply Forall_app. split; [apply data_secs_is; intros name a I; apply scalar_sec_is; apply (H15 name I) |].
    apply Forall_app. split; apply data_secs_is; intros name a I; apply (H15 name I).
  Qed.

  Lemma body_not_eof v w (c : converted i2d f2i w) : Forall (sec_is (fun _ id => id <> EOF)) (body_secs v c).
  Proof. apply body_is; intros; repeat split; discriminate. Qed.
  Lemma body_not_deof v w (c : converted i2d f2i w) : Forall (fun k => ~ deof k) (user_names w) ->
    Forall (sec_is (fun name _ => ~ deof name)) (body_secs v c).
  Proof.
    intros D. rewrite Forall_forall in D. unfold user_names in D.
    apply body_is; try discriminate; intros k I; try (repeat split); apply D; repeat rewrite in_app_iff; tauto.
  Qed.
  Lemma body_plain v w (c : converted i2d f2i w) : Forall (fun k => ~ deof k) (user_names w) ->
    Forall (fun s => ~ deof (h_name (fst s)) /\ h_id (fst s) <> EOF) (body_secs v c).
  Proof.
    intros D. assert (A := body_not_eof v w c). assert (B := body_not_deof v w c D).
    rewrite Forall_forall in *. intros s I. split; [apply (B s I) | apply (A s I)].
  Qed.

  (** Sections with the ids of single values have no payload. *)
  Lemma info_no_load v w (c : converted i2d f2i w) :
    Forall (fun s => In (h_id (fst s)) [I0; D0] -> snd s = []) (body_secs v c).
  Proof.
    assert (G : Forall (fun s => snd s = [] \/ sec_is (fun _ id => ~ In id [I0; D0]) s) (body_secs v c)).
    { assert (W : forall l, Forall (sec_is (fun _ id => ~ In id [I0; D0])) l -> Forall (fun s => snd s = [] \/ sec_is (fun _ id => ~ In id [I0; D0]) s) l).
      { intros l F. rewrite Forall_forall in *. intros s I. right. apply F. exact I. }
      assert (N : forall i, i <> I0 -> i <> D0 -> ~ In i [I0; D0]) by (intros i X Y [Q | [Q | []]]; congruence).
      unfold body_secs. constructor; [left; reflexivity |].
      apply Forall_app. split; [apply W; destruct v; cbn [check_secs]; repeat (constructor; [apply N; discriminate |]); constructor |].
      apply Forall_app. split; [apply W; repeat (constructor; [apply N; discriminate |]); constructor |].
      apply Forall_app. split; [apply W; apply zones_is; intros; apply N; discriminate |].
      apply Forall_app. split; [apply W; repeat (constructor; [apply N; discriminate |]); constructor |].
      apply Forall_app. split.
      { unfold info_secs. apply Forall_app. split; [repeat (constructor; [left; reflexivity |]); constructor |].
        apply Forall_forall. intros s I. apply in_map_iff in I. destruct I as (kx & <- & _). left. reflexivity. }
      apply W. unfold var_secs, node_secs, nodevec_secs, cell_secs, cellvec_secs, celltens_secs.
      repeat (apply Forall_app; split); apply data_secs_is; intros; try apply scalar_sec_is; apply N; discriminate. }
    eapply Forall_impl; [| exact G]. intros s [A | A] I; [exact A | exfalso; apply A; exact I].
  Qed.

  Lemma eof_stops o e : wrote o eof_sec e -> fsec_ok o e /\ stops e /\ s_load e = [].
  Proof.
    intros W. assert (Q := W). destruct W as (OE & HE & _ & ps & P & L). cbn in P. inversion P; subst ps.
    split; [exact OE | split; [| exact L]]. right. rewrite HE. reflexivity.
  Qed.

  Lemma wrote_not_stops o : forall ss fs, Forall2 (wrote o) ss fs ->
    Forall (fun s => ~ deof (h_name (fst s)) /\ h_id (fst s) <> EOF) ss -> Forall (fun s => ~ stops s) fs.
  Proof.
    induction 1 as [| s f ss fs W _ IH]; intros P; [constructor |]. inversion P as [| ? ? (A & B) P']; subst.
    constructor; [| apply IH; exact P']. intros [D | D].
    - apply (wrote_deof _ _ _ W) in D. exact (A D).
    - rewrite (wrote_id _ _ _ W) in D. exact (B D).
  Qed.
  Lemma wrote_no_load o : forall ss fs, Forall2 (wrote o) ss fs ->
    Forall (fun s => In (h_id (fst s)) [I0; D0] -> snd s = []) ss ->
    Forall (fun s => In (h_id (s_hdr s)) [I0; D0] -> s_load s = []) fs.
  Proof.
    induction 1 as [| s f ss fs W _ IH]; intros P; [constructor |]. inversion P as [| ? ? A P']; subst.
    constructor; [| apply IH; exact P']. intros I. rewrite (wrote_id _ _ _ W) in I. specialize (A I).
    destruct W as (_ & _ & _ & ps & M & L). rewrite A in M. cbn in M. inversion M; subst ps. exact L.
  Qed.

  Lemma write_data_cut v o w f integrity g t r : w_typed i2d w -> write_data i2d f2i v o w = Ok f ->
    Forall (fun k => ~ deof k) (user_names w) -> f = g ++ t -> t <> [] -> read_data integrity g <> Ok r.
  Proof.
    intros T H D E NT. destruct (write_chain v o w f T H) as (c & m & fs & e & M & RH & F & We & EF).
    destruct (eof_stops o e We) as (OE & SE & LE). subst f.
    apply (cut_raises integrity o g t m fs e (version_number v)); try assumption.
    - eapply wrote_ok. exact F.
    - eapply wrote_not_stops; [exact F | apply body_plain; exact D].
    - eapply wrote_no_load; [exact F | apply info_no_load].
  Qed.
End Body.

(** ** From meshes *)
Lemma stack3_rows (P : Z -> Prop) : forall x y z rows, stack3 x y z = Ok rows -> Forall P x -> Forall P y -> Forall P z ->
  Forall (Forall P) rows.
Proof.
  induction x as [| a x IH]; intros y z rows H X Y Z; destruct y, z; try discriminate H; [inversion H; constructor |].
  cbn [stack3] in H. apply bind_ok in H; destruct H as (rs & HR & H). inversion H; subst.
  inversion X; subst. inversion Y; subst. inversion Z; subst. constructor; [auto |]. eapply IH; eassumption.
Qed.
Lemma dget_in {V} (k : string) (d : dict string V) v : dget String.eqb k d = Some v -> In (k, v) d.
Proof.
  induction d as [| (k', v') d IH]; [discriminate |]. cbn. destruct (String.eqb k k') eqn:E.
  - intros H. inversion H; subst. apply String.eqb_eq in E. subst. left. reflexivity.
  - intros H. right. apply IH. exact H.
Qed.
Lemma dget_err_in {V} (k : string) (d : dict string V) v : dget_err String.eqb k d = Ok v -> In (k, v) d.
Proof. unfold dget_err. destruct (dget String.eqb k d) eqn:E; [| discriminate]. intros H. inversion H; subst. apply dget_in. exact E. Qed.
Lemma param_typed d k x : Forall (fun '(_, v) => sval_typed v) d -> sval_typed x -> sval_typed (param d k x).
Proof.
  intros T X. unfold param. destruct (dget String.eqb k d) eqn:E; [| exact X]. apply dget_in in E.
  rewrite Forall_forall in T. apply (T _ E).
Qed.

Lemma writer_state_typed i2d fm w : (forall n, pattern (i2d n)) -> fmesh_typed fm -> writer_state fm = Ok w ->
  w_typed i2d w /\ user_names w = mesh_names fm.
Proof.
  intros P (FA & CV & TX & TB & TP & TN & TC & ND) H. unfold writer_state in H.
  apply bind_ok in H; destruct H as (((x, y), z) & NC & H). apply bind_ok in H; destruct H as (rows & ST & H).
  apply bind_ok in H; destruct H as (u & A & H). apply assertb_ok in A. apply Z.eqb_eq in A.
  apply bind_ok in H; destruct H as ((zf, f2e) & WF & H). apply ok_inj in H. subst w. split; [| reflexivity].
  unfold w_typed. cbn [w_no w_fa w_cv w_cells w_bocos w_coords w_dt w_time w_wgt w_nodes].
  split; [exact P |]. split; [rewrite <- A; apply zlen_nonneg |]. split; [exact FA |]. split; [exact CV |]. split; [exact ND |].
  split.
  { apply Forall_forall. intros kb I. apply filter_In in I. rewrite Forall_forall in TB. apply TB. apply I. }
  split.
  { unfold nodescoord in NC. apply bind_ok in NC; destruct NC as (x' & X & NC). apply bind_ok in NC; destruct NC as (y' & Y & NC).
    apply bind_ok in NC; destruct NC as (z' & Z & NC). inversion NC; subst.
    rewrite Forall_forall in TX. apply dget_err_in in X. apply dget_err_in in Y. apply dget_err_in in Z.
    eapply stack3_rows; [exact ST | exact (TX _ X) | exact (TX _ Y) | exact (TX _ Z)]. }
  split; [apply param_typed; [exact TP | exact I] |]. split; [apply param_typed; [exact TP | exact I] |].
  split; [apply param_typed; [exact TP | constructor] |]. auto.
Qed.

Lemma write_mesh_data tbl enum i2d f2i host v endian fm f fm' :
  write_mesh tbl enum i2d f2i host v endian fm = (Ok f, fm') ->
  exists o w, order_of host endian = Ok o /\ writer_state fm' = Ok w /\ write_data i2d f2i v o w = Ok f.
Proof.
  unfold write_mesh. destruct (order_of host endian) as [o |]; [| discriminate].
  destruct (prepare_mesh tbl enum (fm_mesh fm)) as (r & m). intros H.
  assert (H1 := f_equal fst H). assert (H2 := f_equal snd H). cbn [fst snd] in H1, H2. clear H. subst fm'.
  apply bind_ok in H1; destruct H1 as (u & _ & H1). apply bind_ok in H1; destruct H1 as (w & W & H1).
  exists o, w. split; [reflexivity | split; [exact W | exact H1]].
Qed.

Lemma write_mesh_cut tbl enum i2d f2i host v endian fm f fm' integrity g t : (forall n, pattern (i2d n)) ->
  write_mesh tbl enum i2d f2i host v endian fm = (Ok f, fm') -> fmesh_typed fm' ->
  Forall (fun k => ~ deof k) (mesh_names fm') -> f = g ++ t -> t <> [] ->
  exists e, read_mesh integrity g = Err e /\ e <> OutOfFuel.
Proof.
  intros P H T D E NT. destruct (write_mesh_data _ _ _ _ _ _ _ _ _ _ H) as (o & w & _ & W & WD).
  destruct (writer_state_typed i2d fm' w P T W) as (TW & EN). rewrite <- EN in D.
  unfold read_mesh. destruct (read_data integrity g) as [r | e] eqn:R.
  - exfalso. exact (write_data_cut i2d f2i v o w f integrity g t r TW WD D E NT R).
  - exists e. split; [reflexivity |]. intros ->. exact (read_data_stops integrity g R).
Qed.
