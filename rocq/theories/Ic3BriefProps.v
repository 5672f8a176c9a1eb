(** * The list of the sections of an IC3 file ([ic3brief]): property C75. *)
From Coq Require Import ZArith List Bool String Lia.
From Verif Require Import Py PyFacts Data Conn Mesh Ic3Bytes Ic3BytesProofs Ic3 Ic3HeaderSpec Ic3HeaderProofs Ic3FuelProofs Ic3FileSpec Ic3FileProofs Ic3WriteProofs Ic3BodyProofs Ic3FileThm Ic3BriefSpec Ic3HeaderProps Ic3FileProps.

Lemma named_iff id : is_named id = true <-> In id all_codes.
Proof.
  unfold is_named. rewrite existsb_exists. split.
  - intros (x & I & E). apply Z.eqb_eq in E. subst x. vm_compute in I. vm_compute. tauto.
  - intros I. exists id. split; [vm_compute in I; vm_compute; tauto | apply Z.eqb_refl].
Qed.

(** ** The loop *)
Definition goes_on (o : order) (s : fsec) : Prop := fsec_ok o s /\ ~ stops s.

Lemma loop_S k f o skip p : headers_loop (S k) f o skip p =
  ('(h, p') <- read_var (fuel_of f) f o all_codes skip p ;;
   match h with None => Ok [] | Some h => if h_id h =? EOF then Ok [h] else hs <- headers_loop k f o (h_skip h) p' ;; Ok (h :: hs) end).
Proof. reflexivity. Qed.
Lemma loop_pass o s pre post k : fsec_ok o s -> passed all_codes s ->
  let f := pre ++ fsec_all s ++ post in
  headers_loop (S k) f o 0 (zlen pre) = headers_loop (S k) f o 0 (zlen (pre ++ fsec_all s)).
Proof. intros OK P f. cbn [headers_loop]. assert (A := at_pass o all_codes s pre post OK P). unfold read_at in A. fold f in A. rewrite A. reflexivity. Qed.
Lemma loop_hit o s pre post k : fsec_ok o s -> ~ stops s -> In (h_id (s_hdr s)) all_codes ->
  let f := pre ++ fsec_all s ++ post in
  headers_loop (S (S k)) f o 0 (zlen pre) = (hs <- headers_loop (S k) f o 0 (zlen (pre ++ fsec_all s)) ;; Ok (s_hdr s :: hs)).
Proof.
  intros OK NS I f. rewrite (loop_S (S k)). assert (A := at_hit o all_codes s pre post OK (fun D => NS (or_introl D)) I). unfold read_at in A. fold f in A. rewrite A. cbn [bind].
  replace (h_id (s_hdr s) =? EOF) with false by (symmetry; apply Z.eqb_neq; intros E; apply NS; right; exact E).
  assert (E : read_var (fuel_of f) f o all_codes (h_skip (s_hdr s)) (zlen pre + 256) = read_var (fuel_of f) f o all_codes 0 (zlen (pre ++ fsec_all s))).
  { destruct OK as ((L & _) & SK). assert (Q := zlen_nonneg (s_load s)). rewrite read_var_skip by lia. f_equal. unfold fsec_all. rewrite !zlen_app. lia. }
  rewrite !loop_S, E. reflexivity.
Qed.
Lemma loop_all o : forall l pre post k, Forall (goes_on o) l -> (List.length l <= k)%nat ->
  let f := pre ++ secs_bytes l ++ post in
  exists k', (k - List.length l <= k')%nat /\
  headers_loop (S k) f o 0 (zlen pre) =
    (hs <- headers_loop (S k') f o 0 (zlen (pre ++ secs_bytes l)) ;; Ok (filter (fun h => is_named (h_id h)) (List.map s_hdr l) ++ hs)).
Proof.
  induction l as [| s l IH]; intros pre post k F K f.
  - exists k. split; [lia |]. cbn [secs_bytes List.map List.concat filter app]. rewrite app_nil_r. destruct (headers_loop _ _ _ _ _); reflexivity.
  - inversion F as [| ? ? (OK & NS) F']; subst. cbn [List.length] in K.
    assert (Ef : f = pre ++ fsec_all s ++ secs_bytes l ++ post) by (unfold f; rewrite secs_cons, <- app_assoc; reflexivity).
    assert (Ef' : f = (pre ++ fsec_all s) ++ secs_bytes l ++ post) by (rewrite Ef, <- app_assoc; reflexivity).
    assert (Ep : pre ++ secs_bytes (s :: l) = (pre ++ fsec_all s) ++ secs_bytes l) by (rewrite secs_cons, app_assoc; reflexivity).
    cbn [List.map filter]. destruct (is_named (h_id (s_hdr s))) eqn:N.
    + destruct k as [| k]; [lia |]. apply named_iff in N. rewrite Ef, loop_hit by assumption. rewrite <- Ef, Ef'.
      destruct (IH (pre ++ fsec_all s) post k F') as (k' & K' & E); [lia |]. exists k'. split; [cbn [List.length]; lia |]. rewrite E, Ep.
      destruct (headers_loop (S k') _ _ _ _); reflexivity.
    + assert (NI : ~ In (h_id (s_hdr s)) all_codes) by (intros I; apply named_iff in I; congruence).
      rewrite Ef, loop_pass by first [split; assumption | assumption]. rewrite <- Ef, Ef'.
      destruct (IH (pre ++ fsec_all s) post k F') as (k' & K' & E); [lia |]. exists k'. split; [cbn [List.length]; lia |]. rewrite E, Ep. reflexivity.
Qed.
(** The end of the list. *)
Lemma loop_eof o s pre post k : fsec_ok o s -> ~ deof (h_name (s_hdr s)) -> h_id (s_hdr s) = EOF ->
  headers_loop (S k) (pre ++ fsec_all s ++ post) o 0 (zlen pre) = Ok [s_hdr s].
Proof.
  intros OK D E. cbn [headers_loop]. assert (A := at_hit o all_codes s pre post OK D). unfold read_at in A. rewrite A by (rewrite E; vm_compute; tauto). cbn [bind]. rewrite E, Z.eqb_refl. reflexivity.
Qed.
Lemma loop_deof o s pre post k : fsec_ok o s -> deof (h_name (s_hdr s)) ->
  headers_loop (S k) (pre ++ fsec_all s ++ post) o 0 (zlen pre) = Ok [].
Proof.
  intros ((L & N & _) & _) D. cbn [headers_loop]. unfold fuel_of. cbn [read_var]. change (0 <? 0) with false. cbn iota beta.
  unfold fsec_all. rewrite <- (app_assoc (s_bytes s)), <- L, rd_at, N. cbn [bind]. unfold deof in D. rewrite D. reflexivity.
Qed.
Lemma loop_short o pre post k : zlen post < 256 -> headers_loop (S k) (pre ++ post) o 0 (zlen pre) = Err TypeError.
Proof.
  intros L. cbn [headers_loop]. unfold fuel_of. cbn [read_var]. change (0 <? 0) with false. cbn iota beta. unfold rd.
  unfold zlen at 2 4. rewrite Nat2Z.id, skipn_app_len by reflexivity.
  replace (zlen (firstn (Z.to_nat 256) post) =? 256) with false; [reflexivity |]. symmetry. apply Z.eqb_neq. unfold zlen in *. rewrite firstn_length. lia.
Qed.

Lemma headers_of f o ver m l post : read_restart_header f = Ok (o, ver) -> zlen m = 8 -> Forall (goes_on o) l -> f = m ++ secs_bytes l ++ post ->
  exists k, read_headers f = (hs <- headers_loop (S k) f o 0 (zlen (m ++ secs_bytes l)) ;; Ok (filter (fun h => is_named (h_id h)) (List.map s_hdr l) ++ hs)).
Proof.
  intros R M F ->. unfold read_headers. rewrite R. cbn [bind]. rewrite <- M. unfold fuel_of.
  destruct (loop_all o l m post (List.length (m ++ secs_bytes l ++ post)) F) as (k & _ & E).
  - assert (Q := secs_len o l). rewrite !app_length. assert (W : Forall (fsec_ok o) l) by (eapply Forall_impl; [| exact F]; intros s H; apply H). specialize (Q W). lia.
  - exists k. exact E.
Qed.
Lemma ordinary_secs o l : Forall (ordinary o) l -> Forall (goes_on o) (fsecs l) /\ secs_bytes (fsecs l) = wsecs_bytes l /\
  filter (fun h => is_named (h_id h)) (List.map s_hdr (fsecs l)) = List.map shown (filter (fun h => is_named (h_id h)) (List.map wsec_hdr l)).
Proof.
  intros F. split; [| split].
  - unfold fsecs. apply Forall_map. eapply Forall_impl; [| exact F]. intros ((h, b), load) (W & D & E). split; [apply written_fsec; exact W |].
    intros [S | S]; cbn in S; [apply (proj1 (deof_cut _)) in S; exact (D S) | exact (E S)].
  - rewrite fsecs_bytes. unfold wsecs_bytes. rewrite flat_map_concat_map. reflexivity.
  - unfold fsecs. induction l as [| ((h, b), load) l IH]; [reflexivity |]. inversion F; subst. cbn [List.map filter s_hdr cut_header h_id wsec_hdr fst].
    destruct (is_named (h_id h)); [cbn [List.map]; rewrite <- IH by assumption; reflexivity | apply IH; assumption].
Qed.

(** C75: the list of a file whose sections end with the EOF section shows, in order, all the sections
    that have a known code up to and including the EOF section; what follows does not matter. *)
Theorem C75_listed o ver m l h b load post : zlen m = 8 ->
  let f := m ++ wsecs_bytes l ++ b ++ load ++ post in
  read_restart_header f = Ok (o, ver) -> Forall (ordinary o) l ->
  written o h b load -> ~ deof (h_name h) -> h_id h = EOF ->
  read_headers f = Ok (List.map shown (filter (fun h => is_named (h_id h)) (List.map wsec_hdr l) ++ [h])).
Proof.
  intros M f R F W D E. destruct (ordinary_secs o l F) as (G & B & S).
  assert (Ef : f = m ++ secs_bytes (fsecs l) ++ fsec_all (FS b (cut_header h) load) ++ post) by (unfold f, fsec_all; rewrite B; cbn; rewrite <- !app_assoc; reflexivity).
  destruct (headers_of f o ver m (fsecs l) _ R M G Ef) as (k & ->). rewrite Ef, (app_assoc m).
  rewrite loop_eof; [| apply written_fsec; exact W | cbn; intros Q; apply (proj1 (deof_cut _)) in Q; exact (D Q) | exact E].
  cbn [bind]. rewrite S, map_app. reflexivity.
Qed.
(** A name that begins with DEOF ends the list and is not shown. *)
Theorem C75_deof o ver m l h b load post : zlen m = 8 ->
  let f := m ++ wsecs_bytes l ++ b ++ load ++ post in
  read_restart_header f = Ok (o, ver) -> Forall (ordinary o) l -> written o h b load -> deof (h_name h) ->
  read_headers f = Ok (List.map shown (filter (fun h => is_named (h_id h)) (List.map wsec_hdr l))).
Proof.
  intros M f R F W D. destruct (ordinary_secs o l F) as (G & B & S).
  assert (Ef : f = m ++ secs_bytes (fsecs l) ++ fsec_all (FS b (cut_header h) load) ++ post) by (unfold f, fsec_all; rewrite B; cbn; rewrite <- !app_assoc; reflexivity).
  destruct (headers_of f o ver m (fsecs l) _ R M G Ef) as (k & ->). rewrite Ef, (app_assoc m).
  rewrite loop_deof; [| apply written_fsec; exact W | cbn; apply deof_cut; exact D].
  cbn [bind]. rewrite S, app_nil_r. reflexivity.
Qed.
(** A file that stops without either raises TypeError. *)
Theorem C75_cut o ver m l post : zlen m = 8 ->
  let f := m ++ wsecs_bytes l ++ post in
  read_restart_header f = Ok (o, ver) -> Forall (ordinary o) l -> zlen post < 256 -> read_headers f = Err TypeError.
Proof.
  intros M f R F L. destruct (ordinary_secs o l F) as (G & B & S).
  assert (Ef : f = m ++ secs_bytes (fsecs l) ++ post) by (unfold f; rewrite B; reflexivity).
  destruct (headers_of f o ver m (fsecs l) _ R M G Ef) as (k & ->). rewrite Ef, (app_assoc m), loop_short by exact L. reflexivity.
Qed.

(** ** Written files *)
Definition lab (s : section) : string * Z := (h_name (fst s), h_id (fst s)).
Definition labelled (k : string * Z) (r : res section) : Prop := forall s, r = Ok s -> lab s = k.
Lemma labels : forall ks l ss, Forall2 labelled ks l -> l = List.map Ok ss -> List.map lab ss = ks.
Proof.
  intros ks l ss F. revert ss. induction F as [| k r ks l H _ IH]; intros ss E; destruct ss as [| s ss]; try discriminate; [reflexivity |].
  cbn [List.map] in *. injection E as -> E. f_equal; [apply H; reflexivity | apply IH; exact E].
Qed.
Lemma all_ok_app {A} (a b : list (res A)) ss : a ++ b = List.map Ok ss -> exists sa sb, a = List.map Ok sa /\ b = List.map Ok sb /\ ss = sa ++ sb.
Proof.
  revert ss. induction a as [| x a IH]; intros ss E; [exists [], ss; auto |]. destruct ss as [| s ss]; [discriminate |]. cbn in E. injection E as -> E.
  destruct (IH ss E) as (sa & sb & -> & -> & ->). exists (s :: sa), sb. auto.
Qed.
Lemma lab_mk name id skip l r rest : labelled (name, id) (h <- mk_hdr name id skip l r ;; Ok (h, rest)).
Proof. intros s H. apply bind_ok in H. destruct H as (h & H & E). apply mk_hdr_ok in H. destruct H as (-> & _). apply ok_inj in E. subst s. reflexivity. Qed.
Lemma lab_plain name id l r : labelled (name, id) (plain name id l r).
Proof. intros s H. apply plain_ok in H. destruct H as (-> & _). reflexivity. Qed.

Lemma before_cons s l : before_deof (lab s :: l) = if String.prefix "DEOF" (h_name (fst s)) then [] else lab s :: before_deof l.
Proof. reflexivity. Qed.
Definition body_codes : list Z := filter (fun c => negb (c =? EOF)) all_codes.
Lemma codes_eof : ~ In EOF body_codes.
Proof. unfold body_codes. rewrite filter_In. intros (_ & I). discriminate. Qed.
Lemma codes_all c : In c body_codes -> In c all_codes.
Proof. unfold body_codes. rewrite filter_In. intros (I & _). exact I. Qed.

Section Written.
  Context (i2d : Z -> Z) (f2i : Z -> res Z).
  Hypothesis patterns : forall n, pattern (i2d n).

  Lemma lab_zone k b : labelled (k, 23) (zone_section (k, b)).
  Proof.
    clear patterns. intros s H. unfold zone_section in H.
    apply bind_ok in H; destruct H as (? & _ & H). apply bind_ok in H; destruct H as (? & _ & H). apply bind_ok in H; destruct H as (? & _ & H).
    apply bind_ok in H; destruct H as (? & _ & H). apply bind_ok in H; destruct H as (? & _ & H). apply bind_ok in H; destruct H as ((lo, hi) & _ & H).
    exact (lab_plain _ _ _ _ s H).
  Qed.
  Lemma lab_conn v w : Forall2 labelled
    ([("NO_FA_CV_NOOFA_COUNTS"%string, 10)] ++ match v with V2 => [("NO_CHECK"%string, 30); ("FA_CHECK"%string, 20); ("CV_CHECK"%string, 40)] | V3 => [] end
     ++ [("NOOFA_I_AND_V"%string, 21); ("CVOFA"%string, 22)] ++ List.map (fun '(k, _) => (k, 23)) (w_bocos w)
     ++ [("internal-domain"%string, 23); ("CV_PART"%string, 41); ("X_NO"%string, 31)]) (conn_sections v w).
  Proof.
    clear patterns. unfold conn_sections. apply Forall2_app; [constructor; [apply lab_plain | constructor] |].
    apply Forall2_app; [destruct v; cbn [check_sections]; repeat constructor; apply lab_mk |].
    apply Forall2_app.
    { constructor; [apply lab_mk |]. constructor; [| constructor]. intros s H. apply bind_ok in H; destruct H as (h & HH & H).
      apply mk_hdr_ok in HH. destruct HH as (-> & _). apply bind_ok in H; destruct H as (? & _ & H). apply ok_inj in H. subst s. reflexivity. }
    apply Forall2_app; [induction (w_bocos w) as [| (k, b) d IH]; [constructor | constructor; [apply lab_zone | exact IH]] |].
    constructor; [apply lab_plain |]. constructor; [| constructor; [apply lab_mk | constructor]].
    intros s H. apply bind_ok in H; destruct H as ((npart & icv) & _ & H). apply bind_ok in H; destruct H as (h & HH & H).
    apply mk_hdr_ok in HH. destruct HH as (-> & _). apply bind_ok in H; destruct H as (? & _ & H). apply ok_inj in H. subst s. reflexivity.
  Qed.
  Lemma info_labels w ss : info_sections i2d f2i w = List.map Ok ss ->
    List.map lab ss = [("DATA"%string, 50); ("STEP"%string, 11); ("DT"%string, 12); ("TIME"%string, 12)] ++ List.map (fun k => (k, 12)) (wgt_names (w_wgt w)).
  Proof.
    clear patterns. unfold info_sections. intros E. apply all_ok_app in E. destruct E as (sa & sb & EA & EB & ->). rewrite map_app. f_equal.
    - eapply labels; [| exact EA]. constructor; [apply lab_plain |].
      constructor; [intros s H; apply bind_ok in H; destruct H as (? & _ & H); exact (lab_plain _ _ _ _ s H) |].
      constructor; [intros s H; apply bind_ok in H; destruct H as (? & _ & H); exact (lab_plain _ _ _ _ s H) |].
      constructor; [intros s H; apply bind_ok in H; destruct H as (? & _ & H); exact (lab_plain _ _ _ _ s H) | constructor].
    - destruct (w_wgt w) as [n | d]; [destruct sb; discriminate |]. cbn [wgt_names]. rewrite map_map. cbn. eapply labels; [| exact EB].
      clear. induction d as [| (k, x) d IH]; [constructor |]. constructor; [| exact IH].
      intros s H. apply bind_ok in H; destruct H as (? & _ & H). exact (lab_plain _ _ _ _ s H).
  Qed.
  Lemma scalar_labels g code (G : forall name a, labelled (name, code a) (g name a)) : forall d ss, scalars g d = List.map Ok ss -> Forall (fun '(_, a) => array_typed a) d ->
    List.map lab ss = var_names as_many_as_rows code d.
  Proof.
    clear patterns. induction d as [| (k, a) d IH]; intros ss E T; [destruct ss; [reflexivity | discriminate] |].
    inversion T as [| ? ? TA T']; subst. cbn in TA. cbn [scalars flat_map] in E. unfold var_names. cbn [filter]. unfold as_many_as_rows at 1.
    destruct (a_shape a) as [| n sh] eqn:SH; [destruct ss; discriminate |].
    assert (SZ : a_size a = zlen (a_val a)) by (destruct TA as (WF & _); unfold a_wf in WF; unfold a_size; congruence). rewrite SZ in E.
    destruct (zlen (a_val a) =? n).
    - cbn [app] in E. destruct ss as [| s ss]; [discriminate |]. cbn [List.map] in E. injection E as E1 E2. cbn [List.map]. f_equal; [apply (G k a s E1) | apply IH; assumption].
    - apply IH; assumption.
  Qed.
  Lemma dim_labels k g code (G : forall name a, labelled (name, code) (g name a)) : forall d ss, of_dim k g d = List.map Ok ss ->
    List.map lab ss = var_names (with_dims k) (fun _ => code) d.
  Proof.
    clear patterns. induction d as [| (n, a) d IH]; intros ss E; [destruct ss; [reflexivity | discriminate] |].
    cbn [of_dim flat_map] in E. unfold var_names. cbn [filter]. unfold with_dims at 1. destruct (Nat.eqb (List.length (a_shape a)) k).
    - cbn [app] in E. destruct ss as [| s ss]; [discriminate |]. cbn [List.map] in E. injection E as E1 E2. cbn [List.map]. f_equal; [apply (G n a s E1) | apply IH; assumption].
    - apply IH; assumption.
  Qed.
  Lemma cell_labels v cv ndof d ss : cell_sections i2d v cv ndof d = List.map Ok ss -> Forall (fun '(_, a) => array_typed a) d ->
    List.map lab ss = var_names as_many_as_rows (var_code v 42 45) d ++ var_names (with_dims 2) (fun _ => 43) d ++ var_names (with_dims 3) (fun _ => 44) d.
  Proof.
    clear patterns. intros E T. destruct v; cbn [cell_sections] in E; apply all_ok_app in E; destruct E as (s1 & s2 & E1 & E2 & ->); apply all_ok_app in E2; destruct E2 as (s3 & s4 & E3 & E4 & ->);
      rewrite !map_app; (f_equal; [| f_equal]).
    - eapply scalar_labels; [| exact E1 | exact T]. intros name a. apply lab_mk.
    - eapply dim_labels; [| exact E3]. intros name a. apply lab_mk.
    - eapply dim_labels; [| exact E4]. intros name a. apply lab_mk.
    - eapply scalar_labels; [| exact E1 | exact T]. intros name a. unfold cell_scalar, var_code. destruct (a_int a); apply lab_mk.
    - eapply dim_labels; [| exact E3]. intros name a. apply lab_mk.
    - eapply dim_labels; [| exact E4]. intros name a. apply lab_mk.
  Qed.
  Lemma sections_labels v fm w ss : writer_state fm = Ok w -> fmesh_typed fm -> sections i2d f2i v w = List.map Ok ss -> List.map lab ss = file_sections v fm.
  Proof.
    clear patterns. intros W T E. destruct (writer_state_ok _ _ W) as (_ & _ & _ & _ & _ & _ & _ & _ & _ & _ & _ & _ & _ & _ & _ & E7 & _ & _ & _ & _ & E12 & E13 & E14).
    destruct T as (_ & _ & _ & _ & _ & TN & TC & _). unfold sections in E.
    apply all_ok_app in E; destruct E as (s1 & s' & E1 & E & ->). apply all_ok_app in E; destruct E as (s2 & s'' & E2 & E & ->). apply all_ok_app in E; destruct E as (s3 & s4 & E3 & E4 & ->).
    apply (labels _ _ _ (lab_conn v w)) in E1. apply info_labels in E2.
    assert (L4 : List.map lab s4 = [("EOF"%string, 51)]) by (eapply labels; [| exact E4]; constructor; [apply lab_plain | constructor]).
    assert (L3 : List.map lab s3 = var_names as_many_as_rows (var_code v 32 34) (fd_items (fm_nodes fm)) ++ var_names (with_dims 2) (fun _ => 33) (fd_items (fm_nodes fm))
      ++ var_names as_many_as_rows (var_code v 42 45) (fd_items (fm_cells fm)) ++ var_names (with_dims 2) (fun _ => 43) (fd_items (fm_cells fm)) ++ var_names (with_dims 3) (fun _ => 44) (fd_items (fm_cells fm))).
    { unfold var_sections in E3. rewrite E13, E14 in E3. apply all_ok_app in E3; destruct E3 as (a1 & a' & A1 & E3 & ->). apply all_ok_app in E3; destruct E3 as (a2 & a3 & A2 & A3 & ->).
      rewrite !map_app. f_equal; [| f_equal].
      - eapply scalar_labels; [| exact A1 | exact TN]. intros name a. unfold node_scalar, var_code. destruct v; [apply lab_mk | destruct (a_int a); apply lab_mk].
      - eapply dim_labels; [| exact A2]. intros name a. apply lab_mk.
      - destruct (fm_cells fm) as [d | d]; cbn [fd_items] in *.
        + destruct v; [destruct d; (eapply cell_labels; [exact A3 | exact TC]) |]. destruct d; [| destruct a3; discriminate]. destruct a3; [reflexivity | discriminate].
        + eapply cell_labels; eassumption. }
    rewrite !map_app, E1, E2, L3, L4, E7, E12. unfold file_sections. rewrite <- !app_assoc. reflexivity.
  Qed.

  Lemma shown_lab o : forall ss fs, Forall2 (wrote o) ss fs ->
    List.map (fun h => (h_name h, h_id h)) (List.map s_hdr fs) = List.map (fun '(k, id) => (cut_name k, id)) (List.map lab ss).
  Proof. clear patterns. induction 1 as [| s f ss fs (_ & E & _) _ IH]; [reflexivity |]. cbn [List.map]. rewrite IH, E. reflexivity. Qed.

  (** The list of a written file: the sections of the mesh in the order of the file, up to the first
      name that begins with DEOF. *)
  Theorem C75_written tbl enum host v endian fm f fm' :
    write_mesh tbl enum i2d f2i host v endian fm = (Ok f, fm') -> fmesh_typed fm' ->
    exists hs, read_headers f = Ok hs /\
      List.map (fun h => (h_name h, h_id h)) hs = List.map (fun '(k, id) => (cut_name k, id)) (before_deof (file_sections v fm')).
  Proof using patterns.
    intros H T. destruct (write_mesh_data _ _ _ _ _ _ _ _ _ _ H) as (o & w & _ & W & WD).
    destruct (writer_state_typed i2d fm' w patterns T W) as (TW & _).
    destruct (write_data_chain i2d f2i v o w f TW WD) as (m & ss & fs & M & R & ES & WR & Ef).
    assert (LS := sections_labels v fm' w ss W T ES).
    assert (NE : exists ss0 se, ss = ss0 ++ [se] /\ lab se = ("EOF"%string, 51) /\ Forall (fun s => h_id (fst s) <> EOF /\ In (h_id (fst s)) all_codes) ss0).
    { assert (LS' := LS). unfold file_sections in LS'. rewrite !app_assoc in LS'. destruct (List.map_eq_app _ _ _ _ LS') as (ss0 & s1 & -> & L0 & L1).
      destruct s1 as [| se [| ? ?]]; try discriminate. injection L1 as L1. exists ss0, se. split; [reflexivity |]. split; [cbv [lab]; congruence |].
      apply Forall_forall. intros s I. apply (in_map lab) in I.
      assert (K : In (h_id (fst s)) body_codes); [| split; [intros E; rewrite E in K; revert K; apply codes_eof | apply codes_all; exact K]].
      assert (KL : Forall (fun c => In (snd c) body_codes) (removelast (file_sections v fm'))).
      { unfold file_sections. rewrite !app_assoc, removelast_last. rewrite <- !app_assoc.
        repeat (apply Forall_app; split).
        all: try (destruct v; repeat (apply Forall_cons; [apply (proj1 (zmem_in _ _)); reflexivity |]); apply Forall_nil).
        all: apply Forall_map; apply Forall_forall; intros x _; try destruct x as (k & a); cbn [snd].
        all: try (apply (proj1 (zmem_in _ _)); reflexivity).
        all: unfold var_code; destruct v; try destruct (a_int a); apply (proj1 (zmem_in _ _)); reflexivity. }
      assert (EL : removelast (file_sections v fm') = List.map lab ss0) by (rewrite <- LS, map_app; apply removelast_last).
      rewrite EL, Forall_forall in KL. apply (KL _ I). }
    destruct NE as (ss0 & se & -> & LE & CO). apply Forall2_app_inv_l in WR. destruct WR as (fs0 & fe & WR & WE & ->). inversion WE as [| ? fe0 ? ? WE1 WE2]; subst. inversion WE2; subst. clear WE WE2.
    rewrite map_app in LS. cbn [List.map] in LS. rewrite LE in LS. rewrite <- LS.
    assert (Q : forall l1 l2 f1 f2, ss0 = l1 ++ l2 -> fs0 = f1 ++ f2 -> Forall2 (wrote o) l1 f1 -> Forall (fun s => ~ deof (h_name (fst s))) l1 -> Forall (goes_on o) f1 /\ filter (fun h => is_named (h_id h)) (List.map s_hdr f1) = List.map s_hdr f1).
    { intros l1 l2 f1 f2 EL EF W1 D1. subst ss0. apply Forall_app in CO. destruct CO as (CO & _). clear -W1 D1 CO.
      induction W1 as [| s g l1 f1 WS _ IH]; [split; [constructor | reflexivity] |]. inversion D1; subst. inversion CO as [| ? ? (C1 & C2) C3]; subst. destruct (IH C3 ltac:(assumption)) as (A & B).
      split; [constructor; [split; [apply WS |] | exact A] |].
      - intros [S | S]; [apply (wrote_deof _ _ _ WS) in S; auto | rewrite (wrote_id _ _ _ WS) in S; auto].
      - cbn [List.map filter]. rewrite (wrote_id _ _ _ WS). apply named_iff in C2. rewrite C2, B. reflexivity. }
    destruct (Exists_dec (fun s => deof (h_name (fst s))) ss0) as [X | X]; [intros s; unfold deof; apply bool_dec | |].
    - assert (Y : exists l1 d l2, ss0 = l1 ++ d :: l2 /\ deof (h_name (fst d)) /\ Forall (fun s => ~ deof (h_name (fst s))) l1).
      { clear -X. induction ss0 as [| s l IH]; [inversion X |]. destruct (bool_dec (String.prefix "DEOF" (h_name (fst s))) true) as [D | D].
        - exists [], s, l. split; [reflexivity | split; [exact D | constructor]].
        - inversion X as [? ? D' | ? ? X']; subst; [contradiction |]. destruct (IH X') as (l1 & d & l2 & -> & DD & F). exists (s :: l1), d, l2. split; [reflexivity | split; [exact DD | constructor; assumption]]. }
      destruct Y as (l1 & d & l2 & EL & DD & NF). subst ss0. apply Forall2_app_inv_l in WR. destruct WR as (f1 & f' & W1 & WR & ->). inversion WR as [| ? fd ? f2 WDD WR']; subst.
      destruct (Q _ _ _ _ eq_refl eq_refl W1 NF) as (G & FI).
      destruct (headers_of (m ++ secs_bytes ((f1 ++ fd :: f2) ++ [fe0])) o (version_number v) m f1 (fsec_all fd ++ secs_bytes f2 ++ secs_bytes [fe0]) R M G) as (k & RH).
      { rewrite !secs_app, secs_cons, <- !app_assoc. reflexivity. }
      exists (List.map s_hdr f1). split.
      + rewrite RH. rewrite !secs_app, secs_cons, <- !app_assoc, (app_assoc m). rewrite loop_deof; [cbn [bind]; rewrite FI, app_nil_r; reflexivity | apply WDD | apply (wrote_deof _ _ _ WDD); exact DD].
      + rewrite (shown_lab o l1 f1 W1). f_equal. clear -NF DD. rewrite map_app, <- app_assoc. cbn [List.map app]. induction NF as [| s l1 NS _ IH].
        * cbn [List.map app]. rewrite before_cons. unfold deof in DD. rewrite DD. reflexivity.
        * cbn [List.map app]. rewrite before_cons. unfold deof in NS. apply not_true_is_false in NS. rewrite NS. f_equal. exact IH.
    - assert (NF : Forall (fun s => ~ deof (h_name (fst s))) ss0) by (apply Forall_forall; intros s I D; apply X, Exists_exists; exists s; auto).
      destruct (Q ss0 [] fs0 [] ltac:(rewrite app_nil_r; reflexivity) ltac:(rewrite app_nil_r; reflexivity) WR NF) as (G & FI).
      destruct (headers_of (m ++ secs_bytes (fs0 ++ [fe0])) o (version_number v) m fs0 (fsec_all fe0 ++ []) R M G) as (k & RH).
      { rewrite secs_app. reflexivity. }
      exists (List.map s_hdr (fs0 ++ [fe0])). split.
      + rewrite RH. rewrite secs_app, (app_assoc m). change (secs_bytes [fe0]) with (fsec_all fe0 ++ []).
        rewrite loop_eof; [cbn [bind]; rewrite FI, map_app; reflexivity | apply WE1 | intros D; apply (wrote_deof _ _ _ WE1) in D; unfold lab in LE; injection LE as L1 L2; rewrite L1 in D; discriminate D |].
        rewrite (wrote_id _ _ _ WE1). unfold lab in LE. injection LE as _ L2. exact L2.
      + rewrite (shown_lab o (ss0 ++ [se]) (fs0 ++ [fe0])) by (apply Forall2_app; [exact WR | constructor; [exact WE1 | constructor]]).
        f_equal. rewrite map_app. cbn [List.map]. rewrite LE. clear -NF. induction NF as [| s l1 NS _ IH]; [reflexivity |].
        cbn [List.map app]. rewrite before_cons. unfold deof in NS. apply not_true_is_false in NS. rewrite NS. f_equal. exact IH.
  Qed.
End Written.
Print Assumptions C75_listed.
Print Assumptions C75_deof.
Print Assumptions C75_cut.
Print Assumptions C75_written.

(** A section with a known code, one with an unknown code, and the end. *)
Definition ex_hdr (name : string) (id n : Z) : header := Hdr name id (256 + n) (repeat 0 8) (repeat 0 16).
Definition ex_bytes (h : header) : list Z := match write_header Little h with Ok b => b | Err _ => [] end.
Definition ex_wsec (name : string) (id : Z) (load : list Z) : wsec := (ex_hdr name id (zlen load), ex_bytes (ex_hdr name id (zlen load)), load).
Definition ex_magic : list Z := match binary_write Little Ci 2 [MAGIC; 2] with Ok b => b | Err _ => [] end.
Example c75_case :
  Forall (ordinary Little) [ex_wsec "STEP" 11 []; ex_wsec "OTHER" 99 [1; 2; 3]] /\
  (forall name, In name ["EOF"; "DEOF"]%string -> written Little (ex_hdr name 51 0) (ex_bytes (ex_hdr name 51 0)) []) /\
  read_restart_header (ex_magic ++ wsecs_bytes [ex_wsec "STEP" 11 []; ex_wsec "OTHER" 99 [1; 2; 3]] ++ ex_bytes (ex_hdr "EOF" 51 0)) = Ok (Little, 2) /\
  read_headers (ex_magic ++ wsecs_bytes [ex_wsec "STEP" 11 []; ex_wsec "OTHER" 99 [1; 2; 3]] ++ ex_bytes (ex_hdr "EOF" 51 0)) = Ok [ex_hdr "STEP" 11 0; ex_hdr "EOF" 51 0].
Proof.
  assert (A : forall name id n, header_arrays (ex_hdr name id n)) by (intros; split; [reflexivity | split; [reflexivity |]]; repeat constructor; unfold pattern; lia).
  split; [| split; [| split; vm_compute; reflexivity]].
  - constructor; [| constructor; [| constructor]]; (split; [split; [apply A | split; [vm_compute; reflexivity | reflexivity]] | split; [discriminate | vm_compute; discriminate]]).
  - intros name [<- | [<- | []]]; (split; [apply A | split; [vm_compute; reflexivity | reflexivity]]).
Qed.
(** The files of a mesh with cell variables, the second one with a good or a bad name. *)
Example c75_written_case : forall k2, In k2 ["B"; "DEOFX"]%string ->
  fmesh_typed (ex_fm ex_marks "A" k2) /\ ex_write V3 (ex_fm ex_marks "A" k2) = (Ok (bytes_of (ex_write V3 (ex_fm ex_marks "A" k2))), ex_fm ex_marks "A" k2).
Proof. intros k2 [<- | [<- | []]]; (split; [apply ex_typed, ex_marks_typed | vm_compute; reflexivity]). Qed.
Example c75_read : let l k2 := match read_headers (bytes_of (ex_write V3 (ex_fm ex_marks "A" k2))) with Ok hs => List.map h_name hs | Err _ => [] end in
  let start := ["NO_FA_CV_NOOFA_COUNTS"; "NOOFA_I_AND_V"; "CVOFA"; "wall"; "out"; "internal-domain"; "CV_PART"; "X_NO"; "DATA"; "STEP"; "DT"; "TIME"; "T"; "A"; "S"; "P"]%string in
  l "B"%string = List.app start ["B"; "U"; "EOF"]%string /\ l "DEOFX"%string = start.
Proof. split; vm_compute; reflexivity. Qed.
