(** * The bytes of a written IC3 file, section by section (C97). *)
From Coq Require Import ZArith List Bool String Ascii Lia.
From Verif Require Import Py PyFacts Conn Mesh Ic3Bytes Ic3BytesProofs Ic3 Ic3HeaderSpec Ic3HeaderProofs Ic3FileSpec Ic3FileProofs
  Ic3WriteProofs Ic3PartsProofs Ic3RoundSpec Ic3MeshProofs Ic3BodyProofs Ic3FileThm Ic3BriefSpec Ic3FileProps Ic3LayoutSpec Ic3StartProps.

(** ** Numbers *)
Lemma le_digits n : forall v, le n v = List.map (digit v) (List.seq 0 n).
Proof.
  induction n as [| n IH]; intros v; [reflexivity |]. cbn [le List.seq List.map]. f_equal; [unfold digit; cbn; rewrite Z.div_1_r; reflexivity |].
  rewrite IH, <- seq_shift, map_map. apply map_ext. intros i. unfold digit. rewrite Nat2Z.inj_succ, Z.pow_succ_r by lia.
  rewrite Z.div_div by (try apply Z.pow_pos_nonneg; lia). reflexivity.
Qed.
Lemma enc_in o n v : enc o n v = in_bytes o n v.
Proof. unfold in_bytes, enc. rewrite le_digits. destruct o; [reflexivity |]. rewrite map_rev. reflexivity. Qed.
Lemma first_zeros m : forall k, (k <= m)%nat -> firstn k (repeat 0 m) = repeat 0 k.
Proof. induction m as [| m IH]; intros [| k] H; try reflexivity; [lia |]. cbn. f_equal. apply IH. lia. Qed.
Lemma pads n l : padded n l = firstn n l ++ repeat 0 (n - List.length l).
Proof. unfold padded. rewrite firstn_app, first_zeros by lia. reflexivity. Qed.
Lemma pad_short n l : (List.length l <= n)%nat -> padded n l = l ++ repeat 0 (n - List.length l).
Proof. intros H. rewrite pads, firstn_all2 by exact H. reflexivity. Qed.
Lemma name_letters s bs : enc_name s = Ok bs -> bs = padded 52 (letters s).
Proof.
  unfold enc_name. intros H. apply bind_ok in H; destruct H as (l & M & H). apply ok_inj in H. subst bs.
  assert (E : l = List.map (fun c => Z.of_nat (nat_of_ascii c)) (firstn 52 (list_ascii_of_string s))).
  { apply mapM_ok_Forall2 in M. clear -M. induction M as [| c b cs bs H _ IH]; [reflexivity |]. cbn [List.map]. rewrite IH. f_equal.
    unfold char_byte in H. destruct (_ <? 128); congruence. }
  rewrite pads. unfold letters. rewrite firstn_map, <- E. f_equal. f_equal. rewrite E, !map_length, firstn_length. lia.
Qed.
Lemma words_of o n l bs : mapM (pack_int o n) l = Ok bs -> List.concat bs = flat_map (in_bytes o n) l.
Proof. intros H. apply mapM_pack in H. destruct H as (_ & ->). rewrite <- flat_map_concat_map. apply flat_map_ext. intros v. apply enc_in. Qed.
Lemma doubles_words o l : List.concat (List.map (pack_double o) l) = words8 o l.
Proof. rewrite <- flat_map_concat_map. apply flat_map_ext. intros v. apply enc_in. Qed.
Definition item_words (o : order) (c : code) (l : list Z) : list Z := match c with Ci => words4 o l | Cq | Cd => words8 o l end.
Lemma load_words o c n l b : binary_write o c n l = Ok b -> b = item_words o c l.
Proof.
  unfold binary_write. destruct (zlen l =? Z.max 0 n); [| discriminate]. intros H. apply bind_ok in H; destruct H as (bs & M & H). apply ok_inj in H. subst b.
  destruct c; [exact (words_of o 4 l bs M) | exact (words_of o 8 l bs M) |].
  cbn [item_words]. rewrite <- doubles_words. f_equal. apply mapM_ok_Forall2 in M. clear -M.
  induction M as [| x b l bs H _ IH]; [reflexivity |]. cbn [List.map]. cbn in H. congruence.
Qed.

(** ** Sections *)
Definition loads (o : order) (l : list (code * Z * list Z)) : list Z := flat_map (fun '(c, _, vals) => item_words o c vals) l.
Definition sec_bytes (o : order) (s : section) : list Z :=
  sect o (h_name (fst s)) (h_id (fst s)) (h_idata (fst s)) (h_rdata (fst s)) (loads o (snd s)).
Lemma section_bytes o s b : sec_wf s -> write_section o s = Ok b -> b = sec_bytes o s.
Proof.
  intros ((LI & LR & _) & SK & _) H. unfold write_section in H. apply bind_ok in H; destruct H as (hb & WH & H).
  apply bind_ok in H; destruct H as (ps & WP & H). apply ok_inj in H. subst b.
  assert (LL := loads_len _ _ _ WP). assert (E : List.concat ps = loads o (snd s)).
  { apply mapM_ok_Forall2 in WP. clear -WP. unfold loads. induction WP as [| ((c, n), vals) p l ps W _ IH]; [reflexivity |].
    cbn [List.concat flat_map]. rewrite IH. f_equal. exact (load_words _ _ _ _ _ W). }
  rewrite E in LL |- *. unfold write_header in WH.
  apply bind_ok in WH; destruct WH as (n & HN & WH). apply bind_ok in WH; destruct WH as (i & HI & WH).
  apply bind_ok in WH; destruct WH as (k & HK & WH). apply bind_ok in WH; destruct WH as (ids & HD & WH). apply ok_inj in WH. subst hb.
  apply name_letters in HN. apply pack_int_ok in HI. destruct HI as (_ & ->). apply pack_int_ok in HK. destruct HK as (_ & ->).
  apply words_of in HD. rewrite HN, HD, !enc_in, doubles_words, SK, <- LL. unfold sec_bytes, sect, words8.
  rewrite (pad_short 8 (h_idata (fst s))), (pad_short 16 (h_rdata (fst s))) by (rewrite ?LI, ?LR; apply le_n). rewrite LI, LR, !Nat.sub_diag. cbn [repeat]. rewrite !app_nil_r, <- !app_assoc. reflexivity.
Qed.
Lemma pad_again n l : (List.length l <= n)%nat -> padded n (l ++ repeat 0 (n - List.length l)) = padded n l.
Proof.
  intros H. rewrite (pad_short n l H), pad_short by (rewrite app_length, repeat_length; lia).
  rewrite app_length, repeat_length. replace (n - (List.length l + (n - List.length l)))%nat with 0%nat by lia. apply app_nil_r.
Qed.
Lemma hdr_bytes o name id skip l r ds : (List.length l <= 8)%nat -> (List.length r <= 16)%nat ->
  sec_bytes o (hdr8 name id skip l r, ds) = sect o name id l r (loads o ds).
Proof. intros L R. unfold sec_bytes, hdr8. cbn [fst snd h_name h_id h_idata h_rdata]. unfold sect. rewrite !pad_again by assumption. reflexivity. Qed.
Lemma sec0_bytes o name id l r : (List.length l <= 8)%nat -> (List.length r <= 16)%nat -> sec_bytes o (sec0 name id l r) = sect o name id l r [].
Proof. apply hdr_bytes. Qed.
Lemma sec1_bytes o name id l c n vals : (List.length l <= 8)%nat -> sec_bytes o (sec1 name id l c n vals) = sect o name id l [] (item_words o c vals).
Proof. intros L. unfold sec1. rewrite (hdr_bytes o name id _ l [] _ L (Nat.le_0_l 16)). unfold loads. cbn [flat_map]. rewrite app_nil_r. reflexivity. Qed.

Lemma write_bytes i2d f2i v o w f : w_typed i2d w -> write_data i2d f2i v o w = Ok f ->
  exists c : converted i2d f2i w, f = words4 o [123581321; match v with V2 => 2 | V3 => 3 end] ++ flat_map (sec_bytes o) (all_secs v c).
Proof.
  intros T H. unfold write_data in H. apply bind_ok in H; destruct H as (h & Hh & H). apply bind_ok in H; destruct H as (bs & M & H). apply ok_inj in H. subst f.
  destruct (write_secs o _ _ M) as (ss & fs & E & _ & _); [intros s I; eapply sections_wf; eassumption |].
  destruct (sections_parts i2d f2i v w ss T E) as (c & ES). exists c. apply load_words in Hh. f_equal; [rewrite Hh; destruct v; reflexivity |].
  assert (WF : Forall sec_wf ss).
  { apply Forall_forall. intros s I. apply (sections_wf i2d f2i v w s T). rewrite E. apply in_map. exact I. }
  rewrite E in M. rewrite <- ES. clear -M WF. revert bs M. induction WF as [| s ss WS _ IH]; intros bs M; cbn [List.map mapM] in M.
  - apply ok_inj in M. subst bs. reflexivity.
  - apply bind_ok in M; destruct M as (b & B & M). apply bind_ok in M; destruct M as (bs' & BS & M). apply ok_inj in M. subst bs.
    cbn [bind] in B. cbn [List.concat flat_map]. rewrite (section_bytes _ _ _ WS B), (IH _ BS). reflexivity.
Qed.

(** ** The parts of a file *)
Section Layout.
  Context (i2d : Z -> Z) (f2i : Z -> res Z).

  Lemma kinds t n : t <> "internal"%string -> dget String.eqb t zonekinds = Some n -> kind_number t n.
  Proof.
    intros NI. unfold zonekinds. cbn [dget].
    repeat match goal with
    | |- context [String.eqb t ?k] => destruct (String.eqb_spec t k) as [-> |]; [intros E; first [congruence | injection E as <-; constructor] |]
    end. discriminate.
  Qed.
  Lemma zones_bytes o m zs : Forall2 (fun kb s => zone_section kb = Ok s) (zone_marks m) zs ->
    exists bs, Forall2 (zone_bytes o) (zone_marks m) bs /\ flat_map (sec_bytes o) zs = List.concat bs.
  Proof.
    assert (NI : Forall (fun kb => mk_type (snd kb) <> Some "internal"%string) (zone_marks m)).
    { apply Forall_forall. intros (k, b) I. apply filter_In in I. destruct I as (_ & I). cbn. intros E. rewrite E in I. discriminate I. }
    intros H. induction H as [| (k, b) s d zs Z _ IH]; [exists []; split; [constructor | reflexivity] |].
    inversion NI as [| ? ? N1 N2]; subst. destruct (IH N2) as (bs & F & E). apply zone_section_ok in Z.
    destruct Z as (t & kind & lo & hi & _ & T & K & IX & _ & -> & _ & _ & LP).
    eexists (_ :: bs). split; [constructor; [| exact F] | cbn [flat_map List.concat]; rewrite E; reflexivity].
    exists t, kind, lo, hi. split; [exact T |]. split; [apply kinds; [cbn in N1; congruence | exact K] |]. split; [exact IX |].
    apply sec0_bytes; [cbn; lia | exact LP].
  Qed.
  Lemma weights_bytes o d ws : Forall2 (fun '(k, x) '(k', y) => k' = k /\ to_double i2d (SNum x) = Ok y) d ws ->
    exists bs, Forall2 (weight_bytes i2d o) d bs /\ flat_map (sec_bytes o) (List.map wgt_sec ws) = List.concat bs.
  Proof.
    intros H. induction H as [| (k, x) (k', y) d ws (-> & D) _ (bs & F & E)]; [exists []; split; [constructor | reflexivity] |].
    eexists (_ :: bs). split; [constructor; [| exact F] | cbn [List.map flat_map List.concat]; rewrite E; reflexivity].
    exists (upper k), y. split; [apply C39_case |]. split; [destruct x; cbn in D |- *; congruence |].
    unfold wgt_sec. apply sec0_bytes; cbn; lia.
  Qed.
  Lemma scalars_bytes o v code icode ints n d : data_typed d -> (List.length ints <= 8)%nat ->
    flat_map (sec_bytes o) (List.map (fun '(name, a) => scalar_sec i2d code icode v ints n name a) (filter (fun '(_, a) => is_scalar a) d))
    = scalar_bytes i2d o v code icode ints d.
  Proof.
    intros T L. unfold scalar_bytes. induction T as [| (k, a) d (WF & _) _ IH]; [reflexivity |]. cbn [filter].
    assert (E : is_scalar a = as_many_as_rows a) by (unfold is_scalar, as_many_as_rows, a_size; unfold a_wf in WF; rewrite WF; reflexivity).
    rewrite E. destruct (as_many_as_rows a); [| exact IH]. cbn [List.map flat_map]. rewrite IH. f_equal.
    unfold scalar_sec, kept_int. destruct (match v with V2 => false | V3 => a_int a end); apply sec1_bytes; exact L.
  Qed.
  Lemma blocks_bytes o k code ints n d : (List.length ints <= 8)%nat ->
    flat_map (sec_bytes o) (List.map (fun '(name, a) => block_sec i2d code ints n name a) (filter (fun '(_, a) => is_dim k a) d))
    = block_bytes i2d o k code ints d.
  Proof.
    intros L. unfold block_bytes. induction d as [| (name, a) d IH]; [reflexivity |]. cbn [filter]. change (with_dims k a) with (is_dim k a).
    destruct (is_dim k a); [| exact IH]. cbn [List.map flat_map]. rewrite IH. f_equal. apply sec1_bytes. exact L.
  Qed.
  Lemma stacked : forall x y z rows, stack3 x y z = Ok rows -> Forall (fun r => List.length r = 3%nat) rows /\
    x = List.map (fun r => nth 0 r 0) rows /\ y = List.map (fun r => nth 1 r 0) rows /\ z = List.map (fun r => nth 2 r 0) rows.
  Proof.
    clear. induction x as [| a x IH]; intros [| b y] [| c z] rows H; try discriminate H.
    - apply ok_inj in H. subst rows. auto.
    - cbn [stack3] in H. apply bind_ok in H; destruct H as (rs & R & H). apply ok_inj in H. subst rows.
      destruct (IH _ _ _ R) as (F & -> & -> & ->). split; [constructor; [reflexivity | exact F] | auto].
  Qed.
  Lemma points_stacked m x y z rows : nodescoord m = Ok (x, y, z) -> stack3 x y z = Ok rows -> zlen rows = me_nnode m -> points_of m rows.
  Proof.
    clear. intros NC ST LC. destruct (stacked _ _ _ _ ST) as (F3 & EX & EY & EZZ). split; [exact LC |]. split; [exact F3 |]. unfold nodescoord, dget_err in NC.
    destruct (dget String.eqb "x" (me_nodes m)) as [xs |] eqn:X; [| discriminate]. destruct (dget String.eqb "y" (me_nodes m)) as [ys |] eqn:Y; [| discriminate].
    destruct (dget String.eqb "z" (me_nodes m)) as [zs |] eqn:ZZ; [| discriminate]. cbn [bind] in NC. apply ok_inj in NC.
    assert (N1 := f_equal (fun t => fst (fst t)) NC). assert (N2 := f_equal (fun t => snd (fst t)) NC). assert (N3 := f_equal snd NC). cbn in N1, N2, N3. subst xs ys zs.
    intros k name [E | [E | [E | []]]]; injection E as <- <-; congruence.
  Qed.
  Lemma as_int_of x n : to_int f2i x = Ok n -> as_int f2i x n.
  Proof. destruct x as [[k | p] | d]; cbn; congruence. Qed.
  Lemma as_double_of x p : to_double i2d x = Ok p -> as_double i2d x p.
  Proof. destruct x as [[k | q] | d]; cbn; congruence. Qed.

  (** C97: every byte of a file written by the writers 2 and 3: the magic number and the version, then the sections in order, each
      with its name, its code, its size, its integers, its floats and its data in the byte order asked for. *)
  Theorem C97_layout tbl enum host v endian fm f fm' ls rows :
    write_mesh tbl enum i2d f2i host v endian fm = (Ok f, fm') -> fmesh_typed fm' -> (forall n, pattern (i2d n)) -> faces_of (fm_mesh fm') ls rows ->
    exists o, order_of host endian = Ok o /\ laid_out i2d f2i v o fm' ls rows f.
  Proof.
    intros H T patterns FO. destruct (write_mesh_data _ _ _ _ _ _ _ _ _ _ H) as (o & w & OE & W & WD). exists o. split; [exact OE |].
    destruct (writer_state_typed i2d fm' w patterns T W) as (TW & _). destruct (write_bytes i2d f2i v o w f TW WD) as (c & ->).
    destruct (writer_state_ok fm' w W) as (x & y & z & zf & f2e & NC & ST & LC & WF & E1 & E2 & E3 & E4 & E5 & E6 & E7 & E8 & E9 & E10 & E11 & E12 & E13 & E14).
    destruct (writer_faces_of _ _ _ FO) as (mt & WF' & MR). rewrite WF in WF'. assert (Q1 := f_equal (fun r => match r with Ok (a, _) => Some a | _ => None end) WF').
    assert (Q2 := f_equal (fun r => match r with Ok (_, Some a) => Some a | _ => None end) WF'). cbn in Q1, Q2.
    injection Q1 as ->. destruct f2e as [mt' |]; [| discriminate]. injection Q2 as ->. clear WF' WF.
    assert (CF := c_f2e_ok _ _ _ c). rewrite E6 in CF. injection CF as CF.
    assert (CZ := c_zones_ok _ _ _ c). rewrite E7 in CZ. destruct (zones_bytes o _ _ CZ) as (zones & FZ & EZ).
    destruct (c_wgt_ok _ _ _ c) as (d & EW & FW). destruct (weights_bytes o _ _ FW) as (ws & FWB & EWB).
    exists zones, (c_npart c), (c_icv c), (w_coords w), (c_step c), (c_dt c), (c_time c), d, ws. cbv zeta.
    split; [exact FZ |].
    split; [unfold parts; assert (CP := c_part_ok _ _ _ c); rewrite E8 in CP; destruct (fm_part fm') as [q |]; [exact CP | split; congruence] |].
    split.
    { exact (points_stacked _ _ _ _ _ NC ST LC). }
    split; [apply as_int_of; assert (Q := c_step_ok _ _ _ c); rewrite E9 in Q; exact Q |].
    split; [apply as_double_of; assert (Q := c_dt_ok _ _ _ c); rewrite E10 in Q; exact Q |].
    split; [apply as_double_of; assert (Q := c_time_ok _ _ _ c); rewrite E11 in Q; exact Q |].
    split; [unfold weights; rewrite E12 in EW; unfold param in EW; destruct (dget String.eqb "wgt" (fm_params fm')); congruence |].
    split; [exact FWB |].
    destruct TW as (_ & _ & _ & _ & _ & _ & _ & _ & _ & _ & TN & TC).
    f_equal. unfold all_secs, info_secs, var_secs, node_secs, nodevec_secs, cell_secs, cellvec_secs, celltens_secs, second, second3, counts_sec, noofa_sec, cvofa_sec, int_sec, part_sec, xno_sec, eof_sec.
    repeat first [rewrite flat_map_app | progress cbn [flat_map app]]. rewrite EZ, EWB, <- CF, MR.
    rewrite !scalars_bytes, !blocks_bytes by (assumption || (destruct v; cbn; lia)).
    rewrite ?sec0_bytes, ?sec1_bytes, ?hdr_bytes by (cbn; lia).
    assert (CH : flat_map (sec_bytes o) (check_secs v w) = match v with
      | V2 => sect o "NO_CHECK" 30 [w_no w] [] (words4 o (zrange 0 (w_no w))) ++ sect o "FA_CHECK" 20 [w_fa w] [] (words4 o (zrange 0 (w_fa w)))
              ++ sect o "CV_CHECK" 40 [w_cv w] [] (words4 o (zrange 0 (w_cv w)))
      | V3 => []
      end).
    { destruct v; [| reflexivity]. unfold check_secs, check_sec. cbn [flat_map]. rewrite !sec1_bytes by (cbn; lia). rewrite app_nil_r. reflexivity. }
    assert (ND : w_ndof w = data_ndof (fm_cells fm')) by (unfold w_ndof, data_ndof; rewrite E14; reflexivity).
    assert (LB : last_boco (w_bocos w) = marks_end (fm_mesh fm')) by (rewrite E7, last_boco_end; reflexivity).
    assert (LD : loads o [(Ci, w_fa w, w_nno w); (Ci, zlen (w_noofa w), w_noofa w)] = words4 o (List.map zlen ls) ++ words4 o (List.concat ls)).
    { rewrite E4, E5, csr_make_diffs. unfold loads. cbn [flat_map item_words]. rewrite app_nil_r. reflexivity. }
    rewrite CH, LD, ND, LB, E1, E2, E3, E5, E13, E14, <- !app_assoc. cbn [app]. rewrite app_nil_r. destruct v; reflexivity.
  Qed.
End Layout.
Print Assumptions C97_layout.

(** The two triangles of Ic3FileProps in big-endian order with both writers; and some of the bytes: the zone of the first mark. *)
Example c97_case v : exists f, ex_write v (ex_fm ex_marks "A" "B") = (Ok f, ex_fm ex_marks "A" "B") /\ fmesh_typed (ex_fm ex_marks "A" "B") /\
  (forall n, pattern (ex_i2d n)) /\ faces_of (fm_mesh (ex_fm ex_marks "A" "B")) ex_ls ex_rows /\ order_of Little "big" = Ok Big.
Proof.
  exists (bytes_of (ex_write v (ex_fm ex_marks "A" "B"))). split; [destruct v; vm_compute; reflexivity |]. split; [apply ex_typed, ex_marks_typed |]. split; [apply ex_patterns |].
  split; [apply ex_faces | reflexivity].
Qed.
Example c97_bytes : zone_marks (ex_mesh ex_marks) <> [] /\
  sect Big "wall" 23 [1; 0; 3] [] [] = [119; 97; 108; 108] ++ repeat 0 48 ++ [0; 0; 0; 23; 0; 0; 0; 0; 0; 0; 1; 0; 0; 0; 0; 0; 0; 0; 0; 1]
    ++ repeat 0 15 ++ [3] ++ repeat 0 168.
Proof. split; [discriminate | vm_compute; reflexivity]. Qed.
