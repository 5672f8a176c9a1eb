(** * The IC3 writers succeed on complete meshes. *)
From Coq Require Import ZArith List Bool String Ascii Lia Permutation.
From Verif Require Import Py PyFacts Conn ConnSpec CsrProofs Mesh MeshSpec Ic3Bytes Ic3BytesProofs Ic3 Ic3HeaderSpec Ic3HeaderProofs Ic3FileSpec Ic3FileProofs Ic3WriteProofs Ic3RoundSpec Ic3MeshProofs Ic3FileThm Ic3LossProofs Ic3OkSpec.

Definition sec_ok (o : order) (rs : res section) : Prop := exists s b, rs = Ok s /\ write_section o s = Ok b.
Lemma all_written o (l : list (res section)) : Forall (sec_ok o) l -> exists bs, mapM (fun rs => s <- rs ;; write_section o s) l = Ok bs.
Proof.
  induction 1 as [| rs l (s & b & -> & W) _ (bs & IH)]; [eexists; reflexivity |]. cbn [mapM bind]. rewrite W. cbn [bind]. rewrite IH. eexists; reflexivity.
Qed.

Lemma mk_hdr_total name id skip l r : Forall int64 l -> zlen r <= 16 ->
  mk_hdr name id skip l r = Ok (Hdr name id skip (l ++ repeat 0 (8 - List.length l)) (r ++ repeat 0 (16 - List.length r))).
Proof.
  intros F R. unfold mk_hdr. assert (Q : mapM i64 l = Ok l).
  { induction F as [| x l X _ IH]; [reflexivity |]. cbn [mapM]. unfold i64 at 1. rewrite (proj2 (fits8 x) X). cbn [bind]. rewrite IH. reflexivity. }
  rewrite Q. cbn [bind]. replace (16 <? zlen r) with false by (symmetry; apply Z.ltb_ge; exact R). reflexivity.
Qed.
Lemma good_upto : forall n s, (forall c, In c (list_ascii_of_string s) -> (0 < nat_of_ascii c < 128)%nat) -> ascii_upto n s.
Proof.
  induction n as [| n IH]; intros s C; [exact Logic.I |]. destruct s as [| c s]; [exact Logic.I |]. cbn [ascii_upto]. split.
  - exact (proj2 (C c (or_introl eq_refl))).
  - apply IH. intros c' J. apply C. right. exact J.
Qed.
Lemma head_total o name id skip l r : good_name name -> int32 id -> int64 skip -> Forall int64 l ->
  exists b, write_header o (Hdr name id skip (l ++ repeat 0 (8 - List.length l)) r) = Ok b.
Proof.
  intros N I S F. assert (A : ascii_upto 52 name) by (apply good_upto; apply N).
  unfold write_header. cbn [h_name h_id h_skip h_idata h_rdata]. destruct (enc_name_ok _ A) as (bs & -> & _). cbn [bind].
  unfold pack_int. rewrite (proj2 (fits4 _) I), (proj2 (fits8 _) S). cbn [bind].
  rewrite (mapM_map _ (enc o 8)); [eexists; reflexivity |].
  intros x J. replace (fits 8 x) with true; [reflexivity |]. symmetry. apply fits8. apply in_app_or in J. destruct J as [J | J].
  - rewrite Forall_forall in F. apply F. exact J.
  - apply repeat_spec in J. subst x. split; vm_compute; congruence.
Qed.
(** A payload that can be written. *)
Definition load_ok (x : code * Z * list Z) : Prop :=
  let '(c, n, vals) := x in zlen vals = Z.max 0 n /\ match c with Ci => Forall int32 vals | Cq => Forall int64 vals | Cd => True end.
Lemma load_written o c n vals : load_ok (c, n, vals) -> exists b, binary_write o c n vals = Ok b.
Proof.
  intros (L & F). destruct c.
  - apply pack_all_fits; [discriminate | exact L |]. eapply Forall_impl; [| exact F]. intros x X. apply fits4. exact X.
  - apply pack_all_fits; [discriminate | exact L |]. eapply Forall_impl; [| exact F]. intros x X. apply fits8. exact X.
  - unfold binary_write. rewrite L, Z.eqb_refl. assert (Q : exists ps, mapM (pack_item o Cd) vals = Ok ps).
    { clear. induction vals as [| x l (ps & IH)]; [eexists; reflexivity |]. cbn [mapM pack_item bind]. rewrite IH. eexists; reflexivity. }
    destruct Q as (ps & ->). eexists; reflexivity.
Qed.
Lemma section_written o name id skip l r loads : good_name name -> int32 id -> int64 skip -> Forall int64 l -> zlen r <= 16 ->
  Forall load_ok loads -> sec_ok o (h <- mk_hdr name id skip l r ;; Ok (h, loads)).
Proof.
  intros N I S F R LO. rewrite mk_hdr_total by assumption. cbn [bind]. unfold sec_ok. eexists. cut (exists b, write_section o
    (Hdr name id skip (l ++ repeat 0 (8 - List.length l)) (r ++ repeat 0 (16 - List.length r)), loads) = Ok b).
  { intros (b & B). exists b. split; [reflexivity | exact B]. }
  unfold write_section. cbn [fst snd]. destruct (head_total o name id skip l (r ++ repeat 0 (16 - List.length r)) N I S F) as (b & ->). cbn [bind].
  assert (Q : exists ps, mapM (fun '(c, n, vals) => binary_write o c n vals) loads = Ok ps).
  { clear -LO. induction LO as [| ((c, n), vals) l L _ (ps & IH)]; [eexists; reflexivity |]. cbn [mapM].
    destruct (load_written o c n vals L) as (p & ->). cbn [bind]. rewrite IH. eexists; reflexivity. }
  destruct Q as (ps & ->). eexists; reflexivity.
Qed.
Lemma plain_written o name id l r : good_name name -> int32 id -> Forall int64 l -> zlen r <= 16 -> sec_ok o (plain name id l r).
Proof. intros. unfold plain. apply section_written; try assumption; [split; vm_compute; congruence | constructor]. Qed.

Ltac i32 := split; vm_compute; congruence.
Ltac goodname := split; [cbn; lia | intros c J; cbn in J; repeat destruct J as [<- | J]; try destruct J; cbn; lia].

Lemma int64_small x y : - 2 ^ 31 <= x -> x <= y -> y < 2 ^ 62 -> int64 x.
Proof. intros. unfold int64. change (2 ^ 31) with 2147483648 in *. change (2 ^ 62) with 4611686018427387904 in *. change (2 ^ 63) with 9223372036854775808. lia. Qed.

Lemma make_writable f2i v fm ls rows :
  (file_mesh v fm ls rows) ->
  (fmesh_typed fm) ->
  (exists x y z, nodescoord (fm_mesh fm) = Ok (x, y, z) /\ zlen x = me_nnode (fm_mesh fm) /\ zlen y = me_nnode (fm_mesh fm) /\ zlen z = me_nnode (fm_mesh fm)) ->
  (me_nnode (fm_mesh fm) < 2 ^ 31 /\ zlen ls < 2 ^ 31 /\ me_ncell (fm_mesh fm) < 2 ^ 31 /\ cell_total v fm < 2 ^ 55) ->
  (Forall int32 (List.concat ls)) ->
  (Forall int32 (List.concat rows)) ->
  (forall k b, In (k, b) (zone_marks (fm_mesh fm)) -> mark_complete k b) ->
  (match fm_part fm with | None => True | Some p => exists n l, p = Some (n, Some l) /\ int64 n /\ zlen l = me_ncell (fm_mesh fm) /\ Forall int32 l end) ->
  (exists n, as_int f2i (param (fm_params fm) "step" (SNum (NInt 0))) n /\ int64 n) ->
  (exists x, param (fm_params fm) "dt" (SNum (NInt 0)) = SNum x) ->
  (exists x, param (fm_params fm) "time" (SNum (NInt 0)) = SNum x) ->
  (exists d, param (fm_params fm) "wgt" (SWgt []) = SWgt d) ->
  (data_complete (me_nnode (fm_mesh fm)) (fd_items (fm_nodes fm))) ->
  (data_complete (cell_total v fm) (fd_items (fm_cells fm))) ->
  (v = V3 -> (exists d, fm_cells fm = FSet d) \/ fd_items (fm_cells fm) = []) ->
  writable f2i v fm ls rows.
Proof. intros. constructor; [constructor; try assumption |]; apply H || assumption. Qed.

Section Ok.
  Context (i2d : Z -> Z) (f2i : Z -> res Z).

  Lemma stack3_ok : forall (x y z : list Z), List.length x = List.length y -> List.length x = List.length z ->
    exists c, stack3 x y z = Ok c /\ List.length c = List.length x /\ Forall (fun r => List.length r = 3%nat) c.
  Proof.
    induction x as [| a x IH]; intros [| b y] [| c z] L1 L2; try discriminate; [exists []; repeat split; constructor |].
    cbn in L1, L2. destruct (IH y z) as (r & E & L & F); [lia | lia |]. cbn [stack3]. rewrite E. cbn [bind]. eexists. split; [reflexivity |].
    split; [cbn; lia | constructor; [reflexivity | exact F]].
  Qed.
  Lemma stack3_rows : forall (x y z : list Z) c, stack3 x y z = Ok c -> Forall (fun r => List.length r = 3%nat) c.
  Proof.
    induction x as [| a x IH]; intros [| b y] [| c z] r H; try discriminate; [apply ok_inj in H; subst; constructor |].
    cbn [stack3] in H. apply bind_ok in H. destruct H as (rs & H0 & H). apply ok_inj in H. subst r. constructor; [reflexivity | exact (IH y z rs H0)].
  Qed.
  Lemma last_bound n : forall (l : dict string (mark Z)) a, 0 <= a <= n -> 0 <= n ->
    (forall k b lo hi, In (k, b) l -> mk_index b = Some (ILrange lo hi) -> 0 <= lo <= n /\ hi < n) ->
    0 <= fold_left (fun m '(_, b) => match mk_index b with Some (ILrange _ hi) => Z.max m hi | _ => m end) l a <= n.
  Proof.
    induction l as [| (k, b) l IH]; intros a B N ZN; [exact B |]. cbn [fold_left]. apply IH; [| exact N | intros k' b' lo hi I; apply (ZN k' b' lo hi); right; exact I].
    destruct (mk_index b) as [il |] eqn:E; [destruct il as [| lo hi | |]; try exact B | exact B]. destruct (ZN k b lo hi (or_introl eq_refl) E). lia.
  Qed.
  Lemma concat_len (k : nat) (l : list (list Z)) : Forall (fun r => List.length r = k) l -> zlen (List.concat l) = zlen l * Z.of_nat k.
  Proof.
    intros F. unfold zlen. rewrite (length_concat_const k) by exact F. lia.
  Qed.
  Lemma concat_le (k : Z) (l : list (list Z)) : Forall (fun r => 1 <= zlen r <= k) l -> zlen (List.concat l) <= k * zlen l.
  Proof.
    induction 1 as [| r l R _ IH]; [cbn; lia |]. cbn [List.concat]. rewrite zlen_app, zlen_cons. lia.
  Qed.

  Lemma array_total n a : array_typed a -> (a_shape a = [n] \/ a_shape a = [n; 3] \/ a_shape a = [n; 3; 3]) ->
    a_shape a = [n] /\ zlen (a_val a) = n \/ a_shape a = [n; 3] /\ zlen (a_val a) = n * 3 \/ a_shape a = [n; 3; 3] /\ zlen (a_val a) = n * 9.
  Proof.
    intros (W & _) S. unfold a_wf in W. destruct S as [E | [E | E]]; rewrite E in W; cbn in W; [left | right; left | right; right]; (split; [exact E | lia]).
  Qed.
  Lemma doubles_len a : zlen (doubles i2d a) = zlen (a_val a).
  Proof. unfold doubles. destruct (a_int a); [apply zlen_map | reflexivity]. Qed.

  Lemma in_scalars g d rs : In rs (scalars g d) -> Forall (fun '(_, a) => a_shape a <> []) d ->
    exists name a n tl, In (name, a) d /\ a_shape a = n :: tl /\ a_size a = n /\ rs = g name a.
  Proof.
    intros J F. unfold scalars in J. apply in_flat_map in J. destruct J as ((name, a) & I & J). rewrite Forall_forall in F. specialize (F _ I). cbn in F.
    destruct (a_shape a) as [| n tl] eqn:E; [congruence |]. destruct (a_size a =? n) eqn:Q; [| destruct J]. destruct J as [<- | []].
    apply Z.eqb_eq in Q. exists name, a, n, tl. auto.
  Qed.
  Lemma in_of_dim k g d rs : In rs (of_dim k g d) -> exists name a, In (name, a) d /\ List.length (a_shape a) = k /\ rs = g name a.
  Proof.
    intros J. unfold of_dim in J. apply in_flat_map in J. destruct J as ((name, a) & I & J).
    destruct (Nat.eqb (List.length (a_shape a)) k) eqn:Q; [| destruct J]. destruct J as [<- | []]. apply Nat.eqb_eq in Q. eauto.
  Qed.

  Theorem state_written v o fm ls rows w : storable f2i v fm ls rows -> writer_state fm = Ok w -> exists f, write_data i2d f2i v o w = Ok f.
  Proof.
    intros WR W. assert (M := wr_layout _ _ _ _ _ WR). assert (T := wr_typed _ _ _ _ _ WR).
    destruct (writer_state_ok fm w W) as (x & y & z & zf & f2e & NC & ST & LC & WF & E1 & E2 & E3 & E4 & E5 & E6 & E7 & E8 & E9 & E10 & E11 & E12 & E13 & E14).
    destruct (writer_faces_of _ _ _ (fi_faces _ _ _ _ M)) as (mt & WF' & MR). rewrite WF in WF'. inversion WF' as [[Q1 Q2]]. rewrite Q1 in E4, E5. rewrite Q2 in E6. clear WF' Q1 Q2.
    rewrite csr_make_diffs in E4. cbn [csr_make z_value] in E5.
    destruct (wr_counts _ _ _ _ _ WR) as (BN & BF & BC & BT).
    assert (PN := fi_nnode _ _ _ _ M). assert (PC := fi_ncell _ _ _ _ M). assert (PF := fi_some _ _ _ _ M). assert (NF := fi_nface _ _ _ _ M).
    assert (PD := fi_ndof _ _ _ _ M).
    set (no := me_nnode (fm_mesh fm)) in *. set (cv := me_ncell (fm_mesh fm)) in *. set (fa := zlen ls) in *.
    assert (NO := concat_le 4 ls (fi_sizes _ _ _ _ M)). fold fa in NO. assert (NO0 : 0 <= zlen (List.concat ls)) by apply zlen_nonneg.
    assert (RL : zlen rows = fa).
    { destruct (fi_faces _ _ _ _ M) as [f DM S B | nn b i lb li rb ri DM DB DI SB SI PB PI CB CI ELS ERS].
      - destruct (fs_cells _ _ _ S) as (? & _ & _ & _ & Q). exact Q.
      - destruct (fs_cells _ _ _ SB) as (? & _ & _ & _ & Q1). destruct (fs_cells _ _ _ SI) as (? & _ & _ & _ & Q2).
        unfold fa. rewrite ELS, ERS, !zlen_app. lia. }
    assert (RC := concat_len 2 rows (fi_rows _ _ _ _ M)).
    assert (G : forall k, In k (mesh_names fm) -> good_name k).
    { intros k I. assert (FN := fi_names _ _ _ _ M). rewrite Forall_forall in FN. apply FN. exact I. }
    assert (G1 : forall k b, In (k, b) (w_bocos w) -> good_name k).
    { intros k b I. apply G. unfold mesh_names. apply in_or_app. left. rewrite E7 in I. apply in_map_iff. exists (k, b). auto. }
    assert (G2 : forall k b, In (k, b) (fd_items (w_nodes w)) -> good_name k).
    { intros k b I. apply G. unfold mesh_names. rewrite E13 in I. apply in_or_app. right. apply in_or_app. right. apply in_or_app. left. apply in_map_iff. exists (k, b). auto. }
    assert (G3 : forall k b, In (k, b) (fd_items (w_cells w)) -> good_name k).
    { intros k b I. apply G. unfold mesh_names. rewrite E14 in I. apply in_or_app. right. apply in_or_app. right. apply in_or_app. right. apply in_map_iff. exists (k, b). auto. }
    assert (SM : forall u, - 2 ^ 31 <= u -> u < 2 ^ 62 -> int64 u) by (intros u A B; apply (int64_small u u); lia).
    change (2 ^ 31) with 2147483648 in *. change (2 ^ 62) with 4611686018427387904 in *. change (2 ^ 55) with 36028797018963968 in *.
    assert (MAG : exists h, binary_write o Ci 2 [MAGIC; version_number v] = Ok h).
    { apply load_written. split; [reflexivity |]. destruct v; repeat (apply Forall_cons; [i32 |]); apply Forall_nil. }
    destruct MAG as (h0 & MAG). unfold write_data. rewrite MAG. cbn [bind].
    assert (ALL : Forall (sec_ok o) (sections i2d f2i v w)).
    2: { destruct (all_written o _ ALL) as (bs & ->). eexists; reflexivity. }
    unfold sections. apply Forall_app. split; [| apply Forall_app; split; [| apply Forall_app; split]].
    - unfold conn_sections. rewrite E1, E2, E3, E5, E6, NF. cbn [or_err bind].
      apply Forall_app. split; [| apply Forall_app; split; [| apply Forall_app; split; [| apply Forall_app; split]]].
      + apply Forall_cons; [| apply Forall_nil]. apply plain_written; [goodname | i32 | | cbn; lia].
        repeat (apply Forall_cons; [apply SM; lia |]); apply Forall_nil.
      + destruct v; [| constructor]. cbn [check_sections]. rewrite E1, E2, E3, NF.
        assert (CS : forall name id n, good_name name -> int32 id -> 1 <= n < 2147483648 -> sec_ok o (check_section name id n)).
        { intros name id n N I B. unfold check_section. apply section_written; try assumption; [apply SM; lia | | cbn; lia |].
          - apply Forall_cons; [apply SM; lia | apply Forall_nil].
          - apply Forall_cons; [| apply Forall_nil]. split; [rewrite zlen_zrange; lia |]. apply Forall_forall. intros u U. apply in_zrange in U.
            unfold int32. change (2 ^ 31) with 2147483648. lia. }
        repeat (apply Forall_cons; [apply CS; [goodname | i32 | lia] |]). apply Forall_nil.
      + apply Forall_cons; [| apply Forall_cons; [| apply Forall_nil]].
        * apply section_written; [goodname | i32 | apply SM; lia | | cbn; lia |].
          -- repeat (apply Forall_cons; [apply SM; lia |]); apply Forall_nil.
          -- apply Forall_cons; [| apply Forall_cons; [| apply Forall_nil]].
             ++ rewrite E4. split; [rewrite zlen_map; fold fa; lia |]. apply Forall_forall. intros u U. apply in_map_iff in U.
                destruct U as (r & <- & IR). assert (FS := fi_sizes _ _ _ _ M). rewrite Forall_forall in FS. specialize (FS r IR).
                unfold int32. change (2 ^ 31) with 2147483648. lia.
             ++ split; [lia |]. apply (wr_nodes _ _ _ _ _ WR).
        * apply section_written; [goodname | i32 | apply SM; lia | | cbn; lia |].
          -- repeat (apply Forall_cons; [apply SM; lia |]); apply Forall_nil.
          -- apply Forall_cons; [| apply Forall_nil]. rewrite MR. split; [lia |]. apply (wr_cells _ _ _ _ _ WR).
      + apply Forall_forall. intros rs J. apply in_map_iff in J. destruct J as ((k, b) & <- & I).
        assert (GK := G1 k b I). rewrite E7 in I. destruct (wr_marks _ _ _ _ _ WR k b I) as (MN & MG & (t & MT & TK) & (lo & hi & MI & BL) & MP).
        unfold zone_section. rewrite MN, String.eqb_refl. cbn [assertb bind].
        assert (FB : face_or_bdface b = true) by (unfold face_or_bdface; destruct MG as [-> | ->]; reflexivity). rewrite FB. cbn [assertb bind].
        rewrite MT. cbn [or_err bind]. assert (KI : exists kind, dget String.eqb t zonekinds = Some kind /\ int64 kind).
        { destruct TK as [<- | [<- | [<- | [<- | [<- | []]]]]]; (eexists; split; [reflexivity | split; vm_compute; congruence]). }
        destruct KI as (kind & -> & KB). cbn [or_err bind]. rewrite MI. cbn [or_err bind il_range].
        destruct (fi_zones _ _ _ _ M k b lo hi I MI) as (ZL & ZH). fold fa in ZL, ZH.
        apply plain_written; [exact GK | i32 | | destruct (mk_perio b) as [[l |] |]; [exact MP | cbn; lia | cbn; lia]].
        repeat (apply Forall_cons; [first [exact KB | exact BL | apply SM; lia] |]); apply Forall_nil.
      + apply Forall_cons; [| apply Forall_cons; [| apply Forall_cons; [| apply Forall_nil]]].
        * apply plain_written; [goodname | i32 | | cbn; lia].
          assert (LB : 0 <= last_boco (w_bocos w) <= fa).
          { unfold last_boco. rewrite E7. apply last_bound; [lia | lia |]. intros k b lo hi I E. apply (fi_zones _ _ _ _ M k b lo hi I E). }
          repeat (apply Forall_cons; [first [apply SM; lia | split; vm_compute; congruence] |]); apply Forall_nil.
        * assert (PP : exists n l, w_part w = Some (n, Some l) /\ int64 n /\ zlen l = cv /\ Forall int32 l).
          { assert (P := wr_part _ _ _ _ _ WR). rewrite E8. destruct (fm_part fm) as [p |].
            - destruct P as (n & l & -> & P). exists n, l. split; [reflexivity | exact P].
            - exists 1, (repeat 0 (Z.to_nat cv)). split; [reflexivity |]. split; [split; vm_compute; congruence |].
              split; [unfold zlen; rewrite repeat_length; lia |]. apply Forall_forall. intros u U. apply repeat_spec in U. subst u. i32. }
          destruct PP as (n & l & -> & IN & LL & FL). cbn [or_err bind].
          assert (Q : sec_ok o (h <- mk_hdr "CV_PART" CV_PART (256 + 4 * cv) [cv; n] [] ;; Ok (h, [(Ci, cv, l)]))).
          { apply section_written; [goodname | i32 | apply SM; lia | | cbn; lia |].
            - repeat (apply Forall_cons; [first [exact IN | apply SM; lia] |]); apply Forall_nil.
            - apply Forall_cons; [| apply Forall_nil]. split; [lia | exact FL]. }
          exact Q.
        * apply section_written; [goodname | i32 | apply SM; lia | | cbn; lia |].
          -- repeat (apply Forall_cons; [apply SM; lia |]); apply Forall_nil.
          -- apply Forall_cons; [| apply Forall_nil]. split; [| exact I].
             rewrite (concat_len 3 (w_coords w)) by (eapply stack3_rows; exact ST). lia.
    - unfold info_sections. rewrite E9, E10, E11, E12.
      destruct (wr_step _ _ _ _ _ WR) as (n & AI & IN). destruct (wr_dt _ _ _ _ _ WR) as (dt & ->). destruct (wr_time _ _ _ _ _ WR) as (tm & ->).
      destruct (wr_wgt _ _ _ _ _ WR) as (d & ED). rewrite ED.
      assert (NUM : forall q, exists u, to_double i2d (SNum q) = Ok u) by (intros [q | q]; eexists; reflexivity).
      apply Forall_app. split.
      + apply Forall_cons; [apply plain_written; [goodname | i32 | constructor | cbn; lia] |].
        apply Forall_cons; [| apply Forall_cons; [| apply Forall_cons; [| apply Forall_nil]]].
        * assert (Q : to_int f2i (param (fm_params fm) "step" (SNum (NInt 0))) = Ok n).
          { destruct (param (fm_params fm) "step" (SNum (NInt 0))) as [[k | q] |]; cbn in AI |- *; [congruence | exact AI | destruct AI]. }
          rewrite Q. cbn [bind]. apply plain_written; [goodname | i32 | apply Forall_cons; [exact IN | apply Forall_nil] | cbn; lia].
        * destruct (NUM dt) as (u & ->). cbn [bind]. apply plain_written; [goodname | i32 | constructor | cbn; lia].
        * destruct (NUM tm) as (u & ->). cbn [bind]. apply plain_written; [goodname | i32 | constructor | cbn; lia].
      + apply Forall_forall. intros rs J. apply in_map_iff in J. destruct J as ((k, q) & <- & I). destruct (NUM q) as (u & ->). cbn [bind].
        apply plain_written; [| i32 | constructor | cbn; lia]. apply G. unfold mesh_names. rewrite ED. apply in_or_app. right. apply in_or_app. left.
        apply in_map_iff. exists (k, q). auto.
    - assert (DN := wr_ndata _ _ _ _ _ WR). assert (DC := wr_cdata _ _ _ _ _ WR). fold no in DN. rewrite <- E13 in DN. rewrite <- E14 in DC.
      assert (TN : data_typed (fd_items (w_nodes w))) by (rewrite E13; apply T). assert (TC : data_typed (fd_items (w_cells w))) by (rewrite E14; apply T).
      assert (NE : forall m d, data_complete m d -> Forall (fun '(_, a) => a_shape a <> []) d).
      { intros m d D. eapply Forall_impl; [| exact D]. intros (k, a) ([E | [E | E]] & _); rewrite E; discriminate. }
      unfold data_typed in TN, TC. rewrite Forall_forall in TN, TC.
      assert (AN : forall k a, In (k, a) (fd_items (w_nodes w)) ->
        (a_shape a = [no] /\ zlen (a_val a) = no \/ a_shape a = [no; 3] /\ zlen (a_val a) = no * 3 \/ a_shape a = [no; 3; 3] /\ zlen (a_val a) = no * 9) /\
        (a_int a = true -> Forall int64 (a_val a))).
      { intros k a I. unfold data_complete in DN. rewrite Forall_forall in DN. destruct (DN _ I) as (S & F). split; [| exact F].
        apply array_total; [exact (TN _ I) | exact S]. }
      set (tot := cell_total v fm) in *.
      assert (AC : forall k a, In (k, a) (fd_items (w_cells w)) ->
        (a_shape a = [tot] /\ zlen (a_val a) = tot \/ a_shape a = [tot; 3] /\ zlen (a_val a) = tot * 3 \/ a_shape a = [tot; 3; 3] /\ zlen (a_val a) = tot * 9) /\
        (a_int a = true -> Forall int64 (a_val a))).
      { intros k a I. unfold data_complete in DC. rewrite Forall_forall in DC. destruct (DC _ I) as (S & F). split; [| exact F].
        apply array_total; [exact (TC _ I) | exact S]. }
      assert (PT : 1 <= tot).
      { unfold tot, cell_total. fold cv. destruct v; [exact PC |]. change 1 with (1 * 1). apply Z.mul_le_mono_nonneg; lia. }
      unfold var_sections. apply Forall_app. split; [| apply Forall_app; split].
      + apply Forall_forall. intros rs J. apply in_scalars in J; [| exact (NE _ _ DN)]. destruct J as (name & a & n & tl & I & ES & SZ & ->).
        destruct (AN name a I) as (SH & F). unfold a_size in SZ. unfold node_scalar. rewrite E1. fold no.
        assert (LA : zlen (a_val a) = no) by (destruct SH as [(S & L) | [(S & L) | (S & L)]]; rewrite S in ES; inversion ES; lia).
        apply section_written; [exact (G2 _ _ I) | destruct v; [i32 | destruct (a_int a); i32] | apply SM; lia | | cbn; lia |].
        * apply Forall_cons; [apply SM; lia | apply Forall_nil].
        * apply Forall_cons; [| apply Forall_nil]. destruct v; [| destruct (a_int a) eqn:AI]; (split; [rewrite ?doubles_len; lia |]); [exact Logic.I | apply F; reflexivity | exact Logic.I].
      + apply Forall_forall. intros rs J. apply in_of_dim in J. destruct J as (name & a & I & ES & ->).
        destruct (AN name a I) as (SH & F). unfold node_vector. rewrite E1. fold no.
        assert (LA : zlen (a_val a) = no * 3) by (destruct SH as [(S & L) | [(S & L) | (S & L)]]; rewrite S in ES; cbn in ES; lia).
        apply section_written; [exact (G2 _ _ I) | i32 | apply SM; lia | | cbn; lia |].
        * repeat (apply Forall_cons; [apply SM; lia |]); apply Forall_nil.
        * apply Forall_cons; [| apply Forall_nil]. split; [rewrite doubles_len; lia | exact Logic.I].
      + assert (CELLS : forall nd d, d = fd_items (w_cells w) -> (match v with V2 => cv | V3 => nd * cv end) = tot -> (v = V3 -> 1 <= nd <= tot) ->
          Forall (sec_ok o) (cell_sections i2d v cv nd d)).
        { intros nd d -> ET ND.
          assert (S1 : forall second, Forall int64 second -> Forall (sec_ok o) (scalars (cell_scalar i2d v cv tot second) (fd_items (w_cells w)))).
          { intros second IS. apply Forall_forall. intros rs J. apply in_scalars in J; [| exact (NE _ _ DC)]. destruct J as (name & a & n & tl & I & ES & SZ & ->).
            destruct (AC name a I) as (SH & F). unfold a_size in SZ. unfold cell_scalar.
            assert (LA : zlen (a_val a) = tot) by (destruct SH as [(S & L) | [(S & L) | (S & L)]]; rewrite S in ES; inversion ES; lia).
            apply section_written; [exact (G3 _ _ I) | destruct v; [i32 | destruct (a_int a); i32] | apply SM; lia | | cbn; lia |].
            - apply Forall_cons; [apply SM; lia | exact IS].
            - apply Forall_cons; [| apply Forall_nil]. destruct v; [| destruct (a_int a) eqn:AI]; (split; [rewrite ?doubles_len; lia |]); [exact Logic.I | apply F; reflexivity | exact Logic.I]. }
          assert (S2 : forall second, int64 second -> Forall (sec_ok o) (of_dim 2 (cell_vector i2d cv tot second) (fd_items (w_cells w)))).
          { intros second IS. apply Forall_forall. intros rs J. apply in_of_dim in J. destruct J as (name & a & I & ES & ->).
            destruct (AC name a I) as (SH & F). unfold cell_vector.
            assert (LA : zlen (a_val a) = tot * 3) by (destruct SH as [(S & L) | [(S & L) | (S & L)]]; rewrite S in ES; cbn in ES; lia).
            apply section_written; [exact (G3 _ _ I) | i32 | apply SM; lia | | cbn; lia |].
            - repeat (apply Forall_cons; [first [exact IS | apply SM; lia] |]); apply Forall_nil.
            - apply Forall_cons; [| apply Forall_nil]. split; [rewrite doubles_len; lia | exact Logic.I]. }
          assert (S3 : forall second, int64 second -> Forall (sec_ok o) (of_dim 3 (cell_tensor i2d cv tot second) (fd_items (w_cells w)))).
          { intros second IS. apply Forall_forall. intros rs J. apply in_of_dim in J. destruct J as (name & a & I & ES & ->).
            destruct (AC name a I) as (SH & F). unfold cell_tensor.
            assert (LA : zlen (a_val a) = tot * 9) by (destruct SH as [(S & L) | [(S & L) | (S & L)]]; rewrite S in ES; cbn in ES; lia).
            apply section_written; [exact (G3 _ _ I) | i32 | apply SM; lia | | cbn; lia |].
            - repeat (apply Forall_cons; [first [exact IS | apply SM; lia] |]); apply Forall_nil.
            - apply Forall_cons; [| apply Forall_nil]. split; [rewrite doubles_len; lia | exact Logic.I]. }
          assert (I3 : int64 3) by (split; vm_compute; congruence).
          unfold cell_sections. destruct v; rewrite ET.
          - apply Forall_app. split; [apply S1; constructor |]. apply Forall_app. split; [apply S2; exact I3 | apply S3; exact I3].
          - assert (IND : int64 nd) by (specialize (ND eq_refl); apply SM; lia).
            apply Forall_app. split; [apply S1; apply Forall_cons; [exact IND | apply Forall_nil] |]. apply Forall_app. split; [apply S2; exact IND | apply S3; exact IND]. }
        rewrite E3. assert (DS := wr_dataset _ _ _ _ _ WR). unfold tot, cell_total in CELLS, PT. fold cv in CELLS, PT. rewrite <- E14 in CELLS, PT, PD, DS.
        destruct (w_cells w) as [d | d]; cbn [fd_items data_ndof] in *.
        * destruct v; [destruct d; apply CELLS; solve [reflexivity | discriminate] |]. destruct (DS eq_refl) as [(d' & Q) | ->]; [discriminate Q | apply Forall_nil].
        * apply CELLS; [reflexivity | destruct v; reflexivity |]. intros ->. split; [exact PD |].
          rewrite <- (Z.mul_1_r (ds_ndof d)) at 1. apply Z.mul_le_mono_nonneg_l; lia.
    - apply Forall_cons; [| apply Forall_nil]. apply plain_written; [goodname | i32 | constructor | cbn; lia].
  Qed.

  Theorem writer_state_total v fm ls rows : storable f2i v fm ls rows -> exists w, writer_state fm = Ok w.
  Proof.
    intros WR. unfold writer_state. destruct (wr_coords _ _ _ _ _ WR) as (x & y & z & NC & LX & LY & LZ). rewrite NC. cbn [bind].
    unfold zlen in LX, LY, LZ. destruct (stack3_ok x y z) as (c & SC & LC & _); [lia | lia |]. rewrite SC. cbn [bind].
    replace (zlen c =? me_nnode (fm_mesh fm)) with true by (symmetry; apply Z.eqb_eq; unfold zlen; lia). cbn [assertb bind].
    destruct (writer_faces_of _ _ _ (fi_faces _ _ _ _ (wr_layout _ _ _ _ _ WR))) as (mt & -> & _). cbn [bind]. eexists; reflexivity.
  Qed.
  Theorem mesh_written tbl enum host v endian o fm m ls rows :
    order_of host endian = Ok o -> prepare_mesh tbl enum (fm_mesh fm) = (Ok tt, m) ->
    let fm' := FM m (fm_cells fm) (fm_nodes fm) (fm_params fm) (fm_part fm) in
    storable f2i v fm' ls rows -> exists f, write_mesh tbl enum i2d f2i host v endian fm = (Ok f, fm').
  Proof.
    intros OO P fm' WR. destruct (writer_state_total v fm' ls rows WR) as (w & W). destruct (state_written v o fm' ls rows w WR W) as (f & E).
    exists f. unfold write_mesh. rewrite OO, P. cbn [bind]. fold fm'. rewrite W. cbn [bind]. rewrite E. reflexivity.
  Qed.
End Ok.
