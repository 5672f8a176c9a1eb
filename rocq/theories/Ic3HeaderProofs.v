(** * Facts about section headers and the section search. *)
From Coq Require Import ZArith List Bool Ascii String Lia.
From Verif Require Import Py PyFacts Ic3Bytes Ic3BytesProofs Ic3 Ic3HeaderSpec.

(** ** Names *)
Lemma char_byte_ok c : ascii_char c -> char_byte c = Ok (Z.of_nat (nat_of_ascii c)).
Proof. unfold ascii_char, char_byte. intros H. replace (_ <? 128) with true by (symmetry; apply Z.ltb_lt; lia). reflexivity. Qed.
Lemma char_byte_err c : ~ ascii_char c -> char_byte c = Err StructError.
Proof. unfold ascii_char, char_byte. intros H. replace (_ <? 128) with false by (symmetry; apply Z.ltb_ge; lia). reflexivity. Qed.

Lemma enc_chars n : forall s, ascii_upto n s ->
  exists bs, mapM char_byte (firstn n (list_ascii_of_string s)) = Ok bs /\ (List.length bs <= n)%nat /\
    Forall is_byte bs /\ forall k, dec_name (bs ++ repeat 0 k) = Ok (cut_at n s).
Proof.
  assert (Z0 : forall k, dec_name (repeat 0 k) = Ok EmptyString) by (intros []; reflexivity).
  induction n as [| n IH]; intros s H.
  - exists []. repeat split; try constructor. intros k. apply Z0.
  - destruct s as [| c s].
    + exists []. repeat split; try constructor; cbn; [lia | intros k; apply Z0].
    + destruct H as (C & H). destruct (IH s H) as (bs & E & L & B & D).
      cbn [list_ascii_of_string firstn mapM]. rewrite (char_byte_ok c C). cbn [bind]. rewrite E. cbn [bind].
      exists (Z.of_nat (nat_of_ascii c) :: bs). repeat split.
      * cbn. lia.
      * constructor; [unfold is_byte, ascii_char in *; lia | exact B].
      * intros k. cbn [app dec_name cut_at].
        destruct (Ascii.eqb c zero) eqn:EZ.
        -- apply Ascii.eqb_eq in EZ. subst c. reflexivity.
        -- replace (Z.of_nat (nat_of_ascii c) =? 0) with false.
           2: { symmetry. apply Z.eqb_neq. intros Q. apply Ascii.eqb_neq in EZ. apply EZ.
                rewrite <- (ascii_nat_embedding c). replace (nat_of_ascii c) with 0%nat by lia. reflexivity. }
           replace (Z.of_nat (nat_of_ascii c) <? 128) with true by (symmetry; apply Z.ltb_lt; unfold ascii_char in C; lia).
           rewrite D. cbn [bind]. rewrite Nat2Z.id, ascii_nat_embedding. reflexivity.
Qed.
Lemma enc_chars_err n : forall s, ~ ascii_upto n s -> mapM char_byte (firstn n (list_ascii_of_string s)) = Err StructError.
Proof.
  induction n as [| n IH]; intros s H; [cbn in H; tauto |].
  destruct s as [| c s]; [cbn in H; tauto |].
  cbn [list_ascii_of_string firstn mapM]. cbn [ascii_upto] in H.
  destruct (Nat.ltb_spec (nat_of_ascii c) 128) as [C | C].
  - rewrite (char_byte_ok c C). cbn [bind]. rewrite IH by (unfold ascii_char in H; tauto). reflexivity.
  - rewrite char_byte_err by (unfold ascii_char; lia). reflexivity.
Qed.
Lemma enc_name_ok s : ascii_upto 52 s ->
  exists bs, enc_name s = Ok bs /\ List.length bs = 52%nat /\ Forall is_byte bs /\ dec_name bs = Ok (cut_name s).
Proof.
  intros H. destruct (enc_chars 52 s H) as (bs & E & L & B & D). unfold enc_name. rewrite E. cbn [bind].
  exists (bs ++ repeat 0 (52 - List.length bs)). repeat split.
  - rewrite app_length, repeat_length. lia.
  - apply Forall_app. split; [exact B |]. apply Forall_forall. intros x I. apply repeat_spec in I. subst. unfold is_byte. lia.
  - apply D.
Qed.
Lemma enc_name_err s : ~ ascii_upto 52 s -> enc_name s = Err StructError.
Proof. intros H. unfold enc_name. rewrite enc_chars_err by exact H. reflexivity. Qed.

Lemma cut_at_prefix p : forall n s, (String.length p <= n)%nat -> (forall c, In c (list_ascii_of_string p) -> c <> zero) ->
  String.prefix p (cut_at n s) = String.prefix p s.
Proof.
  induction p as [| c p IH]; intros n s L N; [destruct (cut_at n s), s; reflexivity |].
  cbn [String.length] in L. destruct n as [| n]; [lia |].
  destruct s as [| d s]; [reflexivity |]. cbn [cut_at].
  destruct (Ascii.eqb d zero) eqn:E.
  - apply Ascii.eqb_eq in E. subst d. cbn [String.prefix]. destruct (ascii_dec c zero) as [Q | _]; [| reflexivity].
    exfalso. apply (N c); [left; reflexivity | exact Q].
  - cbn [String.prefix]. destruct (ascii_dec c d); [| reflexivity]. apply IH; [lia |].
    intros x I. apply N. right. exact I.
Qed.
Lemma good_cut_at : forall n s, (String.length s <= n)%nat ->
  (forall c, In c (list_ascii_of_string s) -> (0 < nat_of_ascii c < 128)%nat) -> cut_at n s = s /\ ascii_upto n s.
Proof.
  induction n as [| n IH]; intros s L H; destruct s as [| c s]; cbn [String.length] in L; try lia; try (split; [reflexivity | exact I]).
  destruct (IH s) as (A & B); [lia | intros d D; apply H; right; exact D |].
  assert (C := H c (or_introl eq_refl)). cbn [cut_at ascii_upto].
  destruct (Ascii.eqb c zero) eqn:E; [apply Ascii.eqb_eq in E; subst c; cbn in C; lia |].
  rewrite A. split; [reflexivity | split; [exact (proj2 C) | exact B]].
Qed.
Lemma good_cut s : good_name s -> cut_name s = s.
Proof. intros (L & H). apply (good_cut_at 52 s L H). Qed.
Lemma good_ascii s : good_name s -> ascii_upto 52 s.
Proof. intros (L & H). apply (good_cut_at 52 s L H). Qed.
Lemma cut_at_substring : forall n s, (forall c, In c (list_ascii_of_string s) -> c <> zero) ->
  cut_at n s = String.substring 0 n s.
Proof.
  induction n as [| n IH]; intros s H; destruct s as [| c s]; try reflexivity. cbn.
  destruct (Ascii.eqb c zero) eqn:E.
  - apply Ascii.eqb_eq in E. exfalso. apply (H c); [left; reflexivity | exact E].
  - f_equal. apply IH. intros d D. apply H. right. exact D.
Qed.
Lemma deof_cut s : deof (cut_name s) <-> deof s.
Proof.
  unfold deof, cut_name. rewrite cut_at_prefix; [reflexivity | cbn; lia |].
  cbn. intros c [<- | [<- | [<- | [<- | []]]]]; discriminate.
Qed.

(** ** Headers *)
Lemma fits4 v : fits 4 v = true <-> int32 v.
Proof. rewrite fits_iff. unfold int32. change (256 ^ Z.of_nat 4) with (2 * 2 ^ 31). lia. Qed.
Lemma fits8 v : fits 8 v = true <-> int64 v.
Proof. rewrite fits_iff. unfold int64. change (256 ^ Z.of_nat 8) with (2 * 2 ^ 63). lia. Qed.
Lemma pack_int_ok o n v b : pack_int o n v = Ok b -> fits n v = true /\ b = enc o n v.
Proof. unfold pack_int. destruct (fits n v); intros H; inversion H. auto. Qed.

Lemma map_enc o n l : (0 < n)%nat -> Forall (fun v => fits n v = true) l ->
  List.map (unpack_int o) (List.map (enc o n) l) = l.
Proof. intros N. induction 1; cbn; [reflexivity |]. rewrite unpack_enc by assumption. rewrite IHForall. reflexivity. Qed.
Lemma mapM_pack o n l bs : mapM (pack_int o n) l = Ok bs -> Forall (fun v => fits n v = true) l /\ bs = List.map (enc o n) l.
Proof.
  intros H. apply mapM_ok_Forall2 in H. induction H as [| v b l bs P _ (A & B)]; [split; constructor |].
  apply pack_int_ok in P. destruct P as (P & ->). split; [constructor; assumption | cbn; congruence].
Qed.
Lemma firstn_app_len {A} n (a b : list A) : List.length a = n -> firstn n (a ++ b) = a.
Proof. intros <-. rewrite firstn_app, firstn_all, Nat.sub_diag, firstn_O, app_nil_r. reflexivity. Qed.
Lemma skipn_app_len {A} n (a b : list A) : List.length a = n -> skipn n (a ++ b) = b.
Proof. intros <-. rewrite skipn_app, skipn_all, Nat.sub_diag, skipn_O. reflexivity. Qed.
Lemma concat_enc_bytes o n l : Forall is_byte (List.concat (List.map (enc o n) l)).
Proof. induction l; cbn; [constructor | apply Forall_app; split; [apply enc_bytes | assumption]]. Qed.
Lemma concat_enc_length o n l : List.length (List.concat (List.map (enc o n) l)) = (List.length l * n)%nat.
Proof.
  rewrite (length_concat_const n); [rewrite map_length; reflexivity |].
  apply Forall_forall. intros x I. apply in_map_iff in I. destruct I as (v & <- & _). apply enc_length.
Qed.
Lemma chunks_enc o n l : (0 < n)%nat -> chunks n (List.concat (List.map (enc o n) l)) = List.map (enc o n) l.
Proof.
  intros N. apply chunks_concat; [exact N |].
  apply Forall_forall. intros x I. apply in_map_iff in I. destruct I as (v & <- & _). apply enc_length.
Qed.

Definition cut_header (h : header) : header :=
  Hdr (cut_name (h_name h)) (h_id h) (h_skip h) (h_idata h) (h_rdata h).

Lemma write_header_ok o h b : write_header o h = Ok b -> header_arrays h ->
  packable h /\ Forall is_byte b /\ is_header o b (cut_header h).
Proof.
  intros H (LI & LR & PR). unfold write_header in H.
  apply bind_ok in H; destruct H as (n & HN & H). apply bind_ok in H; destruct H as (i & HI & H).
  apply bind_ok in H; destruct H as (s & HS & H). apply bind_ok in H; destruct H as (ids & HD & H).
  inversion H; subst b; clear H.
  assert (A : ascii_upto 52 (h_name h)).
  { destruct (enc_name (h_name h)) as [x | e] eqn:E; [| discriminate HN].
    assert (D : {ascii_upto 52 (h_name h)} + {~ ascii_upto 52 (h_name h)}).
    { clear. generalize (h_name h). generalize 52%nat. induction n as [| n IH]; intros s; [left; exact I |].
      destruct s as [| c s]; [left; exact I |]. cbn.
      destruct (IH s); [| right; tauto]. destruct (lt_dec (nat_of_ascii c) 128); [left | right]; unfold ascii_char; tauto. }
    destruct D as [D | D]; [exact D |]. rewrite (enc_name_err _ D) in E. discriminate E. }
  destruct (enc_name_ok _ A) as (bs & E & L & B & D). rewrite E in HN. inversion HN; subst n; clear HN E.
  apply pack_int_ok in HI. destruct HI as (FI & ->). apply pack_int_ok in HS. destruct HS as (FS & ->).
  apply mapM_pack in HD. destruct HD as (FD & ->).
  change (pack_double o) with (enc o 8).
  set (R := List.concat (List.map (enc o 8) (h_rdata h))) in *.
  set (D8 := List.concat (List.map (enc o 8) (h_idata h))) in *.
  assert (LD : List.length D8 = 64%nat) by (unfold D8; rewrite concat_enc_length, LI; reflexivity).
  assert (LRR : List.length R = 128%nat) by (unfold R; rewrite concat_enc_length, LR; reflexivity).
  split; [| split].
  - repeat split; [exact A | apply fits4 | apply fits4 | apply fits8 | apply fits8 |]; try assumption.
    eapply Forall_impl; [| exact FD]. intros v. apply fits8.
  - repeat (apply Forall_app; split); try assumption; try apply enc_bytes; apply concat_enc_bytes.
  - unfold is_header. cbn [cut_header h_name].
    assert (X1 : forall x, firstn 52 (bs ++ x) = bs) by (intros; apply firstn_app_len; exact L).
    assert (X2 : forall x, skipn 52 (bs ++ x) = x) by (intros; apply skipn_app_len; exact L).
    repeat split.
    + unfold zlen. rewrite !app_length, !enc_length, L, LD, LRR. reflexivity.
    + unfold hdr_name. rewrite X1. exact D.
    + unfold hdr_of, cut_header. f_equal.
      * rewrite X2, firstn_app_len by apply enc_length. apply unpack_enc; [lia | exact FI].
      * rewrite (app_assoc bs), skipn_app_len by (rewrite app_length, enc_length, L; reflexivity).
        rewrite firstn_app_len by apply enc_length. apply unpack_enc; [lia | exact FS].
      * rewrite (app_assoc bs), (app_assoc (bs ++ _)), skipn_app_len by (rewrite !app_length, !enc_length, L; reflexivity).
        rewrite firstn_app_len by exact LD. unfold D8. rewrite chunks_enc by lia. apply map_enc; [lia | exact FD].
      * rewrite (app_assoc bs), (app_assoc (bs ++ _)), (app_assoc (_ ++ _) D8), skipn_app_len
          by (rewrite !app_length, !enc_length, L, LD; reflexivity).
        unfold R. rewrite chunks_enc by lia. clear -PR.
        induction PR as [| v l P _ IH]; [reflexivity |]. cbn [List.map]. rewrite IH. f_equal.
        unfold unpack_double. rewrite dec_enc. apply Z.mod_small. exact P.
Qed.

Lemma write_header_total o h : header_arrays h -> packable h -> exists b, write_header o h = Ok b.
Proof.
  intros _ (A & I & S & D). unfold write_header. destruct (enc_name_ok _ A) as (bs & -> & _). cbn [bind].
  unfold pack_int. rewrite (proj2 (fits4 _) I), (proj2 (fits8 _) S). cbn [bind].
  rewrite (mapM_map _ (enc o 8)); [eexists; reflexivity |].
  intros v J. rewrite Forall_forall in D. rewrite (proj2 (fits8 v) (D v J)). reflexivity.
Qed.
Lemma write_header_err o h : ~ packable h -> write_header o h = Err StructError.
Proof.
  intros N. unfold write_header.
  assert (D : {ascii_upto 52 (h_name h)} + {~ ascii_upto 52 (h_name h)}).
  { clear. generalize (h_name h). generalize 52%nat. induction n as [| n IH]; intros s; [left; exact I |].
    destruct s as [| c s]; [left; exact I |]. cbn.
    destruct (IH s); [| right; tauto]. destruct (lt_dec (nat_of_ascii c) 128); [left | right]; unfold ascii_char; tauto. }
  destruct D as [A | A]; [| rewrite enc_name_err by exact A; reflexivity].
  destruct (enc_name_ok _ A) as (bs & -> & _). cbn [bind]. unfold pack_int at 1 2.
  destruct (fits 4 (h_id h)) eqn:E4; [| reflexivity]. cbn [bind].
  destruct (fits 8 (h_skip h)) eqn:E8; [| reflexivity]. cbn [bind].
  destruct (mapM (pack_int o 8) (h_idata h)) as [l | e] eqn:E.
  - exfalso. apply N. apply mapM_pack in E. destruct E as (F & _). repeat split; try apply fits4; try apply fits8; try assumption.
    eapply Forall_impl; [| exact F]. intros v. apply fits8.
  - cbn [bind]. f_equal. clear -E. induction (h_idata h) as [| v l IH]; [discriminate E |].
    cbn [mapM] in E. unfold pack_int in E at 1. destruct (fits 8 v); [| cbn in E; congruence].
    cbn [bind] in E. destruct (mapM (pack_int o 8) l); [discriminate E |]. apply IH. exact E.
Qed.

(** ** The search *)
Lemma read_var_skip fuel f o ids skip p : 0 < skip ->
  read_var fuel f o ids skip p = read_var fuel f o ids 0 (p + (skip - 256)).
Proof.
  intros H. destruct fuel; [reflexivity |]. cbn [read_var].
  replace (0 <? skip) with true by (symmetry; apply Z.ltb_lt; exact H). reflexivity.
Qed.
Lemma not_deof s : ~ deof s -> String.prefix "DEOF" s = false.
Proof. unfold deof. destruct (String.prefix "DEOF" s); [tauto | reflexivity]. Qed.
Lemma zmem_false x l : ~ In x l -> zmem x l = false.
Proof. intros H. destruct (zmem x l) eqn:E; [| reflexivity]. apply zmem_in in E. tauto. Qed.

Lemma read_var_pass o ids s pre post k : fsec_ok o s -> passed ids s ->
  read_var (S k) (pre ++ fsec_all s ++ post) o ids 0 (zlen pre) =
  read_var k (pre ++ fsec_all s ++ post) o ids 0 (zlen pre + zlen (fsec_all s)).
Proof.
  intros ((L & N & H) & SK) (NS & NI). cbn [read_var]. change (0 <? 0) with false. cbn iota beta.
  unfold fsec_all at 1. rewrite <- app_assoc, <- L, rd_at. rewrite N. cbn [bind].
  unfold stops in NS. rewrite not_deof by tauto. rewrite H. rewrite zmem_false by exact NI.
  replace (h_id (s_hdr s) =? EOF) with false by (symmetry; apply Z.eqb_neq; tauto).
  rewrite read_var_skip by (rewrite SK; assert (Q := zlen_nonneg (s_load s)); lia).
  f_equal. unfold fsec_all. rewrite zlen_app. lia.
Qed.
Lemma read_var_hit o ids s pre post k : fsec_ok o s -> ~ deof (h_name (s_hdr s)) -> In (h_id (s_hdr s)) ids ->
  read_var (S k) (pre ++ fsec_all s ++ post) o ids 0 (zlen pre) = Ok (Some (s_hdr s), zlen pre + 256).
Proof.
  intros ((L & N & H) & SK) ND I. cbn [read_var]. change (0 <? 0) with false. cbn iota beta.
  unfold fsec_all at 1. rewrite <- app_assoc, <- L, rd_at. rewrite N. cbn [bind].
  rewrite not_deof by exact ND. rewrite H, (proj2 (zmem_in _ _) I). reflexivity.
Qed.
Lemma read_var_stop o ids s pre post k : fsec_ok o s -> stops s -> ~ In EOF ids ->
  read_var (S k) (pre ++ fsec_all s ++ post) o ids 0 (zlen pre) = Ok (None, zlen pre + 256).
Proof.
  intros ((L & N & H) & SK) ST NE. cbn [read_var]. change (0 <? 0) with false. cbn iota beta.
  unfold fsec_all at 1. rewrite <- app_assoc, <- L, rd_at. rewrite N. cbn [bind].
  destruct (String.prefix "DEOF" (h_name (s_hdr s))) eqn:E; [reflexivity |].
  destruct ST as [ST | ST]; [unfold deof in ST; congruence |].
  rewrite H, ST, zmem_false by exact NE. reflexivity.
Qed.

Lemma secs_cons s l : secs_bytes (s :: l) = fsec_all s ++ secs_bytes l.
Proof. reflexivity. Qed.
Lemma secs_app l1 l2 : secs_bytes (l1 ++ l2) = secs_bytes l1 ++ secs_bytes l2.
Proof. unfold secs_bytes. rewrite map_app, concat_app. reflexivity. Qed.
Lemma secs_len o l : Forall (fsec_ok o) l -> (List.length l <= List.length (secs_bytes l))%nat.
Proof.
  induction 1 as [| s l ((L & _) & _) _ IH]; [reflexivity |].
  rewrite secs_cons. unfold fsec_all. unfold zlen in L. rewrite !app_length. cbn [List.length]. lia.
Qed.

Lemma read_var_passes o ids : forall l pre post k, Forall (fsec_ok o) l -> Forall (passed ids) l ->
  (List.length l <= k)%nat ->
  read_var k (pre ++ secs_bytes l ++ post) o ids 0 (zlen pre) =
  read_var (k - List.length l) (pre ++ secs_bytes l ++ post) o ids 0 (zlen pre + zlen (secs_bytes l)).
Proof.
  induction l as [| s l IH]; intros pre post k O P K.
  - cbn. rewrite Nat.sub_0_r, Z.add_0_r. reflexivity.
  - inversion O; subst. inversion P; subst. cbn [List.length] in K. destruct k as [| k]; [lia |].
    rewrite secs_cons. rewrite <- app_assoc. rewrite read_var_pass by assumption.
    replace (zlen pre + zlen (fsec_all s)) with (zlen (pre ++ fsec_all s)) by apply zlen_app.
    rewrite (app_assoc pre). rewrite IH by (assumption || lia).
    cbn [List.length]. f_equal. rewrite !zlen_app. lia.
Qed.

(** The first section found. *)
Lemma read_var_first o ids l s pre post k : Forall (fsec_ok o) l -> Forall (passed ids) l ->
  fsec_ok o s -> ~ deof (h_name (s_hdr s)) -> In (h_id (s_hdr s)) ids -> (List.length l < k)%nat ->
  read_var k (pre ++ secs_bytes l ++ fsec_all s ++ post) o ids 0 (zlen pre) =
  Ok (Some (s_hdr s), zlen pre + zlen (secs_bytes l) + 256).
Proof.
  intros O P OS D I K. rewrite read_var_passes by (assumption || lia).
  replace (zlen pre + zlen (secs_bytes l)) with (zlen (pre ++ secs_bytes l)) by apply zlen_app.
  rewrite (app_assoc pre). destruct (k - List.length l)%nat eqn:E; [lia |].
  apply read_var_hit; assumption.
Qed.
Lemma read_var_none o ids l s pre post k : Forall (fsec_ok o) l -> Forall (passed ids) l ->
  fsec_ok o s -> stops s -> ~ In EOF ids -> (List.length l < k)%nat ->
  read_var k (pre ++ secs_bytes l ++ fsec_all s ++ post) o ids 0 (zlen pre) =
  Ok (None, zlen pre + zlen (secs_bytes l) + 256).
Proof.
  intros O P OS D I K. rewrite read_var_passes by (assumption || lia).
  replace (zlen pre + zlen (secs_bytes l)) with (zlen (pre ++ secs_bytes l)) by apply zlen_app.
  rewrite (app_assoc pre). destruct (k - List.length l)%nat eqn:E; [lia |].
  apply read_var_stop; assumption.
Qed.

(** ** Written sections *)
Lemma written_fsec o h b load : written o h b load -> fsec_ok o (FS b (cut_header h) load).
Proof. intros (A & W & S). apply write_header_ok in W; [| exact A]. split; [exact (proj2 (proj2 W)) | exact S]. Qed.

Definition fsecs (l : list (header * list Z * list Z)) : list fsec :=
  List.map (fun '(h, b, load) => FS b (cut_header h) load) l.
Lemma fsecs_bytes l : secs_bytes (fsecs l) = List.concat (List.map (fun '(_, b, load) => b ++ load) l).
Proof. unfold secs_bytes, fsecs. rewrite map_map. f_equal. apply map_ext. intros ((h, b), load). reflexivity. Qed.

Lemma search_found o ids l h b load pre post k :
  Forall (fun '(h, b, load) => written o h b load /\ ~ deof (h_name h) /\ h_id h <> EOF /\ ~ In (h_id h) ids) l ->
  written o h b load -> ~ deof (h_name h) -> In (h_id h) ids -> (List.length l < k)%nat ->
  read_var k (pre ++ List.concat (List.map (fun '(_, b, load) => b ++ load) l) ++ b ++ load ++ post) o ids 0 (zlen pre) =
  Ok (Some (cut_header h), zlen pre + zlen (List.concat (List.map (fun '(_, b, load) => b ++ load) l)) + 256).
Proof.
  intros F W D I K. rewrite <- fsecs_bytes.
  assert (FO : Forall (fsec_ok o) (fsecs l) /\ Forall (passed ids) (fsecs l)).
  { clear -F. induction F as [| ((h, b), load) l (W & D & E & N) _ (A & B)]; [split; constructor |].
    split; constructor; try assumption; [apply written_fsec; exact W |]. split; [| exact N].
    intros [S | S]; cbn in S; [apply (proj1 (deof_cut _)) in S; exact (D S) | exact (E S)]. }
  destruct FO as (FO & FP).
  replace (b ++ load ++ post) with (fsec_all (FS b (cut_header h) load) ++ post) by (unfold fsec_all; cbn; rewrite app_assoc; reflexivity).
  rewrite (read_var_first o ids (fsecs l) (FS b (cut_header h) load)); try assumption.
  - reflexivity.
  - apply written_fsec; exact W.
  - cbn. intros S. apply (proj1 (deof_cut _)) in S. exact (D S).
  - unfold fsecs. rewrite map_length. exact K.
Qed.
Lemma search_none o ids l h b load pre post k :
  Forall (fun '(h, b, load) => written o h b load /\ ~ deof (h_name h) /\ h_id h <> EOF /\ ~ In (h_id h) ids) l ->
  written o h b load -> deof (h_name h) \/ h_id h = EOF -> ~ In EOF ids -> (List.length l < k)%nat ->
  exists p, read_var k (pre ++ List.concat (List.map (fun '(_, b, load) => b ++ load) l) ++ b ++ load ++ post) o ids 0 (zlen pre) =
  Ok (None, p).
Proof.
  intros F W D I K. rewrite <- fsecs_bytes.
  assert (FO : Forall (fsec_ok o) (fsecs l) /\ Forall (passed ids) (fsecs l)).
  { clear -F. induction F as [| ((h, b), load) l (W & D & E & N) _ (A & B)]; [split; constructor |].
    split; constructor; try assumption; [apply written_fsec; exact W |]. split; [| exact N].
    intros [S | S]; cbn in S; [apply (proj1 (deof_cut _)) in S; exact (D S) | exact (E S)]. }
  destruct FO as (FO & FP).
  replace (b ++ load ++ post) with (fsec_all (FS b (cut_header h) load) ++ post) by (unfold fsec_all; cbn; rewrite app_assoc; reflexivity).
  eexists. apply (read_var_none o ids (fsecs l) (FS b (cut_header h) load)); try assumption.
  - apply written_fsec; exact W.
  - destruct D as [D | D]; [left; cbn; apply deof_cut; exact D | right; exact D].
  - unfold fsecs. rewrite map_length. exact K.
Qed.

(** ** Order and version *)
Lemma restart_header_read o v b post : int32 v -> binary_write o Ci 2 [MAGIC; v] = Ok b ->
  read_restart_header (b ++ post) = Ok (o, v).
Proof.
  intros V W. apply fits4 in V. unfold binary_write in W. cbn [zlen List.length] in W.
  change (zlen [MAGIC; v] =? Z.max 0 2) with true in W. cbn iota in W. cbn [mapM pack_item] in W.
  unfold pack_int in W. rewrite V in W. change (fits 4 MAGIC) with true in W. cbn [bind List.concat] in W.
  rewrite app_nil_r in W. inversion W; subst b; clear W.
  unfold read_restart_header.
  assert (L : zlen (enc o 4 MAGIC ++ enc o 4 v) = Z.of_nat (code_size Ci) * 2)
    by (unfold zlen; rewrite app_length, !enc_length; reflexivity).
  assert (C : chunks (code_size Ci) (enc o 4 MAGIC ++ enc o 4 v) = [enc o 4 MAGIC; enc o 4 v]).
  { rewrite <- (chunks_concat (code_size Ci) [enc o 4 MAGIC; enc o 4 v]).
    - cbn [List.concat]. rewrite app_nil_r. reflexivity.
    - cbn. lia.
    - repeat constructor; apply enc_length. }
  assert (R := binary_read_at [] (enc o 4 MAGIC ++ enc o 4 v) post Big Ci 2 _ L ltac:(lia) ltac:(cbn; lia) eq_refl).
  cbn [app zlen List.length Z.of_nat] in R. rewrite R. clear R. rewrite C. cbn [bind List.map unpack_item].
  destruct o.
  - change (unpack_int Big (enc Little 4 MAGIC) =? MAGIC) with false. cbn iota.
    unfold pack_int.
    assert (F : fits 4 (unpack_int Big (enc Little 4 v)) = true).
    { rewrite <- (enc_length Little 4 v) at 1. apply unpack_fits; [apply enc_bytes | rewrite enc_length; lia]. }
    rewrite F. cbn [bind].
    assert (E := enc_unpack Big (enc Little 4 v) (enc_bytes _ _ _)). rewrite enc_length in E. rewrite E by lia.
    rewrite unpack_enc by (assumption || lia). reflexivity.
  - change (unpack_int Big (enc Big 4 MAGIC) =? MAGIC) with true. cbn iota.
    rewrite unpack_enc by (assumption || lia). reflexivity.
Qed.
