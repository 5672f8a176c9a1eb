(** * Proofs about what the IC3 readers print. *)
From Coq Require Import Lia.
From Verif Require Import Py IndexList Conn Mesh Data PyFacts Ic3Bytes Ic3BytesProofs Ic3 Ic3V4 Ic3HeaderSpec Ic3FuelProofs Ic3FailProofs Ic3LayoutSpec Ic3LayoutProps WholeFailProofs ReaderInfo ReaderInfoSpec.

(** ** Scans side by side *)
Lemma scan_both {S T} (R : S -> T -> Prop) f o ids (st : S -> header -> Z -> res (S * Z)) (tt_ : T -> header -> Z -> res (T * Z)) :
  (forall s t h p p0 s' p', 0 <= p0 -> read_var (fuel_of f) f o ids 0 p0 = Ok (Some h, p) -> R s t -> st s h p = Ok (s', p') ->
     p <= p' /\ exists t', tt_ t h p = Ok (t', p') /\ R s' t') ->
  forall k s t p s', 0 <= p -> R s t -> scan k f o ids st s p = Ok s' -> exists t', scan k f o ids tt_ t p = Ok t' /\ R s' t'.
Proof.
  intros ST. induction k as [| k IH]; intros s t p s' P Rst H; [discriminate |]. cbn [scan] in H |- *.
  apply bind_ok in H. destruct H as (([h |], q) & RV & H); [| injection H as <-; rewrite RV; cbn; eauto].
  apply bind_ok in H. destruct H as ((s1, q1) & E & H). rewrite RV. cbn [bind].
  assert (Q := at_pos _ _ _ _ _ _ P RV). destruct (ST _ _ _ _ _ _ _ P RV Rst E) as (L & t1 & E1 & R1). rewrite E1. cbn [bind].
  eapply IH; [| exact R1 | exact H]. lia.
Qed.
Lemma scan_file_both {S T} (R : S -> T -> Prop) f o ids (st : S -> header -> Z -> res (S * Z)) (tt_ : T -> header -> Z -> res (T * Z)) :
  (forall s t h p p0 s' p', 0 <= p0 -> read_var (fuel_of f) f o ids 0 p0 = Ok (Some h, p) -> R s t -> st s h p = Ok (s', p') ->
     p <= p' /\ exists t', tt_ t h p = Ok (t', p') /\ R s' t') ->
  forall s t s', R s t -> scan_file f o ids st s = Ok s' -> exists t', scan_file f o ids tt_ t = Ok t' /\ R s' t'.
Proof. intros ST s t s' Rst H. eapply scan_both; eauto. lia. Qed.

(** ** The sections found *)
Lemma var_at f o ids : forall k skip p h p', 0 <= p -> (skip <= 0 \/ 256 <= p) -> read_var k f o ids skip p = Ok (Some h, p') ->
  exists q : nat, p' = Z.of_nat q + 256 /\ (q + 256 <= List.length f)%nat /\ In (h_id h) ids /\
    hdr_name (firstn 256 (skipn q f)) = Ok (h_name h) /\ h = hdr_of o (h_name h) (firstn 256 (skipn q f)).
Proof.
  induction k as [| k IH]; intros skip p h p' P SK H; [discriminate |]. cbn [read_var] in H.
  set (p0 := if 0 <? skip then p + (skip - 256) else p) in H.
  assert (P0 : 0 <= p0). { unfold p0. destruct (Z.ltb_spec 0 skip); lia. }
  destruct (rd f p0 256) as ([b |], q) eqn:RD; [| discriminate].
  apply rd_some in RD; [| exact P0 | lia]. destruct RD as (Q & LB & B & LE). apply bind_ok in H. destruct H as (name & HN & H).
  destruct (String.prefix _ name); [discriminate |]. destruct (zmem _ ids) eqn:M.
  - injection H as <- <-. exists (Z.to_nat p0). rewrite Z2Nat.id by exact P0. split; [exact Q |].
    split; [unfold zlen in LE; lia |]. split; [unfold zmem in M; apply existsb_exists in M; destruct M as (x & I & EX); apply Z.eqb_eq in EX; rewrite EX; exact I |].
    change (Z.to_nat 256) with 256%nat in B. rewrite <- B. split; [exact HN | reflexivity].
  - destruct (_ =? EOF); [discriminate |]. eapply IH; [| | exact H]; [lia | right; lia].
Qed.

Lemma skip_skip {A} (a b : nat) (l : list A) : skipn a (skipn b l) = skipn (b + a) l.
Proof. revert l. induction b as [| b IH]; intros l; [reflexivity |]. destruct l; [destruct a; reflexivity |]. cbn. apply IH. Qed.
Lemma first_of_part {A} (a b n : nat) (l : list A) : (b + a <= n)%nat -> firstn a (skipn b (firstn n l)) = firstn a (skipn b l).
Proof.
  intros H. rewrite skipn_firstn_comm, firstn_firstn. f_equal. lia.
Qed.
Lemma firstn_bytes (n : nat) l : Forall is_byte l -> Forall is_byte (firstn n l).
Proof. intros H. apply Forall_forall. intros x I. eapply Forall_forall; [exact H |]. rewrite <- (firstn_skipn n l). apply in_or_app. auto. Qed.
Lemma skipn_bytes (n : nat) l : Forall is_byte l -> Forall is_byte (skipn n l).
Proof. intros H. apply Forall_forall. intros x I. eapply Forall_forall; [exact H |]. rewrite <- (firstn_skipn n l). apply in_or_app. auto. Qed.

(** The numbers read, back to bytes. *)
Lemma items_bytes o c (b : list Z) (n : nat) : c <> Ci -> Forall is_byte b -> List.length b = (n * 8)%nat ->
  words8 o (List.map (unpack_item o c) (chunks (code_size c) b)) = b.
Proof.
  intros NC B L. assert (SZ : code_size c = 8%nat) by (destruct c; [congruence | reflexivity | reflexivity]). rewrite SZ.
  destruct (chunks_spec 8 n b ltac:(lia) L) as (C1 & C2 & _).
  unfold words8. rewrite <- C1 at 2. rewrite flat_map_concat_map, map_map. f_equal.
  rewrite <- map_id. apply map_ext_in. intros x I. rewrite <- enc_in.
  assert (LX : List.length x = 8%nat) by (eapply Forall_forall in C2; eauto).
  assert (BX : Forall is_byte x). { apply Forall_forall. intros y IY. eapply Forall_forall; [exact B |]. rewrite <- C1. apply in_concat. eauto. }
  destruct c; [congruence | |]; cbn [unpack_item]; rewrite <- LX at 1.
  - apply enc_unpack; [exact BX | lia].
  - unfold unpack_double. apply enc_dec. exact BX.
Qed.

Section File.
  Context (f : list Z) (o : order) (B : Forall is_byte f).

  Lemma read_section ids h p p0 c n l p' : 0 <= p0 -> read_var (fuel_of f) f o ids 0 p0 = Ok (Some h, p) -> c <> Ci ->
    binary_read f o c n p = Ok (Some l, p') ->
    In (h_id h) ids /\ p <= p' /\ zlen l = n /\ exists q, section_in o f q (h_name h) (h_id h) (idata h 0) l.
  Proof using B.
    intros P0 RV NC BR. destruct (var_at f o ids _ _ _ _ _ P0 (or_introl (Z.le_refl 0)) RV) as (q & EP & LQ & IN & HN & HH).
    assert (RL := read_len _ _ _ _ _ _ _ BR). destruct RL as (N & LL).
    assert (PP := binary_read_pos _ _ _ _ _ _ _ BR). split; [exact IN |]. split; [exact PP |]. split; [exact LL |]. exists q.
    assert (SZ : code_size c = 8%nat) by (destruct c; [congruence | reflexivity | reflexivity]).
    split; [exact HN |]. split; [| split].
    - rewrite HH. cbn [h_id hdr_of]. rewrite <- enc_in, first_of_part by lia. rewrite skip_skip.
      assert (L4 : List.length (firstn 4 (skipn (q + 52) f)) = 4%nat) by (rewrite firstn_length, skipn_length; lia).
      assert (U := enc_unpack o (firstn 4 (skipn (q + 52) f)) (firstn_bytes _ _ (skipn_bytes _ _ B)) ltac:(lia)). rewrite L4 in U. symmetry. exact U.
    - rewrite HH. unfold idata. cbn [h_idata hdr_of]. rewrite <- enc_in. rewrite first_of_part by lia. rewrite skip_skip.
      set (w := firstn 64 (skipn (q + 64) f)). assert (LW : List.length w = (8 * 8)%nat) by (unfold w; rewrite firstn_length, skipn_length; lia).
      assert (CW : chunks 8 w = firstn 8 w :: chunks_fuel 63 8 (skipn 8 w)).
      { unfold chunks. rewrite LW. destruct w; [discriminate LW | reflexivity]. }
      rewrite CW. cbn [List.map nth]. assert (E8 : firstn 8 w = firstn 8 (skipn (q + 64) f)) by (unfold w; rewrite firstn_firstn; reflexivity).
      rewrite E8. assert (L8 : List.length (firstn 8 (skipn (q + 64) f)) = 8%nat) by (rewrite firstn_length, skipn_length; lia).
      assert (U := enc_unpack o (firstn 8 (skipn (q + 64) f)) (firstn_bytes _ _ (skipn_bytes _ _ B)) ltac:(lia)). rewrite L8 in U. symmetry. exact U.
    - unfold binary_read in BR. rewrite SZ in BR. destruct (_ || _) in BR; [discriminate |]. destruct (rd f p _) as (r, p1) eqn:RD in BR.
      destruct r as [b |]; [| discriminate]. cbn [option_map] in BR. injection BR as EL _.
      apply rd_some in RD; [| lia | lia]. destruct RD as (_ & LB & EB & _).
      assert (EP' : Z.to_nat p = (q + 256)%nat) by lia. rewrite EP' in EB.
      assert (LN : Z.to_nat (Z.of_nat 8 * n) = (8 * List.length l)%nat) by (unfold zlen in LL; lia). rewrite LN in EB.
      rewrite <- EB, <- EL. rewrite <- SZ. symmetry. apply (items_bytes o c b (List.length l)); [exact NC | rewrite EB; apply firstn_bytes, skipn_bytes, B |].
      unfold zlen in LB, LL. lia.
  Qed.
End File.

(** ** What is stored in [variables] *)
Definition agrees (f : list Z) (o : order) (no fa : Z) (v : vars) (s : seen) : Prop :=
  (forall k, In k (dkeys (ds_data (snd v))) -> In k (dkeys (fst s))) /\
  NoDup (dkeys (fst s)) /\ NoDup (dkeys (snd s)) /\
  Forall (shown_from o f no) (fst s) /\ Forall (shown_from o f fa) (snd s).

Lemma dset_all_of {V} (P : string * V -> Prop) k v d : P (k, v) -> Forall P d -> Forall P (dset String.eqb k v d).
Proof.
  intros Pk Pd. apply Forall_forall. intros (k', v') I. apply dset_in_or in I. destruct I as [I | (-> & ->)]; [| exact Pk].
  eapply Forall_forall in Pd; eauto.
Qed.
Lemma dset_has {V} k (v : V) d k' : In k' (dkeys (dset String.eqb k v d)) <-> k' = k \/ In k' (dkeys d).
Proof.
  induction d as [| (a, b) d IH]; cbn; [intuition congruence |]. destruct (String.eqb_spec k a) as [-> | N]; cbn; [intuition congruence |].
  unfold dkeys in IH. rewrite IH. intuition.
Qed.
Lemma dset_distinct {V} k (v : V) d : NoDup (dkeys d) -> NoDup (dkeys (dset String.eqb k v d)).
Proof.
  induction d as [| (a, b) d IH]; cbn; [repeat constructor; intros [] |]. intros N. inversion N as [| x l NI ND]; subst.
  destruct (String.eqb_spec k a) as [-> | NE]; cbn; [constructor; assumption |]. constructor; [| apply IH; exact ND].
  intros I. change (In a (dkeys (dset String.eqb k v d))) in I. apply dset_has in I. destruct I as [-> | I]; [congruence | exact (NI I)].
Qed.


Section Steps.
  Context (f : list Z) (o : order) (B : Forall is_byte f) (version no fa cv : Z).

  Lemma scalar_both v s h p p0 v' p' : 0 <= p0 -> read_var (fuel_of f) f o scalar_ids 0 p0 = Ok (Some h, p) -> agrees f o no fa v s ->
    scalar_step version no fa cv f o v h p = Ok (v', p') ->
    p <= p' /\ exists s', scalar_seen version no fa cv f o s h p = Ok (s', p') /\ agrees f o no fa v' s'.
  Proof using B.
    intros P0 RV (A1 & A2 & A3 & A4 & A5) H. destruct v as (cells, nodes). unfold scalar_step in H. unfold scalar_seen.
    assert (G : forall n l q, ('(x, q) <- binary_read f o (code_of (h_id h)) n p ;; l <- or_err TypeError x ;; Ok (l, q)) = Ok (l, q) ->
      p <= q /\ (idata h 0 = n -> shown_from o f n (h_name h, ([zlen l], l)))).
    { intros n l q E. apply bind_ok in E. destruct E as ((x, q0) & E1 & E). apply bind_ok in E. destruct E as (l0 & E2 & E). injection E as -> ->.
      apply or_some in E2. subst x. destruct (read_section f o B scalar_ids h p p0 _ _ _ _ P0 RV (code_not_i _) E1) as (IN & L & LL & q0 & SI).
      split; [exact L |]. intros <-. exists q0, (h_id h). split; [exact SI |]. left. split; [| split; [rewrite LL; reflexivity | exact LL]].
      unfold scalar_ids in IN. repeat (destruct IN as [<- | IN]; [cbn; tauto |]). destruct IN. }
    destruct (Z.eqb_spec (idata h 0) no) as [EN |].
    { apply bind_ok in H. destruct H as ((l, q) & E & H). destruct (G _ _ _ E) as (L & S). apply bind_ok in H. destruct H as (_ & _ & H).
      injection H as <- <-. split; [exact L |]. rewrite E. cbn [bind]. eexists. split; [reflexivity |].
      unfold put_node. split; [| split; [| split; [| split]]]; cbn [fst snd ds_data add_data].
      - intros k K. apply dset_has in K. apply dset_has. destruct K as [K | K]; [left; exact K | right; apply A1; exact K].
      - apply dset_distinct. exact A2.
      - exact A3.
      - apply dset_all_of; [apply S; exact EN | exact A4].
      - exact A5. }
    destruct (Z.eqb_spec (idata h 0) fa) as [EF |].
    { apply bind_ok in H. destruct H as ((l, q) & E & H). destruct (G _ _ _ E) as (L & S). apply bind_ok in H. destruct H as (_ & _ & H).
      injection H as <- <-. split; [exact L |]. rewrite E. cbn [bind]. eexists. split; [reflexivity |].
      unfold put_face. split; [| split; [| split; [| split]]]; cbn [fst snd]; try assumption.
      - apply dset_distinct. exact A3.
      - apply dset_all_of; [apply S; exact EF | exact A5]. }
    destruct (idata h 0 =? cv); [| discriminate]. apply bind_ok in H. destruct H as (ndof & EN & H). rewrite EN. cbn [bind].
    apply bind_ok in H. destruct H as (cells' & _ & H). apply bind_ok in H. destruct H as ((l, q) & E & H). destruct (G _ _ _ E) as (L & _).
    apply bind_ok in H. destruct H as (_ & _ & H). injection H as <- <-. split; [exact L |]. rewrite E. cbn [bind]. eexists. split; [reflexivity |].
    split; [| split; [| split; [| split]]]; assumption.
  Qed.

  Lemma vector_both v s h p p0 v' p' : 0 <= p0 -> read_var (fuel_of f) f o vector_ids 0 p0 = Ok (Some h, p) -> agrees f o no fa v s ->
    vector_step version no fa cv f o v h p = Ok (v', p') ->
    p <= p' /\ exists s', vector_seen version no fa cv f o s h p = Ok (s', p') /\ agrees f o no fa v' s'.
  Proof using B.
    intros P0 RV (A1 & A2 & A3 & A4 & A5) H. destruct v as (cells, nodes). unfold vector_step in H. unfold vector_seen.
    assert (G : forall n l q, ('(x, q) <- binary_read f o Cd (n * 3) p ;; l <- or_err ValueError x ;; Ok (l, q)) = Ok (l, q) ->
      p <= q /\ (idata h 0 = n -> shown_from o f n (h_name h, ([n; 3], l)))).
    { intros n l q E. apply bind_ok in E. destruct E as ((x, q0) & E1 & E). apply bind_ok in E. destruct E as (l0 & E2 & E). injection E as -> ->.
      apply or_some in E2. subst x. assert (ND : Cd <> Ci) by discriminate. destruct (read_section f o B vector_ids h p p0 _ _ _ _ P0 RV ND E1) as (IN & L & LL & q0 & SI).
      split; [exact L |]. intros <-. exists q0, (h_id h). split; [exact SI |]. right. split; [| split; [reflexivity | lia]].
      unfold vector_ids in IN. repeat (destruct IN as [<- | IN]; [cbn; tauto |]). destruct IN. }
    destruct (Z.eqb_spec (idata h 0) no) as [EN |].
    { apply bind_ok in H. destruct H as ((l, q) & E & H). destruct (G _ _ _ E) as (L & S). apply bind_ok in H. destruct H as (_ & _ & H).
      injection H as <- <-. split; [exact L |]. rewrite E. cbn [bind]. eexists. split; [reflexivity |].
      unfold put_node. split; [| split; [| split; [| split]]]; cbn [fst snd]; try assumption.
      - intros k K. apply dset_has. right. apply A1. exact K.
      - apply dset_distinct. exact A2.
      - apply dset_all_of; [apply S; exact EN | exact A4]. }
    destruct (Z.eqb_spec (idata h 0) fa) as [EF |].
    { apply bind_ok in H. destruct H as ((l, q) & E & H). destruct (G _ _ _ E) as (L & S). apply bind_ok in H. destruct H as (_ & _ & H).
      injection H as <- <-. split; [exact L |]. rewrite E. cbn [bind]. eexists. split; [reflexivity |].
      unfold put_face. split; [| split; [| split; [| split]]]; cbn [fst snd]; try assumption.
      - apply dset_distinct. exact A3.
      - apply dset_all_of; [apply S; exact EF | exact A5]. }
    destruct (idata h 0 =? cv); [| discriminate]. apply bind_ok in H. destruct H as (ndof & EN & H). rewrite EN. cbn [bind].
    apply bind_ok in H. destruct H as (cells' & _ & H). apply bind_ok in H. destruct H as ((l, q) & E & H). destruct (G _ _ _ E) as (L & _).
    apply bind_ok in H. destruct H as (_ & _ & H). injection H as <- <-. split; [exact L |]. rewrite E. cbn [bind]. eexists. split; [reflexivity |].
    split; [| split; [| split; [| split]]]; assumption.
  Qed.

  (** Tensors go to the cells only. *)
  Lemma tensor_nodes v h p v' p' : tensor_step version cv f o v h p = Ok (v', p') -> snd v' = snd v.
  Proof using.
    intros H. destruct v as (cells, nodes). unfold tensor_step in H. destruct (_ =? cv); [| discriminate].
    apply bind_ok in H. destruct H as (n & _ & H). apply bind_ok in H. destruct H as (c & _ & H). apply bind_ok in H. destruct H as ((x, q) & _ & H).
    apply bind_ok in H. destruct H as (l & _ & H). apply bind_ok in H. destruct H as (_ & _ & H). injection H as <- _. reflexivity.
  Qed.
  Lemma scan_nodes k : forall v p v', scan k f o [CV_D33] (tensor_step version cv f o) v p = Ok v' -> snd v' = snd v.
  Proof using.
    induction k as [| k IH]; intros v p v' H; [discriminate |]. cbn [scan] in H. apply bind_ok in H. destruct H as (([h |], q) & _ & H); [| injection H as <-; reflexivity].
    apply bind_ok in H. destruct H as ((v1, q1) & E & H). apply IH in H. rewrite H. eapply tensor_nodes. exact E.
  Qed.

  Lemma vars_seen v v' : read_vars version no fa cv f o v = Ok v' -> ds_data (snd v) = [] ->
    exists s, read_seen version no fa cv f o = Ok s /\ agrees f o no fa v' s.
  Proof using B.
    intros H E0. unfold read_vars in H. apply bind_ok in H. destruct H as (v1 & H1 & H). apply bind_ok in H. destruct H as (v2 & H2 & H3).
    assert (A0 : agrees f o no fa v ([], [])) by (split; [rewrite E0; intros k [] | repeat split; constructor]).
    destruct (scan_file_both (agrees f o no fa) f o scalar_ids _ (scalar_seen version no fa cv f o) (fun s t h p p0 s' p' => scalar_both s t h p p0 s' p') _ _ _ A0 H1) as (s1 & S1 & A1).
    destruct (scan_file_both (agrees f o no fa) f o vector_ids _ (vector_seen version no fa cv f o) (fun s t h p p0 s' p' => vector_both s t h p p0 s' p') _ _ _ A1 H2) as (s2 & S2 & A2).
    exists s2. unfold read_seen. rewrite S1. cbn [bind]. split; [exact S2 |]. unfold scan_file in H3. apply scan_nodes in H3.
    unfold agrees in *. rewrite H3. exact A2.
  Qed.
End Steps.

(** ** All the sections are met *)
Lemma unpack_in o n v : (0 < n)%nat -> fits n v = true -> unpack_int o (in_bytes o n v) = v.
Proof. intros N F. rewrite <- enc_in. apply unpack_enc; assumption. Qed.
Lemma fits4 v : - 2 ^ 31 <= v < 2 ^ 31 -> fits 4 v = true.
Proof. intros H. apply fits_iff. change (256 ^ Z.of_nat 4) with (2 ^ 32). lia. Qed.
Lemma fits8 v : - 2 ^ 63 <= v < 2 ^ 63 -> fits 8 v = true.
Proof. intros H. apply fits_iff. change (256 ^ Z.of_nat 8) with (2 ^ 64). lia. Qed.
Lemma head_hdr o f q name code size n m : head_at o f q name code size n m ->
  let h := hdr_of o name (firstn 256 (skipn q f)) in h_name h = name /\ h_id h = code /\ h_skip h = size /\ idata h 0 = n /\ idata h 1 = m.
Proof.
  intros (L & HN & _ & C & RC & S & RS_ & N & RN & M & RM) h. unfold h. split; [reflexivity |]. cbn [h_id h_skip hdr_of].
  rewrite !first_of_part, !skip_skip, C, S by lia. split; [apply unpack_in; [lia | apply fits4; exact RC] |]. split; [apply unpack_in; [lia | apply fits8; exact RS_] |].
  unfold idata. cbn [h_idata hdr_of]. rewrite first_of_part, skip_skip by lia.
  set (w := firstn 64 (skipn (q + 64) f)). assert (LW : List.length w = 64%nat) by (unfold w; rewrite firstn_length, skipn_length; lia).
  assert (CW : chunks 8 w = firstn 8 w :: firstn 8 (skipn 8 w) :: chunks_fuel 62 8 (skipn 8 (skipn 8 w))).
  { unfold chunks. rewrite LW. destruct w as [| w0 w]; [discriminate LW |]. do 8 (destruct w as [| ? w]; [discriminate LW |]). reflexivity. }
  rewrite CW. cbn [List.map nth].
  assert (E8 : firstn 8 w = firstn 8 (skipn (q + 64) f)) by (unfold w; rewrite firstn_firstn; reflexivity).
  assert (E9 : firstn 8 (skipn 8 w) = firstn 8 (skipn (q + 72) f)) by (unfold w; rewrite first_of_part by lia; rewrite skip_skip; f_equal; f_equal; lia).
  rewrite E8, E9, N, M. split; apply unpack_in; try lia; apply fits8; assumption.
Qed.

Lemma leads_trans o f a b c : leads o f a b -> leads o f b c -> leads o f a c.
Proof. induction 1 as [| q x name code size n m H1 H2 H3 _ IH]; intros H; [exact H |]. eapply leads_next; eauto. Qed.

Lemma var_meets f o ids x name code size n m : head_at o f x name code size n m -> In code ids ->
  forall k q skip p r p', (if 0 <? skip then p + (skip - 256) else p) = Z.of_nat q -> leads o f q x ->
  read_var k f o ids skip p = Ok (r, p') ->
  exists q' h name' code' size' n' m', r = Some h /\ p' = Z.of_nat q' + 256 /\ leads o f q q' /\ leads o f q' x /\
    head_at o f q' name' code' size' n' m' /\ In code' ids /\ h = hdr_of o name' (firstn 256 (skipn q' f)).
Proof.
  intros HX IX. induction k as [| k IH]; intros q skip p r p' EP LD H; [discriminate |]. cbn [read_var] in H. cbv zeta in H. rewrite EP in H.
  destruct (rd f (Z.of_nat q) 256) as ([b |], p1) eqn:RD; [| discriminate].
  apply rd_some in RD; [| lia | lia]. destruct RD as (Q & LB & B & LE). rewrite Nat2Z.id in B. change (Z.to_nat 256) with 256%nat in B.
  assert (STEP : forall name0 code0 size0 n0 m0, head_at o f q name0 code0 size0 n0 m0 ->
    (In code0 ids \/ (code0 <> 51 /\ 256 <= size0 /\ leads o f (q + Z.to_nat size0) x)) ->
    exists q' h name' code' size' n' m', r = Some h /\ p' = Z.of_nat q' + 256 /\ leads o f q q' /\ leads o f q' x /\
    head_at o f q' name' code' size' n' m' /\ In code' ids /\ h = hdr_of o name' (firstn 256 (skipn q' f))).
  { intros name0 code0 size0 n0 m0 HQ CASES. destruct (head_hdr _ _ _ _ _ _ _ _ HQ) as (EN & EC & ES & _ & _).
    assert (HN := proj1 (proj2 HQ)). assert (DE := proj1 (proj2 (proj2 HQ))). rewrite B, HN in H. cbn [bind] in H. rewrite DE in H. cbv zeta in H. rewrite EC in H.
    destruct (zmem code0 ids) eqn:M.
    - injection H as <- <-. exists q, (hdr_of o name0 (firstn 256 (skipn q f))), name0, code0, size0, n0, m0.
      split; [reflexivity |]. split; [exact Q |]. split; [apply leads_here |]. split; [exact LD |]. split; [exact HQ |]. split; [| reflexivity]. unfold zmem in M. apply existsb_exists in M. destruct M as (y & I & E). apply Z.eqb_eq in E. subst y. exact I.
    - assert (NI : ~ In code0 ids). { intros I. assert (T : zmem code0 ids = true) by (unfold zmem; apply existsb_exists; exists code0; split; [exact I | apply Z.eqb_refl]). congruence. }
      destruct CASES as [I | (NE & SZ & LX)]; [contradiction |]. destruct (Z.eqb_spec code0 EOF) as [E | _]; [exfalso; apply NE; exact E |].
      rewrite ES in H. assert (POS : (if 0 <? size0 then p1 + (size0 - 256) else p1) = Z.of_nat (q + Z.to_nat size0)).
      { destruct (Z.ltb_spec 0 size0); lia. }
      destruct (IH _ _ _ _ _ POS LX H) as (q' & h & name' & code' & size' & n' & m' & A1 & A2 & A3 & A4 & A5).
      exists q', h, name', code', size', n', m'. repeat (split; [assumption |]). split; [eapply leads_next; eauto |]. split; [exact A4 | exact A5]. }
  inversion LD as [q0 E1 E2 | q0 x0 name0 code0 size0 n0 m0 HQ NE SZ LX E1 E2]; subst.
  - apply (STEP _ _ _ _ _ HX). left. exact IX.
  - apply (STEP _ _ _ _ _ HQ). right. auto.
Qed.

Lemma scan_meets {S} f o ids (st : S -> header -> Z -> res (S * Z)) (K : S -> Prop) x name code size n m :
  ~ In 51 ids -> head_at o f x name code size n m -> In code ids ->
  (forall s h p s' p', K s -> st s h p = Ok (s', p') -> K s') ->
  (forall s p s' p', st s (hdr_of o name (firstn 256 (skipn x f))) p = Ok (s', p') -> K s') ->
  (forall q name' code' size' n' m' s s' p', leads o f 8 q -> head_at o f q name' code' size' n' m' -> In code' ids ->
     st s (hdr_of o name' (firstn 256 (skipn q f))) (Z.of_nat q + 256) = Ok (s', p') -> p' = Z.of_nat q + size' /\ 256 <= size') ->
  forall k s q s', leads o f 8 q -> leads o f q x -> scan k f o ids st s (Z.of_nat q) = Ok s' -> K s'.
Proof.
  intros NEOF HX IX MONO ATX NEXT.
  assert (KEEP : forall k s p s', K s -> scan k f o ids st s p = Ok s' -> K s').
  { induction k as [| k IH]; intros s p s' KS H; [discriminate |]. cbn [scan] in H. apply bind_ok in H. destruct H as (([h |], p1) & _ & H); [| injection H as <-; exact KS].
    apply bind_ok in H. destruct H as ((s1, p2) & E & H). eapply IH; [| exact H]. eapply MONO; eauto. }
  induction k as [| k IH]; intros s q s' L8 LX H; [discriminate |]. cbn [scan] in H. apply bind_ok in H. destruct H as ((r, p1) & RV & H).
  destruct (var_meets f o ids x name code size n m HX IX _ q 0 (Z.of_nat q) _ _ eq_refl LX RV) as (q' & h & name' & code' & size' & n' & m' & -> & -> & A1 & A2 & A3 & A4 & ->).
  apply bind_ok in H. destruct H as ((s1, p2) & E & H).
  assert (L8' := leads_trans _ _ _ _ _ L8 A1). destruct (NEXT _ _ _ _ _ _ _ _ _ L8' A3 A4 E) as (EP & SZ).
  inversion A2 as [q0 E1 E2 | q0 x0 name0 code0 size0 n0 m0 HQ NE SZ0 LX0 E1 E2]; subst.
  - assert (EN : name' = name) by (assert (U := proj1 (proj2 A3)); assert (V := proj1 (proj2 HX)); congruence). subst name'. eapply KEEP; [| exact H]. eapply ATX; exact E.
  - destruct (head_hdr _ _ _ _ _ _ _ _ A3) as (_ & EC1 & ES1 & _). destruct (head_hdr _ _ _ _ _ _ _ _ HQ) as (_ & EC2 & ES2 & _).
    assert (EN : name' = name0) by (assert (U := proj1 (proj2 A3)); assert (V := proj1 (proj2 HQ)); congruence). subst name0.
    assert (SS : size0 = size') by congruence. rewrite SS in LX0.
    assert (EZ : Z.of_nat q' + size' = Z.of_nat (q' + Z.to_nat size')) by lia. rewrite EZ in H.
    eapply IH; [| exact LX0 | exact H]. eapply leads_trans; [exact L8' |]. eapply leads_next; [exact A3 | | exact SZ | constructor].
    intros ->. exact (NEOF A4).
Qed.

(** What one step does to [variables]. *)
Section Meets.
  Context (f : list Z) (o : order) (version no fa cv : Z).

  Lemma read_exact c n p l p' : c <> Ci -> 0 <= p -> binary_read f o c n p = Ok (Some l, p') -> p' = p + 8 * n.
  Proof.
    intros NC P H. destruct (read_len _ _ _ _ _ _ _ H) as (N & _). unfold binary_read in H.
    assert (SZ : code_size c = 8%nat) by (destruct c; [congruence | reflexivity | reflexivity]). rewrite SZ in H.
    destruct (_ || _) in H; [discriminate |]. destruct (rd f p _) as (r, p1) eqn:RD in H. destruct r as [b |]; [| discriminate].
    cbn [option_map] in H. injection H as _ <-. apply rd_some in RD; [| lia | lia]. lia.
  Qed.
  Lemma dof_count n m d : n <> no -> n <> fa -> ndof_of version m = Ok d -> d * n = numbers version no fa n m.
  Proof.
    intros NN NF H. unfold numbers. rewrite (proj2 (Z.eqb_neq _ _) NN), (proj2 (Z.eqb_neq _ _) NF). cbn [orb]. unfold ndof_of in H.
    destruct (version <? 0); [discriminate |]. destruct (version <? 3); [injection H as <-; cbn [orb]; lia |]. cbn [orb].
    destruct (m =? 0); injection H as <-; lia.
  Qed.
  Definition kept (s s' : seen) : Prop :=
    (forall k, In k (dkeys (fst s)) -> In k (dkeys (fst s'))) /\ (forall k, In k (dkeys (snd s)) -> In k (dkeys (snd s'))).
  Definition placed (name : string) (n : Z) (s : seen) : Prop :=
    (n = no -> In name (dkeys (fst s))) /\ (n <> no -> n = fa -> In name (dkeys (snd s))).
  Lemma placed_kept name n s s' : kept s s' -> placed name n s -> placed name n s'.
  Proof. intros (K1 & K2) (P1 & P2). split; intros; [apply K1, P1 | apply K2, P2]; assumption. Qed.

  Lemma scalar_does s h p s' p' : scalar_seen version no fa cv f o s h p = Ok (s', p') ->
    kept s s' /\ placed (h_name h) (idata h 0) s' /\ (0 <= p -> p' = p + 8 * numbers version no fa (idata h 0) (idata h 1)).
  Proof.
    intros H. unfold scalar_seen in H.
    assert (G : forall n l q, ('(x, q) <- binary_read f o (code_of (h_id h)) n p ;; l <- or_err TypeError x ;; Ok (l, q)) = Ok (l, q) -> 0 <= p -> q = p + 8 * n).
    { intros n l q E P. apply bind_ok in E. destruct E as ((x, q0) & E1 & E). apply bind_ok in E. destruct E as (l0 & E2 & E). injection E as -> ->.
      apply or_some in E2. subst x. eapply read_exact; [apply code_not_i | exact P | exact E1]. }
    destruct (Z.eqb_spec (idata h 0) no) as [EN | NN].
    { apply bind_ok in H. destruct H as ((l, q) & E & H). injection H as <- <-. split; [split; intros k K; [apply dset_has; right; exact K | exact K] |].
      split; [split; [intros _; apply dset_has; left; reflexivity | intros; contradiction] |]. intros P. unfold numbers. rewrite EN, Z.eqb_refl. cbn [orb]. apply (G _ _ _ E P). }
    destruct (Z.eqb_spec (idata h 0) fa) as [EF | NF].
    { apply bind_ok in H. destruct H as ((l, q) & E & H). injection H as <- <-. split; [split; intros k K; [exact K | apply dset_has; right; exact K] |].
      split; [split; [intros; contradiction | intros _ _; apply dset_has; left; reflexivity] |]. intros P. unfold numbers. rewrite EF, Z.eqb_refl, orb_true_r. apply (G _ _ _ E P). }
    destruct (Z.eqb_spec (idata h 0) cv) as [EC | _]; [| discriminate]. apply bind_ok in H. destruct H as (d & D & H). apply bind_ok in H. destruct H as ((l, q) & E & H).
    injection H as <- <-. split; [split; auto |]. split; [split; intros; contradiction |]. intros P. rewrite <- (dof_count _ _ _ NN NF D), EC. apply (G _ _ _ E P).
  Qed.
  Lemma vector_does s h p s' p' : vector_seen version no fa cv f o s h p = Ok (s', p') ->
    kept s s' /\ placed (h_name h) (idata h 0) s' /\ (0 <= p -> p' = p + 24 * numbers version no fa (idata h 0) (idata h 1)).
  Proof.
    intros H. unfold vector_seen in H.
    assert (G : forall n l q, ('(x, q) <- binary_read f o Cd (n * 3) p ;; l <- or_err ValueError x ;; Ok (l, q)) = Ok (l, q) -> 0 <= p -> q = p + 24 * n).
    { intros n l q E P. apply bind_ok in E. destruct E as ((x, q0) & E1 & E). apply bind_ok in E. destruct E as (l0 & E2 & E). injection E as -> ->.
      apply or_some in E2. subst x. assert (ND : Cd <> Ci) by discriminate. assert (U := read_exact _ _ _ _ _ ND P E1). lia. }
    destruct (Z.eqb_spec (idata h 0) no) as [EN | NN].
    { apply bind_ok in H. destruct H as ((l, q) & E & H). injection H as <- <-. split; [split; intros k K; [apply dset_has; right; exact K | exact K] |].
      split; [split; [intros _; apply dset_has; left; reflexivity | intros; contradiction] |]. intros P. unfold numbers. rewrite EN, Z.eqb_refl. cbn [orb]. apply (G _ _ _ E P). }
    destruct (Z.eqb_spec (idata h 0) fa) as [EF | NF].
    { apply bind_ok in H. destruct H as ((l, q) & E & H). injection H as <- <-. split; [split; intros k K; [exact K | apply dset_has; right; exact K] |].
      split; [split; [intros; contradiction | intros _ _; apply dset_has; left; reflexivity] |]. intros P. unfold numbers. rewrite EF, Z.eqb_refl, orb_true_r. apply (G _ _ _ E P). }
    destruct (Z.eqb_spec (idata h 0) cv) as [EC | _]; [| discriminate]. apply bind_ok in H. destruct H as (d & D & H). apply bind_ok in H. destruct H as ((l, q) & E & H).
    injection H as <- <-. split; [split; auto |]. split; [split; intros; contradiction |]. intros P. rewrite <- (dof_count _ _ _ NN NF D), EC. apply (G _ _ _ E P).
  Qed.

  Lemma numbers_read st ids k s x name code size n m s' (w : Z) : 0 < w -> ~ In 51 ids ->
    (forall s h p s' p', st s h p = Ok (s', p') -> kept s s' /\ placed (h_name h) (idata h 0) s' /\
       (0 <= p -> p' = p + w * numbers version no fa (idata h 0) (idata h 1)) /\ (0 <= p -> p <= p')) ->
    (forall q name code size n m, leads o f 8 q -> head_at o f q name code size n m -> In code ids -> size = 256 + w * numbers version no fa n m) ->
    leads o f 8 x -> head_at o f x name code size n m -> In code ids -> scan k f o ids st s 8 = Ok s' -> placed name n s'.
  Proof.
    intros W NE ST SZ LX HX IX H. destruct (head_hdr _ _ _ _ _ _ _ _ HX) as (EN & _ & _ & E0 & _).
    apply (scan_meets f o ids st (placed name n) x name code size n m NE HX IX) with (k := k) (s := s) (q := 8%nat); auto.
    - intros s1 h p s2 p2 P E. eapply placed_kept; [apply (ST _ _ _ _ _ E) | exact P].
    - intros s1 p s2 p2 E. destruct (ST _ _ _ _ _ E) as (_ & P & _). rewrite EN, E0 in P. exact P.
    - intros q name' code' size' n' m' s1 s2 p2 L8 HQ IQ E. destruct (head_hdr _ _ _ _ _ _ _ _ HQ) as (_ & _ & _ & E1 & E2).
      destruct (ST _ _ _ _ _ E) as (_ & _ & P & Q). rewrite E1, E2 in P. rewrite (SZ _ _ _ _ _ _ L8 HQ IQ). lia.
    - constructor.
  Qed.
End Meets.

Lemma scan_kept {S} (R : S -> S -> Prop) f o ids (st : S -> header -> Z -> res (S * Z)) :
  (forall s, R s s) -> (forall a b c, R a b -> R b c -> R a c) -> (forall s h p s' p', st s h p = Ok (s', p') -> R s s') ->
  forall k s p s', scan k f o ids st s p = Ok s' -> R s s'.
Proof.
  intros RF TR ST. induction k as [| k IH]; intros s p s' H; [discriminate |]. cbn [scan] in H. apply bind_ok in H. destruct H as (([h |], p1) & _ & H); [| injection H as <-; apply RF].
  apply bind_ok in H. destruct H as ((s1, p2) & E & H). eapply TR; [eapply ST; exact E | eapply IH; exact H].
Qed.
Lemma kept_refl s : kept s s. Proof. split; auto. Qed.
Lemma kept_trans a b c : kept a b -> kept b c -> kept a c.
Proof. intros (A & B) (C & D). split; intros k I; [apply C, A, I | apply D, B, I]. Qed.

Lemma scalar_on version no fa cv f o s h p s' p' : scalar_seen version no fa cv f o s h p = Ok (s', p') -> p <= p'.
Proof.
  intros H. unfold scalar_seen in H.
  assert (G : forall n l q, ('(x, q) <- binary_read f o (code_of (h_id h)) n p ;; l <- or_err TypeError x ;; Ok (l, q)) = Ok (l, q) -> p <= q).
  { intros n l q E. apply bind_ok in E. destruct E as ((x, q0) & E1 & E). apply bind_ok in E. destruct E as (l0 & E2 & E). injection E as -> ->.
    apply or_some in E2. subst x. apply (binary_read_pos _ _ _ _ _ _ _ E1). }
  destruct (_ =? no); [| destruct (_ =? fa); [| destruct (_ =? cv); [| discriminate]]].
  - apply bind_ok in H. destruct H as ((l, q) & E & H). injection H as _ <-. apply (G _ _ _ E).
  - apply bind_ok in H. destruct H as ((l, q) & E & H). injection H as _ <-. apply (G _ _ _ E).
  - apply bind_ok in H. destruct H as (d & _ & H). apply bind_ok in H. destruct H as ((l, q) & E & H). injection H as _ <-. apply (G _ _ _ E).
Qed.
Lemma vector_on version no fa cv f o s h p s' p' : vector_seen version no fa cv f o s h p = Ok (s', p') -> p <= p'.
Proof.
  intros H. unfold vector_seen in H.
  assert (G : forall n l q, ('(x, q) <- binary_read f o Cd (n * 3) p ;; l <- or_err ValueError x ;; Ok (l, q)) = Ok (l, q) -> p <= q).
  { intros n l q E. apply bind_ok in E. destruct E as ((x, q0) & E1 & E). apply bind_ok in E. destruct E as (l0 & E2 & E). injection E as -> ->.
    apply or_some in E2. subst x. apply (binary_read_pos _ _ _ _ _ _ _ E1). }
  destruct (_ =? no); [| destruct (_ =? fa); [| destruct (_ =? cv); [| discriminate]]].
  - apply bind_ok in H. destruct H as ((l, q) & E & H). injection H as _ <-. apply (G _ _ _ E).
  - apply bind_ok in H. destruct H as ((l, q) & E & H). injection H as _ <-. apply (G _ _ _ E).
  - apply bind_ok in H. destruct H as (d & _ & H). apply bind_ok in H. destruct H as ((l, q) & E & H). injection H as _ <-. apply (G _ _ _ E).
Qed.

Lemma seen_all version no fa cv f o s x name code size n m : read_seen version no fa cv f o = Ok s -> tidy o version no fa f ->
  leads o f 8 x -> head_at o f x name code size n m -> In code ([32; 34; 24; 42; 45] ++ [33; 25; 43]) -> placed no fa name n s.
Proof.
  intros H T LX HX I. unfold read_seen in H. apply bind_ok in H. destruct H as (s1 & H1 & H2). unfold scan_file in *.
  apply in_app_or in I. destruct I as [I | I].
  - assert (P : placed no fa name n s1).
    { eapply (numbers_read f o version no fa (scalar_seen version no fa cv f o) scalar_ids _ _ x name code size n m s1 8); [lia | | | | exact LX | exact HX | | exact H1].
      - vm_compute. intuition discriminate.
      - intros a h p b q E. destruct (scalar_does _ _ _ _ _ _ _ _ _ _ _ E) as (A & B & C). repeat (split; [assumption |]). intros _. eapply scalar_on; exact E.
      - intros q name' code' size' n' m' L8 HQ IQ. apply (proj1 (T _ _ _ _ _ _ L8 HQ)). unfold scalar_ids in IQ. cbn in IQ |- *. unfold NO_D1, NO_II1, FA_D1, CV_D1, CV_II1 in IQ. tauto.
      - unfold scalar_ids. cbn in I |- *. unfold NO_D1, NO_II1, FA_D1, CV_D1, CV_II1. tauto. }
    eapply placed_kept; [| exact P]. eapply (scan_kept kept); [exact kept_refl | exact kept_trans | | exact H2].
    intros a h p b q E. apply (vector_does _ _ _ _ _ _ _ _ _ _ _ E).
  - eapply (numbers_read f o version no fa (vector_seen version no fa cv f o) vector_ids _ _ x name code size n m s 24); [lia | | | | exact LX | exact HX | | exact H2].
    + vm_compute. intuition discriminate.
    + intros a h p b q E. destruct (vector_does _ _ _ _ _ _ _ _ _ _ _ E) as (A & B & C). repeat (split; [assumption |]). intros _. eapply vector_on; exact E.
    + intros q name' code' size' n' m' L8 HQ IQ. apply (proj2 (T _ _ _ _ _ _ L8 HQ)). unfold vector_ids in IQ. cbn in IQ |- *. unfold NO_D3, FA_D3, CV_D3 in IQ. tauto.
    + unfold vector_ids. cbn in I |- *. unfold NO_D3, FA_D3, CV_D3. tauto.
Qed.
