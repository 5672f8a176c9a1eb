(** * Facts about the byte codec. *)
From Coq Require Import ZArith List Bool Lia.
From Verif Require Import Py PyFacts Ic3Bytes.

Definition is_byte (b : Z) : Prop := 0 <= b < 256.

Lemma le_length n : forall v, List.length (le n v) = n.
Proof. induction n; intros; cbn; [reflexivity | rewrite IHn; reflexivity]. Qed.
Lemma le_bytes n : forall v, Forall is_byte (le n v).
Proof.
  induction n; intros; cbn; constructor; [| apply IHn].
  unfold is_byte; apply Z.mod_pos_bound; lia.
Qed.
Lemma of_le_le n : forall v, of_le (le n v) = v mod 256 ^ Z.of_nat n.
Proof.
  induction n; intros v.
  - cbn. rewrite Z.mod_1_r. reflexivity.
  - cbn [le of_le]. rewrite IHn.
    rewrite Nat2Z.inj_succ, Z.pow_succ_r by lia.
    rewrite Z.rem_mul_r by (try lia; apply Z.pow_pos_nonneg; lia). reflexivity.
Qed.
Lemma of_le_bound l : Forall is_byte l -> 0 <= of_le l < 256 ^ zlen l.
Proof.
  induction 1 as [| b l B _ IH]; [cbn; lia |].
  unfold zlen in *. cbn [of_le List.length]. rewrite Nat2Z.inj_succ, Z.pow_succ_r by lia.
  unfold is_byte in B. lia.
Qed.
Lemma le_of_le l : Forall is_byte l -> le (List.length l) (of_le l) = l.
Proof.
  induction 1 as [| b l B _ IH]; [reflexivity |].
  unfold is_byte in B. cbn [of_le List.length le].
  replace ((b + 256 * of_le l) mod 256) with b.
  2: { rewrite (Z.mul_comm 256), Z.mod_add by lia. symmetry; apply Z.mod_small; lia. }
  replace ((b + 256 * of_le l) / 256) with (of_le l).
  2: { rewrite (Z.mul_comm 256), Z.div_add by lia. rewrite Z.div_small by lia. lia. }
  rewrite IH. reflexivity.
Qed.

Lemma enc_length o n v : List.length (enc o n v) = n.
Proof. destruct o; cbn; rewrite ?rev_length; apply le_length. Qed.
Lemma enc_bytes o n v : Forall is_byte (enc o n v).
Proof. destruct o; cbn; [apply le_bytes | apply Forall_rev, le_bytes]. Qed.
Lemma dec_enc o n v : dec o (enc o n v) = v mod 256 ^ Z.of_nat n.
Proof. destruct o; cbn; rewrite ?rev_involutive; apply of_le_le. Qed.
Lemma enc_dec o l : Forall is_byte l -> enc o (List.length l) (dec o l) = l.
Proof.
  intros B. destruct o; cbn; [apply le_of_le; exact B |].
  rewrite <- (rev_length l). rewrite le_of_le by (apply Forall_rev; exact B). apply rev_involutive.
Qed.
Lemma dec_bound o l : Forall is_byte l -> 0 <= dec o l < 256 ^ zlen l.
Proof.
  intros B. destruct o; cbn; [apply of_le_bound; exact B |].
  replace (zlen l) with (zlen (rev l)) by (unfold zlen; rewrite rev_length; reflexivity).
  apply of_le_bound, Forall_rev, B.
Qed.

Lemma fits_iff n v : fits n v = true <-> - 256 ^ Z.of_nat n <= 2 * v < 256 ^ Z.of_nat n.
Proof. unfold fits. rewrite andb_true_iff, Z.leb_le, Z.ltb_lt. reflexivity. Qed.
Lemma signed_mod n v : (0 < n)%nat -> fits n v = true -> signed n (v mod 256 ^ Z.of_nat n) = v.
Proof.
  intros N H. apply fits_iff in H. unfold signed.
  assert (P : 0 < 256 ^ Z.of_nat n) by (apply Z.pow_pos_nonneg; lia).
  set (M := 256 ^ Z.of_nat n) in *. clearbody M.
  destruct (Z_lt_dec v 0).
  - replace (v mod M) with (v + M) by (symmetry; rewrite <- (Z.mod_add v 1 M) by lia; rewrite Z.mul_1_l; apply Z.mod_small; lia).
    replace (2 * (v + M) <? M) with false by (symmetry; apply Z.ltb_ge; lia). lia.
  - rewrite Z.mod_small by lia.
    replace (2 * v <? M) with true by (symmetry; apply Z.ltb_lt; lia). reflexivity.
Qed.
Lemma unpack_enc o n v : (0 < n)%nat -> fits n v = true -> unpack_int o (enc o n v) = v.
Proof. intros N H. unfold unpack_int. rewrite enc_length, dec_enc. apply signed_mod; assumption. Qed.
Lemma even_pow n : (0 < n)%nat -> exists h, 256 ^ Z.of_nat n = 2 * h /\ 0 < h.
Proof.
  intros N. destruct n as [| k]; [lia |].
  exists (128 * 256 ^ Z.of_nat k). rewrite Nat2Z.inj_succ, Z.pow_succ_r by lia.
  assert (0 < 256 ^ Z.of_nat k) by (apply Z.pow_pos_nonneg; lia). lia.
Qed.
Lemma unpack_fits o l : Forall is_byte l -> (0 < List.length l)%nat -> fits (List.length l) (unpack_int o l) = true.
Proof.
  intros B N. apply fits_iff. unfold unpack_int, signed.
  assert (D := dec_bound o l B). unfold zlen in D.
  destruct (even_pow _ N) as (h & E & P). rewrite E in *.
  destruct (2 * dec o l <? 2 * h) eqn:C; lia.
Qed.
Lemma enc_unpack o l : Forall is_byte l -> (0 < List.length l)%nat -> enc o (List.length l) (unpack_int o l) = l.
Proof.
  intros B N. rewrite <- (enc_dec o l B) at 3.
  assert (D := dec_bound o l B). unfold zlen in D.
  unfold unpack_int, signed. destruct (_ <? _); [reflexivity |].
  assert (E : forall n a b, a mod 256 ^ Z.of_nat n = b mod 256 ^ Z.of_nat n -> le n a = le n b).
  { clear. intros n a b H. assert (X := le_of_le _ (le_bytes n a)). assert (Y := le_of_le _ (le_bytes n b)).
    rewrite le_length, of_le_le in X, Y. congruence. }
  assert (E2 : le (List.length l) (dec o l - 256 ^ Z.of_nat (List.length l)) = le (List.length l) (dec o l)).
  { apply E. rewrite <- (Z.mod_add (dec o l) (-1)); [f_equal; lia |].
    assert (0 < 256 ^ Z.of_nat (List.length l)) by (apply Z.pow_pos_nonneg; lia). lia. }
  unfold enc. destruct o; rewrite E2; reflexivity.
Qed.

(** ** Pieces *)
Lemma chunks_fuel_concat n : (0 < n)%nat -> forall ls fuel, Forall (fun c => List.length c = n) ls ->
  (List.length ls <= fuel)%nat -> chunks_fuel fuel n (List.concat ls) = ls.
Proof.
  intros N. induction ls as [| c ls IH]; intros fuel H L.
  - destruct fuel; reflexivity.
  - inversion H as [| ? ? Hc Hls]; subst. cbn [List.length] in L. destruct fuel as [| k]; [lia |].
    cbn [List.concat]. destruct (c ++ List.concat ls) as [| x r] eqn:E.
    + apply (f_equal (@List.length Z)) in E. rewrite app_length in E. cbn in E. lia.
    + cbn [chunks_fuel]. rewrite <- E. rewrite firstn_app, Nat.sub_diag, firstn_all, firstn_O, app_nil_r.
      rewrite skipn_app, Nat.sub_diag, skipn_all, skipn_O. cbn [app].
      rewrite IH by (assumption || lia). reflexivity.
Qed.
Lemma length_concat_const {A} (n : nat) (ls : list (list A)) : Forall (fun c => List.length c = n) ls ->
  List.length (List.concat ls) = (List.length ls * n)%nat.
Proof. induction 1; cbn; [reflexivity | rewrite app_length]. lia. Qed.
Lemma chunks_concat n ls : (0 < n)%nat -> Forall (fun c => List.length c = n) ls -> chunks n (List.concat ls) = ls.
Proof.
  intros N H. apply chunks_fuel_concat; [exact N | exact H |].
  rewrite (length_concat_const n) by exact H. destruct n as [| k]; [lia |]. nia.
Qed.
Lemma chunks_fuel_spec n : (0 < n)%nat -> forall k l fuel, List.length l = (k * n)%nat -> (List.length l <= fuel)%nat ->
  List.concat (chunks_fuel fuel n l) = l /\ Forall (fun c => List.length c = n) (chunks_fuel fuel n l) /\
  List.length (chunks_fuel fuel n l) = k.
Proof.
  intros N. induction k as [| k IH]; intros l fuel L F.
  - destruct l; [| discriminate L]. destruct fuel; repeat split; constructor.
  - destruct l as [| x r]; [cbn in L; lia |].
    destruct fuel as [| fuel]; [cbn in F; lia |].
    cbn [chunks_fuel]. set (l := x :: r) in *.
    assert (L2 : List.length (skipn n l) = (k * n)%nat) by (rewrite skipn_length; lia).
    destruct (IH (skipn n l) fuel L2 ltac:(lia)) as (A & B & C).
    repeat split.
    + cbn [List.concat]. rewrite A. apply firstn_skipn.
    + constructor; [rewrite firstn_length; lia | exact B].
    + cbn [List.length]. rewrite C. reflexivity.
Qed.
Lemma chunks_spec n k l : (0 < n)%nat -> List.length l = (k * n)%nat ->
  List.concat (chunks n l) = l /\ Forall (fun c => List.length c = n) (chunks n l) /\ List.length (chunks n l) = k.
Proof. intros N L. apply chunks_fuel_spec; [exact N | exact L | lia]. Qed.

(** ** Items *)

(** A value that the item code can carry: an integer in range, or a 64-bit pattern. *)
Definition item_ok (c : code) (v : Z) : Prop :=
  match c with Ci => fits 4 v = true | Cq => fits 8 v = true | Cd => 0 <= v < 2 ^ 64 end.

Lemma code_size_pos c : (0 < code_size c)%nat.
Proof. destruct c; cbn; lia. Qed.
Lemma pack_item_length o c v b : pack_item o c v = Ok b -> List.length b = code_size c.
Proof.
  destruct c; cbn; unfold pack_int, pack_double; try destruct (fits _ v); intros H; inversion H; apply enc_length.
Qed.
Lemma pack_item_bytes o c v b : pack_item o c v = Ok b -> Forall is_byte b.
Proof.
  destruct c; cbn; unfold pack_int, pack_double; try destruct (fits _ v); intros H; inversion H; apply enc_bytes.
Qed.
Lemma unpack_pack_item o c v b : pack_item o c v = Ok b -> (c = Cd -> 0 <= v < 2 ^ 64) -> unpack_item o c b = v.
Proof.
  destruct c; cbn; unfold pack_int, pack_double; intros H P.
  - destruct (fits 4 v) eqn:E; inversion H. apply unpack_enc; [lia | exact E].
  - destruct (fits 8 v) eqn:E; inversion H. apply unpack_enc; [lia | exact E].
  - inversion H. unfold unpack_double. rewrite dec_enc. apply Z.mod_small.
    change (256 ^ Z.of_nat 8) with (2 ^ 64). auto.
Qed.
Lemma pack_item_ok o c v : (exists b, pack_item o c v = Ok b) <-> match c with Cd => True | Ci => fits 4 v = true | Cq => fits 8 v = true end.
Proof.
  destruct c; cbn; unfold pack_int; try destruct (fits _ v);
    split; intros; eauto; try discriminate; destruct H as (? & H); discriminate.
Qed.

Lemma binary_write_ok o c n vals bs : binary_write o c n vals = Ok bs ->
  zlen vals = Z.max 0 n /\ zlen bs = Z.of_nat (code_size c) * Z.max 0 n /\ Forall is_byte bs /\
  ((c = Cd -> Forall (fun v => 0 <= v < 2 ^ 64) vals) ->
   List.map (unpack_item o c) (chunks (code_size c) bs) = vals).
Proof.
  unfold binary_write. destruct (zlen vals =? Z.max 0 n) eqn:E; [| discriminate].
  intros H. apply bind_ok in H; destruct H as (ps & HP & H). inversion H; subst; clear H.
  apply Z.eqb_eq in E. split; [exact E |].
  apply mapM_ok_Forall2 in HP.
  assert (L : Forall (fun c0 => List.length c0 = code_size c) ps).
  { clear E. induction HP; constructor; [eapply pack_item_length; eassumption | assumption]. }
  assert (LE : List.length ps = List.length vals) by (clear -HP; induction HP; cbn; congruence).
  repeat split.
  - unfold zlen. rewrite (length_concat_const (code_size c)) by exact L.
    rewrite LE. unfold zlen in E. rewrite Nat2Z.inj_mul, E. lia.
  - clear -HP. induction HP; cbn; [constructor |]. apply Forall_app. split; [eapply pack_item_bytes; eassumption | assumption].
  - intros P. rewrite chunks_concat by (apply code_size_pos || exact L).
    clear E L LE. induction HP as [| v b vals ps PV _ IH]; [reflexivity |]. cbn [List.map].
    rewrite (unpack_pack_item o c v b PV) by (intros C; specialize (P C); inversion P; assumption).
    rewrite IH by (intros C; specialize (P C); inversion P; assumption). reflexivity.
Qed.

(** ** Reading in a file *)
Lemma rd_at pre b post : rd (pre ++ b ++ post) (zlen pre) (zlen b) = (Some b, zlen pre + zlen b).
Proof.
  unfold rd. rewrite !to_nat_zlen.
  rewrite skipn_app, skipn_all, Nat.sub_diag, skipn_O. cbn [app].
  rewrite firstn_app, firstn_all, Nat.sub_diag, firstn_O, app_nil_r, Z.eqb_refl. reflexivity.
Qed.
Lemma rd_some f p n b p' : 0 <= p -> 0 <= n -> rd f p n = (Some b, p') ->
  p' = p + n /\ zlen b = n /\ b = firstn (Z.to_nat n) (skipn (Z.to_nat p) f) /\ (0 < n -> p + n <= zlen f).
Proof.
  intros P N H. unfold rd in H. destruct (zlen _ =? n) eqn:E; [| discriminate].
  apply Z.eqb_eq in E. inversion H; subst b p'; clear H. rewrite E. repeat split.
  intros N0. unfold zlen in *. rewrite firstn_length, skipn_length in E. lia.
Qed.
Lemma rd_prefix f g p n b p' : 0 <= p -> 0 <= n -> rd f p n = (Some b, p') -> rd (f ++ g) p n = (Some b, p').
Proof.
  intros P N H. unfold rd in *. destruct (zlen _ =? n) eqn:E; [| discriminate].
  apply Z.eqb_eq in E.
  assert (E2 : firstn (Z.to_nat n) (skipn (Z.to_nat p) (f ++ g)) = firstn (Z.to_nat n) (skipn (Z.to_nat p) f)).
  { unfold zlen in E. rewrite firstn_length, skipn_length in E. rewrite skipn_app, firstn_app.
    rewrite skipn_length. destruct (Z.to_nat n) eqn:Z0; [rewrite !firstn_O; reflexivity |].
    replace (S n0 - (List.length f - Z.to_nat p))%nat with 0%nat by lia.
    rewrite firstn_O, app_nil_r. reflexivity. }
  rewrite E2, E, Z.eqb_refl. rewrite <- H, E. reflexivity.
Qed.
Lemma binary_read_at pre b post o c n vals : zlen b = Z.of_nat (code_size c) * n -> 0 <= n ->
  Z.of_nat (code_size c) * n < 2 ^ 63 ->
  List.map (unpack_item o c) (chunks (code_size c) b) = vals ->
  binary_read (pre ++ b ++ post) o c n (zlen pre) = Ok (Some vals, zlen pre + zlen b).
Proof.
  intros L N M V. unfold binary_read.
  replace ((n <? 0) || (2 ^ 63 <=? Z.of_nat (code_size c) * n)) with false
    by (symmetry; apply orb_false_iff; split; [apply Z.ltb_ge | apply Z.leb_gt]; lia).
  rewrite <- L, rd_at. cbn [option_map]. rewrite V. reflexivity.
Qed.
