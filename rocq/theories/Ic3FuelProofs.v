(** * Reading always stops: no loop of the reader model runs out of fuel. *)
From Coq Require Import ZArith List Bool String Lia.
From Verif Require Import Py PyFacts Ic3Bytes Ic3BytesProofs Ic3 Ic3HeaderSpec.

Definition stops_ok {A} (r : res A) : Prop := r <> Err OutOfFuel.

Lemma so_bind {A B} (x : res A) (k : A -> res B) : stops_ok x -> (forall a, x = Ok a -> stops_ok (k a)) -> stops_ok (bind x k).
Proof. intros H K. destruct x as [a | e]; cbn; [apply K; reflexivity | intros Q; apply H; congruence]. Qed.
Lemma so_ok {A} (a : A) : stops_ok (Ok a). Proof. discriminate. Qed.
Lemma so_assert b : stops_ok (assertb b). Proof. destruct b; discriminate. Qed.
Lemma so_or_err {A} e (x : option A) : e <> OutOfFuel -> stops_ok (or_err e x).
Proof. intros H. destruct x; cbn; intros Q; congruence. Qed.
Lemma so_get {A} (l : list A) i : stops_ok (py_get l i).
Proof. unfold py_get. destruct (_ <? 0) eqn:?; [discriminate |]. destruct (nth_error _ _); discriminate. Qed.
Lemma so_max l : stops_ok (py_max l). Proof. destruct l; discriminate. Qed.
Lemma so_dget {V} k (d : dict Z V) : stops_ok (dget_err Z.eqb k d).
Proof. unfold dget_err. destruct (dget _ _ _); discriminate. Qed.
Lemma so_read f o c n p : stops_ok (binary_read f o c n p).
Proof. unfold binary_read. destruct (_ || _); [discriminate |]. destruct (rd _ _ _). discriminate. Qed.
Lemma so_name l : stops_ok (dec_name l).
Proof.
  induction l as [| b l IH]; [discriminate |]. cbn. destruct (b =? 0); [discriminate |].
  destruct (b <? 128); [| discriminate]. apply so_bind; [exact IH | discriminate].
Qed.

Lemma rd_pos f p n : p <= snd (rd f p n).
Proof. unfold rd. cbn. assert (Q := zlen_nonneg (firstn (Z.to_nat n) (skipn (Z.to_nat p) f))). lia. Qed.
Lemma binary_read_pos f o c n p s p' : binary_read f o c n p = Ok (s, p') -> p <= p'.
Proof.
  unfold binary_read. destruct (_ || _); [discriminate |].
  assert (Q := rd_pos f p (Z.of_nat (code_size c) * n)). destruct (rd _ _ _) as (r, q). cbn in Q.
  intros H. inversion H; subst. exact Q.
Qed.

Definition start (skip p : Z) : Z := if 0 <? skip then p + (skip - 256) else p.

Lemma read_var_stops : forall k f o ids skip p, 0 <= start skip p -> zlen f <= start skip p + Z.of_nat k -> (0 < k)%nat ->
  stops_ok (read_var k f o ids skip p).
Proof.
  induction k as [| k IH]; intros f o ids skip p P F K; [lia |].
  cbn [read_var]. fold (start skip p). destruct (rd f (start skip p) 256) as ([b |], p') eqn:R; [| discriminate].
  apply rd_some in R; [| exact P | lia]. destruct R as (-> & _ & _ & LE). specialize (LE ltac:(lia)).
  apply so_bind; [apply so_name |]. intros name _.
  destruct (String.prefix "DEOF" name); [discriminate |].
  destruct (zmem _ ids); [discriminate |]. destruct (_ =? EOF); [discriminate |].
  set (sk := h_skip _). unfold start in *.
  assert (Q : start skip p + 1 <= start sk (start skip p + 256)) by (unfold start; destruct (0 <? sk) eqn:E; lia).
  unfold start in Q. apply IH; unfold start; lia.
Qed.
Lemma read_var_pos : forall k f o ids skip p h p', 0 <= start skip p -> read_var k f o ids skip p = Ok (h, p') ->
  start skip p + 256 <= p' <= zlen f.
Proof.
  induction k as [| k IH]; intros f o ids skip p h p' P H; [discriminate |].
  cbn [read_var] in H. fold (start skip p) in H. destruct (rd f (start skip p) 256) as ([b |], q) eqn:R; [| discriminate].
  apply rd_some in R; [| exact P | lia]. destruct R as (-> & _ & _ & LE). specialize (LE ltac:(lia)).
  apply bind_ok in H; destruct H as (name & _ & H).
  destruct (String.prefix "DEOF" name); [inversion H; subst; lia |].
  destruct (zmem _ ids); [inversion H; subst; lia |]. destruct (_ =? EOF); [inversion H; subst; lia |].
  set (sk := h_skip _) in *.
  assert (Q : start skip p + 1 <= start sk (start skip p + 256)) by (unfold start; destruct (0 <? sk) eqn:E; lia).
  apply IH in H; lia.
Qed.
Lemma find_stops f o ids : stops_ok (find_var f o ids).
Proof. apply read_var_stops; unfold fuel_of, start, zlen; change (0 <? 0) with false; cbv iota; lia. Qed.
Lemma at_stops f o ids p : 0 <= p -> stops_ok (read_var (fuel_of f) f o ids 0 p).
Proof. intros P. apply read_var_stops; unfold fuel_of, start, zlen; change (0 <? 0) with false; cbv iota; lia. Qed.
Lemma at_pos f o ids p h p' : 0 <= p -> read_var (fuel_of f) f o ids 0 p = Ok (h, p') -> p + 256 <= p' <= zlen f.
Proof. intros P H. apply read_var_pos in H; unfold start in *; cbn in *; lia. Qed.
Lemma req_stops f o ids : stops_ok (find_req f o ids).
Proof. apply so_bind; [apply find_stops |]. intros ([h |], p) _; discriminate. Qed.
Lemma req_pos f o ids h p : find_req f o ids = Ok (h, p) -> 0 <= p.
Proof.
  intros H. apply bind_ok in H; destruct H as ((h', q) & H & E). apply at_pos in H; [| lia].
  destruct h'; [| discriminate]. inversion E; subst. lia.
Qed.

Lemma headers_stops f o : forall k skip p, 0 <= start skip p -> zlen f <= start skip p + Z.of_nat k -> (0 < k)%nat ->
  stops_ok (headers_loop k f o skip p).
Proof.
  induction k as [| k IH]; intros skip p P F K; [lia |]. cbn [headers_loop].
  apply so_bind.
  { apply read_var_stops; [exact P | unfold fuel_of, zlen; lia | unfold fuel_of; lia]. }
  intros ([h |], p') R; [| discriminate].
  apply read_var_pos in R; [| exact P].
  destruct (h_id h =? EOF); [discriminate |].
  assert (Q : start skip p + 1 <= start (h_skip h) p') by (unfold start in *; destruct (0 <? h_skip h) eqn:E; lia).
  apply so_bind; [apply IH; lia | discriminate].
Qed.

Lemma zones_stops f o z : forall k p, 0 <= p -> zlen f <= p + Z.of_nat k -> (0 < k)%nat -> stops_ok (read_zones k f o z p).
Proof.
  induction k as [| k IH]; intros p P F K; [lia |]. cbn [read_zones].
  apply so_bind; [apply at_stops; exact P |]. intros ([h |], p') R; [| discriminate].
  apply at_pos in R; [| exact P].
  apply so_bind.
  { apply so_bind; [apply so_dget | intros t _]. apply so_bind; [apply so_get | discriminate]. }
  intros b _. destruct (_ =? 6); [discriminate |].
  apply so_bind; [apply IH; lia | discriminate].
Qed.

Lemma scan_stops {S} f o ids (step : S -> header -> Z -> res (S * Z)) :
  (forall s h p, stops_ok (step s h p)) -> (forall s h p s' p', step s h p = Ok (s', p') -> p <= p') ->
  forall k s p, 0 <= p -> zlen f <= p + Z.of_nat k -> (0 < k)%nat -> stops_ok (scan k f o ids step s p).
Proof.
  intros ST PO. induction k as [| k IH]; intros s p P F K; [lia |]. cbn [scan].
  apply so_bind; [apply at_stops; exact P |]. intros ([h |], p') R; [| discriminate].
  apply at_pos in R; [| exact P].
  apply so_bind; [apply ST |]. intros (s', q) Q. apply PO in Q. apply IH; lia.
Qed.
Lemma scan_file_stops {S} f o ids (step : S -> header -> Z -> res (S * Z)) s :
  (forall s h p, stops_ok (step s h p)) -> (forall s h p s' p', step s h p = Ok (s', p') -> p <= p') ->
  stops_ok (scan_file f o ids step s).
Proof. intros A B. apply scan_stops; try assumption; unfold fuel_of, zlen; lia. Qed.

(** Steps: no fuel, and the position does not go back. *)
Definition advances {S} (r : res (S * Z)) (p : Z) : Prop := stops_ok r /\ forall s p', r = Ok (s, p') -> p <= p'.

Lemma adv_ret {S} (s : S) p p' : p <= p' -> advances (Ok (s, p')) p.
Proof. intros H. split; [discriminate |]. intros s0 q E. inversion E; subst. exact H. Qed.
Lemma adv_err {S} e p : e <> OutOfFuel -> advances (@Err (S * Z) e) p.
Proof. intros H. split; [intros Q; congruence | discriminate]. Qed.
Lemma adv_bind {A S} (x : res A) (k : A -> res (S * Z)) p :
  stops_ok x -> (forall a, x = Ok a -> advances (k a) p) -> advances (bind x k) p.
Proof.
  intros H K. destruct x as [a | e]; cbn; [apply K; reflexivity |].
  apply adv_err. intros ->. apply H. reflexivity.
Qed.
Lemma so_stats l : stops_ok (stats l). Proof. destruct l; discriminate. Qed.
Lemma so_ndof v n : stops_ok (ndof_of v n).
Proof. unfold ndof_of. destruct (v <? 0), (v <? 3), (n =? 0); discriminate. Qed.
Lemma so_set_ndof n d : stops_ok (set_cell_ndof n d).
Proof.
  unfold set_cell_ndof. destruct (1 <? n); [| discriminate]. cbn.
  unfold set_ndof. destruct (_ || _); discriminate.
Qed.
Lemma so_get_items f o c n p e : e <> OutOfFuel ->
  stops_ok ('(s, p) <- binary_read f o c n p ;; l <- or_err e s ;; Ok (l, p)).
Proof.
  intros E. apply so_bind; [apply so_read |]. intros (s, q) _. apply so_bind; [apply so_or_err; exact E | discriminate].
Qed.
Lemma get_items_pos f o c n p e l q : ('(s, p) <- binary_read f o c n p ;; l <- or_err e s ;; Ok (l, p)) = Ok (l, q) -> p <= q.
Proof.
  intros H. apply bind_ok in H; destruct H as ((s, q') & R & H). apply bind_ok in H; destruct H as (l' & _ & H).
  inversion H; subst. eapply binary_read_pos; exact R.
Qed.
Ltac adv :=
  repeat first
    [ apply adv_ret; eapply get_items_pos; eassumption
    | apply adv_err; discriminate
    | apply adv_bind; [ first [apply so_get_items; discriminate | apply so_stats | apply so_ndof | apply so_set_ndof] | intros ? ? ]
    | match goal with
      | |- advances (if ?b then _ else _) _ => destruct b
      | |- advances (let '(_, _) := ?x in _) _ => destruct x
      end ].

Lemma info_adv s h p : advances (info_step s h p) p.
Proof. apply adv_ret. lia. Qed.
Lemma scalar_adv version no fa cv f o v h p : advances (scalar_step version no fa cv f o v h p) p.
Proof. unfold scalar_step. destruct v as (cells, nodes). adv. Qed.
Lemma vector_adv version no fa cv f o v h p : advances (vector_step version no fa cv f o v h p) p.
Proof. unfold vector_step. destruct v as (cells, nodes). adv. Qed.
Lemma tensor_adv version cv f o v h p : advances (tensor_step version cv f o v h p) p.
Proof.
  unfold tensor_step. destruct v as (cells, nodes). destruct (_ =? cv); [| apply adv_err; discriminate].
  apply adv_bind; [apply so_ndof | intros n _]. apply adv_bind; [apply so_set_ndof | intros c _].
  apply adv_bind; [apply so_read |]. intros (s, q) R. apply adv_bind; [apply so_or_err; discriminate |]. intros l _.
  apply adv_bind; [apply so_stats |]. intros _ _. apply adv_ret. eapply binary_read_pos; exact R.
Qed.
Lemma scan_file_adv {S} f o ids (step : S -> header -> Z -> res (S * Z)) s :
  (forall s h p, advances (step s h p) p) -> stops_ok (scan_file f o ids step s).
Proof. intros A. apply scan_file_stops; intros; destruct (A s0 h p) as (X & Y); eauto. Qed.

Lemma check_list_stops f o n p : stops_ok (check_list f o n p).
Proof.
  apply so_bind; [apply so_read |]. intros (s, q) _. apply so_bind; [apply so_or_err; discriminate |].
  intros l _. apply so_assert.
Qed.
Lemma restart_header_stops f : stops_ok (read_restart_header f).
Proof.
  apply so_bind; [apply so_read |]. intros (s, q) _. destruct s as [[| m [| v [|]]] |]; try discriminate.
  destruct (m =? MAGIC); [discriminate |]. apply so_bind; [| discriminate].
  unfold pack_int. destruct (fits 4 v); discriminate.
Qed.

Theorem read_headers_stops f : read_headers f <> Err OutOfFuel.
Proof.
  apply so_bind; [apply restart_header_stops |]. intros (o, v) _.
  apply headers_stops; unfold fuel_of, start, zlen; change (0 <? 0) with false; cbv iota; lia.
Qed.

Theorem read_data_stops integrity f : read_data integrity f <> Err OutOfFuel.
Proof.
  apply so_bind; [apply restart_header_stops |]. intros (o, v) _.
  apply so_bind; [apply req_stops |]. intros (h, p) _. cbn zeta.
  apply so_bind.
  { destruct integrity; [| discriminate]. apply so_bind; [apply find_stops |]. intros ([h' |], q) _; [| discriminate].
    apply so_bind; [apply so_assert | intros _ _]. apply so_bind; [apply check_list_stops | intros _ _].
    apply so_bind; [apply req_stops | intros (h1, q1) _]. apply so_bind; [apply check_list_stops | intros _ _].
    apply so_bind; [apply req_stops | intros (h2, q2) _]. apply so_bind; [apply so_assert | intros _ _].
    apply check_list_stops. }
  intros _ _. apply so_bind.
  { apply so_bind; [apply req_stops | intros (h1, q1) _]. apply so_bind; [apply so_assert | intros _ _].
    apply so_bind; [apply so_assert | intros _ _]. apply so_bind; [apply so_read | intros (s, q2) _].
    apply so_bind; [apply so_or_err; discriminate | intros nno _]. cbn zeta. apply so_bind; [apply so_get | intros a _].
    apply so_bind; [apply so_get | intros b _]. apply so_bind; [apply so_assert | intros _ _].
    apply so_bind; [apply so_read | intros (s', q3) _]. apply so_bind; [apply so_or_err; discriminate | intros value _].
    apply so_bind; [| discriminate]. apply so_bind; [apply so_get | intros c _]. apply so_bind; [apply so_assert | intros _ _].
    apply so_bind; [apply so_max | intros m _]. apply so_bind; [apply so_assert | discriminate]. }
  intros z _. apply so_bind.
  { apply so_bind; [apply req_stops | intros (h1, q1) _]. apply so_bind; [apply so_assert | intros _ _].
    apply so_bind; [apply so_assert | intros _ _]. apply so_bind; [apply so_read | intros (s, q2) _].
    apply so_bind; [apply so_or_err; discriminate | intros l _]. apply so_bind; [apply so_max | intros m _].
    apply so_bind; [apply so_assert | intros _ _]. apply so_bind; [apply so_assert | discriminate]. }
  intros (cvofa, q) RC. apply so_bind.
  { assert (Q : 0 <= q).
    { apply bind_ok in RC; destruct RC as ((h1, q1) & R1 & RC). apply req_pos in R1.
      apply bind_ok in RC; destruct RC as (? & _ & RC). apply bind_ok in RC; destruct RC as (? & _ & RC).
      apply bind_ok in RC; destruct RC as ((s, q2) & R2 & RC). apply binary_read_pos in R2.
      apply bind_ok in RC; destruct RC as (? & _ & RC). apply bind_ok in RC; destruct RC as (? & _ & RC).
      apply bind_ok in RC; destruct RC as (? & _ & RC). apply bind_ok in RC; destruct RC as (? & _ & RC).
      inversion RC; subst. lia. }
    apply zones_stops; [exact Q | unfold fuel_of, zlen; lia | unfold fuel_of; lia]. }
  intros bocos _. apply so_bind.
  { apply so_bind; [apply req_stops | intros (h1, q1) _]. apply so_bind; [apply so_read | intros (s, q2) _; discriminate]. }
  intros (npart, icv) _. apply so_bind.
  { apply so_bind; [apply req_stops | intros (h1, q1) _]. apply so_bind; [apply so_assert | intros _ _].
    apply so_bind; [apply so_assert | intros _ _]. apply so_bind; [apply so_read | intros (s, q2) _].
    apply so_bind; [apply so_or_err; discriminate | discriminate]. }
  intros coords _. apply so_bind; [apply scan_file_adv; apply info_adv |].
  intros sim _. apply so_bind; [discriminate |]. intros cells _. apply so_bind; [discriminate |]. intros nodes _.
  apply so_bind; [| intros (? & ?) _; discriminate].
  unfold read_vars.
  apply so_bind; [apply scan_file_adv; intros; apply scalar_adv |]. intros v1 _.
  apply so_bind; [apply scan_file_adv; intros; apply vector_adv |]. intros v2 _.
  apply scan_file_adv; intros; apply tensor_adv.
Qed.
