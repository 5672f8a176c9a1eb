(** * Truncated files: what is read in a prefix is read in the whole file. *)
From Coq Require Import ZArith List Bool String Lia.
From Verif Require Import Py PyFacts Ic3Bytes Ic3BytesProofs Ic3 Ic3HeaderSpec Ic3HeaderProofs Ic3FuelProofs Ic3FileSpec Ic3FileProofs Ic3WriteProofs.

Lemma read_var_mono : forall k g t o ids skip p h p', 0 <= start skip p ->
  read_var k g o ids skip p = Ok (h, p') -> read_var k (g ++ t) o ids skip p = Ok (h, p').
Proof.
  induction k as [| k IH]; intros g t o ids skip p h p' P H; [discriminate |].
  cbn [read_var] in *. fold (start skip p) in *. destruct (rd g (start skip p) 256) as ([b |], q) eqn:R; [| discriminate].
  rewrite (rd_prefix g t (start skip p) 256 b q P ltac:(lia) R).
  apply rd_some in R; [| exact P | lia]. destruct R as (-> & _ & _ & _).
  apply bind_ok in H; destruct H as (name & -> & H). cbn [bind].
  destruct (String.prefix "DEOF" name); [exact H |].
  destruct (zmem _ ids); [exact H |]. destruct (_ =? EOF); [exact H |].
  set (sk := h_skip _) in *.
  assert (Q : start skip p + 1 <= start sk (start skip p + 256)) by (unfold start; destruct (0 <? sk) eqn:E; lia).
  apply IH; [lia | exact H].
Qed.
Lemma read_var_fuel : forall j k f o ids skip p r, read_var k f o ids skip p = Ok r ->
  read_var (j + k) f o ids skip p = Ok r.
Proof.
  induction j as [| j IH]; intros k f o ids skip p r H; [exact H |].
  cbn [plus]. rewrite read_var_more; rewrite (IH _ _ _ _ _ _ _ H); [reflexivity | discriminate].
Qed.
Lemma read_at_mono g t o ids p r : 0 <= p -> read_at g o ids p = Ok r -> read_at (g ++ t) o ids p = Ok r.
Proof.
  intros P H. destruct r as (h, p'). unfold read_at in *. apply (read_var_mono _ _ t) in H; [| unfold start; cbn; exact P].
  apply (read_var_fuel (List.length t)) in H. rewrite <- H. f_equal. unfold fuel_of. rewrite app_length. lia.
Qed.

(** The first section with an id in [ids]. *)
Lemma first_hit (ids : list Z) (fs : list fsec) :
  Forall (fun s => ~ In (h_id (s_hdr s)) ids) fs \/
  exists l1 s l2, fs = l1 ++ s :: l2 /\ Forall (fun s => ~ In (h_id (s_hdr s)) ids) l1 /\ In (h_id (s_hdr s)) ids.
Proof.
  induction fs as [| s fs IH]; [left; constructor |].
  destruct (in_dec Z.eq_dec (h_id (s_hdr s)) ids) as [I | N].
  - right. exists [], s, fs. repeat split; [constructor | exact I].
  - destruct IH as [IH | (l1 & x & l2 & -> & A & B)]; [left; constructor; assumption |].
    right. exists (s :: l1), x, l2. split; [reflexivity | split; [constructor; assumption | exact B]].
Qed.

(** Going through the whole file with sections without payload needs the whole file. *)
Lemma info_needs_all o g t e : fsec_ok o e -> stops e -> s_load e = [] ->
  forall k fs pre st r, g ++ t = pre ++ secs_bytes fs ++ fsec_all e -> Forall (fsec_ok o) fs ->
  Forall (fun s => ~ stops s) fs ->
  Forall (fun s => In (h_id (s_hdr s)) [I0; D0] -> s_load s = []) fs ->
  scan k g o [I0; D0] info_step st (zlen pre) = Ok r -> zlen (g ++ t) <= zlen g.
Proof.
  intros OE SE LE. induction k as [| k IH]; intros fs pre st r E O N L H; [discriminate |].
  cbn [scan] in H. apply bind_ok in H; destruct H as ((h, p') & R & H).
  fold (read_at g o [I0; D0] (zlen pre)) in R.
  assert (B := at_pos _ _ _ _ _ _ (zlen_nonneg pre) R).
  apply (read_at_mono g t) in R; [| apply zlen_nonneg].
  destruct (first_hit [I0; D0] fs) as [A | (l1 & s & l2 & -> & A & I)].
  - assert (PA : Forall (passed [I0; D0]) fs).
    { rewrite Forall_forall in *. intros x X. split; [apply N | apply A]; exact X. }
    assert (Q : read_at (pre ++ secs_bytes fs ++ fsec_all e ++ []) o [I0; D0] (zlen pre) = Ok (None, zlen (pre ++ secs_bytes fs) + 256)).
    { rewrite at_passes by assumption. rewrite app_assoc.
      apply (at_stop o [I0; D0] e (pre ++ secs_bytes fs) []); try assumption. vm_compute. intuition congruence. }
    rewrite app_nil_r in Q. rewrite <- E in Q. rewrite Q in R. inversion R; subst h p'. rewrite E, app_assoc, zlen_app.
    unfold fsec_all. rewrite LE, app_nil_r. destruct OE as ((-> & _) & _). lia.
  - assert (O' := O). assert (N' := N). assert (L' := L).
    apply Forall_app in O'. destruct O' as (O1 & O2). inversion O2 as [| ? ? OS O3]; subst.
    apply Forall_app in N'. destruct N' as (N1 & N2). inversion N2 as [| ? ? NS N3]; subst.
    apply Forall_app in L'. destruct L' as (_ & L2). inversion L2 as [| ? ? LS L3]; subst.
    assert (PA : Forall (passed [I0; D0]) l1).
    { rewrite Forall_forall in *. intros x X. split; [apply N1 | apply A]; exact X. }
    assert (Q : read_at (pre ++ secs_bytes l1 ++ fsec_all s ++ secs_bytes l2 ++ fsec_all e) o [I0; D0] (zlen pre)
                = Ok (Some (s_hdr s), zlen (pre ++ secs_bytes l1) + 256)).
    { rewrite at_passes by assumption. rewrite app_assoc. apply at_hit; [assumption | | exact I].
      intros D. apply NS. left. exact D. }
    assert (E' : g ++ t = pre ++ secs_bytes l1 ++ fsec_all s ++ secs_bytes l2 ++ fsec_all e).
    { rewrite E, secs_app, secs_cons, <- !app_assoc. reflexivity. }
    rewrite <- E' in Q. rewrite Q in R. inversion R; subst h p'.
    unfold info_step in H. cbn [bind] in H.
    assert (P : zlen (pre ++ secs_bytes l1) + 256 = zlen (pre ++ secs_bytes l1 ++ fsec_all s)).
    { rewrite !zlen_app. unfold fsec_all. rewrite (LS I), app_nil_r. destruct OS as ((-> & _) & _). lia. }
    rewrite P in H. refine (IH l2 (pre ++ secs_bytes l1 ++ fsec_all s) _ r _ O3 N3 L3 H).
    rewrite E', <- !app_assoc. reflexivity.
Qed.

Lemma restart_mono g t r : read_restart_header g = Ok r -> read_restart_header (g ++ t) = Ok r.
Proof.
  unfold read_restart_header, binary_read. change ((2 <? 0) || (2 ^ 63 <=? Z.of_nat (code_size Ci) * 2)) with false. cbv iota.
  intros H. destruct (rd g 0 (Z.of_nat (code_size Ci) * 2)) as ([b |], q) eqn:R; [| discriminate].
  rewrite (rd_prefix g t 0 (Z.of_nat (code_size Ci) * 2) b q (Z.le_refl 0) ltac:(cbn; lia) R). exact H.
Qed.

(** [read_data] on a strict prefix raises. *)
Lemma cut_raises integrity o g t m fs e version : fsec_ok o e -> stops e -> s_load e = [] ->
  zlen m = 8 -> g ++ t = m ++ secs_bytes fs ++ fsec_all e -> Forall (fsec_ok o) fs -> Forall (fun s => ~ stops s) fs ->
  Forall (fun s => In (h_id (s_hdr s)) [I0; D0] -> s_load s = []) fs ->
  read_restart_header (g ++ t) = Ok (o, version) -> t <> [] -> forall r, read_data integrity g <> Ok r.
Proof.
  intros OE SE LE M E O N L RH T r H. unfold read_data in H.
  apply bind_ok in H; destruct H as ((o', v') & A0 & H). apply (restart_mono g t) in A0. rewrite RH in A0. inversion A0; subst o' v'.
  apply bind_ok in H; destruct H as ((h & p0) & _ & H). apply bind_ok in H; destruct H as (u & _ & H).
  apply bind_ok in H; destruct H as (z & _ & H). apply bind_ok in H; destruct H as ((cvofa & p) & _ & H).
  apply bind_ok in H; destruct H as (bocos & _ & H). apply bind_ok in H; destruct H as ((npart & icv) & _ & H).
  apply bind_ok in H; destruct H as (coords & _ & H). apply bind_ok in H; destruct H as (sim & S & _).
  unfold read_info, scan_file in S. rewrite <- M in S.
  apply (info_needs_all o g t e OE SE LE _ _ _ _ _ E O N L) in S. rewrite zlen_app in S.
  destruct t; [congruence |]. rewrite zlen_cons in S. assert (Q := zlen_nonneg t). lia.
Qed.

(** The last section written is EOF, and the only one with that id. *)
Lemma map_snoc_ok {A} (l : list (res A)) (x : res A) ss : l ++ [x] = List.map Ok ss ->
  exists ss' s, ss = ss' ++ [s] /\ l = List.map (@Ok A) ss' /\ x = Ok s.
Proof.
  intros H. symmetry in H. apply map_eq_app in H. destruct H as (l1 & l2 & -> & A1 & A2).
  destruct l2 as [| s [| s' l2]]; try discriminate. exists l1, s. inversion A2. auto.
Qed.

