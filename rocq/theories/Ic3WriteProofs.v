(** * The sections that the writers produce. *)
From Coq Require Import ZArith List Bool String Lia.
From Verif Require Import Py PyFacts Ic3Bytes Ic3BytesProofs Ic3 Ic3HeaderSpec Ic3HeaderProofs Ic3FuelProofs Ic3FileSpec Ic3FileProofs.

Lemma ok_inj {A} (a b : A) : Ok a = Ok b -> a = b.
Proof. congruence. Qed.

(** ** Headers *)
Definition hdr8 (name : string) (id skip : Z) (l r : list Z) : header :=
  Hdr name id skip (l ++ repeat 0 (8 - List.length l)) (r ++ repeat 0 (16 - List.length r)).

Lemma mk_hdr_ok name id skip l r h : mk_hdr name id skip l r = Ok h ->
  h = hdr8 name id skip l r /\ Forall int64 l /\ (List.length r <= 16)%nat.
Proof.
  unfold mk_hdr. intros H. apply bind_ok in H; destruct H as (l' & HL & H).
  assert (E : l' = l /\ Forall int64 l).
  { apply mapM_ok_Forall2 in HL. clear H. induction HL as [| x y l l' X _ IH]; [split; [reflexivity | constructor] |].
    unfold i64 in X. destruct (fits 8 x) eqn:F; [| discriminate]. inversion X; subst y. destruct IH as (-> & IH).
    split; [reflexivity | constructor; [apply fits8; exact F | exact IH]]. }
  destruct E as (-> & FI). destruct (16 <? zlen r) eqn:G; [discriminate |]. inversion H. split; [reflexivity | split; [exact FI |]].
  apply Z.ltb_ge in G. unfold zlen in G. lia.
Qed.
Lemma hdr8_arrays name id skip l r : (List.length l <= 8)%nat -> (List.length r <= 16)%nat -> Forall pattern r ->
  header_arrays (hdr8 name id skip l r).
Proof.
  intros L R P. unfold hdr8. split; [| split]; cbn [h_idata h_rdata].
  - rewrite app_length, repeat_length. lia.
  - rewrite app_length, repeat_length. lia.
  - apply Forall_app. split; [exact P |]. apply Forall_forall. intros x I. apply repeat_spec in I. subst x. split; vm_compute; congruence.
Qed.

(** A section with one block of data, and one with none. *)
Definition sec0 (name : string) (id : Z) (l r : list Z) : section := (hdr8 name id 256 l r, []).
Definition sec1 (name : string) (id : Z) (l : list Z) (c : code) (n : Z) (vals : list Z) : section :=
  (hdr8 name id (256 + Z.of_nat (code_size c) * n) l [], [(c, n, vals)]).

Lemma plain_ok name id l r s : plain name id l r = Ok s ->
  s = sec0 name id l r /\ Forall int64 l /\ (List.length r <= 16)%nat.
Proof.
  unfold plain. intros H. apply bind_ok in H; destruct H as (h & HH & H). inversion H; subst s.
  apply mk_hdr_ok in HH. destruct HH as (-> & A & B). auto.
Qed.
Lemma sec0_wf name id l r : (List.length l <= 8)%nat -> (List.length r <= 16)%nat -> Forall pattern r -> sec_wf (sec0 name id l r).
Proof.
  intros L R P. split; [apply hdr8_arrays; assumption | split; [reflexivity | constructor]].
Qed.
Lemma sec1_wf name id l c n vals : (List.length l <= 8)%nat -> 0 <= n -> (c = Cd -> Forall pattern vals) ->
  sec_wf (sec1 name id l c n vals).
Proof.
  intros L N P. split; [apply hdr8_arrays; [exact L | cbn; lia | constructor] |].
  split; [| constructor; [exact P | constructor]].
  unfold sec1. cbn [fst snd h_skip hdr8]. unfold load_size. cbn [List.map zsum fold_right]. rewrite Z.max_r by exact N. lia.
Qed.

(** ** What the writer state must satisfy for the sections to be well-formed *)
Section Typed.
  Context (i2d : Z -> Z) (f2i : Z -> res Z).

  Definition w_typed (w : wstate) : Prop :=
    (forall n, pattern (i2d n)) /\ 0 <= w_no w /\ 0 <= w_fa w /\ 0 <= w_cv w /\
    match w_cells w with FSet d => 0 <= ds_ndof d | FDict _ => True end /\
    Forall (fun '(_, b) => mark_typed b) (w_bocos w) /\ Forall (Forall pattern) (w_coords w) /\
    sval_typed (w_dt w) /\ sval_typed (w_time w) /\ sval_typed (w_wgt w) /\
    data_typed (fd_items (w_nodes w)) /\ data_typed (fd_items (w_cells w)).

  Lemma to_double_pattern v x : (forall n, pattern (i2d n)) -> sval_typed v -> to_double i2d v = Ok x -> pattern x.
  Proof. intros P T H. destruct v as [[n | p] | d]; inversion H; subst; [apply P | exact T]. Qed.
  Lemma doubles_pattern a : (forall n, pattern (i2d n)) -> array_typed a -> Forall pattern (doubles i2d a).
  Proof.
    intros P (_ & T). unfold doubles. destruct (a_int a); [| apply T; reflexivity].
    apply Forall_forall. intros x I. apply in_map_iff in I. destruct I as (y & <- & _). apply P.
  Qed.

  (** The sections for data, as pairs of a code and a size. *)
  Definition scalar_sec (id_d id_q : Z) (v : version) (l : list Z) (n : Z) (name : string) (a : array) : section :=
    if match v with V2 => false | V3 => a_int a end then sec1 name id_q l Cq n (a_val a)
    else sec1 name id_d l Cd n (doubles i2d a).
  Definition block_sec (id : Z) (l : list Z) (n : Z) (name : string) (a : array) : section :=
    sec1 name id l Cd n (doubles i2d a).

  Lemma node_scalar_ok v no name a s : node_scalar i2d v no name a = Ok s -> s = scalar_sec NO_D1 NO_II1 v [no] no name a.
  Proof.
    unfold node_scalar. intros H. apply bind_ok in H; destruct H as (h & HH & H).
    apply mk_hdr_ok in HH. destruct HH as (-> & _). inversion H; subst s. unfold scalar_sec.
    destruct (match v with V2 => false | V3 => a_int a end); reflexivity.
  Qed.
  Lemma node_vector_ok no name a s : 0 <= no -> node_vector i2d no name a = Ok s -> s = block_sec NO_D3 [no; 3] (no * 3) name a.
  Proof.
    intros N. unfold node_vector. intros H. apply bind_ok in H; destruct H as (h & HH & H).
    apply mk_hdr_ok in HH. destruct HH as (-> & _). apply ok_inj in H; subst s. unfold block_sec, sec1.
    rewrite Z.max_r by exact N. change (Z.of_nat (code_size Cd)) with 8. rewrite <- Z.mul_assoc. reflexivity.
  Qed.
  Lemma cell_scalar_ok v cv tot second name a s : cell_scalar i2d v cv tot second name a = Ok s ->
    s = scalar_sec CV_D1 CV_II1 v (cv :: second) tot name a.
  Proof.
    unfold cell_scalar. intros H. apply bind_ok in H; destruct H as (h & HH & H).
    apply mk_hdr_ok in HH. destruct HH as (-> & _). inversion H; subst s. unfold scalar_sec.
    destruct (match v with V2 => false | V3 => a_int a end); reflexivity.
  Qed.
  Lemma cell_vector_ok cv tot second name a s : 0 <= tot -> cell_vector i2d cv tot second name a = Ok s ->
    s = block_sec CV_D3 [cv; second] (tot * 3) name a.
  Proof.
    intros N. unfold cell_vector. intros H. apply bind_ok in H; destruct H as (h & HH & H).
    apply mk_hdr_ok in HH. destruct HH as (-> & _). apply ok_inj in H; subst s. unfold block_sec, sec1.
    rewrite Z.max_r by exact N. change (Z.of_nat (code_size Cd)) with 8. rewrite <- Z.mul_assoc. reflexivity.
  Qed.
  Lemma cell_tensor_ok cv tot second name a s : 0 <= tot -> cell_tensor i2d cv tot second name a = Ok s ->
    s = block_sec CV_D33 [cv; second; 3] (tot * 9) name a.
  Proof.
    intros N. unfold cell_tensor. intros H. apply bind_ok in H; destruct H as (h & HH & H).
    apply mk_hdr_ok in HH. destruct HH as (-> & _). apply ok_inj in H; subst s. unfold block_sec, sec1.
    rewrite Z.max_r by exact N. change (Z.of_nat (code_size Cd)) with 8. rewrite <- Z.mul_assoc. reflexivity.
  Qed.

  Lemma scalar_sec_wf id_d id_q v l n name a : (forall n, pattern (i2d n)) -> array_typed a ->
    (List.length l <= 8)%nat -> 0 <= n -> sec_wf (scalar_sec id_d id_q v l n name a).
  Proof.
    intros P T L N. unfold scalar_sec. destruct (match v with V2 => false | V3 => a_int a end); apply sec1_wf; try assumption.
    - discriminate.
    - intros _. apply doubles_pattern; assumption.
  Qed.
  Lemma block_sec_wf id l n name a : (forall n, pattern (i2d n)) -> array_typed a ->
    (List.length l <= 8)%nat -> 0 <= n -> sec_wf (block_sec id l n name a).
  Proof. intros P T L N. apply sec1_wf; try assumption. intros _. apply doubles_pattern; assumption. Qed.

  (** Which entries of a dictionary are written as scalars. *)
  Definition is_scalar (a : array) : bool := match a_shape a with [] => false | n :: _ => a_size a =? n end.
  Definition is_dim (k : nat) (a : array) : bool := Nat.eqb (List.length (a_shape a)) k.

  Lemma scalars_ok g g' : (forall name a s, g name a = Ok s -> s = g' name a) ->
    forall d ss, scalars g d = List.map Ok ss ->
    ss = List.map (fun '(name, a) => g' name a) (filter (fun '(_, a) => is_scalar a) d).
  Proof.
    intros G. induction d as [| (name, a) d IH]; intros ss H; cbn [scalars flat_map] in H.
    - destruct ss; [reflexivity | discriminate].
    - cbn [filter]. unfold is_scalar at 1.
      destruct (a_shape a) as [| n sh]; [destruct ss; discriminate H |].
      destruct (a_size a =? n); [| apply IH; exact H].
      destruct ss as [| s ss]; [discriminate H |]. inversion H. cbn [List.map]. f_equal; [apply G; assumption | apply IH; assumption].
  Qed.
  Lemma of_dim_ok k g g' : (forall name a s, g name a = Ok s -> s = g' name a) ->
    forall d ss, of_dim k g d = List.map Ok ss ->
    ss = List.map (fun '(name, a) => g' name a) (filter (fun '(_, a) => is_dim k a) d).
  Proof.
    intros G. induction d as [| (name, a) d IH]; intros ss H; cbn [of_dim flat_map] in H.
    - destruct ss; [reflexivity | discriminate].
    - cbn [filter]. unfold is_dim at 1. destruct (Nat.eqb (List.length (a_shape a)) k); [| apply IH; exact H].
      destruct ss as [| s ss]; [discriminate H |]. inversion H. cbn [List.map]. f_equal; [apply G; assumption | apply IH; assumption].
  Qed.
  Lemma scalars_in g d s : In (Ok s) (scalars g d) -> exists name a, In (name, a) d /\ g name a = Ok s.
  Proof.
    unfold scalars. intros I. apply in_flat_map in I. destruct I as ((name, a) & J & I).
    destruct (a_shape a) as [| n sh]; [destruct I as [I | []]; discriminate |].
    destruct (a_size a =? n); [| destruct I]. destruct I as [I | []]. eauto.
  Qed.
  Lemma of_dim_in k g d s : In (Ok s) (of_dim k g d) -> exists name a, In (name, a) d /\ g name a = Ok s.
  Proof.
    unfold of_dim. intros I. apply in_flat_map in I. destruct I as ((name, a) & J & I).
    destruct (Nat.eqb _ k); [| destruct I]. destruct I as [I | []]. eauto.
  Qed.

  Lemma data_in d name a : data_typed d -> In (name, a) d -> array_typed a.
  Proof. intros T I. unfold data_typed in T. rewrite Forall_forall in T. apply (T (name, a) I). Qed.

  Lemma cell_sections_wf v cv ndof d s : (forall n, pattern (i2d n)) -> data_typed d -> 0 <= cv -> 0 <= ndof ->
    In (Ok s) (cell_sections i2d v cv ndof d) -> sec_wf s.
  Proof.
    intros P T C N I. assert (NC : 0 <= ndof * cv) by (apply Z.mul_nonneg_nonneg; assumption).
    destruct v; cbn [cell_sections] in I; apply in_app_or in I; destruct I as [I | I];
      try (apply in_app_or in I; destruct I as [I | I]);
      [apply scalars_in in I | apply of_dim_in in I | apply of_dim_in in I
       | apply scalars_in in I | apply of_dim_in in I | apply of_dim_in in I];
      destruct I as (name & a & J & E); apply (data_in _ _ _ T) in J;
      first [apply cell_scalar_ok in E | apply cell_vector_ok in E; [| lia] | apply cell_tensor_ok in E; [| lia]]; subst s;
      first [apply scalar_sec_wf | apply block_sec_wf]; try assumption; try (cbn; lia); try lia.
  Qed.
  Lemma var_sections_wf v w s : w_typed w -> In (Ok s) (var_sections i2d v w) -> sec_wf s.
  Proof.
    intros (P & NO & _ & CV & ND & _ & _ & _ & _ & _ & TN & TC) I. unfold var_sections in I.
    apply in_app_or in I; destruct I as [I | I]; [| apply in_app_or in I; destruct I as [I | I]].
    - apply scalars_in in I. destruct I as (name & a & J & E). apply (data_in _ _ _ TN) in J.
      apply node_scalar_ok in E. subst s. apply scalar_sec_wf; try assumption. cbn; lia.
    - apply of_dim_in in I. destruct I as (name & a & J & E). apply (data_in _ _ _ TN) in J.
      apply node_vector_ok in E; [| exact NO]. subst s. apply block_sec_wf; try assumption; [cbn; lia | lia].
    - destruct (w_cells w) as [d | d], v; cbn [fd_items] in *.
      + apply (cell_sections_wf V2 (w_cv w) 1 d); try assumption; [lia |]. destruct d; exact I.
      + destruct d; [destruct I | destruct I as [I | []]; discriminate].
      + apply (cell_sections_wf V2 (w_cv w) (ds_ndof d) (ds_data d)); assumption.
      + apply (cell_sections_wf V3 (w_cv w) (ds_ndof d) (ds_data d)); assumption.
  Qed.

  Lemma zone_section_ok key b s : zone_section (key, b) = Ok s ->
    exists t kind lo hi, key = mk_name b /\ mk_type b = Some t /\ dget String.eqb t zonekinds = Some kind /\
      mk_index b = Some (ILrange lo hi) /\ face_or_bdface b = true /\
      s = sec0 key FA_ZONE [kind; lo; hi] (match mk_perio b with Some (Some l) => l | _ => [] end) /\
      int64 lo /\ int64 hi /\ (List.length (match mk_perio b with Some (Some l) => l | _ => [] end) <= 16)%nat.
  Proof.
    unfold zone_section. intros H. apply bind_ok in H; destruct H as (u & A1 & H). apply assertb_ok in A1.
    apply bind_ok in H; destruct H as (u' & A2 & H). apply assertb_ok in A2.
    apply bind_ok in H; destruct H as (t & A3 & H). apply bind_ok in H; destruct H as (kind & A4 & H).
    apply bind_ok in H; destruct H as (il & A5 & H). apply bind_ok in H; destruct H as ((lo, hi) & A6 & H).
    apply plain_ok in H. destruct H as (-> & FI & LR).
    exists t, kind, lo, hi. apply String.eqb_eq in A1.
    destruct (mk_type b) as [t' |]; [| discriminate]. inversion A3; subst t'; clear A3.
    destruct (dget String.eqb t zonekinds) as [k' |]; [| discriminate]. inversion A4; subst k'; clear A4.
    destruct (mk_index b) as [il' |]; [| discriminate]. inversion A5; subst il'; clear A5.
    destruct il; try discriminate. apply ok_inj in A6; inversion A6; subst.
    inversion FI as [| ? ? F1 F2]; subst. inversion F2 as [| ? ? F3 F4]; subst. inversion F4; subst.
    repeat (split; [first [reflexivity | assumption] |]). assumption.
  Qed.

  Lemma conn_sections_wf v w s : w_typed w -> In (Ok s) (conn_sections v w) -> sec_wf s.
  Proof.
    intros (P & NO & FA & CV & ND & TB & TX & _) I. unfold conn_sections in I.
    apply in_app_or in I; destruct I as [I | I].
    { destruct I as [I | []]. apply plain_ok in I. destruct I as (-> & _). apply sec0_wf; cbn; [lia | lia | constructor]. }
    apply in_app_or in I; destruct I as [I | I].
    { assert (K : exists name id n, 0 <= n /\ check_section name id n = Ok s).
      { destruct v; cbn in I; [| tauto]. destruct I as [I | [I | [I | []]]]; eauto 6. }
      destruct K as (name & id & n & N & K). unfold check_section in K. apply bind_ok in K; destruct K as (h & HH & K).
      apply mk_hdr_ok in HH. destruct HH as (-> & _). apply ok_inj in K; subst s. apply (sec1_wf name id [n] Ci n); [cbn; lia | exact N | discriminate]. }
    apply in_app_or in I; destruct I as [I | I].
    { destruct I as [I | [I | []]].
      - apply bind_ok in I; destruct I as (h & HH & I). apply mk_hdr_ok in HH. destruct HH as (-> & _). apply ok_inj in I; subst s.
        split; [apply hdr8_arrays; cbn; [lia | lia | constructor] |]. split.
        + cbn [fst snd hdr8 h_skip]. unfold load_size. cbn [List.map zsum fold_right code_size].
          assert (Q := zlen_nonneg (w_noofa w)). rewrite !Z.max_r by assumption. lia.
        + constructor; [discriminate |]. constructor; [discriminate | constructor].
      - apply bind_ok in I; destruct I as (h & HH & I). apply mk_hdr_ok in HH. destruct HH as (-> & _).
        apply bind_ok in I; destruct I as (m & _ & I). apply ok_inj in I; subst s.
        rewrite Z.max_r by exact FA.
        replace (256 + 4 * w_fa w * 2) with (256 + Z.of_nat (code_size Ci) * (w_fa w * 2)) by (cbn [code_size]; lia).
        apply sec1_wf; [cbn; lia | lia | discriminate]. }
    apply in_app_or in I; destruct I as [I | I].
    { apply in_map_iff in I. destruct I as ((key, b) & E & J). apply zone_section_ok in E.
      destruct E as (t & kind & lo & hi & _ & _ & _ & _ & _ & -> & _ & _ & LR).
      apply sec0_wf; [cbn; lia | exact LR |]. rewrite Forall_forall in TB. specialize (TB _ J). cbn in TB. unfold mark_typed in TB.
      destruct (mk_perio b) as [[l |] |]; [exact TB | constructor | constructor]. }
    destruct I as [I | [I | [I | []]]].
    - apply plain_ok in I. destruct I as (-> & _). apply sec0_wf; cbn; [lia | lia | constructor].
    - apply bind_ok in I; destruct I as ((npart, icv) & _ & I). apply bind_ok in I; destruct I as (h & HH & I).
      apply mk_hdr_ok in HH. destruct HH as (-> & _). apply bind_ok in I; destruct I as (icv' & _ & I). apply ok_inj in I; subst s.
      apply (sec1_wf "CV_PART" CV_PART _ Ci); [cbn; lia | exact CV | discriminate].
    - apply bind_ok in I; destruct I as (h & HH & I). apply mk_hdr_ok in HH. destruct HH as (-> & _). apply ok_inj in I; subst s.
      rewrite Z.max_r by exact NO.
      replace (256 + 8 * w_no w * 3) with (256 + Z.of_nat (code_size Cd) * (w_no w * 3)) by (cbn [code_size]; lia).
      apply sec1_wf; [cbn; lia | lia |]. intros _. clear -TX. induction TX; cbn; [constructor | apply Forall_app; auto].
  Qed.
  Lemma info_sections_wf w s : w_typed w -> In (Ok s) (info_sections i2d f2i w) -> sec_wf s.
  Proof.
    intros (P & _ & _ & _ & _ & _ & _ & TD & TT & TW & _) I. unfold info_sections in I.
    apply in_app_or in I; destruct I as [I | I].
    - destruct I as [I | [I | [I | [I | []]]]].
      + apply plain_ok in I. destruct I as (-> & _). apply sec0_wf; cbn; [lia | lia | constructor].
      + apply bind_ok in I; destruct I as (n & _ & I). apply plain_ok in I. destruct I as (-> & _). apply sec0_wf; cbn; [lia | lia | constructor].
      + apply bind_ok in I; destruct I as (n & N & I). apply plain_ok in I. destruct I as (-> & _).
        apply to_double_pattern in N; [| exact P | exact TD]. apply sec0_wf; cbn; [lia | lia | constructor; [exact N | constructor]].
      + apply bind_ok in I; destruct I as (n & N & I). apply plain_ok in I. destruct I as (-> & _).
        apply to_double_pattern in N; [| exact P | exact TT]. apply sec0_wf; cbn; [lia | lia | constructor; [exact N | constructor]].
    - destruct (w_wgt w) as [n | d]; [destruct I as [I | []]; discriminate |].
      apply in_map_iff in I. destruct I as ((k, x) & E & J). apply bind_ok in E; destruct E as (n & N & E).
      apply plain_ok in E. destruct E as (-> & _). cbn in TW. rewrite Forall_forall in TW. specialize (TW _ J). cbn in TW.
      apply to_double_pattern in N; [| exact P | exact TW]. apply sec0_wf; cbn; [lia | lia | constructor; [exact N | constructor]].
  Qed.
  Lemma sections_wf v w s : w_typed w -> In (Ok s) (sections i2d f2i v w) -> sec_wf s.
  Proof.
    intros T I. unfold sections in I. apply in_app_or in I; destruct I as [I | I]; [eapply conn_sections_wf; eassumption |].
    apply in_app_or in I; destruct I as [I | I]; [eapply info_sections_wf; eassumption |].
    apply in_app_or in I; destruct I as [I | I]; [eapply var_sections_wf; eassumption |].
    destruct I as [I | []]. apply plain_ok in I. destruct I as (-> & _). apply sec0_wf; cbn; [lia | lia | constructor].
  Qed.

  (** A written file is the chain of its sections. *)
  Lemma write_data_chain v o w f : w_typed w -> write_data i2d f2i v o w = Ok f ->
    exists m ss fs, zlen m = 8 /\ read_restart_header f = Ok (o, version_number v) /\
      sections i2d f2i v w = List.map Ok ss /\ Forall2 (wrote o) ss fs /\ f = m ++ secs_bytes fs.
  Proof.
    intros T H. unfold write_data in H. apply bind_ok in H; destruct H as (m & HM & H).
    apply bind_ok in H; destruct H as (bs & HB & H). inversion H; subst f; clear H.
    destruct (write_secs o _ _ HB) as (ss & fs & E & F & C); [intros s I; eapply sections_wf; eassumption |].
    exists m, ss, fs. rewrite C. split; [| split; [| auto]].
    - apply binary_write_ok in HM. destruct HM as (_ & -> & _). reflexivity.
    - apply (restart_header_read o (version_number v)); [| exact HM]. destruct v; split; vm_compute; congruence.
  Qed.
End Typed.
