(** * The loops over single values and variables in a written file. *)
From Coq Require Import ZArith List Bool String Lia.
From Verif Require Import Py PyFacts Ic3Bytes Ic3BytesProofs Ic3 Ic3HeaderSpec Ic3HeaderProofs Ic3FuelProofs Ic3FileSpec Ic3FileProofs Ic3WriteProofs Ic3PartsProofs Ic3CutProofs Ic3BodyProofs Ic3ReadProofs.

Definition sec_vals (s : section) : list Z := match snd s with (_, _, l) :: _ => l | [] => [] end.
Definition cell_ndof (n : Z) (d : dataset) : dataset :=
  if 1 <? n then DS (ds_trep d) "spectralcell" n (ds_props d) (ds_data d) else d.
Definition ndof_num (version n : Z) : Z := if version <? 3 then 1 else if n =? 0 then 1 else n.

Lemma set_cell_ndof_eq n d : set_cell_ndof n d = Ok (cell_ndof n d).
Proof.
  unfold set_cell_ndof, cell_ndof. destruct (1 <? n); [| reflexivity].
  unfold set_xrep. change (smem "spectralcell" ds_xreps) with true. cbv iota. cbn [bind].
  unfold set_ndof. cbn [ds_xrep]. change (String.eqb "spectralcell" "spectralcell") with true. rewrite orb_true_r. reflexivity.
Qed.
Lemma ndof_of_eq version n : 0 <= version -> ndof_of version n = Ok (ndof_num version n).
Proof.
  intros V. unfold ndof_of, ndof_num. replace (version <? 0) with false by (symmetry; apply Z.ltb_ge; exact V).
  destruct (version <? 3); [reflexivity |]. destruct (n =? 0); reflexivity.
Qed.
Lemma stats_ok l : 1 <= zlen l -> stats l = Ok tt.
Proof. destruct l; [intros H; rewrite zlen_nil in H; lia | reflexivity]. Qed.

Section Steps.
  Context (version no fa cv : Z).

  (** What a scalar, vector or tensor section does to the data. *)
  Definition place_scalar (v : vars) (s : section) : vars :=
    let '(cells, nodes) := v in
    let h := cut_header (fst s) in
    let a := Arr [zlen (sec_vals s)] (is_q (code_of (h_id h))) (sec_vals s) in
    if idata h 0 =? no then (cells, add_data (h_name h) a None nodes)
    else if idata h 0 =? fa then v
    else (add_data (h_name h) a None (cell_ndof (ndof_num version (idata h 1)) cells), nodes).
  Definition place_vector (v : vars) (s : section) : vars :=
    let '(cells, nodes) := v in
    let h := cut_header (fst s) in
    if idata h 0 =? no then v
    else if idata h 0 =? fa then v
    else (add_data (h_name h) (Arr [ndof_num version (idata h 1) * cv; 3] false (sec_vals s)) None
            (cell_ndof (ndof_num version (idata h 1)) cells), nodes).
  Definition place_tensor (v : vars) (s : section) : vars :=
    let '(cells, nodes) := v in
    let h := cut_header (fst s) in
    (add_data (h_name h) (Arr [ndof_num version (idata h 1) * cv; 3; 3] false (sec_vals s)) None
       (cell_ndof (ndof_num version (idata h 1)) cells), nodes).

  (** The number of items that the reader takes from the header is that of the payload. *)
  Definition items (s : section) (n : Z) : Prop :=
    let i := idata (fst s) 0 in
    1 <= n /\
    if i =? no then n = no else if i =? fa then n = fa else i = cv /\ n = ndof_num version (idata (fst s) 1) * cv.
  Definition fit_scalar (s : section) : Prop :=
    sec_wf s /\ exists n, items s n /\ snd s = [(code_of (h_id (fst s)), n, sec_vals s)].
  Definition fit_vector (s : section) : Prop :=
    sec_wf s /\ exists n, items s n /\ snd s = [(Cd, n * 3, sec_vals s)].
  Definition fit_tensor (s : section) : Prop :=
    sec_wf s /\ exists n, 1 <= n /\ idata (fst s) 0 = cv /\ n = ndof_num version (idata (fst s) 1) * cv /\
      snd s = [(Cd, n * 9, sec_vals s)].

  Lemma scalar_exact f o s : 0 <= version -> fit_scalar s ->
    exact_on o (scalar_step version no fa cv f o) (fun v s => Ok (place_scalar v s)) f s.
  Proof.
    intros V (WF & n & (N1 & IT) & E) sf pre post (cells, nodes) W ->.
    destruct (read_load1 o s sf pre post _ _ _ WF W E ltac:(lia)) as (R & L).
    assert (HE : s_hdr sf = cut_header (fst s)) by apply W. rewrite HE.
    unfold scalar_step, place_scalar. cbn [bind].
    change (idata (cut_header (fst s)) 0) with (idata (fst s) 0). change (idata (cut_header (fst s)) 1) with (idata (fst s) 1).
    change (h_id (cut_header (fst s))) with (h_id (fst s)).
    destruct (idata (fst s) 0 =? no); [| destruct (idata (fst s) 0 =? fa)].
    - rewrite IT in R. rewrite R. cbn [bind or_err]. rewrite stats_ok by lia. reflexivity.
    - rewrite IT in R. rewrite R. cbn [bind or_err]. rewrite stats_ok by lia. reflexivity.
    - destruct IT as (I1 & I2). rewrite I1, Z.eqb_refl. rewrite ndof_of_eq by exact V. cbn [bind].
      rewrite set_cell_ndof_eq. cbn [bind]. rewrite I2 in R. rewrite R. cbn [bind or_err]. rewrite stats_ok by lia. reflexivity.
  Qed.
  Lemma vector_exact f o s : 0 <= version -> fit_vector s ->
    exact_on o (vector_step version no fa cv f o) (fun v s => Ok (place_vector v s)) f s.
  Proof.
    intros V (WF & n & (N1 & IT) & E) sf pre post (cells, nodes) W ->.
    destruct (read_load1 o s sf pre post _ _ _ WF W E ltac:(lia)) as (R & L).
    assert (HE : s_hdr sf = cut_header (fst s)) by apply W. rewrite HE.
    unfold vector_step, place_vector. cbn [bind].
    change (idata (cut_header (fst s)) 0) with (idata (fst s) 0). change (idata (cut_header (fst s)) 1) with (idata (fst s) 1).
    destruct (idata (fst s) 0 =? no); [| destruct (idata (fst s) 0 =? fa)].
    - rewrite IT in R. rewrite R. cbn [bind or_err]. rewrite stats_ok by lia. reflexivity.
    - rewrite IT in R. rewrite R. cbn [bind or_err]. rewrite stats_ok by lia. reflexivity.
    - destruct IT as (I1 & I2). rewrite I1, Z.eqb_refl. rewrite ndof_of_eq by exact V. cbn [bind].
      rewrite set_cell_ndof_eq. cbn [bind]. rewrite I2 in R. rewrite R. cbn [bind or_err]. rewrite stats_ok by lia. reflexivity.
  Qed.
  Lemma tensor_exact f o s : 0 <= version -> fit_tensor s ->
    exact_on o (tensor_step version cv f o) (fun v s => Ok (place_tensor v s)) f s.
  Proof.
    intros V (WF & n & N1 & I1 & I2 & E) sf pre post (cells, nodes) W ->.
    destruct (read_load1 o s sf pre post _ _ _ WF W E ltac:(lia)) as (R & L).
    assert (HE : s_hdr sf = cut_header (fst s)) by apply W. rewrite HE.
    unfold tensor_step, place_tensor. cbn [bind].
    change (idata (cut_header (fst s)) 0) with (idata (fst s) 0). change (idata (cut_header (fst s)) 1) with (idata (fst s) 1).
    rewrite I1, Z.eqb_refl. rewrite ndof_of_eq by exact V. cbn [bind].
    rewrite set_cell_ndof_eq. cbn [bind]. rewrite <- I2. replace (n * 3 * 3) with (n * 9) by lia. rewrite R.
    cbn [bind or_err]. rewrite stats_ok by lia. reflexivity.
  Qed.
End Steps.

(** Single values. *)
Definition place_info (d : dict string sval) (s : section) : dict string sval :=
  let h := cut_header (fst s) in
  let v := if h_id h =? I0 then NInt (idata h 0) else NFlt (nth 0 (h_rdata h) 0) in
  dset String.eqb (lower (h_name h)) (SNum v) d.
Lemma info_exact f o s : snd s = [] -> exact_on o info_step (fun d s => Ok (place_info d s)) f s.
Proof.
  intros E sf pre post d W ->. assert (HE : s_hdr sf = cut_header (fst s)) by apply W. rewrite HE.
  unfold info_step, place_info. cbn [bind]. do 2 f_equal. rewrite zlen_app. f_equal.
  destruct W as (((LB & _) & _) & _ & _ & ps & MP & LD). rewrite E in MP. cbn in MP. inversion MP; subst ps.
  unfold fsec_all. rewrite LD. cbn [List.concat]. rewrite app_nil_r. symmetry. exact LB.
Qed.

(** ** The loops on a whole file *)
Section Loops.
  Context (i2d : Z -> Z) (f2i : Z -> res Z).

  Lemma loop_body {S} o ids step (pure : S -> section -> S) v w (c : converted i2d f2i w) m fs xs fx e rest f st :
    zlen m = 8 -> Forall2 (wrote o) (body_secs i2d f2i v c) fs -> Forall2 (wrote o) xs fx ->
    Forall (fun s => ~ deof (h_name (fst s)) /\ h_id (fst s) <> EOF) xs ->
    fsec_ok o e -> stops e -> f = m ++ secs_bytes fs ++ secs_bytes fx ++ fsec_all e ++ rest ->
    Forall (fun k => ~ deof k) (user_names w) -> ~ In EOF ids ->
    Forall (fun s => In (h_id (fst s)) ids -> exact_on o step (fun st s => Ok (pure st s)) f s) (body_secs i2d f2i v c) ->
    Forall (fun s => In (h_id (fst s)) ids -> exact_on o step (fun st s => Ok (pure st s)) f s) xs ->
    scan_file f o ids step st = Ok (fold_left pure (filter (fun s : section => zmem (h_id (fst s)) ids) xs)
      (fold_left pure (filter (fun s : section => zmem (h_id (fst s)) ids) (body_secs i2d f2i v c)) st)).
  Proof.
    intros M F FX DX OE SE E D NE X XX.
    unfold scan_file. rewrite <- M.
    rewrite (scan_secs o ids step (fun st s => Ok (pure st s)) f e rest OE SE NE _ _ (Forall2_app F FX) m).
    - rewrite filter_app, foldM_total, fold_left_app. reflexivity.
    - rewrite secs_app, <- app_assoc. exact E.
    - apply Forall_app. split; [apply body_plain; exact D | exact DX].
    - apply Forall_app. split; assumption.
    - rewrite (Forall2_length' _ _ _ (Forall2_app F FX)). unfold fuel_of. assert (Q := secs_len o _ (wrote_ok _ _ _ (Forall2_app F FX))).
      rewrite secs_app, app_length in Q. rewrite E, !app_length in *. lia.
  Qed.

  (** Which sections the loops see. *)
  Lemma filter_ids (ids : list Z) l : Forall (sec_is (fun _ id => ~ In id ids)) l -> filter (fun s : section => zmem (h_id (fst s)) ids) l = [].
  Proof.
    intros H. apply filter_none. eapply Forall_impl; [| exact H]. intros s N. unfold sec_is in N.
    destruct (zmem (h_id (fst s)) ids) eqn:E; [| reflexivity]. apply zmem_in in E. tauto.
  Qed.
  Lemma filter_ids_all (ids : list Z) l : Forall (sec_is (fun _ id => In id ids)) l -> filter (fun s : section => zmem (h_id (fst s)) ids) l = l.
  Proof.
    intros H. apply filter_all. eapply Forall_impl; [| exact H]. intros s N. apply zmem_in. exact N.
  Qed.

  Lemma info_ids v w (c : converted i2d f2i w) :
    filter (fun s : section => zmem (h_id (fst s)) [I0; D0]) (body_secs i2d f2i v c) = tl (info_secs c).
  Proof.
    unfold body_secs. cbn [filter]. change (zmem (h_id (fst (counts_sec w))) [I0; D0]) with false. cbv iota.
    assert (N : forall i, i <> I0 -> i <> D0 -> ~ In i [I0; D0]) by (intros i X Y [Q | [Q | []]]; congruence).
    rewrite !filter_app.
    rewrite (filter_ids [I0; D0] (check_secs v w)) by (destruct v; cbn [check_secs]; repeat (constructor; [apply N; discriminate |]); constructor).
    rewrite (filter_ids [I0; D0] (c_zones c)) by (apply zones_is; intros; apply N; discriminate).
    rewrite (filter_ids [I0; D0] (var_secs i2d v w)).
    2: { unfold var_secs, node_secs, nodevec_secs, cell_secs, cellvec_secs, celltens_secs.
         repeat (apply Forall_app; split); apply data_secs_is; intros; try apply scalar_sec_is; apply N; discriminate. }
    cbn [filter app]. unfold info_secs. cbn [app tl]. rewrite app_nil_r. cbn [filter].
    repeat match goal with |- context [zmem (h_id (fst ?s)) [I0; D0]] =>
      let b := eval vm_compute in (zmem (h_id (fst s)) [I0; D0]) in change (zmem (h_id (fst s)) [I0; D0]) with b; cbv iota end.
    rewrite filter_ids_all; [reflexivity |].
    apply Forall_forall. intros s J. apply in_map_iff in J. destruct J as (kx & <- & _). right. left. reflexivity.
  Qed.

  (** The sections of variables selected by their ids. *)
  Lemma var_ids v w (c : converted i2d f2i w) ids : (forall i, In i ids -> In i (scalar_ids ++ vector_ids ++ [CV_D33])) ->
    filter (fun s : section => zmem (h_id (fst s)) ids) (body_secs i2d f2i v c) = filter (fun s : section => zmem (h_id (fst s)) ids) (var_secs i2d v w).
  Proof.
    intros H. assert (N : forall i, ~ In i (scalar_ids ++ vector_ids ++ [CV_D33]) -> ~ In i ids) by (intros i A B; exact (A (H i B))).
    assert (C : forall i, zmem i (scalar_ids ++ vector_ids ++ [CV_D33]) = false -> ~ In i ids).
    { intros i A. apply N. intros B. apply zmem_in in B. congruence. }
    change (body_secs i2d f2i v c) with ([counts_sec w] ++ (check_secs v w ++ [noofa_sec w; cvofa_sec w (c_f2e c)] ++ c_zones c
      ++ [int_sec w; part_sec w (c_npart c) (c_icv c); xno_sec w] ++ info_secs c ++ var_secs i2d v w)).
    rewrite !filter_app.
    rewrite (filter_ids ids [counts_sec w]) by (repeat (constructor; [apply C; reflexivity |]); constructor).
    rewrite (filter_ids ids (check_secs v w)) by (destruct v; cbn [check_secs]; repeat (constructor; [apply C; reflexivity |]); constructor).
    rewrite (filter_ids ids [noofa_sec w; cvofa_sec w (c_f2e c)]) by (repeat (constructor; [apply C; reflexivity |]); constructor).
    rewrite (filter_ids ids (c_zones c)) by (apply zones_is; intros; apply C; reflexivity).
    rewrite (filter_ids ids [int_sec w; part_sec w (c_npart c) (c_icv c); xno_sec w]) by (repeat (constructor; [apply C; reflexivity |]); constructor).
    rewrite (filter_ids ids (info_secs c)).
    2: { unfold info_secs. apply Forall_app. split; [repeat (constructor; [apply C; reflexivity |]); constructor |].
         apply wgts_is. intros; apply C; reflexivity. }
    reflexivity.
  Qed.
  Lemma filter_data ids (g : string -> array -> section) sel d :
    (forall name a, sec_is (fun _ id => In id ids) (g name a)) \/ (forall name a, sec_is (fun _ id => ~ In id ids) (g name a)) ->
    filter (fun s : section => zmem (h_id (fst s)) ids) (List.map (fun '(name, a) => g name a) (filter sel d)) =
    if zmem (h_id (fst (g ""%string (Arr [] false [])))) ids then List.map (fun '(name, a) => g name a) (filter sel d) else [].
  Proof.
    intros [H | H].
    - assert (Q := H ""%string (Arr [] false [])). apply zmem_in in Q. rewrite Q. apply filter_ids_all. apply data_secs_is. intros; apply H.
    - assert (Q := H ""%string (Arr [] false [])). destruct (zmem _ ids) eqn:E; [apply zmem_in in E; exfalso; exact (Q E) |].
      apply filter_ids. apply data_secs_is. intros; apply H.
  Qed.
  Lemma var_scalar_ids v w : filter (fun s : section => zmem (h_id (fst s)) scalar_ids) (var_secs i2d v w) = node_secs i2d v w ++ cell_secs i2d v w.
  Proof.
    assert (C : forall i, zmem i scalar_ids = false -> ~ In i scalar_ids) by (intros i A B; apply zmem_in in B; congruence).
    unfold var_secs, node_secs, nodevec_secs, cell_secs, cellvec_secs, celltens_secs. rewrite !filter_app.
    rewrite (filter_ids_all scalar_ids) by (apply data_secs_is; intros; apply scalar_sec_is; apply zmem_in; reflexivity). f_equal.
    rewrite (filter_ids scalar_ids) by (apply data_secs_is; intros; apply C; reflexivity). cbn [app].
    rewrite (filter_ids_all scalar_ids) by (apply data_secs_is; intros; apply scalar_sec_is; apply zmem_in; reflexivity).
    rewrite (filter_ids scalar_ids) by (apply data_secs_is; intros; apply C; reflexivity).
    rewrite (filter_ids scalar_ids) by (apply data_secs_is; intros; apply C; reflexivity).
    cbn [app]. rewrite app_nil_r. reflexivity.
  Qed.
  Lemma var_vector_ids v w : filter (fun s : section => zmem (h_id (fst s)) vector_ids) (var_secs i2d v w) = nodevec_secs i2d w ++ cellvec_secs i2d v w.
  Proof.
    assert (C : forall i, zmem i vector_ids = false -> ~ In i vector_ids) by (intros i A B; apply zmem_in in B; congruence).
    unfold var_secs, node_secs, nodevec_secs, cell_secs, cellvec_secs, celltens_secs. rewrite !filter_app.
    rewrite (filter_ids vector_ids) by (apply data_secs_is; intros; apply scalar_sec_is; apply C; reflexivity).
    rewrite (filter_ids_all vector_ids) by (apply data_secs_is; intros; apply zmem_in; reflexivity). cbn [app]. f_equal.
    rewrite (filter_ids vector_ids) by (apply data_secs_is; intros; apply scalar_sec_is; apply C; reflexivity).
    rewrite (filter_ids_all vector_ids) by (apply data_secs_is; intros; apply zmem_in; reflexivity).
    rewrite (filter_ids vector_ids) by (apply data_secs_is; intros; apply C; reflexivity).
    cbn [app]. rewrite app_nil_r. reflexivity.
  Qed.
  Lemma var_tensor_ids v w : filter (fun s : section => zmem (h_id (fst s)) [CV_D33]) (var_secs i2d v w) = celltens_secs i2d v w.
  Proof.
    assert (C : forall i, zmem i [CV_D33] = false -> ~ In i [CV_D33]) by (intros i A B; apply zmem_in in B; congruence).
    unfold var_secs, node_secs, nodevec_secs, cell_secs, cellvec_secs, celltens_secs. rewrite !filter_app.
    rewrite (filter_ids [CV_D33]) by (apply data_secs_is; intros; apply scalar_sec_is; apply C; reflexivity).
    rewrite (filter_ids [CV_D33]) by (apply data_secs_is; intros; apply C; reflexivity). cbn [app].
    rewrite (filter_ids [CV_D33]) by (apply data_secs_is; intros; apply scalar_sec_is; apply C; reflexivity).
    rewrite (filter_ids [CV_D33]) by (apply data_secs_is; intros; apply C; reflexivity).
    rewrite (filter_ids_all [CV_D33]) by (apply data_secs_is; intros; apply zmem_in; reflexivity).
    reflexivity.
  Qed.
End Loops.
