(** * The list of sections of a written file, spelled out. *)
From Coq Require Import ZArith List Bool String Lia.
From Verif Require Import Py PyFacts Ic3Bytes Ic3BytesProofs Ic3 Ic3HeaderSpec Ic3HeaderProofs Ic3FuelProofs Ic3FileSpec Ic3FileProofs Ic3WriteProofs.

Lemma map_ok_app {A} (l1 l2 : list (res A)) ss : l1 ++ l2 = List.map Ok ss ->
  exists s1 s2, ss = s1 ++ s2 /\ l1 = List.map Ok s1 /\ l2 = List.map Ok s2.
Proof.
  intros H. symmetry in H. apply map_eq_app in H. destruct H as (s1 & s2 & -> & A1 & A2). exists s1, s2. auto.
Qed.
Lemma map_ok_cons {A} (x : res A) l ss : x :: l = List.map Ok ss -> exists s ss', ss = s :: ss' /\ x = Ok s /\ l = List.map Ok ss'.
Proof. destruct ss as [| s ss]; intros H; [discriminate |]. inversion H. eauto. Qed.
Lemma map_ok_nil {A} (ss : list A) : [] = List.map Ok ss -> ss = [].
Proof. destruct ss; [reflexivity | discriminate]. Qed.

Section Parts.
  Context (i2d : Z -> Z) (f2i : Z -> res Z).

  Definition w_ndof (w : wstate) : Z := match w_cells w with FSet d => ds_ndof d | FDict _ => 1 end.
  Definition w_tot (v : version) (w : wstate) : Z := match v with V2 => w_cv w | V3 => w_ndof w * w_cv w end.
  Definition counts_sec (w : wstate) : section :=
    sec0 "NO_FA_CV_NOOFA_COUNTS" COUNTS [w_no w; w_fa w; w_cv w; zlen (w_noofa w)] [].
  Definition check_sec (name : string) (id n : Z) : section := sec1 name id [n] Ci n (zrange 0 n).
  Definition check_secs (v : version) (w : wstate) : list section :=
    match v with
    | V2 => [check_sec "NO_CHECK" NO_CHECK (w_no w); check_sec "FA_CHECK" FA_CHECK (w_fa w); check_sec "CV_CHECK" CV_CHECK (w_cv w)]
    | V3 => []
    end.
  Definition noofa_sec (w : wstate) : section :=
    (hdr8 "NOOFA_I_AND_V" NOOFA (256 + 4 * w_fa w + 4 * zlen (w_noofa w)) [w_fa w; zlen (w_noofa w)] [],
     [(Ci, w_fa w, w_nno w); (Ci, zlen (w_noofa w), w_noofa w)]).
  Definition cvofa_sec (w : wstate) (m : mat) : section := sec1 "CVOFA" CVOFA [w_fa w; 2] Ci (w_fa w * 2) (List.concat (m_rows m)).
  Definition int_sec (w : wstate) : section := sec0 "internal-domain" FA_ZONE [6; last_boco (w_bocos w) + 1; w_fa w - 1] [].
  Definition part_sec (w : wstate) (npart : Z) (icv : list Z) : section := sec1 "CV_PART" CV_PART [w_cv w; npart] Ci (w_cv w) icv.
  Definition xno_sec (w : wstate) : section := sec1 "X_NO" X_NO [w_no w; 3] Cd (w_no w * 3) (List.concat (w_coords w)).
  Definition wgt_sec (kx : string * Z) : section := sec0 (upper (fst kx) ++ "_WGT")%string D0 [] [snd kx].
  Definition node_secs (v : version) (w : wstate) : list section :=
    List.map (fun '(name, a) => scalar_sec i2d NO_D1 NO_II1 v [w_no w] (w_no w) name a)
             (filter (fun '(_, a) => is_scalar a) (fd_items (w_nodes w))).
  Definition nodevec_secs (w : wstate) : list section :=
    List.map (fun '(name, a) => block_sec i2d NO_D3 [w_no w; 3] (w_no w * 3) name a)
             (filter (fun '(_, a) => is_dim 2 a) (fd_items (w_nodes w))).
  Definition second (v : version) (w : wstate) : list Z := match v with V2 => [] | V3 => [w_ndof w] end.
  Definition second3 (v : version) (w : wstate) : Z := match v with V2 => 3 | V3 => w_ndof w end.
  Definition cell_secs (v : version) (w : wstate) : list section :=
    List.map (fun '(name, a) => scalar_sec i2d CV_D1 CV_II1 v (w_cv w :: second v w) (w_tot v w) name a)
             (filter (fun '(_, a) => is_scalar a) (fd_items (w_cells w))).
  Definition cellvec_secs (v : version) (w : wstate) : list section :=
    List.map (fun '(name, a) => block_sec i2d CV_D3 [w_cv w; second3 v w] (w_tot v w * 3) name a)
             (filter (fun '(_, a) => is_dim 2 a) (fd_items (w_cells w))).
  Definition celltens_secs (v : version) (w : wstate) : list section :=
    List.map (fun '(name, a) => block_sec i2d CV_D33 [w_cv w; second3 v w; 3] (w_tot v w * 9) name a)
             (filter (fun '(_, a) => is_dim 3 a) (fd_items (w_cells w))).
  Definition eof_sec : section := sec0 "EOF" EOF [] [].

  Definition var_secs (v : version) (w : wstate) : list section :=
    node_secs v w ++ nodevec_secs w ++ cell_secs v w ++ cellvec_secs v w ++ celltens_secs v w.

  Lemma var_parts v w ss : w_typed i2d w -> var_sections i2d v w = List.map Ok ss -> ss = var_secs v w.
  Proof.
    intros T H. unfold var_sections in H.
    assert (NO : 0 <= w_no w) by apply T. assert (CV : 0 <= w_cv w) by apply T.
    assert (ND : match w_cells w with FSet d => 0 <= ds_ndof d | FDict _ => True end) by apply T.
    apply map_ok_app in H. destruct H as (s1 & s2 & -> & H1 & H). apply map_ok_app in H. destruct H as (s3 & s4 & -> & H2 & H).
    unfold var_secs. f_equal; [| f_equal].
    - apply (scalars_ok _ (scalar_sec i2d NO_D1 NO_II1 v [w_no w] (w_no w))) in H1; [exact H1 |]. intros; apply node_scalar_ok; assumption.
    - apply (of_dim_ok _ _ (block_sec i2d NO_D3 [w_no w; 3] (w_no w * 3))) in H2; [exact H2 |]. intros; apply node_vector_ok; assumption.
    - assert (K : cell_sections i2d v (w_cv w) (w_ndof w) (fd_items (w_cells w)) = List.map Ok s4).
      { unfold w_ndof. destruct (w_cells w) as [d | d], v; cbn [fd_items]; [destruct d; exact H | | exact H | exact H].
        destruct d; [exact H |]. apply map_ok_cons in H. destruct H as (? & ? & _ & ? & _). discriminate. }
      assert (TO : 0 <= w_tot v w).
      { unfold w_tot, w_ndof. destruct v; [exact CV |]. destruct (w_cells w); [lia |]. apply Z.mul_nonneg_nonneg; assumption. }
      clear H. unfold cell_secs, cellvec_secs, celltens_secs, second, second3. destruct v; cbn [cell_sections w_tot] in K, TO |- *;
        apply map_ok_app in K; destruct K as (c1 & c2 & -> & K1 & K); apply map_ok_app in K; destruct K as (c3 & c4 & -> & K2 & K3);
        (f_equal; [| f_equal]).
      + apply (scalars_ok _ (scalar_sec i2d CV_D1 CV_II1 V2 [w_cv w] (w_cv w))) in K1; [exact K1 |]. intros; apply cell_scalar_ok; assumption.
      + apply (of_dim_ok _ _ (block_sec i2d CV_D3 [w_cv w; 3] (w_cv w * 3))) in K2; [exact K2 |]. intros; apply cell_vector_ok; assumption.
      + apply (of_dim_ok _ _ (block_sec i2d CV_D33 [w_cv w; 3; 3] (w_cv w * 9))) in K3; [exact K3 |]. intros; apply cell_tensor_ok; assumption.
      + apply (scalars_ok _ (scalar_sec i2d CV_D1 CV_II1 V3 [w_cv w; w_ndof w] (w_ndof w * w_cv w))) in K1; [exact K1 |].
        intros; apply cell_scalar_ok; assumption.
      + apply (of_dim_ok _ _ (block_sec i2d CV_D3 [w_cv w; w_ndof w] (w_ndof w * w_cv w * 3))) in K2; [exact K2 |]. intros; apply cell_vector_ok; assumption.
      + apply (of_dim_ok _ _ (block_sec i2d CV_D33 [w_cv w; w_ndof w; 3] (w_ndof w * w_cv w * 9))) in K3; [exact K3 |]. intros; apply cell_tensor_ok; assumption.
  Qed.

  (** The values that the writer converts. *)
  Record converted (w : wstate) : Type := Conv {
    c_f2e : mat; c_npart : Z; c_icv : list Z; c_zones : list section;
    c_step : Z; c_dt : Z; c_time : Z; c_wgt : list (string * Z);
    c_f2e_ok : w_f2e w = Some c_f2e;
    c_part_ok : w_part w = Some (c_npart, Some c_icv);
    c_zones_ok : Forall2 (fun kb s => zone_section kb = Ok s) (w_bocos w) c_zones;
    c_step_ok : to_int f2i (w_step w) = Ok c_step; c_step64 : int64 c_step;
    c_dt_ok : to_double i2d (w_dt w) = Ok c_dt; c_time_ok : to_double i2d (w_time w) = Ok c_time;
    c_wgt_ok : exists d, w_wgt w = SWgt d /\ Forall2 (fun '(k, x) '(k', y) => k' = k /\ to_double i2d (SNum x) = Ok y) d c_wgt }.
  Arguments c_f2e {w}. Arguments c_npart {w}. Arguments c_icv {w}. Arguments c_zones {w}.
  Arguments c_step {w}. Arguments c_dt {w}. Arguments c_time {w}. Arguments c_wgt {w}.

  Definition info_secs {w} (c : converted w) : list section :=
    [sec0 "DATA" DATA [] []; sec0 "STEP" I0 [c_step c] []; sec0 "DT" D0 [] [c_dt c]; sec0 "TIME" D0 [] [c_time c]]
    ++ List.map wgt_sec (c_wgt c).
  Definition all_secs (v : version) {w} (c : converted w) : list section :=
    counts_sec w :: check_secs v w ++ [noofa_sec w; cvofa_sec w (c_f2e c)] ++ c_zones c
    ++ [int_sec w; part_sec w (c_npart c) (c_icv c); xno_sec w] ++ info_secs c ++ var_secs v w ++ [eof_sec].

  Lemma sections_parts v w ss : w_typed i2d w -> sections i2d f2i v w = List.map Ok ss ->
    exists c : converted w, ss = all_secs v c.
  Proof.
    intros T H. unfold sections in H.
    assert (NO : 0 <= w_no w) by apply T. assert (FA : 0 <= w_fa w) by apply T.
    apply map_ok_app in H. destruct H as (s1 & s2 & -> & H1 & H). apply map_ok_app in H. destruct H as (s3 & s4 & -> & H2 & H).
    apply map_ok_app in H. destruct H as (s5 & s6 & -> & H3 & H4).
    apply (var_parts v w s5 T) in H3. subst s5.
    apply map_ok_cons in H4. destruct H4 as (se & s7 & -> & H4 & H5). apply map_ok_nil in H5. subst s7.
    apply plain_ok in H4. destruct H4 as (-> & _). fold eof_sec.
    unfold conn_sections in H1.
    apply map_ok_app in H1. destruct H1 as (k1 & k2 & -> & A1 & H1).
    apply map_ok_cons in A1. destruct A1 as (sc & k1' & -> & A1 & B1). apply map_ok_nil in B1. subst k1'.
    apply plain_ok in A1. destruct A1 as (-> & _).
    apply map_ok_app in H1. destruct H1 as (k3 & k4 & -> & A2 & H1).
    assert (C : k3 = check_secs v w).
    { assert (Q : forall name id n s, check_section name id n = Ok s -> s = check_sec name id n).
      { intros name id n s Q. unfold check_section in Q. apply bind_ok in Q; destruct Q as (h & HH & Q).
        apply mk_hdr_ok in HH. destruct HH as (-> & _). apply ok_inj in Q. subst s. reflexivity. }
      destruct v; cbn [check_sections check_secs] in *; [| apply map_ok_nil in A2; exact A2].
      apply map_ok_cons in A2. destruct A2 as (x1 & r1 & -> & E1 & A2). apply map_ok_cons in A2. destruct A2 as (x2 & r2 & -> & E2 & A2).
      apply map_ok_cons in A2. destruct A2 as (x3 & r3 & -> & E3 & A2). apply map_ok_nil in A2. subst r3.
      apply Q in E1. apply Q in E2. apply Q in E3. congruence. }
    subst k3. apply map_ok_app in H1. destruct H1 as (k5 & k6 & -> & A3 & H1).
    apply map_ok_cons in A3. destruct A3 as (x1 & r1 & -> & E1 & A3). apply map_ok_cons in A3. destruct A3 as (x2 & r2 & -> & E2 & A3).
    apply map_ok_nil in A3. subst r2.
    apply bind_ok in E1; destruct E1 as (h1 & HH & E1). apply mk_hdr_ok in HH. destruct HH as (-> & _). apply ok_inj in E1. subst x1.
    apply bind_ok in E2; destruct E2 as (h2 & HH & E2). apply mk_hdr_ok in HH. destruct HH as (-> & _).
    apply bind_ok in E2; destruct E2 as (m & F2E & E2). apply ok_inj in E2. subst x2.
    destruct (w_f2e w) as [m' |] eqn:WF; [| discriminate]. inversion F2E; subst m'; clear F2E.
    apply map_ok_app in H1. destruct H1 as (zs & k7 & -> & A4 & H1).
    assert (Z4 : Forall2 (fun kb s => zone_section kb = Ok s) (w_bocos w) zs).
    { clear -A4. revert zs A4. induction (w_bocos w) as [| kb l IH]; intros zs H; cbn in H.
      - apply map_ok_nil in H. subst. constructor.
      - apply map_ok_cons in H. destruct H as (s & zs' & -> & E & H). constructor; [exact E | apply IH; exact H]. }
    apply map_ok_cons in H1. destruct H1 as (y1 & r1 & -> & E1 & H1). apply map_ok_cons in H1. destruct H1 as (y2 & r2 & -> & E2 & H1).
    apply map_ok_cons in H1. destruct H1 as (y3 & r3 & -> & E3 & H1). apply map_ok_nil in H1. subst r3.
    apply plain_ok in E1. destruct E1 as (-> & _).
    apply bind_ok in E2; destruct E2 as ((npart, icv) & WP & E2). apply bind_ok in E2; destruct E2 as (h3 & HH & E2).
    apply mk_hdr_ok in HH. destruct HH as (-> & _). apply bind_ok in E2; destruct E2 as (icv' & IC & E2). apply ok_inj in E2. subst y2.
    destruct icv as [icv |]; [| discriminate]. inversion IC; subst icv'; clear IC.
    destruct (w_part w) as [pp |] eqn:WPP; [| discriminate]. inversion WP; subst pp; clear WP.
    apply bind_ok in E3; destruct E3 as (h4 & HH & E3). apply mk_hdr_ok in HH. destruct HH as (-> & _). apply ok_inj in E3. subst y3.
    unfold info_sections in H2. apply map_ok_app in H2. destruct H2 as (i1 & i2 & -> & B1 & B2).
    apply map_ok_cons in B1. destruct B1 as (d1 & r1 & -> & D1 & B1). apply map_ok_cons in B1. destruct B1 as (d2 & r2 & -> & D2 & B1).
    apply map_ok_cons in B1. destruct B1 as (d3 & r3 & -> & D3 & B1). apply map_ok_cons in B1. destruct B1 as (d4 & r4 & -> & D4 & B1).
    apply map_ok_nil in B1. subst r4. apply plain_ok in D1. destruct D1 as (-> & _).
    apply bind_ok in D2; destruct D2 as (st & ST & D2). apply plain_ok in D2. destruct D2 as (-> & ST64 & _).
    apply bind_ok in D3; destruct D3 as (dt & DT & D3). apply plain_ok in D3. destruct D3 as (-> & _).
    apply bind_ok in D4; destruct D4 as (ti & TI & D4). apply plain_ok in D4. destruct D4 as (-> & _).
    inversion ST64; subst.
    assert (W : exists ws, (exists d, w_wgt w = SWgt d /\ Forall2 (fun '(k, x) '(k', y) => k' = k /\ to_double i2d (SNum x) = Ok y) d ws) /\
                          i2 = List.map wgt_sec ws).
    { destruct (w_wgt w) as [n | d]; [apply map_ok_cons in B2; destruct B2 as (? & ? & _ & ? & _); discriminate |].
      clear -B2. assert (G : exists ws, Forall2 (fun '(k, x) '(k', y) => k' = k /\ to_double i2d (SNum x) = Ok y) d ws /\ i2 = List.map wgt_sec ws).
      { revert i2 B2. induction d as [| (k, x) d IH]; intros i2 B2; cbn [List.map] in B2.
        - apply map_ok_nil in B2. subst. exists []. split; constructor.
        - apply map_ok_cons in B2. destruct B2 as (s & i3 & -> & E & B2).
          apply bind_ok in E; destruct E as (y & Y & E). apply plain_ok in E. destruct E as (-> & _).
          destruct (IH _ B2) as (ws & F & ->). exists ((k, y) :: ws). split; [constructor; auto | reflexivity]. }
      destruct G as (ws & F & E). exists ws. split; [exists d; split; [reflexivity | exact F] | exact E]. }
    destruct W as (ws & WO & ->).
    exists (Conv w m npart icv zs st dt ti ws WF WPP Z4 ST H1 DT TI WO).
    unfold all_secs, info_secs. cbn [c_f2e c_npart c_icv c_zones c_step c_dt c_time c_wgt].
    unfold cvofa_sec, xno_sec, sec1. cbn [code_size].
    rewrite (Z.max_r 0 (w_fa w)) by exact FA. rewrite (Z.max_r 0 (w_no w)) by exact NO.
    rewrite <- !app_assoc.
    replace (256 + 4 * w_fa w * 2) with (256 + Z.of_nat 4 * (w_fa w * 2)) by lia.
    replace (256 + 8 * w_no w * 3) with (256 + Z.of_nat 8 * (w_no w * 3)) by lia.
    reflexivity.
  Qed.
End Parts.
Arguments c_f2e {i2d f2i w}. Arguments c_npart {i2d f2i w}. Arguments c_icv {i2d f2i w}. Arguments c_zones {i2d f2i w}.
Arguments c_step {i2d f2i w}. Arguments c_dt {i2d f2i w}. Arguments c_time {i2d f2i w}. Arguments c_wgt {i2d f2i w}.
Arguments info_secs {i2d f2i w}. Arguments all_secs {i2d f2i} v {w}.
