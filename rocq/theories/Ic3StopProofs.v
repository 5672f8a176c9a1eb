(** * A section whose name starts with DEOF ends the reading of a file. *)
From Coq Require Import ZArith List Bool String Lia Permutation.
From Verif Require Import Py PyFacts Conn ConnSpec CsrProofs Mesh MeshProofs Ic3Bytes Ic3BytesProofs Ic3 Ic3HeaderSpec Ic3HeaderProofs Ic3FuelProofs Ic3FileSpec Ic3FileProofs Ic3WriteProofs Ic3PartsProofs Ic3CutProofs Ic3BodyProofs Ic3ReadProofs Ic3VarProofs Ic3RoundProofs Ic3RoundSpec Ic3MeshProofs Ic3FileThm.

Section Stop.
  Context (i2d : Z -> Z) (f2i : Z -> res Z).

  (** The writer state with other data. *)
  Definition w_with (w : wstate) (nodes cells : fdata) : wstate :=
    WS (w_no w) (w_fa w) (w_cv w) (w_nno w) (w_noofa w) (w_f2e w) (w_bocos w) (w_part w) (w_coords w)
      (w_step w) (w_dt w) (w_time w) (w_wgt w) nodes cells.
  Definition c_with {w} (c : converted i2d f2i w) (nodes cells : fdata) : converted i2d f2i (w_with w nodes cells) :=
    Conv i2d f2i (w_with w nodes cells) (c_f2e c) (c_npart c) (c_icv c) (c_zones c) (c_step c) (c_dt c) (c_time c) (c_wgt c)
      (c_f2e_ok _ _ _ c) (c_part_ok _ _ _ c) (c_zones_ok _ _ _ c) (c_step_ok _ _ _ c) (c_step64 _ _ _ c) (c_dt_ok _ _ _ c) (c_time_ok _ _ _ c) (c_wgt_ok _ _ _ c).

  Lemma read_stopped v o w ls f nodes cells s ss2 : w_typed i2d w -> write_data i2d f2i v o w = Ok f ->
    readable v (w_with w nodes cells) ls -> var_secs i2d v w = var_secs i2d v (w_with w nodes cells) ++ s :: ss2 -> deof (h_name (fst s)) ->
    exists c : converted i2d f2i (w_with w nodes cells), Forall sized (body_secs i2d f2i v c) /\
      forall integrity, read_data integrity f = Ok (expected i2d f2i o v ls c).
  Proof.
    intros T H R EV D. destruct (write_data_chain i2d f2i v o w f T H) as (m & ss & fs0 & M & RH & E & F & EF).
    assert (WF : Forall sec_wf ss).
    { apply Forall_forall. intros x I. apply (sections_wf i2d f2i v w x T). rewrite E. apply in_map. exact I. }
    apply (sections_parts i2d f2i v w ss T) in E. destruct E as (c & ->).
    assert (EB : all_secs v c = body_secs i2d f2i v (c_with c nodes cells) ++ s :: (ss2 ++ [eof_sec])).
    { unfold all_secs, body_secs. rewrite EV. cbn [app]. f_equal. rewrite <- !app_assoc. cbn [app]. rewrite <- !app_assoc. cbn [app]. rewrite <- !app_assoc. reflexivity. }
    rewrite EB in F, WF. apply Forall_app in WF. destruct WF as (WF & _).
    apply Forall2_app_inv_l in F. destruct F as (fs1 & fs2 & F1 & F2 & ->).
    inversion F2 as [| ? e ? fs3 W N]; subst fs2.
    exists (c_with c nodes cells). split; [eapply wrote_sized_all; exact F1 |]. intros integrity.
    assert (ST : stops e) by (left; apply (wrote_deof _ _ _ W); exact D).
    apply (read_file i2d f2i v o (w_with w nodes cells) ls f (c_with c nodes cells) m fs1 [] [] e (secs_bytes fs3) (fsec_all e ++ secs_bytes fs3) R M RH F1 (Forall2_nil _) (Forall_nil _) (or_introl eq_refl) (proj1 W) ST eq_refl); [| exact WF | apply R].
    rewrite EF, secs_app, secs_cons. reflexivity.
  Qed.

  Lemma writer_state_with fm w nodes cells : writer_state fm = Ok w -> writer_state (data_only fm nodes cells) = Ok (w_with w nodes cells).
  Proof.
    unfold writer_state, data_only. cbn [fm_mesh fm_params fm_part fm_nodes fm_cells]. intros H.
    apply bind_ok in H; destruct H as (((x, y), z) & -> & H). cbn [bind]. apply bind_ok in H; destruct H as (rows & -> & H). cbn [bind].
    apply bind_ok in H; destruct H as (u & -> & H). cbn [bind]. apply bind_ok in H; destruct H as ((zf, f2e) & -> & H). cbn [bind].
    apply ok_inj in H. subst w. reflexivity.
  Qed.

  Lemma stop_at v o fm ls rows w f nodes cells s ss2 : (forall n, pattern (i2d n)) -> fmesh_typed fm -> fmesh_typed (data_only fm nodes cells) ->
    file_mesh v (data_only fm nodes cells) ls rows -> located (data_only fm nodes cells) ls ->
    writer_state fm = Ok w -> write_data i2d f2i v o w = Ok f ->
    var_secs i2d v w = var_secs i2d v (w_with w nodes cells) ++ s :: ss2 -> deof (h_name (fst s)) ->
    exists fm2, (forall integrity, read_mesh integrity f = Ok fm2) /\ read_as i2d f2i v (data_only fm nodes cells) fm2 ls rows.
  Proof.
    intros P T T' M L W WD EV D. assert (W' := writer_state_with fm w nodes cells W).
    destruct (writer_state_typed i2d fm w P T W) as (TW & _). destruct (writer_state_typed i2d _ _ P T' W') as (TW' & UN).
    destruct (writer_state_ok _ _ W') as (_ & _ & _ & _ & _ & _ & _ & _ & _ & E1 & E2 & E3 & _ & _ & _ & _ & _ & _ & _ & _ & _ & _ & E14).
    destruct (read_stopped v o w ls f nodes cells s ss2 TW WD) as (c & SZ & RD); try assumption.
    - apply (mesh_readable i2d f2i v _ ls rows _ M W' UN). rewrite E14, E3, E1, E2, (fi_nface _ _ _ _ M). destruct L as [L | L]; auto.
    - exact (round_trip_of i2d f2i v o _ ls rows _ c f P T' M L W' SZ RD).
  Qed.

  (** The variable with the name: a node scalar or a cell scalar. *)
  Lemma one_dim_scalar a : array_typed a -> usual_shape a -> is_scalar a = one_dim a.
  Proof.
    intros T (n & N & E). destruct (array_sizes i2d f2i a T) as (S1 & S2 & S3). unfold is_scalar, one_dim.
    destruct E as [E | [E | E]]; rewrite E.
    - apply Z.eqb_eq. apply S1. exact E.
    - apply Z.eqb_neq. rewrite (S2 n E). lia.
    - apply Z.eqb_neq. rewrite (S3 n E). lia.
  Qed.
  Lemma one_dims d : data_typed d -> Forall (fun '(_, a) => usual_shape a) d ->
    filter (fun '(_, a) => is_scalar a) d = scalars_of d /\ filter (fun '(_, a) => is_scalar a) (scalars_of d) = scalars_of d /\
    filter (fun '(_, a) => is_dim 2 a) (scalars_of d) = [] /\ filter (fun '(_, a) => is_dim 3 a) (scalars_of d) = [].
  Proof.
    unfold scalars_of. induction d as [| (k, a) d IH]; intros T U; [repeat split |].
    inversion T as [| ? ? TA T']; subst. inversion U as [| ? ? UA U']; subst. destruct (IH T' U') as (I1 & I2 & I3 & I4).
    cbn [filter]. rewrite (one_dim_scalar a TA UA), I1. destruct (one_dim a) eqn:OD; [| auto].
    cbn [filter]. rewrite (one_dim_scalar a TA UA), OD, I2, I3, I4. split; [reflexivity |]. split; [reflexivity |].
    unfold is_dim. unfold one_dim in OD. destruct (a_shape a) as [| x [| y l]]; try discriminate. split; reflexivity.
  Qed.
  Lemma node_vars v w d1 k a d2 : fd_items (w_nodes w) = d1 ++ (k, a) :: d2 -> data_typed (fd_items (w_nodes w)) ->
    Forall (fun '(_, a) => usual_shape a) (fd_items (w_nodes w)) -> one_dim a = true ->
    exists s ss2, var_secs i2d v w = var_secs i2d v (w_with w (FDict (scalars_of d1)) (FDict [])) ++ s :: ss2 /\ h_name (fst s) = k.
  Proof.
    intros E T U S. unfold var_secs, node_secs, nodevec_secs, cell_secs, cellvec_secs, celltens_secs.
    cbn [w_with w_nodes w_cells w_no fd_items filter List.map]. rewrite E in *. unfold data_typed in T. rewrite Forall_app in T, U.
    destruct T as (T1 & T2), U as (U1 & U2). inversion T2 as [| ? ? TA _]; subst. inversion U2 as [| ? ? UA _]; subst.
    destruct (one_dims d1 T1 U1) as (O1 & O2 & O3 & _). rewrite O2, O3, !filter_app, O1. cbn [filter]. rewrite (one_dim_scalar a TA UA), S.
    rewrite !map_app. cbn [List.map app]. rewrite <- !app_assoc. cbn [app].
    eexists. eexists. split; [first [reflexivity | rewrite app_nil_r; reflexivity] |]. unfold scalar_sec. destruct (match v with V2 => false | V3 => a_int a end); reflexivity.
  Qed.
  Lemma fd_refill d l : fd_items (refill d l) = l.
  Proof. destruct d; reflexivity. Qed.
  Lemma cell_vars v w d1 k a d2 : fd_items (w_cells w) = d1 ++ (k, a) :: d2 -> data_typed (fd_items (w_cells w)) ->
    Forall (fun '(_, a) => usual_shape a) (fd_items (w_cells w)) -> one_dim a = true ->
    exists s ss2, var_secs i2d v w = var_secs i2d v (w_with w (w_nodes w) (refill (w_cells w) (scalars_of d1))) ++ s :: ss2 /\ h_name (fst s) = k.
  Proof.
    intros E T U S. unfold var_secs, node_secs, nodevec_secs, cell_secs, cellvec_secs, celltens_secs.
    cbn [w_with w_nodes w_cells w_no w_cv]. rewrite fd_refill, E in *. unfold data_typed in T. rewrite Forall_app in T, U.
    destruct T as (T1 & T2), U as (U1 & U2). inversion T2 as [| ? ? TA _]; subst. inversion U2 as [| ? ? UA _]; subst.
    destruct (one_dims d1 T1 U1) as (O1 & O2 & O3 & O4). rewrite O2, O3, O4, !filter_app, O1. cbn [filter]. rewrite (one_dim_scalar a TA UA), S.
    assert (ND : w_ndof (w_with w (w_nodes w) (refill (w_cells w) (scalars_of d1))) = w_ndof w). { unfold w_ndof. cbn [w_with w_cells]. destruct (w_cells w); reflexivity. }
    assert (TT : w_tot v (w_with w (w_nodes w) (refill (w_cells w) (scalars_of d1))) = w_tot v w). { unfold w_tot. rewrite ND. reflexivity. }
    assert (SE : second v (w_with w (w_nodes w) (refill (w_cells w) (scalars_of d1))) = second v w). { unfold second. rewrite ND. reflexivity. }
    rewrite TT, SE.
    rewrite !map_app. cbn [List.map app]. rewrite <- !app_assoc. cbn [app].
    eexists. eexists. split; [rewrite app_nil_r, <- !app_assoc; reflexivity |]. unfold scalar_sec. destruct (match v with V2 => false | V3 => a_int a end); reflexivity.
  Qed.

  (** A mark with such a name hides the partition. *)
  Lemma deof_dec k : {deof k} + {~ deof k}.
  Proof. unfold deof. destruct (String.prefix "DEOF" k); [left | right]; congruence. Qed.
  Lemma first_deof : forall l : list section, Exists (fun s => deof (h_name (fst s))) l ->
    exists l1 s l2, l = l1 ++ s :: l2 /\ deof (h_name (fst s)) /\ Forall (fun s => ~ deof (h_name (fst s))) l1.
  Proof.
    induction l as [| s l IH]; intros E; [inversion E |]. destruct (deof_dec (h_name (fst s))) as [D | D].
    - exists [], s, l. auto.
    - inversion E as [? ? Q | ? ? Q]; subst; [contradiction |]. destruct (IH Q) as (l1 & s' & l2 & -> & D' & F).
      exists (s :: l1), s', l2. auto.
  Qed.
  Lemma mark_stops v o w f integrity r : w_typed i2d w -> write_data i2d f2i v o w = Ok f ->
    Exists deof (List.map fst (w_bocos w)) -> read_data integrity f <> Ok r.
  Proof.
    intros T H ED RD. destruct (write_chain i2d f2i v o w f T H) as (c & m & fs & e & M & RH & F & _ & EF).
    assert (EZ : Exists (fun s => deof (h_name (fst s))) (c_zones c)).
    { assert (Q := c_zones_ok _ _ _ c). revert Q ED. generalize (c_zones c). induction (w_bocos w) as [| (k, b) l IH]; intros zs Q ED; inversion Q; subst; [inversion ED |].
      match goal with H : zone_section _ = Ok _ |- _ => apply zone_section_ok in H; destruct H as (t & kind & lo & hi & _ & _ & _ & _ & _ & -> & _) end.
      inversion ED as [? ? D | ? ? D]; subst; [left; exact D | right; apply IH; assumption]. }
    apply first_deof in EZ. destruct EZ as (z1 & s & z2 & EZ & D & FZ).
    assert (EB : body_secs i2d f2i v c = (counts_sec w :: check_secs v w ++ [noofa_sec w; cvofa_sec w (c_f2e c)] ++ z1) ++ s ::
      (z2 ++ [int_sec w; part_sec w (c_npart c) (c_icv c); xno_sec w] ++ info_secs c ++ var_secs i2d v w)).
    { unfold body_secs. rewrite EZ. cbn [app]. f_equal. repeat (rewrite <- app_assoc; cbn [app]). reflexivity. }
    assert (BE := body_not_eof i2d f2i v w c).
    rewrite EB in F, BE. apply Forall_app in BE. destruct BE as (BE & _). apply Forall2_app_inv_l in F. destruct F as (fs1 & fs2 & F1 & F2 & ->).
    inversion F2 as [| ? sf ? fs3 W N]; subst fs2.
    assert (NI : forall id, id <> CV_PART -> ~ In id [CV_PART]) by (intros id A [B | []]; congruence).
    destruct (none_secs o [CV_PART] f m _ fs1 sf (secs_bytes fs3 ++ fsec_all e) M F1 (proj1 W)) as (p & Q).
    - left. apply (wrote_deof _ _ _ W). exact D.
    - rewrite EF, secs_app, secs_cons, <- !app_assoc. reflexivity.
    - assert (A : Forall (fun s => ~ deof (h_name (fst s)) /\ ~ In (h_id (fst s)) [CV_PART])
        (counts_sec w :: check_secs v w ++ [noofa_sec w; cvofa_sec w (c_f2e c)] ++ z1)).
      { constructor; [split; [discriminate | apply NI; discriminate] |].
        apply Forall_app. split; [destruct v; cbn [check_secs]; repeat (constructor; [split; [discriminate | apply NI; discriminate] |]); constructor |].
        apply Forall_app. split; [repeat (constructor; [split; [discriminate | apply NI; discriminate] |]); constructor |].
        assert (ZI := zones_is i2d f2i (fun _ id => ~ In id [CV_PART]) w c ltac:(intros; apply NI; discriminate)).
        rewrite EZ in ZI. apply Forall_app in ZI. destruct ZI as (ZI & _).
        apply Forall_forall. intros y Y. rewrite Forall_forall in FZ, ZI. split; [apply FZ | apply ZI]; exact Y. }
      apply Forall_forall. intros y Y. rewrite Forall_forall in A, BE. destruct (A y Y). split; [assumption | split; [apply (BE y Y) | assumption]].
    - apply NI. discriminate.
    - unfold read_data in RD.
      apply bind_ok in RD; destruct RD as ((o', v') & A0 & RD). rewrite RH in A0. inversion A0; subst o' v'.
      apply bind_ok in RD; destruct RD as ((h & p0) & _ & RD). apply bind_ok in RD; destruct RD as (u & _ & RD).
      apply bind_ok in RD; destruct RD as (z & _ & RD). apply bind_ok in RD; destruct RD as ((cvofa & p1) & _ & RD).
      apply bind_ok in RD; destruct RD as (bocos & _ & RD). apply bind_ok in RD; destruct RD as ((npart & icv) & A & _).
      unfold read_part, find_req in A. rewrite Q in A. discriminate A.
  Qed.
End Stop.
