(** * What a failing write of HDF5 files leaves, C82. *)
From Coq Require Import ZArith List Bool String Lia.
From Verif Require Import Py PyFacts Data Elements Conn ConnSpec ConnProofs Mesh MeshSpec Ic3Bytes Ic3 Ic3HeaderSpec Ic3FileSpec Ic3RoundSpec Ic3MeshProofs Ic3FileThm Ic3FileProps Ic3OkProofs Ic3WriteProofs Ic3V4 Ic3V4Spec Ic3V4Proofs Ic3V4MarkProofs Ic3V4SolProofs Ic3V4Props Ic3V4Fail Ic3V4FailProofs.

Lemma attr_err v : (exists e, attr_of v = Err e) -> ~ attr_ok v.
Proof.
  intros (e & H) A. destruct v as [[n | p] | d]; cbn [attr_of attr_ok] in *; [| discriminate | exact A].
  destruct (- 2 ^ 63 <=? n) eqn:E1; [| apply Z.leb_gt in E1; lia]. destruct (n <? 2 ^ 64) eqn:E2; [discriminate | apply Z.ltb_ge in E2; lia].
Qed.
Lemma attr_fine v x : attr_of v = Ok x -> attr_ok v.
Proof.
  destruct v as [[n | p] | d]; cbn [attr_of attr_ok]; [| auto | discriminate]. intros H.
  destruct (- 2 ^ 63 <=? n) eqn:E1; [| discriminate]. destruct (n <? 2 ^ 64) eqn:E2; [| discriminate]. apply Z.leb_le in E1. apply Z.ltb_lt in E2. lia.
Qed.

Section Props.
  (** [float(n)], and what HDF5 makes of integers out of its type, whatever they are. *)
  Context (i2d : Z -> Z) (narrow : Z -> Z).

  Lemma left_parts tbl enum host endian solution fm mo so r fm' :
    write4_left i2d narrow tbl enum host endian solution fm = (mo, so, r, fm') ->
    fm_cells fm' = fm_cells fm /\ fm_params fm' = fm_params fm /\
    match mo with
    | None => so = None /\ exists e, r = Err e /\ write4 i2d narrow tbl enum host endian solution fm = (Err e, fm')
    | Some f => exists w rm, writer_state fm' = Ok w /\ mesh_left_of narrow (fm_mesh fm') w = (f, rm) /\
        (forall sol, write4 i2d narrow tbl enum host endian sol fm =
          (mf <- write_mesh4 narrow (fm_mesh fm') w ;; if sol then sf <- write_sol4 i2d (fm_params fm') w ;; Ok (mf, Some sf) else Ok (mf, None), fm')) /\
        match rm with
        | Err e => so = None /\ r = Err e
        | Ok _ => if solution then exists s, so = Some s /\ sol_left_of i2d (fm_params fm') w = (s, r) else so = None /\ r = Ok tt
        end
    end.
  Proof.
    unfold write4_left, write4. destruct (order_of host endian) as [o | e]. 2: { intros H. injection H as <- <- <- <-. split; [reflexivity |]. split; [reflexivity |]. eauto. }
    destruct (prepare_mesh tbl enum (fm_mesh fm)) as (rp, m). cbn [fm_mesh fm_params fm_cells].
    destruct rp as [u | e]; cbn [bind]. 2: { intros H. injection H as <- <- <- <-. split; [reflexivity |]. split; [reflexivity |]. eauto. }
    destruct (writer_state (FM m (fm_cells fm) (fm_nodes fm) (fm_params fm) (fm_part fm))) as [w | e] eqn:W; cbn [bind].
    2: { intros H. injection H as <- <- <- <-. split; [reflexivity |]. split; [reflexivity |]. eauto. }
    destruct (mesh_left_of narrow m w) as (f, rm) eqn:ML. destruct rm as [u' | e]. 2: { intros H. injection H as <- <- <- <-. split; [reflexivity |]. split; [reflexivity |]. exists w, (Err e). split; [exact W |]. split; [exact ML |]. split; [intros sol; apply (f_equal (fun q => (q, _))); reflexivity |]. auto. }
    destruct solution.
    - destruct (sol_left_of i2d (fm_params fm) w) as (s, r') eqn:SL. intros H. injection H as <- <- <- <-. split; [reflexivity |]. split; [reflexivity |]. exists w, (Ok u'). split; [exact W |]. split; [exact ML |]. split; [intros sol; apply (f_equal (fun q => (q, _))); reflexivity |]. eauto.
    - intros H. injection H as <- <- <- <-. split; [reflexivity |]. split; [reflexivity |]. exists w, (Ok u'). split; [exact W |]. split; [exact ML |]. split; [intros sol; apply (f_equal (fun q => (q, _))); reflexivity |]. auto.
  Qed.

  (** C82: the call succeeds when [write4] does, and leaves the complete files; it fails when [write4] fails.  The mesh is changed alike. *)
  Theorem C82_outcome tbl enum host endian solution fm mo so r fm' :
    write4_left i2d narrow tbl enum host endian solution fm = (mo, so, r, fm') ->
    match r with
    | Ok _ => exists mf, write4 i2d narrow tbl enum host endian solution fm = (Ok (mf, so), fm') /\ mo = Some (as_left mf) /\ (so <> None <-> solution = true)
    | Err _ => exists e, write4 i2d narrow tbl enum host endian solution fm = (Err e, fm')
    end.
  Proof.
    intros H. apply left_parts in H. destruct H as (_ & _ & H). destruct mo as [f |].
    - destruct H as (w & rm & W & ML & W1 & H). apply mesh_left_ok in ML. rewrite W1. clear W1. destruct rm as [u | e].
      + destruct ML as (mf & WM & ->). rewrite WM. cbn [bind]. destruct solution.
        * destruct H as (s & -> & SL). apply sol_left_ok in SL. cbn zeta in SL. destruct r as [u' | e].
          -- rewrite SL. cbn [bind]. exists mf. split; [reflexivity |]. split; [reflexivity |]. split; intros _; [reflexivity | discriminate].
          -- destruct SL as ((e' & SL) & _). rewrite SL. exists e'. reflexivity.
        * destruct H as (-> & ->). exists mf. split; [reflexivity |]. split; [reflexivity |]. split; [intros Q; destruct (Q eq_refl) | discriminate].
      + destruct ML as ((e' & WM) & _). rewrite WM. destruct H as (-> & ->). exists e'. reflexivity.
    - destruct H as (-> & e & -> & H). eauto.
  Qed.

  (** Files are opened one after the other, and only if the writer could be made. *)
  Theorem C82_opened tbl enum host endian solution fm mo so r fm' :
    write4_left i2d narrow tbl enum host endian solution fm = (mo, so, r, fm') ->
    (mo = None -> so = None /\ exists e, r = Err e) /\ (solution = false -> so = None) /\
    (In endian ["native"; "little"; "big"]%string -> (exists m w, prepare_mesh tbl enum (fm_mesh fm) = (Ok tt, m) /\
       writer_state (FM m (fm_cells fm) (fm_nodes fm) (fm_params fm) (fm_part fm)) = Ok w) -> mo <> None).
  Proof.
    intros H. split; [| split].
    - intros ->. apply left_parts in H. destruct H as (_ & _ & -> & e & -> & _). eauto.
    - intros ->. apply left_parts in H. destruct H as (_ & _ & H). destruct mo; [| tauto]. destruct H as (w & rm & _ & _ & _ & H). destruct rm; tauto.
    - intros I (m & w & P & W) ->. unfold write4_left in H. destruct (order_of host endian) as [o | e] eqn:O.
      + rewrite P in H. cbn [bind fm_params] in H. rewrite W in H. destruct (mesh_left_of narrow m w) as (f, [u | e]); [| discriminate]. destruct solution; [destruct (sol_left_of _ _ _) |]; discriminate.
      + revert O. clear - I. unfold order_of. cbn [In] in I. destruct I as [<- | [<- | [<- | []]]]; discriminate.
  Qed.

  (** A mesh file left incomplete is refused by the reader, with or without a solution file. *)
  Theorem C82_mesh_refused tbl enum host endian solution fm f e fm' :
    write4_left i2d narrow tbl enum host endian solution fm = (Some f, None, Err e, fm') ->
    forall named s, exists e', read_files4 (Some f) named s = Err e'.
  Proof.
    intros H named s. apply left_parts in H. destruct H as (_ & _ & w & rm & _ & ML & _ & H). destruct rm as [u | e']; [destruct solution; [destruct H as (? & ? & _) | destruct H]; discriminate |].
    apply mesh_left_ok in ML. destruct ML as (_ & R). unfold read_files4, open4. cbn [or_err bind]. destruct named.
    - destruct s as [s |]; cbn [or_err bind]; [| eauto]. destruct (R (Some s)) as (e2 & ->). cbn [bind]. eauto.
    - cbn [bind]. destruct (R None) as (e2 & ->). cbn [bind]. eauto.
  Qed.

  Lemma files_complete mf sol : read_files4 (Some (as_left mf)) (match sol with None => false | _ => true end) sol = read4 mf sol.
  Proof.
    unfold read_files4, open4, read4. destruct sol as [s |]; cbn [or_err bind]; rewrite read_left_complete; destruct (read_data4 mf _); reflexivity.
  Qed.

  (** When the solution fails, the mesh file is complete and readable.  The solution file is refused if it has no
      variable; otherwise it is read without an error, with the conserved variables and only the statistics [pre]
      that precede the failure. *)
  Theorem C82_solution tbl enum host endian fm f s e fm' ls rows :
    write4_left i2d narrow tbl enum host endian true fm = (Some f, Some s, Err e, fm') -> mesh4_ok fm' ls rows -> keyed fm ->
    let cells := fd_items (fm_cells fm) in
    let fine := attr_ok (param (fm_params fm) "step" (SNum (NInt 0))) /\ attr_ok (param (fm_params fm) "time" (SNum (NInt 0))) /\
                forall name, In name ["RHO"; "RHOU"; "RHOE"]%string -> In name (List.map fst cells) in
    (exists fm2, read_files4 (Some f) false None = Ok fm2 /\ mesh_as fm' fm2 ls rows) /\
    (~ fine -> read_files4 (Some f) true (Some s) = Err KeyError) /\
    (fine -> exists pre x, In x cells /\ stat_name (fst x) /\ ~ In (fst x) (List.map fst pre) /\
       (forall y, In y pre -> In y cells /\ stat_name (fst y)) /\
       ((forall name a, In (name, a) cells -> In name ["RHO"; "RHOU"; "RHOE"]%string \/ In (name, a) pre -> exists k, per_cell (me_ncell (fm_mesh fm')) a k) ->
        exists fm2, read_files4 (Some f) true (Some s) = Ok fm2 /\ mesh_as fm' fm2 ls rows /\
          (forall name a k, In name ["RHO"; "RHOU"; "RHOE"]%string -> dget String.eqb name cells = Some a -> per_cell (me_ncell (fm_mesh fm')) a k ->
             dget String.eqb name (fd_items (fm_cells fm2)) = Some (var_back i2d (me_ncell (fm_mesh fm')) k a)) /\
          (forall name a k, In (name, a) pre -> per_cell (me_ncell (fm_mesh fm')) a k -> dget String.eqb (upper name) (fd_items (fm_cells fm2)) = Some (var_back i2d (me_ncell (fm_mesh fm')) k a)) /\
          (forall name, In name (List.map fst (fd_items (fm_cells fm2))) -> In name ["RHO"; "RHOU"; "RHOE"]%string \/ exists n, In n (List.map fst pre) /\ name = upper n))).
  Proof.
    intros H M (KP & KC) cells fine. assert (H0 := H). apply left_parts in H. destruct H as (EC & EP & w & rm & W & ML & W1 & H). destruct rm as [u | e']; [| destruct H; discriminate].
    destruct H as (s' & E & SL). injection E as <-. apply mesh_left_ok in ML. destruct ML as (mf & WM & ->).
    destruct (read_mesh4 i2d narrow _ _ _ _ _ M W WM) as (x & y & z & con & _ & _ & _ & _ & _ & _ & _ & RD).
    destruct (writer_state_ok fm' w W) as (_ & _ & _ & _ & _ & _ & _ & _ & _ & _ & _ & _ & _ & _ & _ & _ & _ & _ & _ & _ & _ & _ & E9).
    assert (WR : write4 i2d narrow tbl enum host endian false fm = (Ok (mf, None), fm')).
    { rewrite W1, WM. reflexivity. }
    assert (MA : forall sol fm2, read4 mf sol = Ok fm2 -> mesh_as fm' fm2 ls rows) by (intros sol fm2 R; exact (C44_mesh i2d narrow _ _ _ _ _ _ _ _ _ _ _ _ _ WR M R)).
    apply sol_left_ok in SL. cbn zeta in SL. rewrite E9, EC, EP in SL. fold cells in SL. destruct SL as (_ & SL).
    assert (FH : has_all cells = true <-> forall name, In name ["RHO"; "RHOU"; "RHOE"]%string -> In name (List.map fst cells)).
    { unfold has_all. rewrite forallb_forall. split; intros Q n I; apply dmem_keys; apply Q; exact I. }
    split; [| split].
    - rewrite (files_complete mf None). eexists. split; [exact (RD None) |]. exact (MA _ _ (RD None)).
    - intros NF. rewrite (files_complete mf (Some s)), RD. destruct SL as [(V & _) | (HA & (st & ti & A1 & A2) & _)].
      + unfold read_vars4. rewrite V. reflexivity.
      + exfalso. apply NF. split; [exact (attr_fine _ _ A1) |]. split; [exact (attr_fine _ _ A2) |]. apply FH. exact HA.
    - intros (F1 & F2 & F3). apply FH in F3. destruct SL as [(_ & [A | [A | A]]) | (HA & _ & V & weights & pre & y0 & post & F & ST & NL)].
      + destruct (attr_err _ A F1).
      + destruct (attr_err _ A F2).
      + congruence.
      + fold cells in KC. assert (PI : forall q, In q (pre ++ y0 :: post) -> In q cells /\ stat_name (fst q)).
        { intros q I. rewrite <- F in I. apply filter_In in I. destruct I as (I & Q). split; [exact I | apply is_stat_iff; exact Q]. }
        assert (NF : NoDup (List.map fst (pre ++ y0 :: post))).
        { rewrite <- F. clear - KC. induction cells as [| q l IH]; [constructor |]. cbn [List.map] in KC. inversion KC as [| ? ? N1 N2]; subst. cbn [filter]. destruct (is_stat_var q); [| apply IH; exact N2].
          cbn [List.map]. constructor; [| apply IH; exact N2]. intros I. apply N1. apply in_map_iff in I. destruct I as (v & E & I). apply filter_In in I. apply in_map_iff. exists v. tauto. }
        exists pre, y0. destruct (PI y0) as (P1 & P2); [apply in_or_app; right; left; reflexivity |]. split; [exact P1 |]. split; [exact P2 |]. split.
        { rewrite map_app in NF. cbn [List.map] in NF. apply NoDup_remove_2 in NF. intros I. apply NF. apply in_or_app. left. exact I. }
        split; [intros q I; apply PI; apply in_or_app; left; exact I |]. intros PC.
        destruct (read_pre i2d cells s (me_ncell (fm_mesh fm')) weights pre y0 post HA KC (v4_ncell _ _ _ M) V F ST NL PC) as (d & RV & D1 & D2 & D3).
        assert (RR := RD (Some s)). cbn iota in RR. rewrite RV in RR. cbn [bind] in RR. rewrite (files_complete mf (Some s)). eexists. split; [exact RR |]. split; [exact (MA _ _ RR) |]. cbn [fm_cells fd_items]. auto.
  Qed.

  (** Complete files read as [read4] does, with the error of missing files; [ncell] is known with a solution only. *)
  Theorem C82_reader mf sol :
    read_files4 (Some (as_left mf)) (match sol with None => false | _ => true end) sol = read4 mf sol /\
    (forall f s, read_files4 None true s = Err FileExistsError /\ read_files4 None false s = Err FileExistsError /\ read_files4 (Some f) true None = Err FileExistsError).
  Proof. split; [apply files_complete |]. intros f s. repeat split. Qed.
  Theorem C82_ncell tbl enum host endian solution fm mf so fm' r named s :
    write4 i2d narrow tbl enum host endian solution fm = (Ok (mf, so), fm') -> open4 (Some (as_left mf)) named s = Ok r ->
    ncell4 r = if named then Ok (me_ncell (fm_mesh fm')) else Err AttributeError.
  Proof.
    intros H R. destruct (write4_parts _ _ _ _ _ _ _ _ _ _ _ H) as (w & W & WM & _).
    destruct (writer_state_ok fm' w W) as (_ & _ & _ & _ & _ & _ & _ & _ & _ & E1 & E2 & E3 & _).
    assert (EV : m4_cv mf = me_ncell (fm_mesh fm')).
    { unfold write_mesh4 in WM. apply bind_ok in WM; destruct WM as (f2e & _ & WM). apply bind_ok in WM; destruct WM as (cvofa & _ & WM). apply bind_ok in WM; destruct WM as (bd & _ & WM). apply ok_inj in WM. subst mf. cbn [m4_cv]. congruence. }
    unfold open4 in R. cbn [or_err bind] in R. destruct named.
    - destruct s as [s |]; [| discriminate]. cbn [or_err bind] in R. apply bind_ok in R; destruct R as (q & Q & R). apply ok_inj in R. subst r. cbn [ncell4 rd_ncell or_err]. unfold ncell4. cbn [rd_ncell or_err].
      rewrite read_left_complete in Q. unfold read_data4 in Q. repeat (apply bind_ok in Q; destruct Q as (? & _ & Q)). apply ok_inj in Q. subst q. cbn [r4_cv]. rewrite EV. reflexivity.
    - cbn [bind] in R. apply bind_ok in R; destruct R as (q & Q & R). apply ok_inj in R. subst r. reflexivity.
  Qed.
End Props.

Print Assumptions C82_outcome.
Print Assumptions C82_opened.
Print Assumptions C82_mesh_refused.
Print Assumptions C82_solution.
Print Assumptions C82_reader.
Print Assumptions C82_ncell.

(** ** Concrete cases *)
(** The two triangles of C44, with two averages whose names differ by the case only. *)
Definition ex82_fm (marks : dict string (mark Z)) (step : num) (rho : string) (u2 : string) : fmesh :=
  FM (ex_mesh marks)
     (FSet (DS "instant" "cellaverage" 1 [] [("U_AVG"%string, Arr [2] false [40; 41]); (rho, Arr [2] false [10; 11]); ("RHOU"%string, Arr [2; 3] false [1; 2; 3; 4; 5; 6]); ("RHOE"%string, Arr [2] true [1; 2]);
                                             (u2, Arr [2] false [20; 21]); ("P_RMS"%string, Arr [2] false [30; 31])]))
     (FDict []) [("step"%string, SNum step); ("p_wgt"%string, SNum (NFlt 5))] None.
Definition ex82_left (sol : bool) (fm : fmesh) := write4_left ex_i2d (fun _ => 0) cgns_elem2faces (fun l => l) Little "native" sol fm.
Definition ex82_mesh (fm : fmesh) : mesh_left := match ex82_left true fm with (Some f, _, _, _) => f | _ => ML 0 0 0 [] None None None None None end.
Definition ex82_sol (fm : fmesh) : sol4 := match ex82_left true fm with (_, Some s, _, _) => s | _ => S4 [] [] None end.
Definition ex82_twins : fmesh := ex82_fm ex4_tiles (NInt 7) "RHO" "u_AVG".

Lemma ex82_ok step rho u2 : mesh4_ok (ex82_fm ex4_tiles step rho u2) ex_ls ex_rows.
Proof. assert (H := ex4_each ex4_tiles (or_introl eq_refl) rho). destruct H. constructor; assumption. Qed.
(** [ValueError] on the second average; 'P_RMS', after it, is lost and nothing says so to who reads the files. *)
Example c82_twins_case :
  ex82_left true ex82_twins = (Some (ex82_mesh ex82_twins), Some (ex82_sol ex82_twins), Err ValueError, ex82_twins) /\ keyed ex82_twins /\ match read_files4 (Some (ex82_mesh ex82_twins)) true (Some (ex82_sol ex82_twins)) with
  | Ok fm2 => fd_items (fm_cells fm2) = [("RHO"%string, Arr [2] false [10; 11]); ("RHOU"%string, Arr [2; 3] false [1; 2; 3; 4; 5; 6]); ("RHOE"%string, Arr [2] false (List.map ex_i2d [1; 2])); ("U_AVG"%string, Arr [2] false [40; 41])]
  | Err _ => False
  end.
Proof. split; [vm_compute; reflexivity |]. split; [split; cbn; nodups | vm_compute; reflexivity]. Qed.
(** A step of more than 64 bits: the file has no variable. *)
Example c82_step_case : let fm := ex82_fm ex4_tiles (NInt (2 ^ 64)) "RHO" "V_AVG" in
  ex82_left true fm = (Some (ex82_mesh fm), Some (ex82_sol fm), Err TypeError, fm) /\ read_files4 (Some (ex82_mesh fm)) true (Some (ex82_sol fm)) = Err KeyError /\ exists fm2, read_files4 (Some (ex82_mesh fm)) false None = Ok fm2.
Proof. split; [vm_compute; reflexivity |]. split; [vm_compute; reflexivity | eexists; vm_compute; reflexivity]. Qed.
(** A mark of unknown type after another: the mesh file is left without its labels. *)
Definition ex82_marks : dict string (mark Z) := [bmark "out" 2 3; ("odd"%string, Mark Z "odd" (Some Gbdface) (Some "symmetry"%string) (Some (ILrange 0 1)) None)].
Example c82_mesh_case : let fm := ex82_fm ex82_marks (NInt 7) "RHO" "V_AVG" in
  ex82_left true fm = (Some (ex82_mesh fm), None, Err AssertionError, fm) /\ ml_bounds (ex82_mesh fm) = Some (BL [] [] None None None) /\ read_files4 (Some (ex82_mesh fm)) false None = Err KeyError.
Proof. repeat split; vm_compute; reflexivity. Qed.
(** Nothing is opened with a wrong endianness. *)
Example c82_unopened_case : write4_left ex_i2d (fun _ => 0) cgns_elem2faces (fun l => l) Little "middle" true ex82_twins = (None, None, Err ValueError, ex82_twins).
Proof. reflexivity. Qed.
Example c82_ncell_case : let fm := ex82_fm ex4_tiles (NInt 7) "RHO" "V_AVG" in
  (r <- open4 (Some (ex82_mesh fm)) true (Some (ex82_sol fm)) ;; ncell4 r) = Ok 2 /\ (r <- open4 (Some (ex82_mesh fm)) false None ;; ncell4 r) = Err AttributeError.
Proof. split; vm_compute; reflexivity. Qed.
