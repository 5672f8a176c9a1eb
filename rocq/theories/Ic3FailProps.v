(** * Property C81: what is left when a writer fails. *)
From Coq Require Import ZArith List Bool String Lia.
From Verif Require Import Py PyFacts Conn Mesh Data Ic3Bytes Ic3BytesProofs Ic3 Ic3Fail Ic3HeaderSpec Ic3HeaderProofs Ic3FuelProofs Ic3FileSpec Ic3FileProofs Ic3WriteProofs Ic3PartsProofs Ic3CutProofs Ic3BodyProofs Ic3FailProofs.
From Verif Require Import Ic3FileProps Files Race Cli CliProps.

(** None of the names given by the user begins like the name of the last section ("DEOF"). *)
Definition safe_names (fm : fmesh) : Prop :=
  forall k, In k (List.map fst (me_bocos (fm_mesh fm)) ++ wgt_names (param (fm_params fm) "wgt" (SWgt []))
                  ++ List.map fst (fd_items (fm_nodes fm)) ++ List.map fst (fd_items (fm_cells fm))) -> ~ deof k.

Section Fail.
  Context (tbl : sidetable) (enum : list Z -> list Z) (i2d : Z -> Z) (f2i : Z -> res Z) (host : order).
  Context (I2D : forall n, pattern (i2d n)).
  Notation write_file := (write_file tbl enum i2d f2i host).
  Notation write_mesh := (write_mesh tbl enum i2d f2i host).

  Lemma after_prepare endian fm v x r fm' : fmesh_typed fm -> safe_names fm -> write_file v endian fm = (x, r, fm') -> fmesh_typed fm' /\ safe_names fm'.
  Proof.
    unfold Ic3Fail.write_file. intros T S H. destruct (order_of host endian) as [o |]; [| injection H as _ _ <-; auto].
    destruct (prepare_mesh tbl enum (fm_mesh fm)) as (rp, m) eqn:P. destruct (prepare_typed _ _ _ _ _ T P) as (T' & IN).
    assert (E : fm' = FM m (fm_cells fm) (fm_nodes fm) (fm_params fm) (fm_part fm)).
    { destruct (bind rp _) as [w |]; [destruct (run_calls _) |]; injection H as _ _ <-; reflexivity. }
    rewrite E. split; [exact T' |]. intros k I. cbn [fm_mesh fm_params fm_nodes fm_cells] in I. apply in_app_or in I. destruct I as [I | I]; [| apply S; apply in_or_app; right; exact I].
    destruct (IN k I) as [<- | J]; [discriminate | apply S; apply in_or_app; left; exact J].
  Qed.

  (** Writing succeeds, with this file, or raises, as [write_mesh] says: the file is complete iff no
      exception was raised. *)
  Theorem C81_outcome v endian fm : fmesh_typed fm ->
    match write_file v endian fm with
    | (x, Ok _, fm') => exists f, x = Some f /\ write_mesh v endian fm = (Ok f, fm')
    | (x, Err _, fm') => exists e, write_mesh v endian fm = (Err e, fm')
    end.
  Proof.
    intros T. unfold Ic3Fail.write_file, Ic3.write_mesh. destruct (order_of host endian) as [o |]; [| eexists; reflexivity].
    destruct (prepare_mesh tbl enum (fm_mesh fm)) as (rp, m) eqn:P. destruct (prepare_typed _ _ _ _ _ T P) as (T' & _).
    destruct rp as [u |]; cbn [bind]; [| eexists; reflexivity].
    destruct (writer_state _) as [w |] eqn:W; cbn [bind]; [| eexists; reflexivity].
    destruct (writer_state_typed i2d _ w I2D T' W) as (TW & _). destruct TW as (_ & _ & FA & CV & _).
    destruct (run_calls _) as (g, r) eqn:R. apply (file_calls_end i2d f2i v o w g r FA CV) in R. destruct r as [u' | e].
    - exists g. rewrite R. auto.
    - destruct R as ((e' & ->) & _). exists e'. reflexivity.
  Qed.

  (** Nothing is opened if the byte order is unknown, if the mesh cannot be prepared or if a coordinate is
      missing; and an exception is always raised then. *)
  Theorem C81_unopened v endian fm x r fm' : write_file v endian fm = (x, r, fm') ->
    (~ In endian ["native"; "little"; "big"]%string -> x = None /\ fm' = fm) /\
    (forall e, fst (prepare_mesh tbl enum (fm_mesh fm)) = Err e -> x = None) /\
    (forall c, In c ["x"; "y"; "z"]%string -> dget String.eqb c (me_nodes (fm_mesh fm)) = None -> x = None) /\
    (x = None -> exists e, r = Err e).
  Proof.
    unfold Ic3Fail.write_file. intros H. destruct (order_of host endian) as [o |] eqn:O.
    - split.
      { intros N. exfalso. apply N. unfold order_of in O. destruct (String.eqb_spec endian "native"); [left; auto |]. destruct (String.eqb_spec endian "little"); [right; left; auto |].
        destruct (String.eqb_spec endian "big"); [right; right; left; auto |]. discriminate. }
      destruct (prepare_mesh tbl enum (fm_mesh fm)) as (rp, m) eqn:P. cbn [fst]. destruct (prepare_kept _ _ _ _ _ P) as (_ & EN & _). split; [| split].
      + intros e ->. cbn [bind] in H. injection H as <- _ _. reflexivity.
      + intros c C D. rewrite <- EN in D. destruct rp as [u |]; cbn [bind] in H; [| injection H as <- _ _; reflexivity].
        assert (W : exists e, writer_state (FM m (fm_cells fm) (fm_nodes fm) (fm_params fm) (fm_part fm)) = Err e).
        { unfold writer_state. cbn [fm_mesh]. assert (NC : exists e, nodescoord m = Err e).
          { unfold nodescoord, dget_err. destruct C as [<- | [<- | [<- | []]]]; rewrite D; repeat (destruct (dget String.eqb _ (me_nodes m)) as [? |]; cbn [bind]); eexists; reflexivity. }
          destruct NC as (e & ->). exists e. reflexivity. }
        destruct W as (e & W). rewrite W in H. injection H as <- _ _. reflexivity.
      + intros ->. destruct (bind rp _) as [w | e]; [destruct (run_calls _); discriminate |]. injection H as <- _. exists e. reflexivity.
    - injection H as <- <- <-. split; [auto |]. split; [auto |]. split; [auto |]. intros _. eexists. reflexivity.
  Qed.

  (** If writing fails after the file was opened, what is left begins like a file of this version and
      the reader refuses it. *)
  Theorem C81_refused v endian fm g e fm' integrity : fmesh_typed fm -> safe_names fm ->
    write_file v endian fm = (Some g, Err e, fm') ->
    (exists x, read_mesh integrity g = Err x /\ x <> OutOfFuel) /\
    exists o m t, order_of host endian = Ok o /\ binary_write o Ci 2 [MAGIC; version_number v] = Ok m /\ g = m ++ t.
  Proof.
    intros T S H. destruct (after_prepare _ _ _ _ _ _ T S H) as (T' & S'). unfold Ic3Fail.write_file in H. destruct (order_of host endian) as [o |] eqn:O; [| discriminate].
    destruct (prepare_mesh tbl enum (fm_mesh fm)) as (rp, m) eqn:P. destruct rp as [u |]; cbn [bind] in H; [| discriminate].
    destruct (writer_state _) as [w |] eqn:W; [| discriminate]. destruct (run_calls _) as (g', r) eqn:R. injection H as -> -> <-.
    destruct (writer_state_typed i2d _ w I2D T' W) as (TW & EN).
    assert (D : Forall (fun k => ~ deof k) (user_names w)).
    { rewrite EN. apply Forall_forall. intros k I. apply S'. unfold mesh_names in I. apply in_app_or in I. apply in_or_app. destruct I as [I | I]; [left | right; exact I].
      apply in_map_iff in I. destruct I as (kb & <- & I). apply filter_In in I. apply in_map. apply I. }
    split.
    - unfold read_mesh. destruct (read_data integrity g) as [q | x] eqn:RD; [exfalso; exact (failed_write i2d f2i v o w g e integrity TW D R q RD) |].
      exists x. split; [reflexivity |]. intros ->. exact (read_data_stops integrity g RD).
    - destruct TW as (_ & _ & FA & CV & _). destruct (file_calls_end i2d f2i v o w g (Err e) FA CV R) as (_ & m0 & ss & rs & rest & bs & part & BM & _ & _ & _ & ->).
      exists o, m0, (List.concat bs ++ part). auto.
  Qed.

  (** The converters that write IC3 files: an exception leaves the files as they were, or one new file
      that the reader refuses. *)
  Definition ic3_write (endian : string) (v : version) (fm : fmesh) : option (list Z) * res unit := let '(x, r, _) := write_file v endian fm in (x, r).
  Definition sound (fm : fmesh) : Prop := fmesh_typed fm /\ safe_names fm.
  Theorem C81_command extruded scaled shown (m : registry (readfun (C:=list Z)) version) fuel a ext v endian fs e fs' :
    (forall name en rd s fm, dget String.eqb name m = Some en -> en_reader en = Some rd -> (exists n, rd fs s = Ok (n, Ok fm)) -> sound fm) ->
    (forall n fm fm', sound fm -> extruded n fm = Ok fm' -> sound fm') -> (forall s fm fm', sound fm -> scaled s fm = Ok fm' -> sound fm') ->
    write_generic extruded scaled shown (ic3_write endian) m fuel a ext v fs = (Err e, fs') ->
    fs' = fs \/ exists s g, dget String.eqb s fs = None /\ fs' = fs ++ [(s, g)] /\ forall integrity, exists x, read_mesh integrity g = Err x /\ x <> OutOfFuel.
  Proof.
    intros HR HX HS H. destruct (C64_converter _ _ _ _ _ _ _ _ _ _ _ _ H) as ([G | (s & c & N & E & _)] & _); [left; exact G |]. right. exists s, c. split; [exact N |]. split; [exact E |]. intros integrity.
    unfold write_generic in H. destruct (parse_filenameformat m (ar_fmt a) (ar_filename a)) as [((f, [rd |]), wr) | e0] eqn:PF;
      [| injection H as _ H; exfalso; revert E; rewrite <- H; clear; intros E; apply (f_equal (@List.length _)) in E; rewrite app_length in E; cbn in E; lia ..].
    assert (NF : forall e1, (Err e1, fs) = (@Err string e, fs') -> False).
    { intros e1 Q. injection Q as _ Q. rewrite <- Q in E. apply (f_equal (@List.length _)) in E. rewrite app_length in E. cbn in E. lia. }
    destruct (rd fs (path_str (path_of (ar_filename a)))) as [(n0, ex) | e1] eqn:RD; [| destruct (NF _ H)].
    destruct (_ <- per_elem n0 ;; ex) as [fm | e1] eqn:EX; [| destruct (NF _ H)]. apply bind_ok in EX. destruct EX as (u0 & _ & ->).
    assert (SF : sound fm).
    { unfold parse_filenameformat in PF. match type of PF with match ?x with _ => _ end = _ => destruct x as [| f0 [|]]; try discriminate end. apply bind_ok in PF. destruct PF as (en & D & PF).
      apply ok_inj in PF. injection PF as _ ER _. unfold dget_err in D. destruct (dget String.eqb f0 m) as [en' |] eqn:DG; [| discriminate]. apply ok_inj in D. subst en'. exact (HR _ _ _ _ _ DG ER (ex_intro _ n0 RD)). }
    assert (RS := remove_same (ar_remove a) fm). destruct (remove_cells (ar_remove a) fm) as [[u | e1] fm1]; [| destruct (NF _ H)]. cbn [snd] in RS. subst fm1.
    destruct (output_name fuel fs a ext) as [p | e1]; [| destruct (NF _ H)].
    match type of H with (match ?x with _ => _ end) = _ => destruct x as [fm2 | e1] eqn:ET; [| destruct (NF _ H)] end.
    assert (S2 : sound fm2).
    { apply bind_ok in ET. destruct ET as (fm1 & E1 & E2). apply bind_ok in E2. destruct E2 as (fm2' & E2 & E3). apply bind_ok in E3. destruct E3 as (u1 & _ & E3). apply ok_inj in E3. subst fm2'. assert (S1 : sound fm1) by (destruct (ar_extrude a =? 0); [apply ok_inj in E1; subst; exact SF | exact (HX _ _ _ SF E1)]).
      destruct (ar_scale a) as [sc |]; [exact (HS _ _ _ S1 E2) | apply ok_inj in E2; subst; exact S1]. }
    unfold write_to, ic3_write in H. destruct (write_file v endian fm2) as ((x, r), fm3) eqn:WF. cbn [fst snd] in H. destruct r as [u' | e2]; [discriminate |]. injection H as <- H.
    destruct x as [g |]; [| exfalso; rewrite <- H in E; apply (f_equal (@List.length _)) in E; rewrite app_length in E; cbn in E; lia].
    assert (g = c).
    { rewrite E in H. clear -H N. induction fs as [| (k, y) fs IH]; cbn in H; [injection H as _ ->; reflexivity |]. cbn [dget] in N. destruct (String.eqb (path_str p) k) eqn:Q.
      - exfalso. apply (f_equal (@List.length _)) in H. cbn [List.length] in H. rewrite app_length in H. cbn in H. lia.
      - injection H as H. apply IH; [exact H |]. destruct (String.eqb s k); [discriminate | exact N]. }
    subst g. apply (C81_refused v endian fm2 c e2 fm3 integrity); [apply S2 | apply S2 | exact WF].
  Qed.
End Fail.

(** Concrete case: a mark of an unknown type.  The constructor accepts it; the file is opened and holds
    the counts and the faces when the exception is raised; the reader refuses what is left. *)
Definition odd_marks : dict string (mark Z) :=
  [("wall"%string, Mark Z "wall" (Some Gbdface) (Some "boundary"%string) (Some (ILrange 0 1)) None);
   ("out"%string, Mark Z "out" (Some Gbdface) (Some "outlet"%string) (Some (ILrange 2 3)) None)].
Example C81_case v : fmesh_typed (ex_fm odd_marks "A" "B") /\ safe_names (ex_fm odd_marks "A" "B") /\
  match write_file cgns_elem2faces (fun l => l) ex_i2d ex_f2i Little v "big" (ex_fm odd_marks "A" "B") with
  | (Some g, r, _) => r = Err AssertionError /\ (800 <= List.length g)%nat /\ read_mesh false g = Err TypeError
  | _ => False
  end.
Proof.
  split; [apply ex_typed; repeat constructor |]. split.
  - intros k I. cbn in I. repeat (destruct I as [<- | I]; [discriminate |]). destruct I.
  - destruct v; vm_compute; repeat split; repeat constructor.
Qed.
(** An unknown byte order: nothing is opened. *)
Example C81_case_order : write_file cgns_elem2faces (fun l => l) ex_i2d ex_f2i Little V2 "middle" (ex_fm ex_marks "A" "B") = (None, Err ValueError, ex_fm ex_marks "A" "B").
Proof. reflexivity. Qed.

Print Assumptions C81_outcome.
Print Assumptions C81_unopened.
Print Assumptions C81_refused.
Print Assumptions C81_command.
