(** * Opening HDF5 files: property C76. *)
From Coq Require Import ZArith List Bool String Lia.
From Verif Require Import Py PyFacts Mesh Vtk VtkSpec VtkProofs VtkMeshProps Hdf5 Hdf5Spec Hdf5Props Hdf5Open.

(** The kinds of data of cfdtools. *)
Definition kinds : list string := ["external"; "dataset"; "datalist"; "probes"; "cfdmesh"]%string.
Lemma kind_iff d : existsb (String.eqb d) available_types = true <-> In d kinds.
Proof.
  rewrite existsb_exists. split; [intros (x & I & E); apply String.eqb_eq in E; subst; exact I | intros I; exists d; split; [exact I | apply String.eqb_refl]].
Qed.

Section C76.
  Context {F V : Type}.
  Notation h5 := (h5 F V). Notation handle := (handle F V).
  Implicit Types (o : handle) (disk : option h5).

  (** A file that is created holds the version of cfdtools, the kind and the version of the data, and
      nothing else, whatever was there; with 'w-' and 'x' there was nothing. *)
  Theorem C76_created ver mode dt v o disk o' disk' : In mode ["w"; "w-"; "x"]%string ->
    h5_open ver mode dt v o disk = (Ok tt, o', disk') ->
    (mode <> "w"%string -> disk = None) /\
    exists d n, dt = Some d /\ In d kinds /\ v = Some n /\
      disk' = Some [([], Grp [("cfdtools_version", AStr ver); ("cfd_datatype", AStr d); ("data_version", AInt n)])]%string /\
      hd_mode o' = Some mode.
  Proof.
    intros M H. unfold h5_open in H. assert (E : existsb (String.eqb mode) ["w"; "w-"; "x"]%string = true).
    { apply existsb_exists. exists mode. split; [exact M | apply String.eqb_refl]. } rewrite E in H.
    assert (N : new_file ver mode dt v o = (Ok tt, o', disk') -> exists d n, dt = Some d /\ In d kinds /\ v = Some n /\
      disk' = Some [([], Grp [("cfdtools_version", AStr ver); ("cfd_datatype", AStr d); ("data_version", AInt n)])]%string /\ hd_mode o' = Some mode).
    { unfold new_file. intros Q. destruct dt as [d |]; [| discriminate]. destruct (existsb (String.eqb d) available_types) eqn:K; [| discriminate].
      destruct v as [n |]; [| discriminate]. injection Q as <- <-. exists d, n. repeat split. apply kind_iff. exact K. }
    destruct disk as [h |].
    - destruct (String.eqb_spec mode "w") as [-> | ?]; [| discriminate]. split; [congruence | exact (N H)].
    - split; [reflexivity | exact (N H)].
  Qed.

  (** With 'w' the previous content is lost in every case: when the kind of data is not known
      (AssertionError) the file is left empty, when the version is missing (RuntimeError) it only holds the
      version of cfdtools and the kind. *)
  Theorem C76_emptied ver dt v o disk e o' disk' : h5_open ver "w" dt v o disk = (Err e, o', disk') ->
    o' = o /\
    (e = AssertionError /\ disk' = Some [([], Grp [])] /\ (forall d, dt = Some d -> ~ In d kinds) \/
     e = RuntimeError /\ v = None /\ exists d, dt = Some d /\ In d kinds /\ disk' = Some [([], Grp [("cfdtools_version", AStr ver); ("cfd_datatype", AStr d)])]%string).
  Proof.
    intros H. assert (Q : new_file ver "w" dt v o = (Err e, o', disk')) by (destruct disk; exact H). clear H. unfold new_file in Q. destruct dt as [d |].
    - destruct (existsb (String.eqb d) available_types) eqn:K.
      + destruct v as [n |]; [discriminate |]. injection Q as <- <- <-. split; [reflexivity |]. right. split; [reflexivity |]. split; [reflexivity |].
        exists d. split; [reflexivity |]. split; [apply kind_iff; exact K | reflexivity].
      + injection Q as <- <- <-. split; [reflexivity |]. left. split; [reflexivity |]. split; [reflexivity |]. intros d' D I. injection D as ->. apply kind_iff in I. congruence.
    - injection Q as <- <- <-. split; [reflexivity |]. left. split; [reflexivity |]. split; [reflexivity |]. discriminate.
  Qed.

  (** 'w-' and 'x' leave an existing file alone. *)
  Theorem C76_exclusive ver mode dt v o h : In mode ["w-"; "x"]%string ->
    h5_open ver mode dt v o (Some h) = (Err FileExistsError, o, Some h).
  Proof. intros [<- | [<- | []]]; reflexivity. Qed.

  (** Reading changes nothing on disk; it succeeds exactly when the file exists and gives what its
      attributes say. *)
  Theorem C76_read ver mode dt v o disk : In mode ["r"; "r+"]%string ->
    match disk with
    | None => h5_open ver mode dt v o disk = (Err FileNotFoundError, o, None)
    | Some h => exists o', h5_open ver mode dt v o disk = (Ok tt, o', Some h) /\ hd_mode o' = Some mode /\
        (forall a, dget path_eqb [] h = Some (Grp a) ->
           hd_datatype o' = dget String.eqb "cfd_datatype" a /\ hd_cfdver o' = dget String.eqb "cfdtools_version" a /\
           (forall n, dget String.eqb "data_version" a = Some n -> hd_version o' = Some (Some n)) /\
           (dget String.eqb "data_version" a = None -> forall d, dget String.eqb "cfd_datatype" a = Some (AStr d) -> d <> ""%string -> hd_version o' = Some (Some (AInt 0))) /\
           (dget String.eqb "data_version" a = None -> dget String.eqb "cfd_datatype" a = None -> hd_version o' = Some None))
    end.
  Proof.
    intros M. assert (E : existsb (String.eqb mode) ["w"; "w-"; "x"]%string = false /\ existsb (String.eqb mode) ["r"; "r+"]%string = true).
    { destruct M as [<- | [<- | []]]; split; reflexivity. } destruct E as (E1 & E2).
    destruct disk as [h |]; unfold h5_open; rewrite E1, E2; [| reflexivity].
    unfold open_old. eexists. split; [reflexivity |]. cbn [hd_mode hd_datatype hd_cfdver hd_version]. split; [reflexivity |].
    intros a R. unfold root_attrs. rewrite R. split; [reflexivity |]. split; [reflexivity |]. split; [intros n ->; reflexivity |]. split.
    - intros -> d -> N. destruct d; [congruence | reflexivity].
    - intros -> ->. reflexivity.
  Qed.

  (** What is written is read back. *)
  Theorem C76_reopened ver ver2 mode dt v o disk o' disk' dt2 v2 o2 :
    In mode ["w"; "w-"; "x"]%string -> h5_open ver mode dt v o disk = (Ok tt, o', disk') ->
    exists o3 d n, h5_open ver2 "r" dt2 v2 o2 disk' = (Ok tt, o3, disk') /\ dt = Some d /\ v = Some n /\
      hd_datatype o3 = Some (AStr d) /\ hd_cfdver o3 = Some (AStr ver) /\ hd_version o3 = Some (Some (AInt n)).
  Proof.
    intros M H. destruct (C76_created _ _ _ _ _ _ _ _ M H) as (_ & d & n & -> & _ & -> & -> & _).
    eexists _, d, n. split; [reflexivity |]. repeat split.
  Qed.

  (** The mode 'a', which the documentation of [open] allows, is always refused; the file is created
      when there was none. *)
  Theorem C76_append ver dt v o disk : exists h, h5_open ver "a" dt v o disk = (Err RuntimeError, o, Some h) /\
    match disk with Some h0 => h = h0 | None => h = [([], Grp [])] end.
  Proof. destruct disk as [h |]; [exists h | exists [([], Grp [])]]; split; reflexivity. Qed.
  (** Any other mode is refused and changes nothing. *)
  Theorem C76_mode ver mode dt v o disk : ~ In mode ["r"; "r+"; "w"; "w-"; "x"; "a"]%string ->
    h5_open ver mode dt v o disk = (Err ValueError, o, disk).
  Proof.
    intros N. unfold h5_open.
    assert (E : forall s, In s ["r"; "r+"; "w"; "w-"; "x"; "a"]%string -> String.eqb mode s = false) by (intros s I; apply String.eqb_neq; intros ->; exact (N I)).
    cbn [existsb]. rewrite !E by (cbn; tauto). reflexivity.
  Qed.

  (** A file opened to be written reports the kind of data of the last one that the same object has read
      (none for a new object), not its own; and the first [printinfo] of such an object fails. *)
  Theorem C76_stale ver mode dt v o disk o' disk' : In mode ["w"; "w-"; "x"]%string ->
    h5_open ver mode dt v o disk = (Ok tt, o', disk') ->
    hd_datatype o' = hd_datatype o /\ (hd_h5ver o = None -> h5_printinfo o' = Err AttributeError).
  Proof.
    intros M H. assert (Q : new_file ver mode dt v o = (Ok tt, o', disk')).
    { unfold h5_open in H. assert (E : existsb (String.eqb mode) ["w"; "w-"; "x"]%string = true).
      { apply existsb_exists. exists mode. split; [exact M | apply String.eqb_refl]. } rewrite E in H.
      destruct disk; [destruct (String.eqb mode "w"); [exact H | discriminate] | exact H]. }
    unfold new_file in Q. destruct dt as [d |]; [| discriminate]. destruct (existsb _ _); [| discriminate]. destruct v as [n |]; [| discriminate].
    injection Q as <- _. split; [reflexivity |]. intros E. unfold h5_printinfo. cbn [hd_mode hd_h5ver]. rewrite E. reflexivity.
  Qed.
  (** After reading, [printinfo] shows the kind of data and the versions that the file gives, but not the
      version 0. *)
  Theorem C76_shown ver mode dt v o h o' disk' : In mode ["r"; "r+"]%string ->
    h5_open ver mode dt v o (Some h) = (Ok tt, o', disk') -> exists l, h5_printinfo o' = Ok l /\
      forall a, dget path_eqb [] h = Some (Grp a) ->
        (forall d, In (ShType (AStr d)) l <-> dget String.eqb "cfd_datatype" a = Some (AStr d) /\ d <> ""%string) /\
        (forall d, In (ShCfd (AStr d)) l <-> dget String.eqb "cfdtools_version" a = Some (AStr d) /\ d <> ""%string) /\
        (forall n, In (ShVersion (AInt n)) l <-> dget String.eqb "data_version" a = Some (AInt n) /\ n <> 0).
  Proof.
    intros M H. assert (E : existsb (String.eqb mode) ["w"; "w-"; "x"]%string = false /\ existsb (String.eqb mode) ["r"; "r+"]%string = true).
    { destruct M as [<- | [<- | []]]; split; reflexivity. } destruct E as (E1 & E2). unfold h5_open in H. rewrite E1, E2 in H. unfold open_old in H. injection H as <- _.
    eexists. split; [reflexivity |]. intros a R. unfold root_attrs. rewrite R.
    assert (SI : forall (sh : attr V -> shown F V) x y, (forall a b, sh a = sh b -> a = b) -> (In (sh y) (show_if sh x) <-> x = Some y /\ truthy y = true)).
    { intros sh x y IN. unfold show_if. destruct x as [x |]; [destruct (truthy x) eqn:T |].
      - split; [intros [Q | []]; apply IN in Q; subst; auto | intros (Q & _); injection Q as ->; left; reflexivity].
      - split; [intros [] | intros (Q & T'); injection Q as ->; congruence].
      - split; [intros [] | intros (Q & _); discriminate]. }
    assert (OT : forall (sh : attr V -> shown F V) x s, (forall a, sh a <> s) -> ~ In s (show_if sh x)).
    { intros sh x s N. unfold show_if. destruct x as [x |]; [destruct (truthy x); [| intros []] | intros []]. intros [Q | []]. exact (N _ Q). }
    assert (TS : forall d, truthy (AStr d : attr V) = true <-> d <> ""%string).
    { intros d. cbn. rewrite negb_true_iff. apply String.eqb_neq. }
    set (hv := match dget path_eqb [" hdf5version"%string] h with Some b => [ShH5 b] | None => [] end). cbn [hd_mode hd_datatype hd_cfdver hd_version].
    assert (HV : forall s, (forall b, ShH5 b <> s) -> ~ In s hv). { intros s N. unfold hv. destruct (dget path_eqb [" hdf5version"%string] h); [intros [Q | []]; exact (N _ Q) | intros []]. }
    split; [| split].
    - intros d. rewrite !in_app_iff. rewrite <- TS, <- (SI ShType) by (intros ? ? Q; injection Q; auto). split; [| tauto].
      intros [I | [I | [I | I]]]; [| | exact I |]; exfalso; revert I; [apply HV | apply OT | apply OT]; intros; discriminate.
    - intros d. rewrite !in_app_iff. rewrite <- TS, <- (SI ShCfd) by (intros ? ? Q; injection Q; auto). split; [| tauto].
      intros [I | [I | [I | I]]]; [| exact I | |]; exfalso; revert I; [apply HV | apply OT | apply OT]; intros; discriminate.
    - intros n. rewrite !in_app_iff. rewrite (SI ShVersion) by (intros ? ? Q; injection Q; auto). cbn [truthy]. rewrite negb_true_iff, Z.eqb_neq. split.
      + intros [I | [I | [I | I]]]; [exfalso; revert I; apply HV; discriminate | exfalso; revert I; apply OT; discriminate | exfalso; revert I; apply OT; discriminate |].
        destruct I as (I & N). split; [| exact N]. destruct (dget String.eqb "data_version" a) as [w |]; [exact I |]. destruct (dget String.eqb "cfd_datatype" a) as [[[| c s] | z | z] |]; congruence.
      + intros (I & N). rewrite I. auto.
  Qed.

  (** ** [dumphdf(name, overwrite=True)] *)
  Lemma run_foldM {A} (f : h5 -> A -> res h5) (l : list A) : forall h h', run_steps (List.map (fun a h => f h a) l) h = (Ok tt, h') <-> foldM f h l = Ok h'.
  Proof.
    induction l as [| a l IH]; intros h h'; cbn [List.map run_steps foldM]; [split; intros H; congruence |].
    destruct (f h a) as [h1 | e]; cbn [bind]; [apply IH | split; discriminate].
  Qed.
  Lemma run_keeps (P : h5 -> Prop) (l : list (h5 -> res h5)) : Forall (fun f => forall h h', P h -> f h = Ok h' -> P h') l -> forall h, P h -> P (snd (run_steps l h)).
  Proof.
    induction 1 as [| f l H _ IH]; intros h Ph; [exact Ph |]. cbn [run_steps]. destruct (f h) as [h' |] eqn:E; [exact (IH h' (H _ _ Ph E)) | exact Ph].
  Qed.

  (** The outcome and the file do not depend on what was there: the previous content is lost even if the
      dump fails.  It succeeds exactly when the dump of [C62_roundtrip] does, with the same content. *)
  Theorem C76_overwrite ver g disk :
    vtk_overwrite ver g disk = vtk_overwrite ver g None /\
    (forall h : h5, vtk_overwrite ver g disk = (Ok tt, Some h) <-> vtk_dumphdf ver g = Ok h).
  Proof.
    assert (E : vtk_overwrite ver g disk = vtk_overwrite ver g None) by (destruct disk; reflexivity). split; [exact E |]. intros h. rewrite E. unfold vtk_overwrite, vtk_dumphdf.
    change (h5_open ver "w" (Some "dataset"%string) (Some 1) new_handle None) with
      ((Ok tt : res unit), (Handle (Some "w"%string) None None None None : handle), (Some [([], Grp [("cfdtools_version", AStr ver); ("cfd_datatype", AStr "dataset"); ("data_version", AInt 1)])]%string : option h5)).
    change (open_new ver (Some "dataset"%string) (Some 1)) with (Ok [([], Grp [("cfdtools_version", AStr ver); ("cfd_datatype", AStr "dataset"); ("data_version", AInt 1)])]%string : res h5).
    cbn [bind]. destruct (cells_dict g) as [d | e]; cbn [bind]; [| split; discriminate].
    destruct (mapM _ d) as [cd | e]; cbn [bind]; [| split; discriminate].
    set (h0 := [([], Grp _)] : h5). clearbody h0. unfold write_unsmesh, unsmesh_steps. cbn [List.app run_steps].
    destruct (create_group h0 [] "/mesh") as [h1 | e]; cbn [bind]; [| split; discriminate].
    destruct (create_dataset _ ["mesh"%string] "nodes" _) as [h3 | e]; cbn [bind]; [| split; discriminate].
    destruct (create_group h3 ["mesh"%string] "cells") as [h4 | e]; cbn [bind]; [| split; discriminate].
    rewrite <- (run_foldM (fun h '(ctype, cellco) => create_dataset h ["mesh"; "cells"]%string ctype (CMat cellco))).
    replace (List.map (fun '(ctype, cellco) h => create_dataset h ["mesh"; "cells"]%string ctype (CMat cellco)) cd)
      with (List.map (fun a (h : h5) => let '(ctype, cellco) := a in create_dataset h ["mesh"; "cells"]%string ctype (CMat cellco)) cd)
      by (apply map_ext; intros (ct, cc); reflexivity).
    destruct (run_steps _ h4) as [r h5]. split; intros H; congruence.
  Qed.

  (** A cell of a type that VTK knows and cfdtools does not: KeyError, and nothing is left but the three
      attributes, whatever the file held. *)
  Theorem C76_lost ver (g : grid (list F)) cs disk : grid_of g cs ->
    Forall (fun c => dget Z.eqb (fst c) vtk_nnode <> None) cs -> Exists (fun c => ~ In (fst c) [3; 5; 9; 10; 14; 13; 12]) cs ->
    vtk_overwrite ver g disk = (Err KeyError, Some [([], Grp [("cfdtools_version", AStr ver); ("cfd_datatype", AStr "dataset"); ("data_version", AInt 1)])]%string).
  Proof.
    intros G K X. rewrite (proj1 (C76_overwrite ver g disk)). unfold vtk_overwrite.
    change (h5_open ver "w" (Some "dataset"%string) (Some 1) new_handle None) with
      ((Ok tt : res unit), (Handle (Some "w"%string) None None None None : handle), (Some [([], Grp [("cfdtools_version", AStr ver); ("cfd_datatype", AStr "dataset"); ("data_version", AInt 1)])]%string : option h5)).
    cbv iota beta.
    match goal with |- (match ?x with Ok _ => _ | Err _ => _ end) = _ => assert (Q : x = Err KeyError) end; [| rewrite Q; reflexivity].
    unfold cells_dict. rewrite (grid_enc _ _ G), split_enc by apply enc_len_ge. cbn [bind]. rewrite (go_types _ _ G).
    set (rows := combine (List.map fst cs) (List.map snd cs)). clearbody rows.
    assert (U : forall t, In t (np_unique (List.map fst cs)) -> dget Z.eqb t vtk_nnode <> None).
    { intros t I. rewrite np_unique_in in I. apply in_map_iff in I. destruct I as (c & <- & I). rewrite Forall_forall in K. exact (K c I). }
    assert (B : exists t, In t (np_unique (List.map fst cs)) /\ ~ In t [3; 5; 9; 10; 14; 13; 12]).
    { apply Exists_exists in X. destruct X as (c & I & N). exists (fst c). split; [rewrite np_unique_in; apply in_map; exact I | exact N]. }
    revert U B. generalize (np_unique (List.map fst cs)). intros l. clear.
    assert (KE : forall t, ~ In t [3; 5; 9; 10; 14; 13; 12] <-> dget_err Z.eqb t ele_vtktype = Err KeyError).
    { intros t. unfold dget_err. change ele_vtktype with [(3, "bar2"); (5, "tri3"); (9, "quad4"); (10, "tetra4"); (14, "pyra5"); (13, "prism6"); (12, "hexa8")]%string. cbn [dget In].
      repeat match goal with |- context [t =? ?k] => destruct (Z.eqb_spec t k); [subst; split; [intros N; exfalso; apply N; tauto | discriminate] |] end. split; [reflexivity | intros _; intuition]. }
    assert (KO : forall t, In t [3; 5; 9; 10; 14; 13; 12] -> exists e, dget_err Z.eqb t ele_vtktype = Ok e).
    { intros t [<- | [<- | [<- | [<- | [<- | [<- | [<- | []]]]]]]]; eexists; reflexivity. }
    intros U (t & I & N).
    assert (M : exists d, mapM (fun t => match dget Z.eqb t vtk_nnode with None => Err ValueError
      | Some n => Ok (t, Mat (Some (Z.to_nat n)) (List.map snd (filter (fun c => fst c =? t) rows))) end) l = Ok d /\ In t (List.map fst d)).
    { clear N. induction l as [| a l IH]; [destruct I |]. cbn [mapM]. destruct (dget Z.eqb a vtk_nnode) as [n |] eqn:E; [| destruct (U a (or_introl eq_refl) E)]. cbn [bind].
      assert (T : exists d, mapM (fun t => match dget Z.eqb t vtk_nnode with None => Err ValueError
        | Some n => Ok (t, Mat (Some (Z.to_nat n)) (List.map snd (filter (fun c => fst c =? t) rows))) end) l = Ok d).
      { assert (U' : forall t, In t l -> dget Z.eqb t vtk_nnode <> None) by (intros t' I'; apply U; right; exact I'). clear -U'. induction l as [| b l IH]; [eexists; reflexivity |]. cbn [mapM].
        destruct (dget Z.eqb b vtk_nnode) as [n |] eqn:E; [| destruct (U' b (or_introl eq_refl) E)]. cbn [bind]. destruct IH as (d & ->); [intros; apply U'; right; assumption |]. eexists. reflexivity. }
      destruct I as [<- | I].
      - destruct T as (d & ->). cbn [bind]. eexists. split; [reflexivity | left; reflexivity].
      - destruct IH as (d & -> & J); [intros t' I'; apply U; right; exact I' | exact I |]. cbn [bind]. eexists. split; [reflexivity | right; exact J]. }
    destruct M as (d & -> & J). cbn [bind]. clear -KE KO J N. induction d as [| (a, m) d IH]; [destruct J |]. cbn [mapM].
    destruct (in_dec Z.eq_dec a [3; 5; 9; 10; 14; 13; 12]) as [Q | Q].
    - destruct (KO a Q) as (e & ->). cbn [bind]. destruct J as [<- | J]; [contradiction |]. rewrite (IH J). reflexivity.
    - rewrite (proj1 (KE a) Q). reflexivity.
  Qed.
End C76.
Print Assumptions C76_created.
Print Assumptions C76_emptied.
Print Assumptions C76_exclusive.
Print Assumptions C76_read.
Print Assumptions C76_reopened.
Print Assumptions C76_append.
Print Assumptions C76_mode.
Print Assumptions C76_stale.
Print Assumptions C76_shown.
Print Assumptions C76_overwrite.
Print Assumptions C76_lost.

(** A list of data is replaced: with a kind of data that is not known, everything in it is lost. *)
Definition c76_disk : h5 Z Z := [([], Grp [("cfd_datatype", AStr "datalist"); ("cfdtools_version", AStr "0.5")]); (["mesh"], Grp [("meshtype", AStr "unsmesh")])]%string.
Example c76_emptied : h5_open "0.6" "w" (Some "mesh"%string) (Some 1) new_handle (Some c76_disk) = (Err AssertionError, new_handle, Some [([], Grp [])]).
Proof. reflexivity. Qed.
(** Read (version 0 by default), then written with the same object, which still says "datalist". *)
Example c76_stale : match h5_open "0.6" "r" None None new_handle (Some c76_disk) with
  | (_, o, disk) => match h5_open "0.6" "w" (Some "probes"%string) (Some 2) o disk with
                    | (r, o', disk') => (hd_version o, h5_printinfo o, r, hd_datatype o', h5_printinfo o')
                    end
  end = (Some (Some (AInt 0)), Ok [ShCfd (AStr "0.5"); ShType (AStr "datalist")], Ok tt, Some (AStr "datalist"), Ok [ShCfd (AStr "0.5"); ShType (AStr "datalist")])%string.
Proof. reflexivity. Qed.
(** A grid with a pixel (type 8): the file is lost. *)
Example c76_lost : exists g cs, @grid_of (list Z) g cs /\ Forall (fun c => dget Z.eqb (fst c) vtk_nnode <> None) cs /\ Exists (fun c => ~ In (fst c) [3; 5; 9; 10; 14; 13; 12]) cs /\
  fst (vtk_overwrite "0.6" g (Some c76_disk)) = Err KeyError.
Proof.
  exists (Grid _ [4; 0; 1; 2; 3] [0; 4] [8] [[0; 0; 0]; [1; 0; 0]; [0; 1; 0]; [1; 1; 0]]), [(8, [0; 1; 2; 3])]. split; [| split; [| split]].
  - split; try reflexivity. intros k Hk. cbn in Hk. do 2 (destruct k as [| k]; [reflexivity |]). lia.
  - repeat constructor. discriminate.
  - constructor. cbn. intuition discriminate.
  - reflexivity.
Qed.
