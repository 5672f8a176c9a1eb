(** * IC3 section headers and section search: properties C30 to C33. *)
From Coq Require Import Lia.
From Verif Require Import Py PyFacts Ic3Bytes Ic3BytesProofs Ic3 Ic3HeaderSpec Ic3HeaderProofs Ic3FuelProofs.

(** C30: a header that can be written takes 256 bytes and is read back with the same name (cut), id,
    skip, integers and reals, wherever it lies in a file, in either byte order. *)
Theorem C30_header_roundtrip o h : header_arrays h -> packable h ->
  exists b, write_header o h = Ok b /\ zlen b = 256 /\
    forall pre post ids fuel, ~ deof (h_name h) -> In (h_id h) ids ->
      read_var (S fuel) (pre ++ b ++ post) o ids 0 (zlen pre) =
      Ok (Some (Hdr (cut_name (h_name h)) (h_id h) (h_skip h) (h_idata h) (h_rdata h)), zlen pre + 256).
Proof.
  intros A P. destruct (write_header_total o h A P) as (b & W). exists b.
  destruct (write_header_ok o h b W A) as (_ & _ & (L & N & H)).
  split; [exact W | split; [exact L |]]. intros pre post ids fuel D I.
  cbn [read_var]. change (0 <? 0) with false. cbn iota beta. rewrite <- L, rd_at, N. cbn [bind cut_header h_name].
  rewrite not_deof by (intros S; apply (proj1 (deof_cut _)) in S; exact (D S)).
  cbn [cut_header h_name] in H. rewrite H. cbn [cut_header h_id]. rewrite (proj2 (zmem_in _ _) I). reflexivity.
Qed.
(** Names of at most 52 ASCII characters are kept, longer ones are cut to 52. *)
Theorem C30_names s :
  (good_name s -> cut_name s = s) /\
  ((forall c, In c (list_ascii_of_string s) -> c <> Ascii.zero) -> cut_name s = String.substring 0 52 s).
Proof. split; [apply good_cut | apply cut_at_substring]. Qed.
(** Anything else is refused. *)
Theorem C30_refused o h : ~ packable h -> write_header o h = Err StructError.
Proof. exact (write_header_err o h). Qed.
Print Assumptions C30_header_roundtrip.
Print Assumptions C30_names.
Print Assumptions C30_refused.

Definition h0 : header := Hdr "STEP" I0 256 [7; -1; 0; 0; 0; 0; 0; 2 ^ 63 - 1] (4607182418800017408 :: repeat 0 15).
Example h0_arrays : header_arrays h0.
Proof. split; [reflexivity | split; [reflexivity |]]. repeat constructor; unfold pattern; lia. Qed.
Example h0_packable : packable h0.
Proof.
  split; [cbn; unfold ascii_char; cbn; repeat split; lia |].
  split; [split; vm_compute; congruence | split; [split; vm_compute; congruence |]].
  repeat constructor; vm_compute; congruence.
Qed.
Example h0_not_packable : ~ packable (Hdr "STEP" (2 ^ 31) 256 (h_idata h0) (h_rdata h0)).
Proof. intros (_ & H & _). vm_compute in H. destruct H as (_ & H). discriminate H. Qed.

(** C31: in a file made of 8 bytes and written sections, the search for [ids] finds the first section
    whose id is in [ids], whatever sections and payloads precede it, and stops just after its header. *)
Theorem C31_found o ids l h b load m post : zlen m = 8 ->
  Forall (fun '(h, b, load) => written o h b load /\ ~ deof (h_name h) /\ h_id h <> EOF /\ ~ In (h_id h) ids) l ->
  written o h b load -> ~ deof (h_name h) -> In (h_id h) ids ->
  let before := List.concat (List.map (fun '(_, b, load) => b ++ load) l) in
  find_var (m ++ before ++ b ++ load ++ post) o ids =
  Ok (Some (Hdr (cut_name (h_name h)) (h_id h) (h_skip h) (h_idata h) (h_rdata h)), 8 + zlen before + 256).
Proof.
  intros M F W D I before. unfold find_var. rewrite <- M. apply (search_found o ids l h b load); try assumption.
  unfold fuel_of. rewrite !app_length. fold before. assert (L : (List.length l <= List.length before)%nat).
  { unfold before. clear -F. induction F as [| ((h, b), load) l (W & _) _ IH]; [reflexivity |].
    cbn [List.map List.concat List.length]. rewrite !app_length. destruct W as (A & W & _).
    apply write_header_ok in W; [| exact A]. destruct W as (_ & _ & (L & _)). unfold zlen in L. lia. }
  lia.
Qed.
(** The same from any section boundary ([reset_offset=False]). *)
Theorem C31_found_from o ids l h b load pre post :
  Forall (fun '(h, b, load) => written o h b load /\ ~ deof (h_name h) /\ h_id h <> EOF /\ ~ In (h_id h) ids) l ->
  written o h b load -> ~ deof (h_name h) -> In (h_id h) ids ->
  let before := List.concat (List.map (fun '(_, b, load) => b ++ load) l) in
  let f := pre ++ before ++ b ++ load ++ post in
  read_var (fuel_of f) f o ids 0 (zlen pre) =
  Ok (Some (Hdr (cut_name (h_name h)) (h_id h) (h_skip h) (h_idata h) (h_rdata h)), zlen pre + zlen before + 256).
Proof.
  intros F W D I before f. apply (search_found o ids l h b load); try assumption.
  unfold f, fuel_of. rewrite !app_length. fold before. assert (L : (List.length l <= List.length before)%nat).
  { unfold before. clear -F. induction F as [| ((h, b), load) l (W & _) _ IH]; [reflexivity |].
    cbn [List.map List.concat List.length]. rewrite !app_length. destruct W as (A & W & _).
    apply write_header_ok in W; [| exact A]. destruct W as (_ & _ & (L & _)). unfold zlen in L. lia. }
  lia.
Qed.
(** If the EOF section (or a name in DEOF) comes first the search fails; a required one raises. *)
Theorem C31_not_found o ids l h b load m post : zlen m = 8 ->
  Forall (fun '(h, b, load) => written o h b load /\ ~ deof (h_name h) /\ h_id h <> EOF /\ ~ In (h_id h) ids) l ->
  written o h b load -> deof (h_name h) \/ h_id h = EOF -> ~ In EOF ids ->
  let f := m ++ List.concat (List.map (fun '(_, b, load) => b ++ load) l) ++ b ++ load ++ post in
  (exists p, find_var f o ids = Ok (None, p)) /\ find_req f o ids = Err RuntimeError.
Proof.
  intros M F W D I f.
  assert (Q : exists p, find_var f o ids = Ok (None, p)).
  { unfold find_var. rewrite <- M. apply (search_none o ids l h b load); try assumption.
    unfold fuel_of, f. rewrite !app_length. set (before := List.concat _).
    assert (L : (List.length l <= List.length before)%nat).
    { unfold before. clear -F. induction F as [| ((h, b), load) l (W & _) _ IH]; [reflexivity |].
      cbn [List.map List.concat List.length]. rewrite !app_length. destruct W as (A & W & _).
      apply write_header_ok in W; [| exact A]. destruct W as (_ & _ & (L & _)). unfold zlen in L. lia. }
    lia. }
  split; [exact Q |]. destruct Q as (p & Q). unfold find_req. rewrite Q. reflexivity.
Qed.
Print Assumptions C31_found.
Print Assumptions C31_found_from.
Print Assumptions C31_not_found.

(** Two sections, the second one searched. *)
Definition b0 : list Z := match write_header Little h0 with Ok b => b | Err _ => [] end.
Definition h1' : header := Hdr "X" X_NO (256 + 3) (repeat 0 8) (repeat 0 16).
Definition b1 : list Z := match write_header Little h1' with Ok b => b | Err _ => [] end.
Example c31_case :
  Forall (fun '(h, b, load) => written Little h b load /\ ~ deof (h_name h) /\ h_id h <> EOF /\ ~ In (h_id h) [I0])
    [(h1', b1, [1; 2; 3])] /\ written Little h0 b0 [] /\ ~ deof (h_name h0) /\ In (h_id h0) [I0] /\
  find_var (repeat 0 8 ++ (b1 ++ [1; 2; 3]) ++ b0) Little [I0] = Ok (Some h0, 8 + 259 + 256).
Proof.
  assert (A : header_arrays h1') by (split; [reflexivity | split; [reflexivity |]]; repeat constructor; unfold pattern; lia).
  assert (W1 : written Little h1' b1 [1; 2; 3]) by (split; [exact A | split; [vm_compute; reflexivity | reflexivity]]).
  assert (W0 : written Little h0 b0 []) by (split; [exact h0_arrays | split; [vm_compute; reflexivity | reflexivity]]).
  split; [| split; [exact W0 | split; [discriminate | split; [left; reflexivity | vm_compute; reflexivity]]]].
  constructor; [| constructor].
  split; [exact W1 | split; [discriminate | split; [discriminate |]]]. intros [Q | []]; discriminate Q.
Qed.

(** C32: whatever the bytes, reading the headers or the whole file gives a result or an exception. *)
Theorem C32_read_headers_terminates f : read_headers f <> Err OutOfFuel.
Proof. exact (read_headers_stops f). Qed.
Theorem C32_read_data_terminates integrity f : read_data integrity f <> Err OutOfFuel.
Proof. exact (read_data_stops integrity f). Qed.
(** A single search never goes back: it ends after the position where it began. *)
Theorem C32_search_advances f o ids p h p' : 0 <= p ->
  read_var (fuel_of f) f o ids 0 p = Ok (h, p') -> p + 256 <= p' <= zlen f.
Proof. exact (at_pos f o ids p h p'). Qed.
Print Assumptions C32_read_headers_terminates.
Print Assumptions C32_read_data_terminates.
Print Assumptions C32_search_advances.
(** A chain of sections with skip 0 or -1000 ends too. *)
Example c32_case :
  let z := match write_header Big (Hdr "A" 99 (-1000) (repeat 0 8) (repeat 0 16)) with Ok b => b | Err _ => [] end in
  find_var (repeat 0 8 ++ z ++ z) Big [I0] = Err TypeError.
Proof. vm_compute. reflexivity. Qed.

(** C33: the reader recovers the byte order and the version of a file. *)
Theorem C33_order_and_version o v b post : int32 v -> binary_write o Ci 2 [MAGIC; v] = Ok b ->
  read_restart_header (b ++ post) = Ok (o, v).
Proof. exact (restart_header_read o v b post). Qed.
(** Each name of a byte order accepted by the writers is one of the two; others raise ValueError. *)
Theorem C33_endian_names host s o : order_of host s = Ok o <->
  s = "native" /\ o = host \/ s = "little" /\ o = Little \/ s = "big" /\ o = Big.
Proof.
  unfold order_of. destruct (String.eqb_spec s "native") as [-> |]; [| destruct (String.eqb_spec s "little") as [-> |];
    [| destruct (String.eqb_spec s "big") as [-> |]]]; split; intros H; try (inversion H; subst; tauto);
    decompose [and or] H; subst; try reflexivity; try discriminate; try congruence.
Qed.
Theorem C33_unknown_endian host s : s <> "native" -> s <> "little" -> s <> "big" -> order_of host s = Err ValueError.
Proof.
  intros A B C. unfold order_of. rewrite (proj2 (String.eqb_neq _ _) A), (proj2 (String.eqb_neq _ _) B), (proj2 (String.eqb_neq _ _) C).
  reflexivity.
Qed.
Print Assumptions C33_order_and_version.
Print Assumptions C33_endian_names.
Print Assumptions C33_unknown_endian.
Example c33_case : exists b, binary_write Little Ci 2 [MAGIC; 3] = Ok b /\ read_restart_header b = Ok (Little, 3).
Proof. eexists. split; [reflexivity | vm_compute; reflexivity]. Qed.
