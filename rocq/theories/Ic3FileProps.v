(** * Properties of IC3 files, C34 to C37. *)
From Coq Require Import ZArith List Bool String Lia Permutation.
From Verif Require Import Py PyFacts Data Elements Conn ConnSpec Mesh MeshSpec Ic3Bytes Ic3 Ic3HeaderSpec Ic3HeaderProofs Ic3FileSpec Ic3PartsProofs Ic3BodyProofs Ic3RoundProofs Ic3RoundSpec Ic3FileThm Ic3StopProofs.

Lemma marks_end_is m zs nb : zone_marks m = zs -> mark_ranges zs -> Permutation (mark_faces zs) (zrange 0 nb) -> 1 <= nb -> marks_end m = nb - 1.
Proof.
  intros <- MR PM NB. unfold marks_end.
  assert (UP : forall x, In x (mark_faces (zone_marks m)) -> x <= nb - 1).
  { intros x I. apply (Permutation_in _ PM) in I. apply in_zrange in I. lia. }
  assert (RE : exists x, In x (mark_faces (zone_marks m)) /\ x = nb - 1).
  { exists (nb - 1). split; [| reflexivity]. eapply Permutation_in; [symmetry; exact PM |]. apply in_zrange. lia. }
  clear PM. revert MR UP RE. generalize (zone_marks m). intros d MR UP (x & I & E).
  assert (U : fold_right Z.max 0 (flat_map (fun '((_, b) : string * mark Z) => match mk_index b with Some (ILrange _ hi) => [hi] | _ => [] end) d) <= nb - 1 /\
    forall y, In y (mark_faces d) -> y <= fold_right Z.max 0 (flat_map (fun '((_, b) : string * mark Z) => match mk_index b with Some (ILrange _ hi) => [hi] | _ => [] end) d)).
  { clear x I E. induction d as [| (k, b) d IH]; [split; [cbn; lia | intros y []] |].
    inversion MR as [| ? ? Q MR']; subst. cbn in Q. destruct Q as (lo & hi & E & LH). cbn [mark_faces flat_map] in *. rewrite E in *. cbn [entries app fold_right] in *.
    destruct (IH MR') as (A & B); [intros y Y; apply UP; apply in_or_app; right; exact Y |].
    assert (Q : hi <= nb - 1) by (apply UP; apply in_or_app; left; apply in_zrange; lia). split; [lia |].
    intros y Y. apply in_app_or in Y. destruct Y as [Y | Y]; [apply in_zrange in Y; lia | apply B in Y; lia]. }
  destruct U as (A & B). specialize (B x I). lia.
Qed.

Section Props.
  (** Conversions between integers and floats, whatever they are. *)
  Context (i2d : Z -> Z) (f2i : Z -> res Z).
  Hypothesis patterns : forall n, pattern (i2d n).

  (** C34: what is written is read.  [fm'] is the mesh that the writer leaves, with the faces numbered
      as in the file. *)
  Theorem C34_round_trip tbl enum host v endian fm f fm' ls rows :
    write_mesh tbl enum i2d f2i host v endian fm = (Ok f, fm') -> fmesh_typed fm' ->
    file_mesh v fm' ls rows -> located fm' ls ->
    exists fm2, (forall integrity, read_mesh integrity f = Ok fm2) /\ read_as i2d f2i v fm' fm2 ls rows.
  Proof using patterns.
    intros H T M L. destruct (write_mesh_data _ _ _ _ _ _ _ _ _ _ H) as (o & w & _ & W & WD).
    exact (round_trip i2d f2i v o fm' ls rows w f patterns T M L W WD).
  Qed.

  (** C35: a file cut anywhere is refused, with an exception of the code. *)
  Theorem C35_truncated tbl enum host v endian fm f fm' integrity g t :
    write_mesh tbl enum i2d f2i host v endian fm = (Ok f, fm') -> fmesh_typed fm' ->
    Forall (fun k => ~ deof k) (mesh_names fm') -> f = g ++ t -> t <> [] ->
    exists e, read_mesh integrity g = Err e /\ e <> OutOfFuel.
  Proof using patterns. exact (write_mesh_cut tbl enum i2d f2i host v endian fm f fm' integrity g t patterns). Qed.

  (** C36: a node variable, then a cell variable, whose name starts with DEOF: the file reads as if it
      contained only what lies before that variable. *)
  Theorem C36_node_variable tbl enum host v endian fm f fm' ls rows d1 k a d2 :
    write_mesh tbl enum i2d f2i host v endian fm = (Ok f, fm') -> fmesh_typed fm' ->
    fd_items (fm_nodes fm') = d1 ++ (k, a) :: d2 -> deof k -> one_dim a = true ->
    Forall (fun '(_, a) => usual_shape a) (fd_items (fm_nodes fm')) ->
    file_mesh v (data_only fm' (FDict (scalars_of d1)) (FDict [])) ls rows ->
    exists fm2, (forall integrity, read_mesh integrity f = Ok fm2) /\
      read_as i2d f2i v (data_only fm' (FDict (scalars_of d1)) (FDict [])) fm2 ls rows.
  Proof using patterns.
    intros H T E D O U M. destruct (write_mesh_data _ _ _ _ _ _ _ _ _ _ H) as (o & w & _ & W & WD).
    destruct (writer_state_ok _ _ W) as (_ & _ & _ & _ & _ & _ & _ & _ & _ & _ & _ & _ & _ & _ & _ & _ & _ & _ & _ & _ & _ & E13 & _).
    assert (TN : data_typed (fd_items (fm_nodes fm'))) by apply T.
    destruct (node_vars i2d f2i v w d1 k a d2) as (s & ss2 & EV & EN); try (rewrite E13; assumption); try assumption.
    refine (stop_at i2d f2i v o fm' ls rows w f _ _ s ss2 patterns T _ M (or_introl eq_refl) W WD EV _); [| rewrite EN; exact D].
    destruct T as (A1 & A2 & A3 & A4 & A5 & A6 & A7 & A8). unfold fmesh_typed, data_only.
    cbn [fm_mesh fm_params fm_nodes fm_cells fd_items]. do 5 (split; [assumption |]). split; [| split; [constructor | exact I]].
    unfold data_typed in *. rewrite E, Forall_app in A6. destruct A6 as (A6 & _). rewrite Forall_forall in *. intros x X. apply filter_In in X. apply A6, X.
  Qed.
  Theorem C36_cell_variable tbl enum host v endian fm f fm' ls rows d1 k a d2 :
    write_mesh tbl enum i2d f2i host v endian fm = (Ok f, fm') -> fmesh_typed fm' ->
    fd_items (fm_cells fm') = d1 ++ (k, a) :: d2 -> deof k -> one_dim a = true ->
    Forall (fun '(_, a) => usual_shape a) (fd_items (fm_cells fm')) ->
    let left := data_only fm' (fm_nodes fm') (refill (fm_cells fm') (scalars_of d1)) in
    file_mesh v left ls rows -> located left ls ->
    exists fm2, (forall integrity, read_mesh integrity f = Ok fm2) /\ read_as i2d f2i v left fm2 ls rows.
  Proof using patterns.
    intros H T E D O U left M L. destruct (write_mesh_data _ _ _ _ _ _ _ _ _ _ H) as (o & w & _ & W & WD).
    destruct (writer_state_ok _ _ W) as (_ & _ & _ & _ & _ & _ & _ & _ & _ & _ & _ & _ & _ & _ & _ & _ & _ & _ & _ & _ & _ & E13 & E14).
    assert (TN : data_typed (fd_items (fm_cells fm'))) by apply T.
    destruct (cell_vars i2d f2i v w d1 k a d2) as (s & ss2 & EV & EN); try (rewrite E14; assumption); try assumption.
    rewrite E13, E14 in EV.
    refine (stop_at i2d f2i v o fm' ls rows w f _ _ s ss2 patterns T _ M L W WD EV _); [| rewrite EN; exact D].
    destruct T as (A1 & A2 & A3 & A4 & A5 & A6 & A7 & A8). unfold fmesh_typed, data_only.
    cbn [fm_mesh fm_params fm_nodes fm_cells]. do 6 (split; [assumption |]). rewrite fd_refill. split.
    - unfold data_typed in *. rewrite E, Forall_app in A7. destruct A7 as (A7 & _). rewrite Forall_forall in *. intros x X. apply filter_In in X. apply A7, X.
    - destruct (fm_cells fm'); [exact I | exact A8].
  Qed.
  (** A mark with such a name makes the whole file unreadable, although it was written. *)
  Theorem C36_mark tbl enum host v endian fm f fm' integrity :
    write_mesh tbl enum i2d f2i host v endian fm = (Ok f, fm') -> fmesh_typed fm' ->
    Exists deof (List.map fst (zone_marks (fm_mesh fm'))) ->
    exists e, read_mesh integrity f = Err e /\ e <> OutOfFuel.
  Proof using patterns.
    intros H T D. destruct (write_mesh_data _ _ _ _ _ _ _ _ _ _ H) as (o & w & _ & W & WD).
    destruct (writer_state_typed i2d fm' w patterns T W) as (TW & _).
    destruct (writer_state_ok _ _ W) as (_ & _ & _ & _ & _ & _ & _ & _ & _ & _ & _ & _ & _ & _ & _ & E7 & _).
    unfold read_mesh. destruct (read_data integrity f) as [r | e] eqn:R.
    - exfalso. refine (mark_stops i2d f2i v o w f integrity r TW WD _ R). rewrite E7. exact D.
    - exists e. split; [reflexivity |]. intros ->. exact (Ic3FuelProofs.read_data_stops integrity f R).
  Qed.

  (** C37: marks that share out the faces 0..nb-1 become, with the internal zone, zones that share out
      all the faces. *)
  Theorem C37_zones tbl enum host v endian fm f fm' ls rows nb :
    write_mesh tbl enum i2d f2i host v endian fm = (Ok f, fm') -> fmesh_typed fm' ->
    file_mesh v fm' ls rows -> located fm' ls ->
    mark_ranges (zone_marks (fm_mesh fm')) -> Permutation (mark_faces (zone_marks (fm_mesh fm'))) (zrange 0 nb) -> 1 <= nb ->
    exists fm2, (forall integrity, read_mesh integrity f = Ok fm2) /\
      Permutation (mark_faces (me_bocos (fm_mesh fm2))) (zrange 0 (me_nface (fm_mesh fm'))) /\
      List.map fst (me_bocos (fm_mesh fm2)) = List.map fst (zone_marks (fm_mesh fm')) ++ ["internal-domain"%string].
  Proof using patterns.
    intros H T M L MR PM NB. destruct (C34_round_trip _ _ _ _ _ _ _ _ _ _ H T M L) as (fm2 & RD & RA).
    exists fm2. split; [exact RD |]. rewrite (ra_marks _ _ _ _ _ _ _ RA), (fi_nface _ _ _ _ M), map_app, map_map. split; [| reflexivity].
    assert (ME : marks_end (fm_mesh fm') = nb - 1).
    { apply marks_end_is with (zs := zone_marks (fm_mesh fm')); try assumption; reflexivity. }
    assert (NF : nb <= zlen ls).
    { assert (I : In (nb - 1) (mark_faces (zone_marks (fm_mesh fm')))) by (eapply Permutation_in; [symmetry; exact PM |]; apply in_zrange; lia).
      apply in_flat_map in I. destruct I as ((k, b) & IB & I). unfold mark_ranges in MR. rewrite Forall_forall in MR.
      destruct (MR _ IB) as (lo & hi & E & _). rewrite E in I. cbn [entries] in I. apply in_zrange in I.
      destruct (fi_zones _ _ _ _ M k b lo hi IB E). lia. }
    unfold mark_faces. rewrite flat_map_app. cbn [flat_map mk_index entries]. rewrite app_nil_r, ME.
    replace (nb - 1 + 1) with nb by lia. replace (zlen ls - 1 + 1) with (zlen ls) by lia.
    rewrite (zrange_app 0 nb (zlen ls)) by lia. apply Permutation_app_tail. rewrite <- PM. unfold mark_faces.
    rewrite flat_map_concat_map, map_map, <- flat_map_concat_map.
    erewrite flat_map_ext; [reflexivity |]. intros (k, b). reflexivity.
  Qed.
  (** Without any mark the internal zone begins at face 1: face 0 is in no zone. *)
  Theorem C37_no_mark tbl enum host v endian fm f fm' ls rows :
    write_mesh tbl enum i2d f2i host v endian fm = (Ok f, fm') -> fmesh_typed fm' ->
    file_mesh v fm' ls rows -> located fm' ls -> zone_marks (fm_mesh fm') = [] ->
    exists fm2, (forall integrity, read_mesh integrity f = Ok fm2) /\
      mark_faces (me_bocos (fm_mesh fm2)) = zrange 1 (me_nface (fm_mesh fm')).
  Proof using patterns.
    intros H T M L NM. destruct (C34_round_trip _ _ _ _ _ _ _ _ _ _ H T M L) as (fm2 & RD & RA).
    exists fm2. split; [exact RD |]. rewrite (ra_marks _ _ _ _ _ _ _ RA), (fi_nface _ _ _ _ M), NM. unfold marks_end. rewrite NM.
    cbn [List.map app flat_map fold_right mark_faces mk_index entries]. rewrite app_nil_r. f_equal. lia.
  Qed.
End Props.
Print Assumptions C34_round_trip.
Print Assumptions C35_truncated.
Print Assumptions C36_node_variable.
Print Assumptions C36_cell_variable.
Print Assumptions C36_mark.
Print Assumptions C37_zones.
Print Assumptions C37_no_mark.

(** ** Concrete meshes *)
(** Two triangles that share an edge; the faces are bars, numbered with the boundary first. *)
Definition ex_ls : list (list Z) := [[0; 1]; [2; 0]; [1; 3]; [3; 2]; [1; 2]].
Definition ex_rows : list (list Z) := [[0; -1]; [0; -1]; [1; -1]; [1; -1]; [0; 1]].
Definition ex_marks : dict string (mark Z) :=
  [("wall"%string, Mark Z "wall" (Some Gbdface) (Some "boundary"%string) (Some (ILrange 0 1)) None);
   ("out"%string, Mark Z "out" (Some Gbdface) (Some "boundary"%string) (Some (ILrange 2 3)) None)].
Definition ex_mesh (marks : dict string (mark Z)) : mesh Z :=
  Mesh Z 2 4 5 None
    [("mixed"%string, FaceSet (EC 5 [("bar2"%string, ED (ILrange 0 4) (Mat (Some 2%nat) ex_ls))]) (Some (Some (Mat (Some 2%nat) ex_rows))))]
    [("x"%string, [1; 2; 3; 4]); ("y"%string, [5; 6; 7; 8]); ("z"%string, [0; 0; 0; 2 ^ 63])] marks.
Definition ex_fm (marks : dict string (mark Z)) (k1 k2 : string) : fmesh :=
  FM (ex_mesh marks) (FSet (DS "instant" "cellaverage" 1 [] [("P"%string, Arr [2] false [10; 11]); (k2, Arr [2] true [1; 2]); ("U"%string, Arr [2; 3] false [1; 2; 3; 4; 5; 6])]))
     (FDict [("T"%string, Arr [4] false [20; 21; 22; 23]); (k1, Arr [4] false [30; 31; 32; 33]); ("S"%string, Arr [4] false [40; 41; 42; 43])])
     [("step"%string, SNum (NInt 7)); ("dt"%string, SNum (NFlt 5))] None.
Definition ex_i2d (n : Z) : Z := n mod 2 ^ 64.
Definition ex_f2i (p : Z) : res Z := Err OverflowError.
Definition ex_write (v : version) (fm : fmesh) : res (list Z) * fmesh :=
  write_mesh cgns_elem2faces (fun l => l) ex_i2d ex_f2i Little v "big" fm.

Lemma ex_patterns n : pattern (ex_i2d n).
Proof. apply Z.mod_pos_bound. reflexivity. Qed.
Ltac pats := repeat (apply Forall_cons; [unfold pattern; lia |]); apply Forall_nil.
Lemma ex_typed marks k1 k2 : Forall (fun '(_, b) => mark_typed b) marks -> fmesh_typed (ex_fm marks k1 k2).
Proof.
  intros TM. unfold fmesh_typed, ex_fm, ex_mesh. cbn [fm_mesh fm_params fm_nodes fm_cells fd_items me_nface me_ncell me_nodes me_bocos].
  split; [lia |]. split; [lia |]. split; [repeat (apply Forall_cons; [pats |]); apply Forall_nil |]. split; [exact TM |].
  split; [repeat (apply Forall_cons; [cbn; unfold pattern; auto; lia |]); apply Forall_nil |].
  split; [| split; [| cbn; lia]]; (repeat (apply Forall_cons; [split; [reflexivity | intros; pats] |]); apply Forall_nil).
Qed.
Lemma ex_faces marks : faces_of (ex_mesh marks) ex_ls ex_rows.
Proof.
  eapply faces_mixed; [reflexivity | | left; intros t ed [E | []]; inversion E; reflexivity].
  constructor.
  - constructor; [repeat constructor; intros [] | | reflexivity].
    intros t ed [E | []]. inversion E; subst. constructor; [discriminate | reflexivity |].
    repeat constructor.
  - reflexivity.
  - eexists. split; [reflexivity |]. split; [reflexivity |]. split; reflexivity.
Qed.
Lemma good_lit s : (String.length s <= 52)%nat -> forallb (fun c => Nat.ltb 0 (Ascii.nat_of_ascii c) && Nat.ltb (Ascii.nat_of_ascii c) 128) (list_ascii_of_string s) = true -> good_name s.
Proof.
  intros L F. split; [exact L |]. intros c I. rewrite forallb_forall in F. specialize (F c I). apply andb_true_iff in F.
  destruct F as (A & B). apply Nat.ltb_lt in A. apply Nat.ltb_lt in B. auto.
Qed.
Ltac good := apply good_lit; [cbn; lia | reflexivity].
Ltac names := repeat (apply Forall_cons; [split; [good | discriminate] |]); apply Forall_nil.
Ltac nodups := repeat (apply NoDup_cons; [cbn; intuition discriminate |]); apply NoDup_nil.
(** Everything but the names. *)
Lemma ex_file v marks nodes cells : mark_ranges (zone_marks (ex_mesh marks)) ->
  (forall k b lo hi, In (k, b) (zone_marks (ex_mesh marks)) -> mk_index b = Some (ILrange lo hi) -> 0 <= lo <= 5 /\ hi < 5) ->
  let fm := data_only (ex_fm marks "" "") nodes cells in
  Forall (fun k => good_name k /\ ~ deof k) (mesh_names fm) ->
  NoDup (List.map fst (zone_marks (ex_mesh marks))) -> NoDup (List.map fst (fd_items nodes)) -> NoDup (List.map fst (fd_items cells)) ->
  ~ In "internal-domain"%string (List.map fst (zone_marks (ex_mesh marks))) -> 1 <= data_ndof cells ->
  file_mesh v fm ex_ls ex_rows.
Proof.
  intros MR Z fm NA N1 N2 N3 NI ND. apply make_file_mesh; try assumption; try (cbn; lia).
  - apply ex_faces.
  - repeat (apply Forall_cons; [cbn; lia |]); apply Forall_nil.
  - repeat (apply Forall_cons; [reflexivity |]); apply Forall_nil.
  - repeat (apply Forall_cons; [cbn; lia |]); apply Forall_nil.
  - auto.
Qed.
Lemma ex_ranges : mark_ranges (zone_marks (ex_mesh ex_marks)).
Proof. repeat (apply Forall_cons; [do 2 eexists; split; [reflexivity | lia] |]); apply Forall_nil. Qed.
Lemma ex_bounds k b lo hi : In (k, b) (zone_marks (ex_mesh ex_marks)) -> mk_index b = Some (ILrange lo hi) -> 0 <= lo <= 5 /\ hi < 5.
Proof. intros [E | [E | []]] I; inversion E; subst; inversion I; lia. Qed.
Lemma ex_marks_typed : Forall (fun '(_, b) => mark_typed b) ex_marks.
Proof. repeat (apply Forall_cons; [exact I |]); apply Forall_nil. Qed.

Definition bytes_of (r : res (list Z) * fmesh) : list Z := match fst r with Ok f => f | Err _ => [] end.
(** C34, C37: the mesh meets the conditions, is written, and what is read can be looked at. *)
Example c34_case : forall v,
  ex_write v (ex_fm ex_marks "A" "B") = (Ok (bytes_of (ex_write v (ex_fm ex_marks "A" "B"))), ex_fm ex_marks "A" "B") /\
  fmesh_typed (ex_fm ex_marks "A" "B") /\ file_mesh v (ex_fm ex_marks "A" "B") ex_ls ex_rows /\ located (ex_fm ex_marks "A" "B") ex_ls /\
  Permutation (mark_faces (zone_marks (ex_mesh ex_marks))) (zrange 0 4).
Proof.
  intros v. split; [destruct v; vm_compute; reflexivity |].
  split; [apply ex_typed, ex_marks_typed |]. split; [| split; [right; split; discriminate | reflexivity]].
  apply (ex_file v ex_marks (fm_nodes (ex_fm ex_marks "A" "B")) (fm_cells (ex_fm ex_marks "A" "B")) ex_ranges ex_bounds).
  - names.
  - nodups.
  - nodups.
  - nodups.
  - cbn. intuition discriminate.
  - cbn. lia.
Qed.
Example c34_read :
  match read_mesh true (bytes_of (ex_write V3 (ex_fm ex_marks "A" "B"))) with
  | Ok fm2 => fd_items (fm_cells fm2) = [("P"%string, Arr [2] false [10; 11]); ("B"%string, Arr [2] true [1; 2]); ("U"%string, Arr [2; 3] false [1; 2; 3; 4; 5; 6])] /\
              List.map fst (me_bocos (fm_mesh fm2)) = ["wall"; "out"; "internal-domain"]%string
  | Err _ => False
  end.
Proof. vm_compute. split; reflexivity. Qed.
(** C35: the same file without its last byte, and cut in the middle. *)
Example c35_case :
  let f := bytes_of (ex_write V2 (ex_fm ex_marks "A" "B")) in
  Forall (fun k => ~ deof k) (mesh_names (ex_fm ex_marks "A" "B")) /\
  read_mesh false (firstn (List.length f - 1) f) = Err TypeError /\ read_mesh false (firstn 2000 f) = Err TypeError.
Proof.
  cbv zeta. split; [repeat (apply Forall_cons; [discriminate |]); apply Forall_nil | split; vm_compute; reflexivity].
Qed.
(** C36: a node variable, a cell variable, a mark. *)
Example c36_node_case : forall v,
  let fm := ex_fm ex_marks "DEOF_A" "B" in
  ex_write v fm = (Ok (bytes_of (ex_write v fm)), fm) /\ fmesh_typed fm /\
  fd_items (fm_nodes fm) = [("T"%string, Arr [4] false [20; 21; 22; 23])] ++ ("DEOF_A"%string, Arr [4] false [30; 31; 32; 33]) :: [("S"%string, Arr [4] false [40; 41; 42; 43])] /\
  deof "DEOF_A" /\ Forall (fun '(_, a) => usual_shape a) (fd_items (fm_nodes fm)) /\
  file_mesh v (data_only fm (FDict (scalars_of [("T"%string, Arr [4] false [20; 21; 22; 23])])) (FDict [])) ex_ls ex_rows.
Proof.
  intros v. cbv zeta. split; [destruct v; vm_compute; reflexivity |]. split; [apply ex_typed, ex_marks_typed |].
  split; [reflexivity |]. split; [reflexivity |]. split; [repeat (apply Forall_cons; [exists 4; split; [lia | left; reflexivity] |]); apply Forall_nil |].
  apply (ex_file v ex_marks _ _ ex_ranges ex_bounds).
  - names.
  - nodups.
  - nodups.
  - nodups.
  - cbn. intuition discriminate.
  - cbn. lia.
Qed.
Example c36_cell_case : forall v,
  let fm := ex_fm ex_marks "A" "DEOF" in let d1 := [("P"%string, Arr [2] false [10; 11])] in
  ex_write v fm = (Ok (bytes_of (ex_write v fm)), fm) /\ fmesh_typed fm /\
  fd_items (fm_cells fm) = d1 ++ ("DEOF"%string, Arr [2] true [1; 2]) :: [("U"%string, Arr [2; 3] false [1; 2; 3; 4; 5; 6])] /\
  Forall (fun '(_, a) => usual_shape a) (fd_items (fm_cells fm)) /\
  file_mesh v (data_only fm (fm_nodes fm) (refill (fm_cells fm) (scalars_of d1))) ex_ls ex_rows /\
  located (data_only fm (fm_nodes fm) (refill (fm_cells fm) (scalars_of d1))) ex_ls.
Proof.
  intros v. cbv zeta. split; [destruct v; vm_compute; reflexivity |]. split; [apply ex_typed, ex_marks_typed |].
  split; [reflexivity |]. split; [repeat (apply Forall_cons; [exists 2; split; [lia | cbn; tauto] |]); apply Forall_nil |].
  split; [| right; split; discriminate].
  apply (ex_file v ex_marks _ _ ex_ranges ex_bounds).
  - names.
  - nodups.
  - nodups.
  - nodups.
  - cbn. intuition discriminate.
  - cbn. lia.
Qed.
Definition deof_marks : dict string (mark Z) :=
  [("DEOFx"%string, Mark Z "DEOFx" (Some Gbdface) (Some "boundary"%string) (Some (ILrange 0 3)) None)].
Example c36_mark_case : forall v,
  let fm := ex_fm deof_marks "A" "B" in
  ex_write v fm = (Ok (bytes_of (ex_write v fm)), fm) /\ fmesh_typed fm /\ Exists deof (List.map fst (zone_marks (fm_mesh fm))) /\
  read_mesh false (bytes_of (ex_write v fm)) = Err RuntimeError.
Proof.
  intros v. cbv zeta. split; [destruct v; vm_compute; reflexivity |]. split; [apply ex_typed; repeat constructor |].
  split; [left; reflexivity | destruct v; vm_compute; reflexivity].
Qed.
(** C37 without mark. *)
Example c37_no_mark_case : forall v,
  let fm := ex_fm [] "A" "B" in
  ex_write v fm = (Ok (bytes_of (ex_write v fm)), fm) /\ fmesh_typed fm /\ file_mesh v fm ex_ls ex_rows /\ located fm ex_ls /\
  zone_marks (fm_mesh fm) = [].
Proof.
  intros v. cbv zeta. split; [destruct v; vm_compute; reflexivity |]. split; [apply ex_typed; constructor |].
  split; [| split; [right; split; discriminate | reflexivity]].
  apply (ex_file v [] (fm_nodes (ex_fm [] "A" "B")) (fm_cells (ex_fm [] "A" "B"))); [constructor | intros ? ? ? ? [] | names | nodups | nodups | nodups | intros [] | cbn; lia].
Qed.
