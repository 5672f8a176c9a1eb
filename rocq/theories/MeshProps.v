(** * Properties C16 - C23: meshes, face sets, marks and coordinates. *)
From Coq Require Import Sorted Permutation Lia.
From Verif Require Import PyFacts Conn ConnSpec ConnProofs CsrProofs FaceSpec FaceTable Mesh MeshSpec MeshProofs ReindexProofs FaceSetProofs.

(** Two quads side by side, with node marks on two sides. *)
Definition ex_cells : econn := EC 2 [("quad4", ED (ILrange 0 1) (Mat (Some 4%nat) [[0;1;2;3];[1;4;5;2]]))].
Definition node_mark (name : string) (l : list Z) : mark Z :=
  Mark Z name (Some Gbdnode) (Some "boundary") (Some (ILlist l)) None.
Definition ex_mesh : mesh Z :=
  add_boco (add_boco (set_cell2node (new_mesh 0 6) ex_cells) (node_mark "left" [0;3])) (node_mark "bottom" [0;1;4]).
Definition ex_mesh1 : mesh Z := snd (make_face_connectivity cgns_elem2faces ex_mesh).
Definition ex_mesh2 : mesh Z := snd (bocomarks_set_node_to_face ex_mesh1).
Definition ex_mesh3 : mesh Z := snd (make_unmarked_BC np_unique "rest" ex_mesh2).

Lemma np_unique_enum : set_enum np_unique.
Proof. intros l. split; [apply np_unique_NoDup|intros; apply np_unique_in]. Qed.

(** C10: all_index() and index_elem_tuples() list the elements in the same order, so that their results go together. *)
Theorem C10_all_index : forall c, ec_wf c -> ec_plain c ->
  exists tuples, ec_tuples c = Ok tuples /\ ec_all_index c = Ok (List.map fst tuples) /\ zlen tuples = ec_nelem c.
Proof.
  intros c W P. exists (ec_pairs c). split; [now apply ec_tuples_ok|]. split.
  - rewrite all_index_ok by auto. now rewrite <- ec_numbers_pairs.
  - symmetry. apply (ecwf_nelem _ W).
Qed.
Print Assumptions C10_all_index.
Definition ex_two : econn := EC 3 [("quad4", ED (ILlist [2; 0]) (Mat (Some 4%nat) [[0;1;2;3];[1;4;5;2]])); ("tri3", ED (ILrange 1 1) (Mat (Some 3%nat) [[4;6;5]]))].
Example C10_all_ex : ec_all_index ex_two = Ok [2; 0; 1] /\ ec_tuples ex_two = Ok [(2, [0;1;2;3]); (0, [1;4;5;2]); (1, [4;6;5])].
Proof. split; reflexivity. Qed.

(** C16: node marks become exactly the faces they span. *)
Theorem C16_node_marks_to_faces : forall F (m : mesh F) f,
  dget String.eqb "boundary" (me_faces m) = Some f -> ec_wf (f_f2n f) -> ec_plain (f_f2n f) ->
  (forall k b, In (k, b) (me_bocos m) -> on_nodes b = true -> mark_ok b) ->
  exists m', bocomarks_set_node_to_face m = (Ok tt, m') /\ same_but_bocos m m' /\
             Forall2 (face_mark_of (f_f2n f)) (me_bocos m) (me_bocos m').
Proof. exact @set_node_to_face_ok. Qed.
Print Assumptions C16_node_marks_to_faces.
Theorem C16_without_boundary : forall F (m : mesh F),
  dget String.eqb "boundary" (me_faces m) = None -> bocomarks_set_node_to_face m = (Err AssertionError, m).
Proof. exact @set_node_to_face_noboundary. Qed.
Print Assumptions C16_without_boundary.
Definition ex_bnd : faceset := match dget String.eqb "boundary" (me_faces ex_mesh1) with Some f => f | None => FaceSet ec_empty None end.
Example C16_ex : dget String.eqb "boundary" (me_faces ex_mesh1) = Some ex_bnd /\
  ec_pairs (f_f2n ex_bnd) = [(0, [1;0]); (1, [4;1]); (2, [5;4]); (3, [3;2]); (4, [2;5]); (5, [0;3])] /\
  List.map (fun '(k, b) => (k, mk_entries b)) (me_bocos ex_mesh2) = [("left", [5]); ("bottom", [0;1])].
Proof. repeat split; vm_compute; reflexivity. Qed.

Lemma ex_bnd_wf : ec_wf (f_f2n ex_bnd) /\ ec_plain (f_f2n ex_bnd).
Proof.
  split.
  - constructor; [vm_compute; repeat constructor; intros []| |vm_compute; reflexivity].
    intros t ed H. vm_compute in H. destruct H as [H|[]]. injection H as <- <-.
    constructor; [discriminate|vm_compute; reflexivity|repeat constructor].
  - intros t ed H. vm_compute in H. destruct H as [H|[]]. injection H as <- <-. reflexivity.
Qed.
Lemma ex_face_marked : face_marked ex_mesh2 ex_bnd.
Proof.
  constructor; [vm_compute; reflexivity|apply ex_bnd_wf|apply ex_bnd_wf| |].
  - vm_compute. repeat constructor; simpl; intuition discriminate.
  - intros k b H. vm_compute in H. destruct H as [H|[H|[]]]; injection H as <- <-; (split; [reflexivity|]);
      eexists; (split; [reflexivity|split; [discriminate|reflexivity]]).
Qed.

(** C17: completing the marks. *)
Theorem C17_unmarked : forall F enum name (m : mesh F) f, set_enum enum -> face_marked m f ->
  exists missing m', make_unmarked_BC enum name m = (Ok missing, m') /\
    NoDup missing /\ (forall i, In i missing <-> In i (ec_numbers (f_f2n f)) /\ ~ marked m i) /\
    same_but_bocos m m' /\ face_marked m' f /\
    (missing = [] -> m' = m) /\
    (missing <> [] -> ~ In name (dkeys (me_bocos m)) ->
       me_bocos m' = me_bocos m ++ [(name, unmarked_mark name missing)] /\
       (forall i, In i (ec_numbers (f_f2n f)) -> marked m' i) /\
       make_unmarked_BC enum name m' = (Ok [], m')).
Proof. exact @make_unmarked_ok. Qed.
Print Assumptions C17_unmarked.
Theorem C17_name_collision : forall F enum name (m m' : mesh F) f b0 missing, set_enum enum -> face_marked m f ->
  In (name, b0) (me_bocos m) ->
  make_unmarked_BC enum name m = (Ok missing, m') -> missing <> [] ->
  forall i, In i (ec_numbers (f_f2n f)) -> In i (mk_entries b0) ->
    (forall k b, In (k, b) (me_bocos m) -> k <> name -> ~ In i (mk_entries b)) -> ~ marked m' i.
Proof. exact @make_unmarked_collision. Qed.
Print Assumptions C17_name_collision.
Example C17_ex : set_enum np_unique /\ face_marked ex_mesh2 ex_bnd /\
  fst (make_unmarked_BC np_unique "rest" ex_mesh2) = Ok [2;3;4] /\
  fst (make_unmarked_BC np_unique "left" ex_mesh2) = Ok [2;3;4] /\
  fst (make_unmarked_BC np_unique "x" (snd (make_unmarked_BC np_unique "left" ex_mesh2))) = Ok [5].
Proof. split; [exact np_unique_enum|]. split; [exact ex_face_marked|]. repeat split; vm_compute; reflexivity. Qed.

(** C18: check() changes the mesh it refuses. *)
Theorem C18_check_complete : forall F enum (m : mesh F) f, set_enum enum -> face_marked m f -> counts_ok m ->
  (forall i, In i (ec_numbers (f_f2n f)) -> marked m i) -> mesh_check enum m = (Ok true, m).
Proof. exact @mesh_check_all_marked. Qed.
Print Assumptions C18_check_complete.
Theorem C18_check_incomplete : forall F enum (m : mesh F) f i, set_enum enum -> face_marked m f -> counts_ok m ->
  In i (ec_numbers (f_f2n f)) -> ~ marked m i ->
  exists m', mesh_check enum m = (Err AssertionError, m') /\ m' <> m /\
    (~ In "unmarked_faces" (dkeys (me_bocos m)) -> mesh_check enum m' = (Ok true, m')).
Proof. exact @mesh_check_unmarked. Qed.
Print Assumptions C18_check_incomplete.
(** C18: a mesh without cells or without nodes, or whose number of cells is not that of its connectivity, is refused as it is. *)
Theorem C18_counts : forall F enum (m : mesh F), ~ counts_ok m -> mesh_check enum m = (Err AssertionError, m).
Proof.
  intros F enum m H. unfold mesh_check, check_cell2node. destruct (Z.ltb_spec 0 (me_ncell m)) as [A |]; [| reflexivity].
  destruct (Z.ltb_spec 0 (me_nnode m)) as [B |]; [| reflexivity]. cbn [negb].
  destruct (me_cell2node m) as [c |] eqn:E; [| exfalso; apply H; split; [exact A |]; split; [exact B |]; intros c Q; congruence].
  destruct (Z.eqb_spec (me_ncell m) (ec_nelem c)) as [N |]; [| reflexivity].
  exfalso. apply H. split; [exact A |]. split; [exact B |]. intros c' Q. congruence.
Qed.
Print Assumptions C18_counts.
(** C18: with a mark already called 'unmarked_faces', check() may fail at every call, for ever. *)
Theorem C18_check_never_settles : forall F enum, set_enum enum -> forall n (m : mesh F) f,
  face_marked m f -> counts_ok m -> seesaw m f ->
  fst (mesh_check enum (check_times enum n m)) = Err AssertionError.
Proof. exact @seesaw_forever. Qed.
Print Assumptions C18_check_never_settles.
Definition ex_seesaw : mesh Z :=
  add_boco (with_bocos ex_mesh2 []) (unmarked_mark "unmarked_faces" [0;1]).
Example C18_ex : counts_ok ex_mesh2 /\ ~ marked ex_mesh2 2 /\
  (face_marked ex_seesaw ex_bnd /\ counts_ok ex_seesaw /\ seesaw ex_seesaw ex_bnd).
Proof.
  split; [repeat split; try reflexivity; intros c E; apply (f_equal (option_map ec_nelem)) in E; injection E as <-; reflexivity|]. split.
  { intros (k & b & H & Hi). vm_compute in H. destruct H as [H|[H|[]]]; injection H as <- <-; vm_compute in Hi; intuition discriminate. }
  split; [|split; [repeat split; try reflexivity; intros c E; apply (f_equal (option_map ec_nelem)) in E; injection E as <-; reflexivity|]].
  - constructor; [vm_compute; reflexivity|apply ex_bnd_wf|apply ex_bnd_wf|vm_compute; repeat constructor; intros []|].
    intros k b H. vm_compute in H. destruct H as [H|[]]. injection H as <- <-. split; [reflexivity|].
    eexists; (split; [reflexivity|split; [discriminate|reflexivity]]).
  - exists (unmarked_mark "unmarked_faces" [0;1]), 0, 2. repeat split; try (vm_compute; tauto).
    + vm_compute. intuition discriminate.
    + vm_compute in H. destruct H as [H|[]]. injection H as <- <-. exfalso; apply H0; reflexivity.
    + vm_compute in H. destruct H as [H|[]]. injection H as <- <-. exfalso; apply H0; reflexivity.
Qed.

(** C19: renumbering boundary faces by mark. *)
Theorem C19_reindex : forall F (m : mesh F) f mt,
  face_marked m f -> f_f2c f = Some (Some mt) -> m_cols mt = Some 2%nat -> zlen (m_rows mt) = ec_nelem (f_f2n f) ->
  (forall k b, In (k, b) (me_bocos m) -> mk_entries b <> []) -> 0 < ec_nelem (f_f2n f) ->
  Permutation (ec_numbers (f_f2n f)) (zrange 0 (ec_nelem (f_f2n f))) ->
  Permutation (all_marked m) (zrange 0 (ec_nelem (f_f2n f))) ->
  exists num m' f', reindex_boundaryfaces m = (Ok tt, m') /\ renumbered num (ec_nelem (f_f2n f)) m m' f f'.
Proof. exact @reindex_ok. Qed.
Print Assumptions C19_reindex.
Example C19_ex : face_marked ex_mesh3 ex_bnd /\
  Permutation (ec_numbers (f_f2n ex_bnd)) (zrange 0 (ec_nelem (f_f2n ex_bnd))) /\
  Permutation (all_marked ex_mesh3) (zrange 0 (ec_nelem (f_f2n ex_bnd))) /\
  fst (reindex_boundaryfaces ex_mesh3) = Ok tt /\
  List.map (fun '(k, b) => (k, mk_index b)) (me_bocos (snd (reindex_boundaryfaces ex_mesh3))) =
    [("left", Some (ILrange 0 0)); ("bottom", Some (ILrange 1 2)); ("rest", Some (ILrange 3 5))].
Proof.
  split.
  - exact (match make_unmarked_ok np_unique "rest" ex_mesh2 ex_bnd np_unique_enum ex_face_marked with
           | ex_intro _ missing (ex_intro _ m' (conj H (conj _ (conj _ (conj _ (conj FM _)))))) =>
               eq_ind m' (fun m => face_marked m ex_bnd) FM ex_mesh3 (eq_sym (f_equal snd H)) end).
  - split; [vm_compute; apply Permutation_refl|]. split; [|split; vm_compute; reflexivity].
    apply NoDup_bounded_perm; [|intros x H; vm_compute in H; change (ec_nelem (f_f2n ex_bnd)) with 6; lia|vm_compute; reflexivity].
    vm_compute. repeat constructor; simpl; intuition discriminate.
Qed.

(** C20: inconsistent marks are refused and nothing changes. *)
Theorem C20_inconsistent : forall F (m : mesh F) f, face_marked m f ->
  ~ (Permutation (all_marked m) (zrange 0 (zlen (all_marked m))) /\ all_marked m <> []) ->
  exists e, reindex_boundaryfaces m = (Err e, m).
Proof. exact @reindex_refuses. Qed.
Print Assumptions C20_inconsistent.
Theorem C20_not_faces : forall F (m : mesh F) k b,
  In (k, b) (me_bocos m) -> on_faces b = false -> reindex_boundaryfaces m = (Err AssertionError, m).
Proof. exact @reindex_refuses_nodemark. Qed.
Print Assumptions C20_not_faces.
(** A mark whose index was never set: AttributeError, nothing changes. *)
Theorem C20_no_index : forall F (m : mesh F) f, dget String.eqb "boundary" (me_faces m) = Some f ->
  (forall k b, In (k, b) (me_bocos m) -> on_faces b = true /\ (mark_ok b \/ mk_index b = None)) ->
  (exists k b, In (k, b) (me_bocos m) /\ mk_index b = None) -> reindex_boundaryfaces m = (Err AttributeError, m).
Proof.
  intros F m f Ef H (k & b & Hin & Hn). unfold reindex_boundaryfaces. rewrite Ef.
  replace (forallb _ _) with true by (symmetry; apply forallb_forall; intros (k', b') Hb'; apply (H k' b' Hb')). cbn [negb].
  replace (list_boco_index m) with (Err (A := list Z) AttributeError); [reflexivity|]. unfold list_boco_index.
  assert (E : mapM (fun '(_, b) => mark_list b) (me_bocos m) = Err AttributeError); [|now rewrite E].
  induction (me_bocos m) as [|(k', b') l IH]; [destruct Hin|]. cbn [mapM].
  destruct (proj2 (H k' b' (or_introl eq_refl))) as [Hok|E'].
  - rewrite (mark_ok_list b' Hok). cbn [bind]. rewrite IH; [reflexivity| |]. { intros k2 b2 H2. apply (H k2 b2). now right. }
    destruct Hin as [[= <- <-]|Hin]; [|exact Hin]. destruct Hok as (il & E2 & _). congruence.
  - unfold mark_list. now rewrite E'.
Qed.
Print Assumptions C20_no_index.
Example C20_no_index_ex : let b0 := unmarked_mark "a" [0; 1] : mark Z in
  let b := Mark _ "b" (mk_geodim b0) (mk_type b0) None (mk_perio b0) in
  fst (reindex_boundaryfaces (with_bocos ex_mesh2 [("a", b0); ("b", b)])) = Err AttributeError.
Proof. vm_compute. reflexivity. Qed.
(** A mark without faces: it raises, no face connectivity is changed. *)
Theorem C20_empty_mark : forall F (m : mesh F) f k b, face_marked m f -> In (k, b) (me_bocos m) -> mk_entries b = [] ->
  exists e m', reindex_boundaryfaces m = (Err e, m') /\ me_faces m' = me_faces m /\
     (Permutation (all_marked m) (zrange 0 (zlen (all_marked m))) -> all_marked m <> [] -> e = IndexError).
Proof. exact @reindex_empty_mark. Qed.
Print Assumptions C20_empty_mark.
(** The last faces unmarked: it raises IndexError, but the marks have been renumbered. *)
Theorem C20_unmarked_faces : forall F (m : mesh F) f i,
  face_marked m f -> (forall k b, In (k, b) (me_bocos m) -> mk_entries b <> []) ->
  Permutation (all_marked m) (zrange 0 (zlen (all_marked m))) -> all_marked m <> [] ->
  In i (ec_numbers (f_f2n f)) -> zlen (all_marked m) <= i ->
  exists m' f', reindex_boundaryfaces m = (Err IndexError, m') /\ contiguous 0 (List.map snd (me_bocos m')) /\
     dget String.eqb "boundary" (me_faces m') = Some f' /\ f_f2c f' = f_f2c f.
Proof. exact @reindex_unmarked. Qed.
Print Assumptions C20_unmarked_faces.
(** So failing is not free of effects: marks and faces then disagree. *)
Theorem C20_failure_is_atomic_refuted : exists (m : mesh Z) f m',
  face_marked m f /\ reindex_boundaryfaces m = (Err IndexError, m') /\
  me_faces m' = me_faces m /\ List.map (fun kb => mk_entries (snd kb)) (me_bocos m) = [[1]; [0]; []] /\
  List.map (fun kb => mk_entries (snd kb)) (me_bocos m') = [[0]; [1]; []].
Proof.
  exists (with_bocos ex_mesh2 [("a", unmarked_mark "a" [1]); ("b", unmarked_mark "b" [0]); ("c", unmarked_mark "c" [])]), ex_bnd.
  eexists. split.
  - constructor; [vm_compute; reflexivity|apply ex_bnd_wf|apply ex_bnd_wf|vm_compute; repeat constructor; simpl; intuition discriminate|].
    intros k b H. cbn in H. destruct H as [H|[H|[H|[]]]]; injection H as <- <-; (split; [reflexivity|]);
      eexists; (split; [reflexivity|split; [discriminate|reflexivity]]).
  - split; [vm_compute; reflexivity|]. repeat split.
Qed.
Print Assumptions C20_failure_is_atomic_refuted.
Example C20_ex : all_marked (with_bocos ex_mesh2 [("a", unmarked_mark "a" [0;1]); ("b", unmarked_mark "b" [1])]) = [0;1;1] /\
  fst (reindex_boundaryfaces (with_bocos ex_mesh2 [("a", unmarked_mark "a" [0;1]); ("b", unmarked_mark "b" [1])])) = Err ValueError.
Proof. split; vm_compute; reflexivity. Qed.

(** Faces without a face-to-cell table: marks and faces are renumbered, then it raises. *)
Theorem C20_no_table : forall F (m : mesh F) f x,
  face_marked m f -> f_f2c f = x -> x = None \/ x = Some None ->
  (forall k b, In (k, b) (me_bocos m) -> mk_entries b <> []) -> 0 < ec_nelem (f_f2n f) ->
  Permutation (ec_numbers (f_f2n f)) (zrange 0 (ec_nelem (f_f2n f))) ->
  Permutation (all_marked m) (zrange 0 (ec_nelem (f_f2n f))) ->
  exists num m' f', reindex_boundaryfaces m = (Err (match x with None => AttributeError | Some _ => TypeError end), m') /\
    dget String.eqb "boundary" (me_faces m') = Some f' /\ f_f2c f' = x /\
    Permutation (List.map num (zrange 0 (ec_nelem (f_f2n f)))) (zrange 0 (ec_nelem (f_f2n f))) /\
    ec_numbers (f_f2n f') = List.map num (ec_numbers (f_f2n f)) /\
    Forall2 (fun kb kb' => fst kb' = fst kb /\ mk_entries (snd kb') = List.map num (mk_entries (snd kb))) (me_bocos m) (me_bocos m') /\
    contiguous 0 (List.map snd (me_bocos m')).
Proof.
  intros F m f x FM X XX NE N0 PN PM. set (nb := ec_nelem (f_f2n f)) in *.
  set (mt := Mat (Some 2%nat) (List.map (fun _ => [0; 0]) (zrange 0 nb))).
  set (f1 := FaceSet (f_f2n f) (Some (Some mt))). set (m1 := with_faces m (dset String.eqb "boundary" f1 (me_faces m))).
  assert (D1 : dget String.eqb "boundary" (me_faces m1) = Some f1) by (cbn; apply (dget_dset_eq _ String.eqb_eq)).
  assert (FM1 : face_marked m1 f1) by (destruct FM; constructor; assumption).
  assert (D0 := fm_bnd _ _ FM).
  destruct (C19_reindex F m1 f1 mt FM1 eq_refl eq_refl) as (num & m1' & f1' & R & RN); try assumption.
  { unfold mt, m_rows. rewrite zlen_map, zlen_zrange by lia. cbn [f1 f_f2n]. unfold nb. lia. }
  exists num. revert R. unfold reindex_boundaryfaces. rewrite D1, D0. change (me_bocos m1) with (me_bocos m). change (f_f2n f1) with (f_f2n f). change (list_boco_index m1) with (list_boco_index m).
  destruct (negb _); [discriminate |]. destruct (bind (list_boco_index m) _) as [(old, new) |]; [| discriminate].
  destruct (each_mark _ _) as ([u |], bs) eqn:EM; [| discriminate]. destruct (reindex_types new _) as ([u2 |], d) eqn:ET; [| discriminate].
  destruct (reindex_f2c old (f_f2c f1)) as [f2c |] eqn:EF; [| discriminate]. intros R. injection R as R.
  assert (B1 : me_bocos m1' = bs) by (rewrite <- R; reflexivity).
  assert (Q : f1' = FaceSet (EC (ec_nelem (f_f2n f)) d) f2c).
  { assert (B := rn_bnd _ _ _ _ _ _ RN). rewrite <- R in B. cbn [with_faces me_faces] in B. rewrite (dget_dset_eq _ String.eqb_eq) in B. congruence. }
  exists (with_faces (with_bocos m bs) (dset String.eqb "boundary" (FaceSet (EC (ec_nelem (f_f2n f)) d) x) (me_faces m))), (FaceSet (EC (ec_nelem (f_f2n f)) d) x).
  split; [rewrite X; destruct XX as [-> | ->]; reflexivity |]. split; [cbn; apply (dget_dset_eq _ String.eqb_eq) |]. split; [reflexivity |].
  split; [exact (rn_bij _ _ _ _ _ _ RN) |]. split; [assert (E := rn_numbers _ _ _ _ _ _ RN); rewrite Q in E; exact E |].
  cbn [with_faces with_bocos me_bocos]. split.
  - assert (E := rn_marks _ _ _ _ _ _ RN). rewrite B1 in E. change (me_bocos m1) with (me_bocos m) in E. clear -E. induction E as [| a b la lb H E IH]; constructor; [tauto | exact IH].
  - assert (E := rn_contiguous _ _ _ _ _ _ RN). rewrite B1 in E. exact E.
Qed.
Print Assumptions C20_no_table.
Example C20_no_table_ex : let f0 := FaceSet (f_f2n ex_bnd) None in let m := with_faces ex_mesh3 (dset String.eqb "boundary" f0 (me_faces ex_mesh3)) in
  dget String.eqb "boundary" (me_faces m) = Some f0 /\ fst (reindex_boundaryfaces m) = Err AttributeError /\
  List.map (fun '(k, b) => (k, mk_index b)) (me_bocos m) <> List.map (fun '(k, b) => (k, mk_index b)) (me_bocos (snd (reindex_boundaryfaces m))).
Proof. vm_compute. repeat split. discriminate. Qed.

(** C21: boundary faces first, internal faces after, with their rows. *)
Theorem C21_mixed_export : forall F (m : mesh F) nn b i mb mi,
  dget String.eqb "boundary" (me_faces m) = Some b -> dget String.eqb "internal" (me_faces m) = Some i ->
  ec_wf (f_f2n b) -> ec_plain (f_f2n b) -> ec_cols nn (f_f2n b) ->
  ec_wf (f_f2n i) -> ec_plain (f_f2n i) -> ec_cols nn (f_f2n i) ->
  f_f2c b = Some (Some mb) -> f_f2c i = Some (Some mi) -> m_cols mb = Some 2%nat -> m_cols mi = Some 2%nat ->
  zlen (m_rows mb) = ec_nelem (f_f2n b) -> zlen (m_rows mi) = ec_nelem (f_f2n i) ->
  Permutation (ec_numbers (f_f2n b)) (zrange 0 (ec_nelem (f_f2n b))) ->
  Permutation (ec_numbers (f_f2n i)) (zrange 0 (ec_nelem (f_f2n i))) ->
  exists con mc, export_mixedfaces m = Ok (con, Some mc) /\ ec_wf con /\ m_cols mc = Some 2%nat /\
    ec_nelem con = ec_nelem (f_f2n b) + ec_nelem (f_f2n i) /\
    zlen (m_rows mc) = ec_nelem con /\
    Permutation (ec_numbers con) (zrange 0 (ec_nelem con)) /\
    (forall t f nodes, In (f, nodes) (pairs_of_type (f_f2n b) t) ->
       In (f, nodes) (pairs_of_type con t) /\
       nth_error (m_rows mc) (Z.to_nat f) = nth_error (m_rows mb) (Z.to_nat f)) /\
    (forall t f nodes, In (f, nodes) (pairs_of_type (f_f2n i) t) ->
       In (ec_nelem (f_f2n b) + f, nodes) (pairs_of_type con t) /\
       nth_error (m_rows mc) (Z.to_nat (ec_nelem (f_f2n b) + f)) = nth_error (m_rows mi) (Z.to_nat f)).
Proof. exact @export_mixed_ok. Qed.
Print Assumptions C21_mixed_export.
Example C21_ex : exists con, fst (match export_mixedfaces ex_mesh1 with Ok p => p | _ => (ec_empty, None) end) = con /\
  ec_numbers con = [0;1;2;3;4;5;6] /\ dget Z.eqb 6 (ec_pairs con) = Some [2;1].
Proof. eexists. split; [reflexivity|]. split; vm_compute; reflexivity. Qed.

(** A set that is missing raises KeyError; a set without table raises AttributeError, and one with an
    empty table ValueError, the boundary faces first. *)
Theorem C21_no_table : forall F (m : mesh F),
  (dget String.eqb "boundary" (me_faces m) = None \/ dget String.eqb "internal" (me_faces m) = None -> export_mixedfaces m = Err KeyError) /\
  forall nn b i, dget String.eqb "boundary" (me_faces m) = Some b -> dget String.eqb "internal" (me_faces m) = Some i ->
  ec_wf (f_f2n b) -> ec_plain (f_f2n b) -> ec_cols nn (f_f2n b) ->
  ec_wf (f_f2n i) -> ec_plain (f_f2n i) -> ec_cols nn (f_f2n i) ->
  Permutation (ec_numbers (f_f2n b)) (zrange 0 (ec_nelem (f_f2n b))) ->
  Permutation (ec_numbers (f_f2n i)) (zrange 0 (ec_nelem (f_f2n i))) ->
  (f_f2c b = None -> export_mixedfaces m = Err AttributeError) /\
  (f_f2c b = Some None -> export_mixedfaces m = Err ValueError) /\
  (forall mb, f_f2c b = Some (Some mb) -> f_f2c i = None -> export_mixedfaces m = Err AttributeError) /\
  (forall mb, f_f2c b = Some (Some mb) -> f_f2c i = Some None -> export_mixedfaces m = Err ValueError).
Proof.
  intros F m. split.
  - unfold export_mixedfaces, dget_err. intros [H | H]; rewrite H; [reflexivity |]. destruct (dget String.eqb "boundary" (me_faces m)); reflexivity.
  - intros nn b i DB DI WB PB CB WI PI CI NB NI.
    assert (MG : exists con, ec_merge ec_empty [f_f2n b; f_f2n i] = Ok con).
    { set (tab n := Some (Some (Mat (Some 2%nat) (List.map (fun _ => [0; 0]) (zrange 0 n))))).
      assert (TL : forall c, 0 <= ec_nelem c -> zlen (List.map (fun _ => [0; 0]) (zrange 0 (ec_nelem c))) = ec_nelem c) by (intros c L; rewrite zlen_map, zlen_zrange by lia; lia).
      assert (LB : 0 <= ec_nelem (f_f2n b)) by (rewrite (ecwf_nelem _ WB); apply zlen_nonneg).
      assert (LI : 0 <= ec_nelem (f_f2n i)) by (rewrite (ecwf_nelem _ WI); apply zlen_nonneg).
      destruct (C21_mixed_export F (with_faces m [("boundary", FaceSet (f_f2n b) (tab (ec_nelem (f_f2n b)))); ("internal", FaceSet (f_f2n i) (tab (ec_nelem (f_f2n i))))]) nn _ _ _ _
                  eq_refl eq_refl WB PB CB WI PI CI eq_refl eq_refl eq_refl eq_refl (TL _ LB) (TL _ LI) NB NI) as (con & mc & E & _).
      unfold export_mixedfaces in E. cbn [with_faces me_faces dget_err dget String.eqb Ascii.eqb Bool.eqb bind f_f2n] in E. destruct (ec_merge ec_empty [f_f2n b; f_f2n i]) as [con' |]; [exists con'; reflexivity | discriminate]. }
    destruct MG as (con & MG). unfold export_mixedfaces, dget_err. rewrite DB, DI. cbn [bind]. rewrite MG. cbn [bind]. unfold f2c_conn.
    repeat split; [intros -> | intros -> | intros mb -> -> | intros mb -> ->]; reflexivity.
Qed.
Print Assumptions C21_no_table.
Example C21_no_table_ex : export_mixedfaces (with_faces ex_mesh1 (dset String.eqb "boundary" (FaceSet (f_f2n ex_bnd) None) (me_faces ex_mesh1))) = Err AttributeError.
Proof. vm_compute. reflexivity. Qed.

(** C21: a face type present in one set with rows and in the other without any raises ValueError. *)
Theorem C21_empty_type : forall a b t eda edb,
  ec_wf a -> ec_plain a -> ec_wf b -> ec_plain b -> In (t, eda) (ec_dict a) -> In (t, edb) (ec_dict b) ->
  m_cols (ed_e2n eda) <> m_cols (ed_e2n edb) -> ec_merge ec_empty [a; b] = Err ValueError.
Proof. exact merge_fails. Qed.
Print Assumptions C21_empty_type.
(** Two cubes, each cut in six pyramids around its centre: a valid mesh whose faces are created but
    cannot be exported, since no triangle is on the boundary. *)
Definition ex_pyramids : econn :=
  EC 12 [("pyra5", ED (ILrange 0 11) (Mat (Some 5%nat)
   [[0;3;2;1;12]; [0;1;5;4;12]; [1;2;6;5;12]; [2;3;7;6;12]; [3;0;4;7;12]; [4;5;6;7;12];
    [4;7;6;5;13]; [4;5;9;8;13]; [5;6;10;9;13]; [6;7;11;10;13]; [7;4;8;11;13]; [8;9;10;11;13]]))].
Theorem C21_valid_mesh_refuted : exists m1 : mesh Z,
  ec_wf ex_pyramids /\ cells_of cgns_types ex_pyramids /\ no_triple cgns_elem2faces ex_pyramids /\
  make_face_connectivity cgns_elem2faces (set_cell2node (new_mesh 0 14) ex_pyramids) = (Ok tt, m1) /\
  export_mixedfaces m1 = Err ValueError.
Proof.
  eexists. split.
  { constructor; [repeat constructor; intros []| |reflexivity].
    intros t ed [H|[]]. injection H as <- <-. constructor; [discriminate|reflexivity|repeat constructor]. }
  split. { intros t ed [H|[]]. injection H as <- <-. exists 5%nat. split; [simpl; auto 10|reflexivity]. }
  split. { apply no_tripleb_ok; vm_compute; reflexivity. }
  split; vm_compute; reflexivity.
Qed.
Print Assumptions C21_valid_mesh_refuted.

(** C22: three kinds of faces; another kind is refused and changes nothing, and there is nothing of it to take away. *)
Theorem C22_kinds : forall F (m : mesh F) t f2n f2c,
  (t = "mixed" \/ t = "internal" \/ t = "boundary" ->
     exists m', add_faces m t f2n f2c = (Ok tt, m') /\ me_nodes m' = me_nodes m /\ me_bocos m' = me_bocos m /\ me_cell2node m' = me_cell2node m /\
       dget String.eqb t (me_faces m') = Some (FaceSet f2n f2c) /\ (forall k, k <> t -> dget String.eqb k (me_faces m') = dget String.eqb k (me_faces m))) /\
  (t <> "mixed" -> t <> "internal" -> t <> "boundary" -> add_faces m t f2n f2c = (Err RuntimeError, m) /\ pop_faces m t = m).
Proof.
  intros F m t f2n f2c. split.
  - intros K. assert (E : existsb (String.eqb t) facetypes = true) by (destruct K as [-> | [-> | ->]]; reflexivity). unfold add_faces. rewrite E. eexists. split; [reflexivity |].
    cbn [with_nface with_faces me_nodes me_bocos me_cell2node me_faces]. repeat (split; [reflexivity |]). split; [apply (PyFacts.dget_dset_eq _ String.eqb_eq) |].
    intros k N. apply (PyFacts.dget_dset_neq _ String.eqb_eq). exact N.
  - intros N1 N2 N3. assert (E : existsb (String.eqb t) facetypes = false).
    { cbn. destruct (String.eqb_spec t "mixed"); [contradiction |]. destruct (String.eqb_spec t "internal"); [contradiction |]. destruct (String.eqb_spec t "boundary"); [contradiction |]. reflexivity. }
    unfold add_faces, pop_faces. rewrite E. auto.
Qed.
Print Assumptions C22_kinds.
(** C22: the face counter is right after any history ending with [add_faces], ... *)
Theorem C22_counter : forall F (m : mesh F) ops op,
  sets_wf m -> (forall o, In o (ops ++ [op]) -> match o with AddF _ c _ => ec_wf c | _ => True end) -> is_add op = true ->
  let m' := fold_left do_face_op (ops ++ [op]) m in me_nface m' = faces_held m'.
Proof. exact @nface_history. Qed.
Print Assumptions C22_counter.
(** ... and wrong after [pop_faces]. *)
Theorem C22_counter_after_pop : forall F (m : mesh F) t f, sets_wf m -> me_nface m = faces_held m -> 
  dget String.eqb t (me_faces m) = Some f -> In t facetypes -> 0 < ec_nelem (f_f2n f) ->
  me_nface (pop_faces m t) = me_nface m /\ faces_held (pop_faces m t) = faces_held m - ec_nelem (f_f2n f).
Proof. exact @nface_after_pop. Qed.
Print Assumptions C22_counter_after_pop.
Example C22_ex : let m := fold_left do_face_op [AddF "mixed" ex_cells None; PopF "mixed"; AddF "boundary" ex_cells None] ex_mesh in
  sets_wf ex_mesh /\ me_nface m = 2 /\ faces_held (pop_faces m "boundary") = 0 /\ me_nface (pop_faces m "boundary") = 2.
Proof. split; [intros k f []|]. repeat split. Qed.

(** C23: coordinates. *)
Theorem C23_set_xyz : forall F (m : mesh F) x y z,
  zlen x = me_nnode m -> zlen y = me_nnode m -> zlen z = me_nnode m ->
  exists m', set_coords_xyz m x y z = (Ok tt, m') /\ nodescoord m' = Ok (x, y, z) /\ same_but_nodes m m'.
Proof. exact @set_xyz_ok. Qed.
Print Assumptions C23_set_xyz.
Theorem C23_set_xyz_bad : forall F (m : mesh F) x y z,
  ~ (zlen x = me_nnode m /\ zlen y = me_nnode m /\ zlen z = me_nnode m) ->
  set_coords_xyz m x y z = (Err AssertionError, m).
Proof. exact @set_xyz_bad. Qed.
Print Assumptions C23_set_xyz_bad.
Theorem C23_set_nd : forall F (m : mesh F) cols rows, zlen rows = me_nnode m -> 3 <= cols ->
  Forall (fun r => zlen r = cols) rows ->
  exists m' x y z, set_coords_nd m cols rows = (Ok tt, m') /\ nodescoord m' = Ok (x, y, z) /\ same_but_nodes m m' /\
    zlen x = me_nnode m /\ zlen y = me_nnode m /\ zlen z = me_nnode m /\
    forall k r, nth_error rows k = Some r ->
      nth_error x k = nth_error r 0 /\ nth_error y k = nth_error r 1 /\ nth_error z k = nth_error r 2.
Proof. exact @set_nd_ok. Qed.
Print Assumptions C23_set_nd.
Theorem C23_set_nd_bad : forall F (m : mesh F) cols rows, zlen rows <> me_nnode m ->
  set_coords_nd m cols rows = (Err AssertionError, m).
Proof. exact @set_nd_bad_rows. Qed.
Print Assumptions C23_set_nd_bad.
(** With two columns it raises after having replaced x (and y). *)
Theorem C23_set_nd_two_columns : forall F (m : mesh F) rows, zlen rows = me_nnode m -> Forall (fun r => zlen r = 2) rows ->
  exists m' x, set_coords_nd m 2 rows = (Err IndexError, m') /\ dget String.eqb "x" (me_nodes m') = Some x /\
    (forall k r, nth_error rows k = Some r -> nth_error x k = nth_error r 0) /\
    dget String.eqb "z" (me_nodes m') = dget String.eqb "z" (me_nodes m).
Proof. exact @set_nd_two_columns. Qed.
Print Assumptions C23_set_nd_two_columns.
Theorem C23_scale : forall F mul (m : mesh F) x y z sx sy sz, coords_ok m x y z ->
  exists m', scale mul m sx sy sz = (Ok tt, m') /\ same_but_nodes m m' /\
    coords_ok m' (List.map (fun v => mul v sx) x) (List.map (fun v => mul v sy) y) (List.map (fun v => mul v sz) z).
Proof. exact @scale_ok. Qed.
Print Assumptions C23_scale.
Theorem C23_scale_twice : forall F mul (m : mesh F) x y z s t u s' t' u', coords_ok m x y z ->
  (forall a b c, mul (mul a b) c = mul a (mul b c)) ->
  exists m1 m2 m3, scale mul m s t u = (Ok tt, m1) /\ scale mul m1 s' t' u' = (Ok tt, m2) /\
    scale mul m (mul s s') (mul t t') (mul u u') = (Ok tt, m3) /\ nodescoord m2 = nodescoord m3 /\ same_but_nodes m2 m3.
Proof. exact @scale_twice. Qed.
Print Assumptions C23_scale_twice.
Theorem C23_morph : forall F f (m : mesh F) x y z x' y' z', coords_ok m x y z -> f x y z = (x', y', z') ->
  (zlen x' = me_nnode m /\ zlen y' = me_nnode m /\ zlen z' = me_nnode m ->
   exists m', morph f m = (Ok tt, m') /\ nodescoord m' = Ok (x', y', z') /\ same_but_nodes m m') /\
  (~ (zlen x' = me_nnode m /\ zlen y' = me_nnode m /\ zlen z' = me_nnode m) -> morph f m = (Err AssertionError, m)).
Proof. exact @morph_ok. Qed.
Print Assumptions C23_morph.
Example C23_ex : exists m, set_coords_nd (new_mesh 0 2) 3 [[1;2;3];[4;5;6]] = (Ok tt, m) /\ coords_ok m [1;4] [2;5] [3;6] /\
  nodescoord (snd (scale Z.mul m 2 3 5)) = Ok ([2;8], [6;15], [15;30]).
Proof. eexists. split; [reflexivity|]. repeat split. Qed.
