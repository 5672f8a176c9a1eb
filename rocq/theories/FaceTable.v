(** * Face extraction with the side tables of the package. *)
From Coq Require Import Lia Sorted Permutation ZifyBool ZifyNat Arith.
From Verif Require Import PyFacts Conn ConnSpec FaceSpec ConnProofs FaceProofs FaceThm TableSpec TableProofs.

Definition nn_face (ft : string) : nat :=
  if String.eqb ft "bar2" then 2 else if String.eqb ft "tri3" then 3 else if String.eqb ft "quad4" then 4 else 9.

Definition uniformb (tbl : sidetable) : bool :=
  forallb (fun '(t, faces) => forallb (fun '(ft, efs) => forallb (fun ef => Nat.eqb (List.length ef) (nn_face ft)) efs) faces) tbl.
Lemma uniformb_ok tbl : uniformb tbl = true -> uniform_faces tbl nn_face.
Proof.
  unfold uniformb. rewrite forallb_forall. intros H t faces ft efs ef Ht Hf He.
  specialize (H (t, faces) Ht). cbn in H. rewrite forallb_forall in H. specialize (H (ft, efs) Hf). cbn in H.
  rewrite forallb_forall in H. apply Nat.eqb_eq. auto.
Qed.
Lemma in_force_uniform tbl types : in_force tbl types -> uniform_faces tbl nn_face.
Proof. intros [[-> _]|[-> _]]; apply uniformb_ok; reflexivity. Qed.

Definition typesb (tbl : sidetable) (types : list (string * nat)) : bool :=
  forallb (fun '(t, n) => match sget t tbl with
     | None => false
     | Some faces => forallb (fun '(ft, efs) => forallb (fun ef => forallb (fun j => (0 <=? j) && (j <? Z.of_nat n)) ef) efs) faces
     end) types.
Lemma typesb_ok tbl types c : typesb tbl types = true -> cells_of types c -> cells_ok tbl c.
Proof.
  unfold typesb. rewrite forallb_forall. intros H C t ed Hin. destruct (C t ed Hin) as (n & Hn & Hc).
  specialize (H (t, n) Hn). cbn in H. destruct (sget t tbl) as [faces|]; [|discriminate].
  exists faces, n. split; [auto|split; [auto|]]. intros ft efs Hf ef j He Hj.
  rewrite forallb_forall in H. specialize (H (ft, efs) Hf). cbn in H. rewrite forallb_forall in H.
  specialize (H ef He). rewrite forallb_forall in H. specialize (H j Hj). lia.
Qed.
Lemma in_force_cells tbl types c : in_force tbl types -> cells_of types c -> cells_ok tbl c.
Proof. intros [[-> ->]|[-> ->]]; apply typesb_ok; reflexivity. Qed.

Theorem faces_sound tbl types c fs :
  in_force tbl types -> cells_of types c -> ec_wf c -> ec_plain c ->
  ec_create_faces tbl c = Ok fs -> faces_spec tbl c fs.
Proof. intros F C W P. apply create_faces_sound; auto. eapply in_force_cells; eauto. Qed.

Theorem faces_count tbl types c fs :
  in_force tbl types -> cells_of types c -> ec_wf c -> ec_plain c -> no_triple tbl c ->
  ec_create_faces tbl c = Ok fs ->
  forall ft, zlen (ec_sides tbl ft c) =
             2 * zlen (pairs_of_type (fs_int fs) ft) + zlen (pairs_of_type (fs_bnd fs) ft).
Proof. intros F C W P NT. apply create_faces_count; auto. eapply in_force_cells; eauto. Qed.

Theorem faces_returns tbl types c :
  in_force tbl types -> cells_of types c -> ec_wf c -> ec_plain c -> no_triple tbl c ->
  (forall ft, has_face_type tbl c ft -> exists nodes, (2 <= List.length (sharing nodes (ec_sides tbl ft c)))%nat) ->
  exists fs, ec_create_faces tbl c = Ok fs.
Proof.
  intros F C W P NT H. apply (create_faces_returns tbl nn_face c); auto.
  - eapply in_force_cells; eauto.
  - eapply in_force_uniform; eauto.
  - now apply shared_accepted.
Qed.

Theorem faces_refused tbl types c ft :
  in_force tbl types -> cells_of types c -> ec_wf c -> ec_plain c -> has_face_type tbl c ft ->
  (forall nodes, (List.length (sharing nodes (ec_sides tbl ft c)) <= 1)%nat) ->
  ec_create_faces tbl c = Err AssertionError.
Proof.
  intros F C W P Hft H. eapply (no_shared_refused tbl nn_face); eauto.
  - eapply in_force_cells; eauto.
  - eapply in_force_uniform; eauto.
Qed.

Theorem faces_returns_iff tbl types c :
  in_force tbl types -> cells_of types c -> ec_wf c -> ec_plain c ->
  (accepted tbl c -> exists fs, ec_create_faces tbl c = Ok fs) /\
  (~ accepted tbl c -> ec_create_faces tbl c = Err AssertionError).
Proof.
  intros F C W P. apply (create_faces_returns tbl nn_face c); auto.
  - eapply in_force_cells; eauto.
  - eapply in_force_uniform; eauto.
Qed.

(** ** A single cell *)

Definition single (t : string) (row : list Z) : econn :=
  EC 1 [(t, ED (ILrange 0 0) (Mat (Some (List.length row)) [row]))].

Definition distinct_sidesb (tbl : sidetable) (t : string) (n : nat) : bool :=
  match sget t tbl with
  | None => false
  | Some faces => forallb (fun '(ft, efs) =>
        nodupb zlist_eqb (List.map zsort efs) && forallb (nodupb Z.eqb) efs &&
        forallb (forallb (fun j => (0 <=? j) && (j <? Z.of_nat n))) efs) faces
      && nodupb String.eqb (List.map fst faces) && existsb (fun '(ft, efs) => negb (Nat.eqb (List.length efs) 0)) faces
  end.

Lemma single_wf t row : ec_wf (single t row) /\ ec_plain (single t row).
Proof.
  split.
  - constructor.
    + constructor; [intros []|constructor].
    + intros t' ed [H|[]]. inv H. constructor; try discriminate; auto. constructor; auto.
    + reflexivity.
  - intros t' ed [H|[]]. inv H. reflexivity.
Qed.

Lemma nth_inj (row : list Z) (j k : Z) : NoDup row -> 0 <= j < zlen row -> 0 <= k < zlen row ->
  nth (Z.to_nat j) row 0 = nth (Z.to_nat k) row 0 -> j = k.
Proof.
  intros N Hj Hk E. unfold zlen in *. rewrite (NoDup_nth row 0) in N.
  assert (Z.to_nat j = Z.to_nat k) by (apply N; auto; lia). lia.
Qed.

Lemma map_perm_inj (f : Z -> Z) (P : Z -> Prop) a b :
  (forall x y, P x -> P y -> f x = f y -> x = y) ->
  (forall x, In x a -> P x) -> (forall x, In x b -> P x) -> NoDup a -> NoDup b ->
  Permutation (List.map f a) (List.map f b) -> Permutation a b.
Proof.
  intros Hf Ha Hb Na Nb HP. apply NoDup_Permutation; auto. intros x. split; intros Hx.
  - assert (In (f x) (List.map f b)) as X by (eapply Permutation_in; [exact HP|now apply in_map]).
    apply in_map_iff in X. destruct X as (y & E & Hy). apply Hf in E; auto. now subst.
  - assert (In (f x) (List.map f a)) as X by (eapply Permutation_in; [symmetry; exact HP|now apply in_map]).
    apply in_map_iff in X. destruct X as (y & E & Hy). apply Hf in E; auto. now subst.
Qed.

Lemma filter_le1 {A} (f : A -> bool) l :
  (forall x y l1 l2 l3, l = l1 ++ x :: l2 ++ y :: l3 -> f x = true -> f y = true -> False) ->
  (List.length (filter f l) <= 1)%nat.
Proof.
  induction l as [|a l IH]; intros H; simpl; [lia|]. destruct (f a) eqn:E.
  - assert (Z : filter f l = []); [|rewrite Z; simpl; lia].
    destruct (filter f l) as [|b fl] eqn:F; auto. exfalso.
    assert (In b (filter f l)) as X by (rewrite F; simpl; auto). apply filter_In in X. destruct X as [X Y].
    apply in_split in X. destruct X as (l2 & l3 & ->). apply (H a b [] l2 l3); auto.
  - apply IH. intros x y l1 l2 l3 -> . apply (H x y (a :: l1) l2 l3). reflexivity.
Qed.

Lemma single_refused tbl types t n row :
  in_force tbl types -> In (t, n) types -> distinct_sidesb tbl t n = true ->
  List.length row = n -> NoDup row -> ec_create_faces tbl (single t row) = Err AssertionError.
Proof.
  intros F Ht D Hl N. unfold distinct_sidesb in D.
  destruct (sget t tbl) as [faces|] eqn:Ef; [|discriminate].
  rewrite !andb_true_iff in D. destruct D as [[D1 D2] D3].
  apply existsb_exists in D3. destruct D3 as ((ft, efs) & Hf & Hne).
  destruct (single_wf t row) as [W P].
  eapply (faces_refused tbl types _ ft); eauto.
  - intros t' ed [H|[]]. inv H. eauto.
  - exists t, (ED (ILrange 0 0) (Mat (Some (List.length row)) [row])), faces, efs.
    repeat split; simpl; auto. intros ->. discriminate.
  - intros nodes. unfold ec_sides, single. cbn [ec_dict flat_map fst snd]. rewrite app_nil_r.
    unfold ed_sides. rewrite Ef. cbn [ed_pairs ed_index ed_e2n entries m_rows].
    change (ed_pairs _) with [(0, row)]. cbn [flat_map]. rewrite app_nil_r.
    assert (Es : flat_map (fun '(ft', efs) => if String.eqb ft ft' then List.map (fun ef => (side_nodes row ef, 0)) efs else []) faces
                 = List.map (fun ef => (side_nodes row ef, 0)) efs).
    { transitivity (flat_map (fun kv => if String.eqb ft (fst kv) then (fun efs => List.map (fun ef => (side_nodes row ef, 0)) efs) (snd kv) else []) faces).
      - apply flat_map_ext. intros (a, b). reflexivity.
      - rewrite (flat_map_sel_get (fun efs => List.map (fun ef => (side_nodes row ef, 0)) efs)).
        + rewrite (in_dget _ seqb_eq ft efs faces); auto. apply (nodupb_ok String.eqb seqb_eq); auto.
        + apply (nodupb_ok String.eqb seqb_eq); auto. }
    rewrite Es. clear Es. rewrite forallb_forall in D1. specialize (D1 (ft, efs) Hf). cbn in D1.
    rewrite !andb_true_iff, !forallb_forall in D1. destruct D1 as [[E1 E2] E3].
    apply (nodupb_ok zlist_eqb zlist_eqb_eq) in E1.
    apply filter_le1. intros x y l1 l2 l3 Heq Hx Hy.
    apply map_eq_app in Heq. destruct Heq as (e1 & e23 & -> & <- & Heq).
    apply map_eq_cons in Heq. destruct Heq as (ex & e' & -> & <- & Heq).
    apply map_eq_app in Heq. destruct Heq as (e2 & e'' & -> & <- & Heq).
    apply map_eq_cons in Heq. destruct Heq as (ey & e3 & -> & <- & <-).
    cbn [fst] in Hx, Hy. apply same_nodes_perm in Hx, Hy.
    assert (Pxy : Permutation (side_nodes row ex) (side_nodes row ey)) by (rewrite <- Hx; auto).
    assert (Ix : In ex (e1 ++ ex :: e2 ++ ey :: e3)) by (apply in_app_iff; simpl; auto).
    assert (Iy : In ey (e1 ++ ex :: e2 ++ ey :: e3)) by (rewrite in_app_iff; simpl; rewrite in_app_iff; simpl; auto).
    assert (V : forall ef, In ef (e1 ++ ex :: e2 ++ ey :: e3) -> NoDup ef /\ forall j, In j ef -> 0 <= j < zlen row).
    { intros ef He. split; [apply (nodupb_ok Z.eqb Z.eqb_eq); auto|]. intros j Hj. specialize (E3 ef He).
      rewrite forallb_forall in E3. specialize (E3 j Hj). unfold zlen. lia. }
    assert (Q : Permutation (rev ex) (rev ey)).
    { apply (map_perm_inj (fun j => nth (Z.to_nat j) row 0) (fun j => 0 <= j < zlen row)); auto.
      - intros j k Hj Hk. now apply nth_inj.
      - intros j Hj. apply in_rev in Hj. now apply (V ex).
      - intros j Hj. apply in_rev in Hj. now apply (V ey).
      - apply NoDup_rev, V; auto.
      - apply NoDup_rev, V; auto. }
    assert (Q' : zsort ex = zsort ey).
    { apply zsort_perm_iff. rewrite (Permutation_rev ex), (Permutation_rev ey). exact Q. }
    rewrite map_app in E1. cbn [List.map] in E1. rewrite map_app in E1. cbn [List.map] in E1.
    apply NoDup_remove in E1. destruct E1 as [_ E1]. apply E1. rewrite Q'. rewrite !in_app_iff. simpl. auto.
Qed.

Theorem single_cell_refused tbl types t n row :
  in_force tbl types -> In (t, n) types ->
  List.length row = n -> NoDup row -> ec_create_faces tbl (single t row) = Err AssertionError.
Proof.
  intros F Ht. apply (single_refused tbl types t n row F Ht). clear row.
  destruct F as [[-> ->]|[-> ->]]; simpl in Ht;
    repeat (destruct Ht as [Ht|Ht]; [inv Ht; vm_compute; reflexivity|]); destruct Ht.
Qed.

(** ** The process-global table *)

Lemma table_after evs : elem2faces_after evs = if existsb (fun e => match e with GmshRead true => true | _ => false end) evs
                                               then gmsh_elem2faces else cgns_elem2faces.
Proof.
  unfold elem2faces_after. induction evs as [|e evs IH] using rev_ind; auto.
  rewrite fold_left_app, existsb_app, IH. simpl. destruct (existsb _ evs), e as [[]|]; reflexivity.
Qed.

Lemma foldM_ext {A S} (f g : S -> A -> res S) l :
  (forall s a, In a l -> f s a = g s a) -> forall s, foldM f s l = foldM g s l.
Proof.
  induction l as [|a l IH]; intros H s; auto. cbn [foldM]. rewrite (H s a) by (simpl; auto).
  destruct (g s a); cbn [bind]; auto. apply IH. intros; apply H; simpl; auto.
Qed.

Lemma build_tables_ext t1 t2 c : (forall t, In t (ec_types c) -> sget t t1 = sget t t2) ->
  build_face_and_neighbour t1 c = build_face_and_neighbour t2 c.
Proof.
  intros H. unfold build_face_and_neighbour. apply foldM_ext. intros s (t, ed) Hin.
  unfold dget_err. rewrite H; auto. apply in_map_iff. exists (t, ed). auto.
Qed.

Theorem same_on_linear_types c :
  (forall t, In t (ec_types c) -> In t ["quad4"; "tetra4"; "pyra5"; "prism6"; "hexa8"]) ->
  ec_create_faces cgns_elem2faces c = ec_create_faces gmsh_elem2faces c.
Proof.
  intros H. unfold ec_create_faces. rewrite (build_tables_ext cgns_elem2faces gmsh_elem2faces); auto.
  intros t Ht. apply H in Ht. repeat (destruct Ht as [<-|Ht]; [reflexivity|]). destruct Ht.
Qed.

Lemma foldM_err {A S} (f : S -> A -> res S) l e : forall s,
  (exists l1 a l2, l = l1 ++ a :: l2 /\ (forall s, f s a = Err e) /\
     forall s b, In b l1 -> exists s', f s b = Ok s') -> foldM f s l = Err e.
Proof.
  intros s (l1 & a & l2 & -> & Ha & H1). revert s. induction l1 as [|b l1 IH]; intros s.
  - cbn. now rewrite Ha.
  - cbn [app foldM]. destruct (H1 s b) as (s' & E); [simpl; auto|]. rewrite E. cbn [bind].
    apply IH. intros; apply H1; simpl; auto.
Qed.

Theorem tri3_before_gmsh c : ec_wf c -> ec_plain c -> cells_of gmsh_types c -> In "tri3" (ec_types c) ->
  ec_create_faces cgns_elem2faces c = Err KeyError.
Proof.
  intros W P C Ht. unfold ec_create_faces. 
  assert (E : build_face_and_neighbour cgns_elem2faces c = Err KeyError); [|now rewrite E].
  unfold build_face_and_neighbour. apply foldM_err.
  apply in_map_iff in Ht. destruct Ht as ((t & ed) & Et & Hin). simpl in Et. subst t.
  apply in_split in Hin. destruct Hin as (l1 & l2 & Hd). exists l1, ("tri3", ed), l2. split; [auto|split].
  - intros s. rewrite il_list_entries.
    + reflexivity.
    + eapply edwf_typed, (ecwf_eds _ W). rewrite Hd. apply in_app_iff. simpl; auto.
    + eapply P. rewrite Hd. apply in_app_iff. simpl; auto.
  - intros s (t, ed') Hin'.
    assert (Hin : In (t, ed') (ec_dict c)) by (rewrite Hd; apply in_app_iff; auto).
    destruct (C t ed' Hin) as (n & Hn & Hc).
    assert (Hne : t <> "tri3").
    { intros ->. assert (N := ecwf_keys _ W). unfold ec_types in N. rewrite Hd, map_app in N.
      simpl in N. apply NoDup_remove in N. destruct N as [_ N]. apply N. apply in_app_iff. left.
      apply in_map_iff. exists ("tri3", ed'). auto. }
    assert (Hn' : In (t, n) cgns_types) by (destruct Hn as [Hn|Hn]; [inv Hn; congruence|auto]).
    assert (C1 : cells_ok cgns_elem2faces (EC (zlen (ed_pairs ed')) [(t, ed')])).
    { eapply (in_force_cells _ cgns_types); [left; auto|]. intros t' ed2 [X|[]]. inv X. eauto. }
    destruct (C1 t ed') as (faces & n' & Hf & Hc' & Hj); [simpl; auto|].
    destruct (ecwf_eds _ W t ed' Hin) as [Wt Wl Wm].
    rewrite il_list_entries by (auto; eapply P; eauto). cbn [bind]. unfold dget_err. rewrite Hf. cbn [bind].
    destruct (foldM_adds (A := side)
      (fun fn '(ftype, face_of_elem) =>
          foldM (fun fn eface =>
              reindex_f <- np_cols (ed_e2n ed') (rev eface) ;;
              Ok (sextend ftype (combine reindex_f (entries (ed_index ed'))) fn))
            fn face_of_elem)
      (fun (fe : string * list (list Z)) ft => flat_map (fun ef => if String.eqb ft (fst fe) then src_sides_ef ed' ef else []) (snd fe))
      (fun fe k => exists b, In b (snd fe) /\ k = fst fe)
      faces) with (d := s) as (d' & E & _).
    + intros d1 (ft, efs) Hfe. cbn [fst snd].
      apply (foldM_adds (A := side)
         (fun fn eface =>
              reindex_f <- np_cols (ed_e2n ed') (rev eface) ;;
              Ok (sextend ft (combine reindex_f (entries (ed_index ed'))) fn))
         (fun ef ft' => if String.eqb ft' ft then src_sides_ef ed' ef else [])
         (fun ef k => k = ft) efs).
      intros d2 ef Hef. rewrite (np_cols_ok _ n') by (auto; intros j Hj'; apply in_rev in Hj'; eapply Hj; eauto).
      cbn [bind]. eexists; split; [reflexivity|]. apply (sextend_adds ft (src_sides_ef ed' ef) d2).
    + exists d'. exact E.
Qed.

(** ** Deciding the hypotheses on examples *)
Definition face_names : list string := ["bar2"; "tri3"; "quad4"; "quad9"].
Definition no_tripleb (tbl : sidetable) (c : econn) : bool :=
  forallb (fun ft => forallb (fun s => Nat.leb (List.length (sharing (fst s) (ec_sides tbl ft c))) 2) (ec_sides tbl ft c)) face_names.
Definition namesb (tbl : sidetable) : bool :=
  forallb (fun '(t, faces) => forallb (fun '(ft, efs) => existsb (String.eqb ft) face_names) faces) tbl.

Lemma sides_names tbl c ft : namesb tbl = true -> ~ In ft face_names -> ec_sides tbl ft c = [].
Proof.
  intros H Hno. destruct (ec_sides tbl ft c) as [|s l] eqn:E; auto. exfalso. apply Hno.
  assert (Hs : In s (ec_sides tbl ft c)) by (rewrite E; simpl; auto). clear E.
  apply in_flat_map in Hs. destruct Hs as ((t, ed) & _ & Hs). unfold ed_sides in Hs. cbn [fst snd] in Hs.
  destruct (sget t tbl) as [faces|] eqn:Et; [|destruct Hs]. apply (dget_in _ seqb_eq) in Et.
  apply in_flat_map in Hs. destruct Hs as ((ci, row) & _ & Hs). apply in_flat_map in Hs.
  destruct Hs as ((ft', efs) & Hf & Hs). destruct (String.eqb ft ft') eqn:Ef; [|destruct Hs].
  apply seqb_eq in Ef. subst ft'. unfold namesb in H. rewrite forallb_forall in H. specialize (H _ Et). cbn in H.
  rewrite forallb_forall in H. specialize (H _ Hf). cbn in H. fold face_names in H.
  apply existsb_exists with (f := String.eqb ft) (l := face_names) in H. destruct H as (x & Hx & E).
  apply seqb_eq in E. now subst.
Qed.

Lemma no_tripleb_ok tbl c : namesb tbl = true -> no_tripleb tbl c = true -> no_triple tbl c.
Proof.
  intros HN H ft nodes. destruct (in_dec string_dec ft face_names) as [Hin|Hno].
  - unfold no_tripleb in H. rewrite forallb_forall in H. specialize (H ft Hin). rewrite forallb_forall in H.
    destruct (sharing nodes (ec_sides tbl ft c)) as [|s l] eqn:E; [simpl; lia|]. rewrite <- E.
    assert (Hs : In s (sharing nodes (ec_sides tbl ft c))) by (rewrite E; simpl; auto).
    apply filter_In in Hs. destruct Hs as [Hs1 Hs2]. rewrite (sharing_perm_arg _ _ _ Hs2).
    apply Nat.leb_le. auto.
  - rewrite (sides_names tbl c ft HN Hno). simpl. lia.
Qed.
