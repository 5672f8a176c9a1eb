(** * Numbering and element types of extruded meshes. *)
From Coq Require Import Permutation Lia.
From Verif Require Import PyFacts Conn ConnSpec ConnProofs FaceSpec FaceProofs FaceThm FaceTable TableSpec TableProofs Mesh MeshSpec MeshProofs FaceSetProofs SimpleProofs CheckProofs Extrude ExtrudeSpec ExtrudeProofs.

(** ** Numbers *)
Lemma pairs_by_type c : NoDup (ec_types c) -> ec_pairs c = flat_map (pairs_of_type c) (ec_types c).
Proof.
  unfold ec_pairs, ec_types, pairs_of_type. intros ND.
  assert (X : forall d, NoDup (List.map fst d) -> forall d0, (forall t, In t (List.map fst d) -> ~ In t (List.map fst d0)) ->
     flat_map (fun kv => ed_pairs (snd kv)) d =
     flat_map (fun t => flat_map (fun kv => if String.eqb t (fst kv) then ed_pairs (snd kv) else []) (d0 ++ d)) (List.map fst d)).
  { induction d as [|[t ed] d IH]; intros N d0 HD; auto. cbn [List.map fst flat_map snd]. cbn [List.map fst] in N.
    apply NoDup_cons_iff in N. destruct N as [N1 N2].
    rewrite (IH N2 (d0 ++ [(t, ed)])).
    - rewrite <- app_assoc. cbn [app]. f_equal. rewrite flat_map_app. cbn [flat_map fst snd]. rewrite String.eqb_refl.
      assert (Z : forall l : list (string * edict), ~ In t (List.map fst l) -> flat_map (fun kv => if String.eqb t (fst kv) then ed_pairs (snd kv) else []) l = []).
      { induction l as [|[t' e'] l IHl]; intros Hn; auto. cbn [flat_map fst snd]. cbn in Hn.
        destruct (String.eqb_spec t t'); [subst; tauto|]. cbn. apply IHl. tauto. }
      rewrite (Z d0) by (apply HD; cbn; auto). rewrite (Z d N1). cbn [app]. now rewrite app_nil_r.
    - intros t' Ht'. rewrite map_app, in_app_iff. cbn [List.map fst In]. intros [X|X]; [apply (HD t'); cbn; auto|].
      destruct X as [X|[]]. subst. auto. }
  apply (X (ec_dict c) ND []). intros t _ [].
Qed.

Lemma xc_all_pairs shift n c c' : NoDup (ec_types c) -> extruded_conn shift n c c' ->
  Permutation (ec_pairs c') (layers shift n (ec_pairs c)).
Proof.
  intros ND [[W' _] XT XP _ _]. rewrite (pairs_by_type c' (ecwf_keys _ W')), (pairs_by_type c ND).
  assert (E : flat_map (pairs_of_type c') (ec_types c') = flat_map (fun t => layers shift n (pairs_of_type c t)) (ec_types c)).
  { clear ND W'. induction XT as [|t x ts xs H _ IH]; auto. cbn [flat_map]. rewrite IH, (XP t x H). reflexivity. }
  rewrite E. unfold layers. rewrite Permutation_flat_map_swap. apply Permutation_refl'. apply flat_map_ext. intros i.
  now rewrite map_flat_map.
Qed.

Lemma xc_numbers shift n c c' : ec_wf c -> extruded_conn shift n c c' ->
  Permutation (ec_numbers c') (all_planes shift (n - 1) (ec_numbers c)).
Proof.
  intros W X. assert (W' := proj1 (xc_wf _ _ _ _ X)).
  rewrite <- (ec_numbers_pairs c' W'), <- (ec_numbers_pairs c W).
  rewrite (Permutation_map fst (xc_all_pairs _ _ _ _ (ecwf_keys _ W) X)).
  apply Permutation_refl'. unfold layers, all_planes. rewrite map_flat_map. apply flat_map_ext. intros i.
  rewrite !map_map. reflexivity.
Qed.

Lemma in_all_planes s n l v : In v (all_planes s n l) <-> exists b i, In b l /\ 0 <= i < n /\ v = b + i * s.
Proof.
  unfold all_planes. rewrite in_flat_map. split.
  - intros (i & Hi & Hv). apply in_zrange in Hi. apply in_map_iff in Hv. destruct Hv as (b & <- & Hb). exists b, i. auto.
  - intros (b & i & Hb & Hi & ->). exists i. rewrite in_zrange. split; auto. apply in_map_iff. eauto.
Qed.

Lemma numbers_in shift n c c' v : ec_wf c -> extruded_conn shift n c c' ->
  In v (ec_numbers c') <-> exists b i, In b (ec_numbers c) /\ 0 <= i < n - 1 /\ v = b + i * shift.
Proof.
  intros W X. rewrite <- in_all_planes. assert (P := xc_numbers _ _ _ _ W X).
  split; intros H; [exact (Permutation_in _ P H)|exact (Permutation_in _ (Permutation_sym P) H)].
Qed.

Lemma all_planes_full nc k : 0 <= nc -> 0 <= k -> all_planes nc k (zrange 0 nc) = zrange 0 (k * nc).
Proof.
  intros H0 Hk. unfold all_planes. revert k Hk. refine (natlike_ind _ _ _).
  - reflexivity.
  - intros k Hk IH. rewrite (zrange_app 0 k (Z.succ k)) by lia. rewrite flat_map_app, IH.
    rewrite (zrange_cons k) by lia. rewrite (zrange_empty (k + 1)) by lia. cbn [flat_map]. rewrite app_nil_r.
    rewrite (zrange_app 0 (k * nc) (Z.succ k * nc)) by lia. f_equal.
    replace (zrange (k * nc) (Z.succ k * nc)) with (zrange (0 + k * nc) (nc + k * nc)) by (f_equal; lia).
    rewrite <- map_add_zrange. reflexivity.
Qed.

Theorem numbers_complete_iff shift n nc c c' : ec_wf c -> extruded_conn shift n c c' ->
  3 <= n -> 1 <= nc -> 0 <= shift -> Permutation (ec_numbers c) (zrange 0 nc) ->
  (Permutation (ec_numbers c') (zrange 0 ((n - 1) * nc)) <-> shift = nc).
Proof.
  intros W X Hn Hc Hs PB. split.
  - intros P.
    assert (IB : forall b, In b (ec_numbers c) <-> 0 <= b < nc).
    { intros b. rewrite <- in_zrange. split; intros H; [exact (Permutation_in _ PB H)|exact (Permutation_in _ (Permutation_sym PB) H)]. }
    assert (I' : forall b, In b (ec_numbers c') <-> 0 <= b < (n - 1) * nc).
    { intros b. rewrite <- in_zrange. split; intros H; [exact (Permutation_in _ P H)|exact (Permutation_in _ (Permutation_sym P) H)]. }
    assert (A : nc - 1 + (n - 2) * shift < (n - 1) * nc).
    { apply I'. apply (numbers_in shift n c c'); auto. exists (nc - 1), (n - 2). split; [apply IB; lia|]. split; lia. }
    assert (B : In ((n - 1) * nc - 1) (ec_numbers c')). { apply I'. nia. }
    apply (numbers_in shift n c c') in B; auto. destruct B as (b & i & Hb & Hi & E). apply IB in Hb.
    assert ((n - 2) * shift <= (n - 2) * nc) by lia.
    assert (i * shift <= (n - 2) * shift) by (apply Z.mul_le_mono_nonneg_r; lia).
    assert ((n - 2) * nc <= (n - 2) * shift) by lia.
    assert ((n - 2) * shift = (n - 2) * nc) by lia. apply Z.mul_reg_l in H2; lia.
  - intros ->. rewrite (xc_numbers nc n c c') by auto.
    rewrite <- (all_planes_full nc (n - 1)) by lia. unfold all_planes. apply Permutation_flat_map_ext.
    intros i _. now apply Permutation_map.
Qed.

Lemma NoDup_flat_map_inv {A B} (f : A -> list B) l a a' b : NoDup l -> NoDup (flat_map f l) ->
  In a l -> In a' l -> In b (f a) -> In b (f a') -> a = a'.
Proof.
  induction l as [|x l IH]; intros N D Ha Ha' Hb Hb'; [destruct Ha|]. inv N. cbn [flat_map] in D. apply NoDup_app in D.
  destruct D as (D1 & D2 & D3). destruct Ha as [->|Ha], Ha' as [->|Ha']; auto.
  - exfalso. apply (D3 b); auto. apply in_flat_map. eauto.
  - exfalso. apply (D3 b); auto. apply in_flat_map. eauto.
Qed.

Theorem numbers_unique_iff shift n c c' : ec_wf c -> extruded_conn shift n c c' -> NoDup (ec_numbers c) ->
  (NoDup (ec_numbers c') <-> forall a b k, In a (ec_numbers c) -> In b (ec_numbers c) -> 1 <= k <= n - 2 -> a <> b + k * shift).
Proof.
  intros W X ND. assert (P := xc_numbers _ _ _ _ W X).
  assert (E : NoDup (ec_numbers c') <-> NoDup (all_planes shift (n - 1) (ec_numbers c))).
  { split; intros H; [exact (Permutation_NoDup P H)|exact (Permutation_NoDup (Permutation_sym P) H)]. }
  rewrite E. clear E P. unfold all_planes. split.
  - intros H a b k Ha Hb Hk Eab.
    assert (0 = k); [|lia].
    apply (NoDup_flat_map_inv _ _ 0 k a (NoDup_zrange 0 (n - 1)) H).
    + apply in_zrange; lia.
    + apply in_zrange; lia.
    + apply in_map_iff. exists a. split; auto. lia.
    + apply in_map_iff. exists b. split; auto.
  - intros H. apply NoDup_flat_map; [apply NoDup_zrange| |].
    + intros i _. now apply map_add_NoDup.
    + intros i j v Hi Hj Hv Hv'. apply in_zrange in Hi, Hj. apply in_map_iff in Hv, Hv'.
      destruct Hv as (a & Ea & Ha), Hv' as (b & Eb & Hb).
      destruct (Z.lt_trichotomy i j) as [L|[L|L]]; auto; exfalso.
      * apply (H a b (j - i)); auto; lia.
      * apply (H b a (i - j)); auto; lia.
Qed.

Theorem numbers_safe shift n c c' : ec_wf c -> extruded_conn shift n c c' -> NoDup (ec_numbers c) ->
  (forall b, In b (ec_numbers c) -> 0 <= b < shift) -> NoDup (ec_numbers c').
Proof.
  intros W X ND H. apply (numbers_unique_iff shift n c c'); auto. intros a b k Ha Hb Hk.
  apply H in Ha. apply H in Hb. assert (1 * shift <= k * shift) by (apply Z.mul_le_mono_nonneg_r; lia). lia.
Qed.

Theorem numbers_collide shift n nc c c' : ec_wf c -> extruded_conn shift n c c' -> 3 <= n ->
  Permutation (ec_numbers c) (zrange 0 nc) -> 0 <= shift < nc -> ~ NoDup (ec_numbers c').
Proof.
  intros W X Hn P Hs ND. assert (N : NoDup (ec_numbers c)) by exact (Permutation_NoDup (Permutation_sym P) (NoDup_zrange 0 nc)).
  assert (ND' := proj1 (numbers_unique_iff shift n c c' W X N) ND). clear ND. rename ND' into ND.
  assert (I : forall b, 0 <= b < nc -> In b (ec_numbers c)).
  { intros b Hb. apply (Permutation_in _ (Permutation_sym P)). now apply in_zrange. }
  apply (ND shift 0 1); [apply I|apply I| |]; try lia.
Qed.

Theorem numbers_rejected shift n nc c c' : ec_wf c -> extruded_conn shift n c c' ->
  3 <= n -> 1 <= nc -> 0 <= shift -> Permutation (ec_numbers c) (zrange 0 nc) -> shift <> nc -> forall b, ec_check c' <> Ok b.
Proof.
  intros W X Hn Hc Hs P N.
  intros b E. destruct (check_sound _ _ E) as (_ & k & Hk & EN). apply N.
  apply (numbers_complete_iff shift n nc c c'); auto. rewrite EN. apply Permutation_refl'. f_equal.
  assert (L := f_equal zlen EN). rewrite zlen_zrange in L by lia.
  assert (L2 := Permutation_length P). assert (L3 := Permutation_length (xc_numbers _ _ _ _ W X)).
  unfold all_planes in L3. assert (L4 := zlen_flat_map_const (fun i => List.map (fun v => v + i * shift) (ec_numbers c)) (zrange 0 (n - 1)) nc).
  rewrite zlen_zrange in L4 by lia. rewrite Z.sub_0_r in L4.
  unfold zlen in *. rewrite zrange_length in L2. rewrite <- L4; [lia|]. intros i _. rewrite map_length. lia.
Qed.

(** ** Element types *)
Lemma layer_cell_quad s i k a b c d : layer_cell s i (k, [a; b; c; d]) =
  (k + i * s, [a + i * s; b + i * s; c + i * s; d + i * s; a + (i + 1) * s; b + (i + 1) * s; c + (i + 1) * s; d + (i + 1) * s]).
Proof. reflexivity. Qed.

Lemma layer_NoDup s i k row : NoDup row -> (forall v, In v row -> 0 <= v < s) -> NoDup (snd (layer_cell s i (k, row))).
Proof.
  intros N H. cbn [layer_cell fst snd]. apply NoDup_app. split; [now apply map_add_NoDup|]. split; [now apply map_add_NoDup|].
  intros v Hv Hv'. apply in_map_iff in Hv, Hv'. destruct Hv as (x & <- & Hx), Hv' as (y & E & Hy).
  apply H in Hx. apply H in Hy. lia.
Qed.

Lemma hexa8_table tbl faces : In tbl [cgns_elem2faces; gmsh_elem2faces] -> sget "hexa8" tbl = Some faces ->
  faces = [("tri3", []); ("quad4", connectivity_hexa8)].
Proof. intros [<-|[<-|[]]] H; injection H as <-; reflexivity. Qed.

Lemma pick1 (x a : Z) l r : Permutation l (a :: r) -> Permutation (x :: l) (a :: x :: r).
Proof. apply (Permutation_cons_app [a] r). Qed.
Lemma pick2 (x a b : Z) l r : Permutation l (a :: b :: r) -> Permutation (x :: l) (a :: b :: x :: r).
Proof. apply (Permutation_cons_app [a; b] r). Qed.
Lemma pick3 (x a b c : Z) l r : Permutation l (a :: b :: c :: r) -> Permutation (x :: l) (a :: b :: c :: x :: r).
Proof. apply (Permutation_cons_app [a; b; c] r). Qed.
Ltac perm := first [apply perm_nil|apply perm_skip; perm|apply pick1; perm|apply pick2; perm|apply pick3; perm].

Lemma hexa_sides tbl faces s i k a b c d : In tbl [cgns_elem2faces; gmsh_elem2faces] -> sget "hexa8" tbl = Some faces ->
  Forall2 (@Permutation Z) (cell_sides faces (snd (layer_cell s i (k, [a; b; c; d])))) (swept_sides s i [a; b; c; d]).
Proof.
  intros Ht Hf. rewrite (hexa8_table tbl faces Ht Hf). rewrite layer_cell_quad. unfold cell_sides. cbn. cbv [Pos.to_nat Pos.iter_op Nat.add].
  unfold swept_sides. cbn [cycle_edges path_edges app List.map].
  repeat apply Forall2_cons; try apply Forall2_nil; perm.
Qed.

Lemma swept_parallelepiped pos s i k row u w dir t t' :
  parallelogram pos row u w -> swept pos s i row dir t t' -> 0 < det u w dir -> t < t' ->
  parallelepiped (fun j => pos (nth (Z.to_nat j) (snd (layer_cell s i (k, row))) 0)).
Proof.
  intros HP HS HD HT. destruct row as [|a [|b [|c [|d [|? ?]]]]]; try destruct HP. destruct H0 as (HC & HDD). rename H into HB.
  rewrite layer_cell_quad. cbn [snd].
  exists (vadd (pos a) (vscale t dir)), u, w, (vscale (t' - t) dir).
  destruct (HS a) as [A1 A2]; [cbn; auto|]. destruct (HS b) as [B1 B2]; [cbn; auto|].
  destruct (HS c) as [C1 C2]; [cbn; auto|]. destruct (HS d) as [D1 D2]; [cbn; auto|].
  split.
  - assert (E : det u w (vscale (t' - t) dir) = (t' - t) * det u w dir).
    { unfold det, dot, cross, vscale. cbn [vx vy vz]. ring. }
    rewrite E. apply Z.mul_pos_pos; lia.
  - cbv [Z.to_nat Pos.to_nat Pos.iter_op Nat.add nth]. rewrite A1, A2, B1, B2, C1, C2, D1, D2, HB, HC, HDD.
    unfold vadd, vscale. cbn [vx vy vz]. repeat split; f_equal; ring.
Qed.

Theorem hexa_outward tbl faces pos s i k row u w dir t t' :
  In tbl [cgns_elem2faces; gmsh_elem2faces] -> sget "hexa8" tbl = Some faces ->
  parallelogram pos row u w -> swept pos s i row dir t t' -> 0 < det u w dir -> t < t' ->
  Forall (outward pos (snd (layer_cell s i (k, row)))) (cell_sides faces (snd (layer_cell s i (k, row)))).
Proof.
  intros Ht Hf HP HS HD HT. apply (hexa8_outward tbl); auto.
  - destruct row as [|a [|b [|c [|d [|? ?]]]]]; try destruct HP. reflexivity.
  - eapply swept_parallelepiped; eauto.
Qed.

(** Mirror images. *)
Definition mirror (a : vec) : vec := V3 (- vx a) (vy a) (vz a).
Lemma mirror_outward pos cell side : outward (fun v => mirror (pos v)) cell side -> inward pos cell side.
Proof.
  destruct side as [|p0 [|p1 [|p2 l]]]; cbn [outward inward]; auto.
  assert (E : forall a b c d e f, dot (cross (vsub (mirror a) (mirror b)) (vsub (mirror c) (mirror d))) (vsub (mirror e) (mirror f)) =
     - dot (cross (vsub a b) (vsub c d)) (vsub e f)).
  { intros. unfold dot, cross, vsub, mirror. cbn [vx vy vz]. ring. }
  intros (H1 & q & Hq & H2). split.
  - intros q' Hq'. specialize (H1 q' Hq'). rewrite E in H1. lia.
  - exists q. split; auto. rewrite E in H2. lia.
Qed.

Theorem hexa_inward tbl faces pos s i k row u w dir t t' :
  In tbl [cgns_elem2faces; gmsh_elem2faces] -> sget "hexa8" tbl = Some faces ->
  parallelogram pos row u w -> swept pos s i row dir t t' -> det u w dir < 0 -> t < t' ->
  Forall (inward pos (snd (layer_cell s i (k, row)))) (cell_sides faces (snd (layer_cell s i (k, row)))).
Proof.
  intros Ht Hf HP HS HD HT. eapply Forall_impl; [intros side; apply mirror_outward|].
  apply (hexa_outward tbl faces (fun v => mirror (pos v)) s i k row (mirror u) (mirror w) (mirror dir) t t'); auto.
  - destruct row as [|a [|b [|c [|d [|? ?]]]]]; try destruct HP. destruct H0 as (HC & HDD). cbn [parallelogram].
    rewrite H, HC, HDD. unfold mirror, vadd. cbn [vx vy vz]. repeat split; f_equal; ring.
  - intros v Hv. destruct (HS v Hv) as [-> ->]. unfold mirror, vadd, vscale. cbn [vx vy vz]. split; f_equal; ring.
  - replace (det (mirror u) (mirror w) (mirror dir)) with (- det u w dir); [lia|].
    unfold det, dot, cross, mirror. cbn [vx vy vz]. ring.
Qed.

(** ** Types missing from the side table *)
Lemma build_step tbl types t ed n s : in_force tbl types -> In (t, n) types -> m_cols (ed_e2n ed) = Some n ->
  ed_wf ed -> il_boxed (ed_index ed) = false ->
  exists s', (fun fn '(etype, ed) =>
      index <- il_list (ed_index ed) ;;
      faces <- dget_err String.eqb etype tbl ;;
      foldM (fun fn '(ftype, face_of_elem) =>
          foldM (fun fn eface =>
              reindex_f <- np_cols (ed_e2n ed) (rev eface) ;;
              Ok (dextend String.eqb ftype (combine reindex_f index) fn))
            fn face_of_elem)
        fn faces) s (t, ed) = Ok s'.
Proof.
  intros HF Hn Hc [Wt Wl Wm] Hb.
  assert (C1 : cells_ok tbl (EC (zlen (ed_pairs ed)) [(t, ed)])).
  { eapply (in_force_cells _ types); auto. intros t' ed2 [X|[]]. inv X. eauto. }
  destruct (C1 t ed) as (faces & n' & Hf & Hc' & Hj); [simpl; auto|].
  rewrite il_list_entries by auto. cbn [bind]. unfold dget_err. rewrite Hf. cbn [bind].
  destruct (foldM_adds (A := side)
    (fun fn '(ftype, face_of_elem) =>
        foldM (fun fn eface =>
            reindex_f <- np_cols (ed_e2n ed) (rev eface) ;;
            Ok (sextend ftype (combine reindex_f (entries (ed_index ed))) fn))
          fn face_of_elem)
    (fun (fe : string * list (list Z)) ft => flat_map (fun ef => if String.eqb ft (fst fe) then src_sides_ef ed ef else []) (snd fe))
    (fun fe k => exists b, In b (snd fe) /\ k = fst fe)
    faces) with (d := s) as (d' & E & _).
  - intros d1 (ft, efs) Hfe. cbn [fst snd].
    apply (foldM_adds (A := side)
       (fun fn eface =>
            reindex_f <- np_cols (ed_e2n ed) (rev eface) ;;
            Ok (sextend ft (combine reindex_f (entries (ed_index ed))) fn))
       (fun ef ft' => if String.eqb ft' ft then src_sides_ef ed ef else [])
       (fun ef k => k = ft) efs).
    intros d2 ef Hef. rewrite (np_cols_ok _ n') by (auto; intros j Hj'; apply in_rev in Hj'; eapply Hj; eauto).
    cbn [bind]. eexists; split; [reflexivity|]. apply (sextend_adds ft (src_sides_ef ed ef) d2).
  - exists d'. exact E.
Qed.

Lemma first_such {A} (p : A -> Prop) (dec : forall a, p a \/ ~ p a) (l : list A) a : In a l -> p a ->
  exists l1 b l2, l = l1 ++ b :: l2 /\ p b /\ forall x, In x l1 -> ~ p x.
Proof.
  induction l as [|x l IH]; intros Hin Hp; [destruct Hin|]. destruct (dec x) as [D|D].
  - exists [], x, l. split; [reflexivity|]. split; [exact D|]. intros y [].
  - destruct Hin as [->|Hin]; [contradiction|]. destruct (IH Hin Hp) as (l1 & b & l2 & -> & Hb & Hl).
    exists (x :: l1), b, l2. split; auto. split; auto. intros y [<-|Hy]; auto.
Qed.

Theorem unknown_type tbl types c : in_force tbl types -> ec_wf c -> ec_plain c ->
  (forall t ed, In (t, ed) (ec_dict c) -> sget t tbl = None \/ exists n, In (t, n) types /\ m_cols (ed_e2n ed) = Some n) ->
  (exists t, In t (ec_types c) /\ sget t tbl = None) -> ec_create_faces tbl c = Err KeyError.
Proof.
  intros HF W P H (t & Ht & Hu). unfold ec_create_faces.
  assert (E : build_face_and_neighbour tbl c = Err KeyError); [|now rewrite E].
  unfold build_face_and_neighbour. apply foldM_err.
  apply in_map_iff in Ht. destruct Ht as ((t' & ed) & Et & Hin). simpl in Et. subst t'.
  destruct (first_such (fun kv : string * edict => sget (fst kv) tbl = None)
              ltac:(intros [k e]; cbn; destruct (sget k tbl); [right; discriminate|left; auto]) _ _ Hin Hu)
    as (l1 & [tb eb] & l2 & Hd & Hb & Hl). cbn [fst] in Hb.
  assert (Hinb : In (tb, eb) (ec_dict c)) by (rewrite Hd; apply in_app_iff; cbn; auto).
  exists l1, (tb, eb), l2. split; [auto|split].
  - intros s. rewrite il_list_entries; [|eapply edwf_typed, (ecwf_eds _ W); eauto|eapply P; eauto].
    cbn [bind]. unfold dget_err. rewrite Hb. reflexivity.
  - intros s (tx, ex) Hx.
    assert (Hinx : In (tx, ex) (ec_dict c)) by (rewrite Hd; apply in_app_iff; auto).
    destruct (H tx ex Hinx) as [N|(n & Hn & Hc)]; [exfalso; apply (Hl _ Hx); exact N|].
    eapply (build_step tbl types tx ex n); eauto. eapply ecwf_eds; eauto.
Qed.

(** Triangles. *)
Theorem penta_no_faces tbl types shift n c c' : in_force tbl types -> ec_wf c -> extruded_conn shift n c c' ->
  (forall t, In t (ec_types c) -> t = "tri3" \/ t = "quad4") -> In "tri3" (ec_types c) ->
  ec_create_faces tbl c' = Err KeyError.
Proof.
  intros HF W X HT Ht. destruct (xc_wf _ _ _ _ X) as [W' P'].
  assert (XT := xc_types _ _ _ _ X).
  assert (HX : forall x, In x (ec_types c') -> x = "penta6" \/ x = "hexa8").
  { intros x Hx. clear - XT HT Hx. induction XT as [|t y ts ys E XT IH]; [destruct Hx|].
    destruct Hx as [<-|Hx]; [|apply IH; auto; intros; apply HT; cbn; auto].
    destruct (HT t) as [->| ->]; [cbn; auto| |].
    - cbn in E. destruct E as [E|[E|[E|[E|[]]]]]; injection E as ?; try discriminate; subst; auto.
    - cbn in E. destruct E as [E|[E|[E|[E|[]]]]]; injection E as ?; try discriminate; subst; auto. }
  apply (unknown_type tbl types); auto.
  - intros x ed Hin. destruct (HX x) as [->| ->].
    + unfold ec_types. apply in_map_iff. exists (x, ed). auto.
    + left. destruct HF as [[-> _]|[-> _]]; reflexivity.
    + right. destruct (xc_width _ _ _ _ X _ _ Hin) as (t & w & Hb & Hw & Hc). exists 8%nat. split.
      * destruct HF as [[_ ->]|[_ ->]]; cbn; tauto.
      * rewrite Hc. cbn in Hb. destruct Hb as [E|[E|[E|[E|[]]]]]; try discriminate. injection E as <-.
        cbn in Hw. destruct Hw as [E|[E|[E|[E|[]]]]]; try discriminate. injection E as <-. reflexivity.
  - exists "penta6". split; [|destruct HF as [[-> _]|[-> _]]; reflexivity].
    clear - XT Ht. induction XT as [|t y ts ys E XT IH]; [destruct Ht|]. destruct Ht as [->|Ht]; [|right; auto].
    left. cbn in E. destruct E as [E|[E|[E|[E|[]]]]]; injection E as ?; try discriminate; auto.
Qed.

(** Bars. *)
Theorem bar_sides_cross tbl faces s i k a b : In tbl [cgns_elem2faces; gmsh_elem2faces] -> sget "quad4" tbl = Some faces ->
  Forall2 (@Permutation Z) (cell_sides faces (snd (layer_cell s i (k, [a; b]))))
    [[a + i * s; b + i * s]; [b + i * s; a + (i + 1) * s]; [a + (i + 1) * s; b + (i + 1) * s]; [b + (i + 1) * s; a + i * s]].
Proof.
  intros Ht Hf.
  assert (faces = [("bar2", [[0; 1]; [1; 2]; [2; 3]; [3; 0]])]) as ->.
  { destruct Ht as [<-|[<-|[]]]; injection Hf as <-; reflexivity. }
  unfold cell_sides. cbn. cbv [Pos.to_nat Pos.iter_op Nat.add].
  repeat apply Forall2_cons; try apply Forall2_nil; perm.
Qed.

Lemma bar_no_extrusion_edge tbl faces s i k a b v side :
  In tbl [cgns_elem2faces; gmsh_elem2faces] -> sget "quad4" tbl = Some faces -> 0 <= a < s -> 0 <= b < s -> a <> b ->
  In v [a; b] -> In side (cell_sides faces (snd (layer_cell s i (k, [a; b])))) ->
  ~ Permutation side [v + i * s; v + (i + 1) * s].
Proof.
  intros Ht Hf Ha Hb Hab Hv Hs P. assert (F := bar_sides_cross tbl faces s i k a b Ht Hf).
  remember (cell_sides faces (snd (layer_cell s i (k, [a; b])))) as L eqn:E. clear E.
  assert (Q : exists e, In e [[a + i * s; b + i * s]; [b + i * s; a + (i + 1) * s]; [a + (i + 1) * s; b + (i + 1) * s]; [b + (i + 1) * s; a + i * s]]
              /\ Permutation side e).
  { clear - F Hs. induction F as [|x y xs ys E F IH]; [destruct Hs|]. destruct Hs as [->|Hs].
    - exists y. cbn; auto.
    - destruct (IH Hs) as (e & He & Pe). exists e. cbn; auto. }
  destruct Q as (e & He & Pe). rewrite P in Pe.
  assert (I1 : In (v + i * s) e) by (apply (Permutation_in _ Pe); cbn; auto).
  assert (I2 : In (v + (i + 1) * s) e) by (apply (Permutation_in _ Pe); cbn; auto).
  destruct Hv as [<-|[<-|[]]]; destruct He as [<-|[<-|[<-|[<-|[]]]]]; cbn in I1, I2; lia.
Qed.

(** Other types. *)
Theorem extrude_unknown c n shift : 2 <= n -> ec_wf c -> ec_plain c ->
  (forall t ed, In (t, ed) (ec_dict c) -> ~ In t (dkeys base_types) \/ exists w, In (t, w) base_types /\ m_cols (ed_e2n ed) = Some w) ->
  (exists t, In t (ec_types c) /\ ~ In t (dkeys base_types)) -> ec_extrude c n shift = Err KeyError.
Proof.
  intros Hn W P H (t & Ht & Hu). unfold ec_extrude, assertb. replace (1 <? n) with true by lia. cbn [bind].
  apply in_map_iff in Ht. destruct Ht as ((t' & ed) & Et & Hin). simpl in Et. subst t'.
  destruct (first_such (fun kv : string * edict => ~ In (fst kv) (dkeys base_types))
              ltac:(intros [k e]; cbn [fst]; destruct (in_dec string_dec k (dkeys base_types)); tauto) _ _ Hin Hu)
    as (l1 & [tb eb] & l2 & Hd & Hb & Hl). cbn [fst] in Hb.
  assert (Hinb : In (tb, eb) (ec_dict c)) by (rewrite Hd; apply in_app_iff; cbn; auto).
  assert (B1 : forall t ed, In (t, ed) l1 -> ed_wf ed /\ il_boxed (ed_index ed) = false /\ exists w, In (t, w) base_types /\ m_cols (ed_e2n ed) = Some w).
  { intros t1 ed1 Hin1. assert (Hin1' : In (t1, ed1) (ec_dict c)) by (rewrite Hd; apply in_app_iff; auto).
    split; [eapply ecwf_eds; eauto|]. split; [eapply P; eauto|]. destruct (H t1 ed1 Hin1') as [N|?]; auto. exfalso. apply (Hl _ Hin1). exact N. }
  rewrite Hd, foldM_app. unfold ec_empty. rewrite extrude_fold; auto; try lia.
  - cbn [bind foldM]. unfold extrude_type. rewrite il_list_entries; [|eapply edwf_typed, (ecwf_eds _ W); eauto|eapply P; eauto].
    unfold dget_err. destruct (dget String.eqb tb nnode_elem); [|reflexivity]. cbn [bind].
    assert (dget String.eqb tb extruded_face = None) as ->; [|reflexivity].
    apply (dget_None _ seqb_eq). intros Hk. apply Hb. revert Hk. vm_compute. tauto.
  - assert (K := ecwf_keys _ W). unfold ec_types in K. rewrite Hd, map_app in K. now apply NoDup_app in K.
Qed.

(** ** Refusals *)
Theorem extrude_one_plane {F} (add mul : F -> F -> F) enum m dir planes domain : zlen planes < 2 ->
  export_extruded add mul enum m dir planes domain = Err AssertionError.
Proof.
  intros H. unfold export_extruded. destruct dir as [[dx dy] dz]. unfold assertb at 1.
  replace (1 <? zlen planes) with false by lia. reflexivity.
Qed.

Theorem extrude_face_mark {F} (add mul : F -> F -> F) enum (m : mesh F) c x y z dir planes domain :
  2 <= zlen planes -> coords_ok m x y z ->
  me_cell2node m = Some c -> ec_wf c -> ec_plain c -> cells_of base_types c ->
  (forall k b, In (k, b) (me_bocos m) -> nodebased b = false \/ (mark_ok b /\ exists t, mk_type b = Some t /\ In t available_types)) ->
  (exists k b, In (k, b) (me_bocos m) /\ nodebased b = false) ->
  export_extruded add mul enum m dir planes domain = Err AssertionError.
Proof.
  intros HP (EC & Lx & Ly & Lz) Ec W P CO HM (k & b & Hin & Hb). unfold export_extruded. destruct dir as [[dx dy] dz].
  unfold assertb at 1. replace (1 <? zlen planes) with true by lia. cbn [bind]. rewrite EC. cbn [bind].
  unfold stacked. rewrite Lx, Ly, Lz, Z.eqb_refl. cbn [andb bind].
  match goal with |- context [set_coords_nd ?nm 3 ?rows] => destruct (set_nd_ok nm 3 rows) as (m1 & x' & y' & z' & E1 & _) end.
  { cbn. rewrite zlen_map. unfold by_slices. rewrite zlen_map. unfold zlen. rewrite combine_length, zrange_length, Z.sub_0_r. unfold zlen. rewrite Nat2Z.id, Nat.min_id.
    change (zlen (tile (zlen planes) (combine (combine x y) z)) = me_nnode m * zlen planes).
    rewrite zlen_tile by lia. unfold zlen in *. rewrite !combine_length. lia. }
  { lia. }
  { apply Forall_forall. intros r Hr. apply in_map_iff in Hr. destruct Hr as (((?, ?), ?) & <- & _). reflexivity. }
  rewrite E1. cbn [bind]. rewrite Ec. cbn [bind].
  destruct (extrude_ok c (zlen planes) (me_nnode m) HP W P CO) as (c' & E2 & XC). rewrite E2. cbn [bind].
  match goal with |- bind ?f _ = _ => assert (FE : f = Err AssertionError); [|now rewrite FE] end.
  apply foldM_err.
  destruct (first_such (fun kv : string * mark F => nodebased (snd kv) = false)
              ltac:(intros [k0 e]; cbn [snd]; destruct (nodebased e); [right; discriminate|left; auto]) _ _ Hin Hb)
    as (l1 & [kb bb] & l2 & Hd & Hbb & Hl). cbn [snd] in Hbb.
  exists l1, (kb, bb), l2. split; auto. split.
  - intros s. unfold extrude_mark. rewrite Hbb. reflexivity.
  - intros s [kx bx] Hx. assert (Hnx := Hl _ Hx). cbn [snd] in Hnx.
    destruct (HM kx bx) as [N|(MO & t & HT & HA)]; [rewrite Hd; apply in_app_iff; auto|contradiction|].
    unfold extrude_mark. destruct (nodebased bx); [|exfalso; auto]. cbn [assertb bind]. rewrite HT. cbn [bind].
    assert (existsb (String.eqb t) available_types = true) as ->.
    { apply existsb_exists. exists t. split; auto. apply String.eqb_refl. }
    cbn [assertb bind]. rewrite mark_ok_list by auto. cbn [bind]. eauto.
Qed.

Theorem extrude_overwrites {F} (add mul : F -> F -> F) enum (m m' : mesh F) dir planes domain :
  export_extruded add mul enum m dir planes domain = Ok m' ->
  exists b0 b1, dget String.eqb (domain ++ "0")%string (me_bocos m') = Some b0 /\
    dget String.eqb (domain ++ "1")%string (me_bocos m') = Some b1 /\ mk_type b0 = Some "boundary" /\ mk_type b1 = Some "boundary" /\
    forall c, me_cell2node m = Some c -> mk_entries b0 = ec_nodelist enum c /\
       mk_entries b1 = List.map (fun v => v + (zlen planes - 1) * me_nnode m) (ec_nodelist enum c).
Proof.
  unfold export_extruded. destruct dir as [[dx dy] dz]. intros H.
  apply bind_ok in H. destruct H as (u0 & _ & H). apply bind_ok in H. destruct H as (xyz & _ & H).
  apply bind_ok in H. destruct H as (pts & _ & H).
  destruct (set_coords_nd _ _ _) as [r nm]. apply bind_ok in H. destruct H as (u1 & _ & H).
  apply bind_ok in H. destruct H as (c & Hc & H). apply bind_ok in H. destruct H as (c' & _ & H).
  apply bind_ok in H. destruct H as (nm2 & _ & H). injection H as <-.
  unfold add_boco, with_bocos. cbn [me_bocos mk_name plane_mark].
  eexists. eexists. split; [|split; [|split; [|split]]].
  - rewrite (dget_dset_neq _ seqb_eq) by apply app_digit. apply (dget_dset_eq _ seqb_eq).
  - apply (dget_dset_eq _ seqb_eq).
  - reflexivity.
  - reflexivity.
  - intros c0 E. rewrite E in Hc. injection Hc as <-. split; reflexivity.
Qed.
