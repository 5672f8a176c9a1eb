(** * From the content of a file to a mesh. *)
From Coq Require Import ZArith List Bool String Lia Permutation.
From Verif Require Import Py PyFacts Conn ConnSpec ConnProofs CsrProofs MergeProofs Mesh MeshSpec MeshProofs Ic3Bytes Ic3BytesProofs Ic3 Ic3HeaderSpec Ic3HeaderProofs Ic3FuelProofs Ic3FileSpec Ic3FileProofs Ic3WriteProofs Ic3PartsProofs Ic3CutProofs Ic3BodyProofs Ic3ReadProofs Ic3VarProofs Ic3RoundProofs Ic3RoundSpec.

(** ** Series of [dict] assignments *)
Definition dset_all {V} (d : dict string V) (l : list (string * V)) : dict string V :=
  fold_left (fun d '(k, v) => dset String.eqb k v d) l d.
Lemma dset_all_other {V} k (l : list (string * V)) : forall d, ~ In k (List.map fst l) ->
  dget String.eqb k (dset_all d l) = dget String.eqb k d.
Proof.
  induction l as [| (k', v') l IH]; intros d N; [reflexivity |]. cbn [List.map fst] in N. unfold dset_all in *. cbn [fold_left].
  rewrite IH by (intros I; apply N; right; exact I).
  apply (dget_dset_neq _ seqb_eq). intros ->. apply N. left. reflexivity.
Qed.
Lemma dset_all_in {V} k v (l : list (string * V)) : forall d, In (k, v) l -> (forall v', In (k, v') l -> v' = v) ->
  dget String.eqb k (dset_all d l) = Some v.
Proof.
  induction l as [| (k', v') l IH]; intros d I U; [destruct I |].
  change (dget String.eqb k (dset_all (dset String.eqb k' v' d) l) = Some v).
  destruct (in_dec string_dec k (List.map fst l)) as [IN | NI].
  - apply IH; [| intros v2 I2; apply U; right; exact I2].
    apply in_map_iff in IN. destruct IN as ((k2, v2) & E & I2). cbn in E. subst k2. rewrite <- (U v2 (or_intror I2)). exact I2.
  - rewrite dset_all_other by exact NI. destruct I as [I | I].
    + inversion I; subst. apply (dget_dset_eq _ seqb_eq).
    + exfalso. apply NI. apply in_map_iff. exists (k, v). auto.
Qed.
Lemma dset_all_keys {V} k (l : list (string * V)) : forall d, In k (List.map fst (dset_all d l)) -> In k (List.map fst d) \/ In k (List.map fst l).
Proof.
  induction l as [| (k', v') l IH]; intros d I; [left; exact I |].
  apply (IH (dset String.eqb k' v' d)) in I. destruct I as [I | I]; [| right; right; exact I].
  apply in_map_iff in I. destruct I as ((k2, v2) & E & I). cbn in E. subst k2. apply in_dset in I. destruct I as [(-> & _) | I].
  - right. left. reflexivity.
  - left. apply in_map_iff. exists (k, v2). auto.
Qed.
Lemma dset_all_app {V} (d : dict string V) l1 l2 : dset_all d (l1 ++ l2) = dset_all (dset_all d l1) l2.
Proof. apply fold_left_app. Qed.

(** ** The data read *)
Definition adds (n : Z) (l : list (string * array)) (d : dataset) : dataset :=
  fold_left (fun d '(k, a) => add_data k a None (cell_ndof n d)) l d.
Lemma adds_app n l1 l2 d : adds n (l1 ++ l2) d = adds n l2 (adds n l1 d).
Proof. apply fold_left_app. Qed.
Lemma adds_data n l : forall d, ds_data (adds n l d) = dset_all (ds_data d) l.
Proof.
  induction l as [| (k, a) l IH]; intros d; [reflexivity |]. cbn [adds fold_left]. unfold adds in IH. rewrite IH.
  unfold cell_ndof. destruct (1 <? n); reflexivity.
Qed.
Lemma adds_shape n l : forall d, l <> [] ->
  ds_xrep (adds n l d) = (if 1 <? n then "spectralcell"%string else ds_xrep d) /\ ds_ndof (adds n l d) = (if 1 <? n then n else ds_ndof d).
Proof.
  induction l as [| (k, a) l IH]; intros d N; [congruence |]. change (adds n ((k, a) :: l) d) with (adds n l (add_data k a None (cell_ndof n d))).
  destruct l as [| x l].
  - cbn. unfold cell_ndof. destruct (1 <? n); split; reflexivity.
  - destruct (IH (add_data k a None (cell_ndof n d)) ltac:(discriminate)) as (-> & ->). unfold cell_ndof. destruct (1 <? n); split; reflexivity.
Qed.
Lemma adds_0 k a d l : adds 0 ((k, a) :: l) d = adds 0 l (add_data k a None d).
Proof. reflexivity. Qed.

Section Data.
  Context (i2d : Z -> Z) (v : version) (w : wstate).
  Definition scal_write (na : string * array) : string * array := (cut_name (fst na), scalar_back i2d v (a_size (snd na)) (snd na)).
  Definition vec_write (na : string * array) : string * array :=
    (cut_name (fst na), Arr [w_tot v w; 3] false (array_doubles i2d (snd na))).
  Definition tens_write (na : string * array) : string * array :=
    (cut_name (fst na), Arr [w_tot v w; 3; 3] false (array_doubles i2d (snd na))).
  Definition scals (d : dict string array) : list (string * array) := List.map scal_write (filter (fun '(_, a) => is_scalar a) d).
  Definition vecs (d : dict string array) : list (string * array) := List.map vec_write (filter (fun '(_, a) => is_dim 2 a) d).
  Definition tenss (d : dict string array) : list (string * array) := List.map tens_write (filter (fun '(_, a) => is_dim 3 a) d).
  Definition nd : Z := ndof_num (version_number v) (w_ndof w).

  Lemma nd_tot : 1 <= w_ndof w -> nd * w_cv w = w_tot v w.
  Proof.
    intros N. unfold nd, ndof_num, w_tot. destruct v; cbn [version_number].
    - change (2 <? 3) with true. cbv iota. lia.
    - change (3 <? 3) with false. cbv iota. replace (w_ndof w =? 0) with false by (symmetry; apply Z.eqb_neq; lia). reflexivity.
  Qed.
  Lemma nd_second k l : nth k (second v w ++ l) 0 = match v with V2 => nth k l 0 | V3 => nth k (w_ndof w :: l) 0 end.
  Proof. unfold second. destruct v; reflexivity. Qed.

  Lemma scalar_sec_array idd idq l n name a : code_of idd = Cd -> code_of idq = Cq ->
    let s := scalar_sec i2d idd idq v l n name a in
    Arr [zlen (sec_vals s)] (is_q (code_of (h_id (fst s)))) (sec_vals s) = scalar_back i2d v (a_size a) a.
  Proof.
    intros D Q. unfold scalar_sec, scalar_back, kept_int, sec_vals, a_size, array_doubles, doubles.
    destruct v; [| destruct (a_int a) eqn:E]; cbn [sec1 snd fst hdr8 h_id]; rewrite ?D, ?Q; cbn [is_q]; try reflexivity.
    destruct (a_int a); rewrite ?zlen_map; reflexivity.
  Qed.
  Lemma scalar_sec_name idd idq l n name a : h_name (cut_header (fst (scalar_sec i2d idd idq v l n name a))) = cut_name name.
  Proof. unfold scalar_sec. destruct (match v with V2 => false | V3 => a_int a end); reflexivity. Qed.
  Lemma place_scalar_sec vn no fa idd idq l n name a cells nodes : code_of idd = Cd -> code_of idq = Cq ->
    place_scalar vn no fa (cells, nodes) (scalar_sec i2d idd idq v l n name a) =
    let i k := nth k (l ++ repeat 0 (8 - List.length l)) 0 in
    if i 0%nat =? no then (cells, add_data (cut_name name) (scalar_back i2d v (a_size a) a) None nodes)
    else if i 0%nat =? fa then (cells, nodes)
    else (add_data (cut_name name) (scalar_back i2d v (a_size a) a) None (cell_ndof (ndof_num vn (i 1%nat)) cells), nodes).
  Proof.
    intros D Q. unfold place_scalar. rewrite scalar_sec_name.
    change (h_id (cut_header (fst (scalar_sec i2d idd idq v l n name a)))) with (h_id (fst (scalar_sec i2d idd idq v l n name a))).
    assert (A := scalar_sec_array idd idq l n name a D Q). cbn zeta in A. rewrite A.
    change (idata (cut_header (fst (scalar_sec i2d idd idq v l n name a)))) with (idata (fst (scalar_sec i2d idd idq v l n name a))).
    rewrite !scalar_sec_idata. reflexivity.
  Qed.

  Lemma node_scalars cells nodes : 
    fold_left (place_scalar (version_number v) (w_no w) (w_fa w)) (node_secs i2d v w) (cells, nodes) =
    (cells, adds 0 (scals (fd_items (w_nodes w))) nodes).
  Proof.
    unfold node_secs, scals. generalize (filter (fun '(_, a) => is_scalar a) (fd_items (w_nodes w))). intros l. revert nodes.
    induction l as [| (name, a) l IH]; intros nodes; [reflexivity |]. cbn [List.map fold_left].
    rewrite place_scalar_sec by reflexivity. cbn zeta. cbn [nth app]. rewrite Z.eqb_refl. rewrite IH. reflexivity.
  Qed.
  Lemma ndof_second : ndof_num (version_number v) (nth 0 (second v w ++ repeat 0 (7 - List.length (second v w))) 0) = nd.
  Proof. unfold second, nd, ndof_num. destruct v; reflexivity. Qed.
  Lemma ndof_second3 : ndof_num (version_number v) (second3 v w) = nd.
  Proof. unfold second3, nd, ndof_num. destruct v; reflexivity. Qed.
  Lemma cell_scalars cells nodes :
    fold_left (place_scalar (version_number v) (w_no w) (w_fa w)) (cell_secs i2d v w) (cells, nodes) =
    if w_cv w =? w_no w then (cells, adds 0 (scals (fd_items (w_cells w))) nodes)
    else if w_cv w =? w_fa w then (cells, nodes)
    else (adds nd (scals (fd_items (w_cells w))) cells, nodes).
  Proof.
    unfold cell_secs, scals. generalize (filter (fun '(_, a) => is_scalar a) (fd_items (w_cells w))). intros l. revert cells nodes.
    induction l as [| (name, a) l IH]; intros cells nodes.
    - cbn. destruct (w_cv w =? w_no w); [reflexivity |]. destruct (w_cv w =? w_fa w); reflexivity.
    - cbn [List.map fold_left]. rewrite place_scalar_sec by reflexivity. cbn zeta. cbn [nth app List.length].
      change (8 - S (List.length (second v w)))%nat with (7 - List.length (second v w))%nat. rewrite ndof_second.
      destruct (w_cv w =? w_no w) eqn:E1; [rewrite IH; reflexivity |]. destruct (w_cv w =? w_fa w) eqn:E2; rewrite IH; reflexivity.
  Qed.
  Lemma node_vectors cells nodes :
    fold_left (place_vector (version_number v) (w_no w) (w_fa w) (w_cv w)) (nodevec_secs i2d w) (cells, nodes) = (cells, nodes).
  Proof.
    unfold nodevec_secs. generalize (filter (fun '(_, a) => is_dim 2 a) (fd_items (w_nodes w))). intros l.
    induction l as [| (name, a) l IH]; [reflexivity |]. cbn [List.map fold_left]. unfold place_vector at 2.
    change (idata (cut_header (fst (block_sec i2d NO_D3 [w_no w; 3] (w_no w * 3) name a))) 0) with (w_no w). rewrite Z.eqb_refl. exact IH.
  Qed.
  Lemma cell_vectors cells nodes : 1 <= w_ndof w ->
    fold_left (place_vector (version_number v) (w_no w) (w_fa w) (w_cv w)) (cellvec_secs i2d v w) (cells, nodes) =
    if (w_cv w =? w_no w) || (w_cv w =? w_fa w) then (cells, nodes) else (adds nd (vecs (fd_items (w_cells w))) cells, nodes).
  Proof.
    intros ND. unfold cellvec_secs, vecs. generalize (filter (fun '(_, a) => is_dim 2 a) (fd_items (w_cells w))). intros l. revert cells.
    induction l as [| (name, a) l IH]; intros cells.
    - cbn. destruct ((w_cv w =? w_no w) || (w_cv w =? w_fa w)); reflexivity.
    - cbn [List.map fold_left]. unfold place_vector at 2.
      change (idata (cut_header (fst (block_sec i2d CV_D3 [w_cv w; second3 v w] (w_tot v w * 3) name a))) 0) with (w_cv w).
      change (idata (cut_header (fst (block_sec i2d CV_D3 [w_cv w; second3 v w] (w_tot v w * 3) name a))) 1) with (second3 v w).
      rewrite ndof_second3, nd_tot by exact ND.
      destruct (w_cv w =? w_no w); [rewrite IH; reflexivity |]. destruct (w_cv w =? w_fa w); rewrite IH; reflexivity.
  Qed.
  Lemma cell_tensors cells nodes : 1 <= w_ndof w ->
    fold_left (place_tensor (version_number v) (w_cv w)) (celltens_secs i2d v w) (cells, nodes) =
    (adds nd (tenss (fd_items (w_cells w))) cells, nodes).
  Proof.
    intros ND. unfold celltens_secs, tenss. generalize (filter (fun '(_, a) => is_dim 3 a) (fd_items (w_cells w))). intros l. revert cells.
    induction l as [| (name, a) l IH]; intros cells; [reflexivity |]. cbn [List.map fold_left]. unfold place_tensor at 2.
    change (idata (cut_header (fst (block_sec i2d CV_D33 [w_cv w; second3 v w; 3] (w_tot v w * 9) name a))) 1) with (second3 v w).
    rewrite ndof_second3, nd_tot by exact ND. rewrite IH. reflexivity.
  Qed.

  Lemma exp_vars_eq : 1 <= w_ndof w -> exp_vars i2d v w =
    (adds nd ((if (w_cv w =? w_no w) || (w_cv w =? w_fa w) then [] else scals (fd_items (w_cells w)) ++ vecs (fd_items (w_cells w)))
              ++ tenss (fd_items (w_cells w))) cells0,
     adds 0 (scals (fd_items (w_nodes w)) ++ (if w_cv w =? w_no w then scals (fd_items (w_cells w)) else [])) nodes0).
  Proof.
    intros ND. unfold exp_vars. rewrite !fold_left_app, node_scalars, cell_scalars.
    destruct (w_cv w =? w_no w) eqn:E1; cbn [orb app].
    - rewrite node_vectors, cell_vectors by exact ND. rewrite E1. cbn [orb]. rewrite cell_tensors by exact ND. rewrite adds_app. reflexivity.
    - destruct (w_cv w =? w_fa w) eqn:E2; rewrite node_vectors, cell_vectors by exact ND; rewrite E1, E2; cbn [orb]; rewrite cell_tensors by exact ND;
        rewrite ?adds_app; reflexivity.
  Qed.
End Data.

(** ** Single values *)
Lemma smap_app g a b : smap g (a ++ b)%string = (smap g a ++ smap g b)%string.
Proof. induction a as [| c a IH]; [reflexivity |]. cbn. rewrite IH. reflexivity. Qed.
Definition wgt_key (k : string) : string := lower (cut_name (upper k ++ "_WGT")%string).
Lemma wgt_key_other k : good_name (upper k ++ "_WGT")%string -> wgt_key k <> "step"%string /\ wgt_key k <> "dt"%string /\ wgt_key k <> "time"%string /\ wgt_key k <> "wgt"%string.
Proof.
  intros G. unfold wgt_key. rewrite good_cut by exact G. unfold lower. rewrite smap_app. change (smap lower_char "_WGT") with "_wgt"%string.
  generalize (smap lower_char (upper k)). intros s. repeat split; destruct s as [| a [| b [| c [| d [| e s]]]]]; discriminate.
Qed.
Definition count_names : list string := ["no_count"; "fa_count"; "cv_count"; "noofa_count"; "nboco"; "nfa_b"; "nfa_bp"]%string.
Lemma wgt_key_counts k : good_name (upper k ++ "_WGT")%string -> ~ In (wgt_key k) count_names.
Proof.
  intros G. unfold wgt_key. rewrite good_cut by exact G. unfold lower. rewrite smap_app. change (smap lower_char "_WGT") with "_wgt"%string.
  generalize (smap lower_char (upper k)). intros s I. unfold count_names in I. cbn [In] in I.
  do 8 (destruct s as [| ? s]; [repeat (destruct I as [I | I]; [discriminate I |]); exact I |]).
  do 4 (destruct s as [| ? s]; [repeat (destruct I as [I | I]; [discriminate I |]); exact I |]).
  repeat (destruct I as [I | I]; [discriminate I |]); exact I.
Qed.
Lemma exp_sim_eq i2d f2i w (c : converted i2d f2i w) : exp_sim i2d f2i c =
  dset_all [("step"%string, SNum (NInt (c_step c))); ("dt"%string, SNum (NFlt (c_dt c))); ("time"%string, SNum (NFlt (c_time c))); ("wgt"%string, SWgt [])]
    (List.map (fun '(k, x) => (wgt_key k, SNum (NFlt x))) (c_wgt c)).
Proof.
  unfold exp_sim, info_secs. cbn [app tl]. cbn [fold_left].
  match goal with |- fold_left _ _ ?d = _ => replace d with ([("step"%string, SNum (NInt (c_step c))); ("dt"%string, SNum (NFlt (c_dt c))); ("time"%string, SNum (NFlt (c_time c))); ("wgt"%string, SWgt [])]) by reflexivity end.
  match goal with |- fold_left _ _ ?d = _ => generalize d end.
  induction (c_wgt c) as [| (k, x) l IH]; intros d; [reflexivity |]. cbn [List.map fold_left]. rewrite IH. reflexivity.
Qed.

(** ** Faces *)
Lemma faces_set_rows f ls rows : faces_set f ls rows -> ec_nelem (f_f2n f) = zlen ls.
Proof.
  intros S. rewrite (ecwf_nelem _ (fs_wf _ _ _ S)). rewrite (zlen_perm _ _ (fs_pairs _ _ _ S)). unfold ranked, zlen.
  rewrite combine_length, zrange_length. unfold zlen. lia.
Qed.
Lemma export_ranked c ls : ec_wf c -> (ec_plain c \/ ec_boxed c) -> Permutation (ec_pairs c) (ranked ls) -> ec_export_csr c = Ok (csr_make ls).
Proof.
  intros W B P. rewrite export_eq; [| exact W | destruct B; [apply mixed_false_plain | apply mixed_false_boxed]; assumption].
  rewrite (psort_unique _ (ranked ls)); [| apply psorted_ranked | exact P]. rewrite map_snd_ranked. reflexivity.
Qed.
Lemma shift_ranked (la lb : list (list Z)) : ranked la ++ shift_pairs (zlen la) (ranked lb) = ranked (la ++ lb).
Proof.
  rewrite ranked_app. f_equal. unfold ranked, shift_pairs. replace (zrange (zlen la) (zlen la + zlen lb)) with (List.map (fun i => i + zlen la) (zrange 0 (zlen lb))).
  2: { rewrite map_add_zrange. f_equal; lia. }
  generalize (zrange 0 (zlen lb)) at 1 2. intros l. revert lb. induction l as [| i l IH]; intros lb; destruct lb as [| b lb]; try reflexivity.
  cbn. f_equal. apply IH.
Qed.
Lemma writer_faces_of m ls rows : faces_of m ls rows ->
  exists mt, writer_faces m = Ok (csr_make ls, Some mt) /\ m_rows mt = rows.
Proof.
  intros [f DM S B | nn b i lb li rb ri DM DB DI SB SI PB PI CB CI -> ->]; unfold writer_faces; rewrite DM.
  - destruct (fs_cells _ _ _ S) as (mt & FC & _ & R & _). rewrite (export_ranked _ ls); [| apply S | exact B | apply S].
    cbn [bind]. rewrite FC. cbn [bind or_err]. exists mt. auto.
  - destruct (fs_cells _ _ _ SB) as (mb & FB & KB & RB & _). destruct (fs_cells _ _ _ SI) as (mi & FI & KI & RI & _).
    destruct (merge_two nn _ _ (fs_wf _ _ _ SB) PB CB (fs_wf _ _ _ SI) PI CI) as (con & E & W & P & HN & HT & HP).
    unfold export_mixedfaces, dget_err. rewrite DB, DI. cbn [bind]. rewrite E. cbn [bind]. unfold f2c_conn. rewrite FB, FI. cbn [bind].
    unfold np_vcat. rewrite KB, KI, Nat.eqb_refl. cbn [bind]. unfold ii_set. cbn [m_cols bind].
    rewrite (export_ranked con (lb ++ li)); [| exact W | left; exact P |].
    + cbn [bind]. eexists. split; [reflexivity |]. cbn [m_rows]. rewrite RB, RI. reflexivity.
    + rewrite HP, (faces_set_rows _ _ _ SB), <- shift_ranked. apply Permutation_app; [apply SB |].
      unfold shift_pairs. apply Permutation_map. apply SI.
Qed.

(** ** Marks *)
Lemma add_bocos_eq (bs : list (mark Z)) : forall m, NoDup (List.map fst (me_bocos m) ++ List.map mk_name bs) ->
  fold_left add_boco bs m = with_bocos m (me_bocos m ++ List.map (fun b => (mk_name b, b)) bs).
Proof.
  induction bs as [| b bs IH]; intros m N.
  - cbn. rewrite app_nil_r. destruct m; reflexivity.
  - cbn [fold_left List.map]. unfold add_boco at 2. rewrite (dset_notin _ seqb_eq).
    + rewrite IH; unfold with_bocos; cbn [me_bocos me_ncell me_nnode me_nface me_cell2node me_faces me_nodes].
      * rewrite <- app_assoc. reflexivity.
      * rewrite map_app. cbn [List.map fst]. rewrite <- app_assoc. exact N.
    + intros I. cbn [List.map] in N. apply NoDup_remove_2 in N. apply N. apply in_or_app. left. exact I.
Qed.

Lemma last_boco_end (bs : dict string (mark Z)) :
  last_boco bs = fold_right Z.max 0 (flat_map (fun '(_, b) => match mk_index b with Some (ILrange _ hi) => [hi] | _ => [] end) bs).
Proof.
  unfold last_boco. 
  set (g := fun (m : Z) '((_, b) : string * mark Z) => match mk_index b with Some (ILrange _ hi) => Z.max m hi | _ => m end).
  change (fold_left g bs 0 = fold_right Z.max 0 (flat_map (fun '((_, b) : string * mark Z) => match mk_index b with Some (ILrange _ hi) => [hi] | _ => [] end) bs)).
  assert (G : forall l a, fold_left g l a = Z.max a (fold_right Z.max 0 (flat_map (fun '((_, b) : string * mark Z) => match mk_index b with Some (ILrange _ hi) => [hi] | _ => [] end) l)) \/ a < 0).
  { induction l as [| (k, b) l IH]; intros a.
    - cbn. lia.
    - cbn [fold_left flat_map]. destruct (IH (g a (k, b))) as [Q | Q].
      + rewrite Q. unfold g. destruct (mk_index b) as [[] |]; cbn [app fold_right]; lia.
      + right. unfold g in Q. destruct (mk_index b) as [[] |]; lia. }
  destruct (G bs 0) as [Q | Q]; [| lia]. rewrite Q. 
  assert (H : forall l, 0 <= fold_right Z.max 0 l) by (induction l; cbn; lia).
  specialize (H (flat_map (fun '((_, b) : string * mark Z) => match mk_index b with Some (ILrange _ hi) => [hi] | _ => [] end) bs)). lia.
Qed.

(** ** Coordinates *)
Lemma stack3_cols : forall (x y z : list Z) rows, stack3 x y z = Ok rows ->
  Forall (fun r => List.length r = 3%nat) rows /\ column rows 3 0 = Ok x /\ column rows 3 1 = Ok y /\ column rows 3 2 = Ok z.
Proof.
  induction x as [| a x IH]; intros y z rows H; destruct y as [| b y], z as [| c z]; try discriminate H.
  - inversion H. split; [constructor | split; [reflexivity | split; reflexivity]].
  - cbn [stack3] in H. apply bind_ok in H; destruct H as (rs & HR & H). inversion H; subst.
    destruct (IH y z rs HR) as (L & X & Y & Z). split; [constructor; [reflexivity | exact L] |].
    unfold column in *. change (0 <? 3) with true in *. change (1 <? 3) with true in *. change (2 <? 3) with true in *. cbv iota in *.
    cbn [mapM]. rewrite X, Y, Z. split; [reflexivity | split; reflexivity].
Qed.
Lemma set_coords_stack (m : mesh Z) x y z rows : stack3 x y z = Ok rows -> zlen rows = me_nnode m -> me_nodes m = [] ->
  set_coords_nd m 3 rows = (Ok tt, with_nodes m [("x"%string, x); ("y"%string, y); ("z"%string, z)]).
Proof.
  intros H L N. destruct (stack3_cols x y z rows H) as (_ & X & Y & Z). unfold set_coords_nd. rewrite L, Z.eqb_refl. cbn [fold_left].
  rewrite X. cbn [me_nodes with_nodes]. rewrite Y. rewrite Z. rewrite N. reflexivity.
Qed.
