(** * Proofs for the HDF5 files of IC3. *)
From Coq Require Import ZArith List Bool String Ascii Lia Permutation Sorted.
From Verif Require Import Py PyFacts Conn ConnSpec ConnProofs CsrProofs MergeProofs Mesh MeshSpec MeshProofs Data Ic3Bytes Ic3BytesProofs Ic3 Ic3HeaderSpec Ic3HeaderProofs Ic3FileSpec Ic3RoundSpec Ic3RoundProofs Ic3MeshProofs Ic3FileThm Ic3OkProofs Ic3WriteProofs Ic3V4 Ic3V4Spec.

(** ** Lists *)
Lemma fits_int32 v : fits 4 v = true <-> int32 v.
Proof. exact (fits4 v). Qed.
Lemma i4_list_ok l r : i4_list l = Ok r -> r = l /\ Forall int32 l.
Proof.
  unfold i4_list. destruct (forallb (fits 4) l) eqn:E; [| discriminate]. intros H; apply ok_inj in H; subst r. split; [reflexivity |].
  apply Forall_forall. intros x I. apply fits_int32. exact (proj1 (forallb_forall _ _) E x I).
Qed.
Lemma i4_list_total l : Forall int32 l -> i4_list l = Ok l.
Proof.
  intros F. unfold i4_list. replace (forallb (fits 4) l) with true; [reflexivity |]. symmetry. apply forallb_forall. intros x I.
  apply fits_int32. rewrite Forall_forall in F. auto.
Qed.
Lemma i4_array_id narrow l : Forall int32 l -> i4_array narrow l = l.
Proof.
  intros F. unfold i4_array. rewrite <- (map_id l) at 2. apply map_ext_in. intros x I. rewrite Forall_forall in F. 
  apply F, fits_int32 in I. rewrite I. reflexivity.
Qed.

Lemma insert_map {A B} (f : A -> B) (le1 : A -> A -> bool) (le2 : B -> B -> bool) : (forall a b, le2 (f a) (f b) = le1 a b) ->
  forall a l, insert le2 (f a) (List.map f l) = List.map f (insert le1 a l).
Proof. intros E a l. induction l as [| b l IH]; [reflexivity |]. cbn. rewrite E. destruct (le1 a b); [reflexivity |]. cbn. rewrite IH. reflexivity. Qed.
Lemma isort_map {A B} (f : A -> B) (le1 : A -> A -> bool) (le2 : B -> B -> bool) : (forall a b, le2 (f a) (f b) = le1 a b) ->
  forall l, isort le2 (List.map f l) = List.map f (isort le1 l).
Proof. intros E l. induction l as [| a l IH]; [reflexivity |]. cbn [List.map isort]. rewrite IH. apply insert_map. exact E. Qed.

Lemma mapM_over {A B C} (f : B -> res C) (g : A -> B) l : mapM f (List.map g l) = mapM (fun x => f (g x)) l.
Proof. induction l as [| a l IH]; [reflexivity |]. cbn [List.map mapM]. rewrite IH. reflexivity. Qed.

(** ** Labels *)
Lemma strip_nul_id s : (forall c, In c (list_ascii_of_string s) -> (0 < nat_of_ascii c)%nat) -> strip_nul s = s.
Proof.
  induction s as [| c s IH]; intros H; [reflexivity |]. cbn [strip_nul list_ascii_of_string] in *. rewrite IH by (intros; apply H; right; assumption).
  destruct s; [| reflexivity]. destruct (Ascii.eqb_spec c nul) as [-> |]; [| reflexivity].
  specialize (H nul (or_introl eq_refl)). cbn in H. lia.
Qed.
Lemma substring_all s : forall n, (String.length s <= n)%nat -> substring 0 n s = s.
Proof. induction s as [| c s IH]; intros [| n] H; cbn in *; try reflexivity; try lia. rewrite IH by lia. reflexivity. Qed.
Lemma label_good s : good_label s -> label_of s = Ok s.
Proof.
  intros (L & G). unfold label_of. replace (forallb (fun c => Nat.ltb (nat_of_ascii c) 128) (list_ascii_of_string s)) with true.
  - rewrite substring_all by exact L. rewrite strip_nul_id; [reflexivity |]. intros c I. apply G in I. lia.
  - symmetry. apply forallb_forall. intros c I. apply Nat.ltb_lt. apply G in I. lia.
Qed.

(** ** Zones *)
Definition zrow : Type := (Z * Z * (string * Z) * option (list Z))%type.
Definition kind_of (t : string) : Z := match dget String.eqb t zonekinds with Some k => k | None => 0 end.
Definition kind_mark (b : mark Z) : Z := match mk_type b with Some t => kind_of t | None => 0 end.
Definition zone_last (b : mark Z) : Z := match mk_index b with Some (ILrange _ hi) => hi | _ => 0 end.
Definition three (b : mark Z) : option (list Z) := match mk_perio b with Some (Some l) => Some (firstn 3 l) | _ => None end.
Definition row_of (kb : string * mark Z) : zrow := (zone_first (snd kb), zone_last (snd kb), (fst kb, kind_mark (snd kb)), three (snd kb)).

Lemma mark4_row k b r : mark4 (k, b) = Ok r -> r = row_of (k, b) /\ mk_name b = k /\ (exists t, mk_type b = Some t /\ dget String.eqb t zonekinds <> None) /\
  exists lo hi, mk_index b = Some (ILrange lo hi).
Proof.
  unfold mark4. intros H. apply bind_ok in H; destruct H as (u1 & A1 & H). apply assertb_ok in A1. apply String.eqb_eq in A1.
  apply bind_ok in H; destruct H as (u2 & A2 & H). apply bind_ok in H; destruct H as (t & A3 & H).
  apply bind_ok in H; destruct H as (kind & A4 & H). apply bind_ok in H; destruct H as (il & A5 & H).
  apply bind_ok in H; destruct H as (u3 & A6 & H). apply assertb_ok in A6. apply bind_ok in H; destruct H as ((lo & hi) & A7 & H).
  apply bind_ok in H; destruct H as (p & A8 & H). apply ok_inj in H. subst r.
  destruct (mk_type b) as [t' |] eqn:T; [| discriminate]. cbn in A3. apply ok_inj in A3. subst t'.
  destruct (dget String.eqb t zonekinds) as [kd |] eqn:K; [| discriminate]. cbn in A4. apply ok_inj in A4. subst kd.
  destruct (mk_index b) as [il' |] eqn:I; [| discriminate]. cbn in A5. apply ok_inj in A5. subst il'.
  destruct il as [| l h | |]; try discriminate. cbn in A7. inversion A7; subst.
  split; [| split; [reflexivity | split; [exists t; split; [reflexivity | congruence] | eauto]]].
  unfold row_of, zone_first, zone_last, kind_mark, kind_of, three. cbn [fst snd]. rewrite I, T, K. f_equal.
  destruct (mk_perio b) as [[l |] |]; [| congruence ..]. destruct (zlen (firstn 3 l) =? 3); congruence.
Qed.
Lemma mark4_total k b : mark4_ok k b -> mark4 (k, b) = Ok (row_of (k, b)).
Proof.
  intros (N & G & (t & T & IT) & (lo & hi & I) & P). unfold mark4. rewrite N, String.eqb_refl. cbn [assertb bind].
  assert (G' : face_or_bdface b = true). { unfold face_or_bdface. destruct G as [-> | ->]; reflexivity. }
  rewrite G'. cbn [assertb bind]. rewrite T. cbn [or_err bind].
  assert (K : dget String.eqb t zonekinds = Some (kind_of t)). { unfold types4 in IT. cbn [In] in IT. destruct IT as [<- | [<- | [<- | [<- | [<- | []]]]]]; reflexivity. }
  rewrite K. cbn [or_err bind]. rewrite I. cbn [or_err bind assertb il_range].
  unfold row_of, zone_first, zone_last, kind_mark, three. cbn [fst snd]. rewrite I, T.
  destruct (mk_perio b) as [[l |] |]; try reflexivity. destruct P as (P & _).
  replace (zlen (firstn 3 l) =? 3) with true; [reflexivity |]. symmetry. apply Z.eqb_eq. unfold zlen in *. rewrite firstn_length. lia.
Qed.
Lemma marks4_rows bs ms : mapM mark4 bs = Ok ms -> ms = List.map row_of bs /\
  Forall (fun '(k, b) => mk_name b = k /\ (exists t, mk_type b = Some t /\ dget String.eqb t zonekinds <> None) /\ exists lo hi, mk_index b = Some (ILrange lo hi)) bs.
Proof.
  revert ms. induction bs as [| (k, b) bs IH]; intros ms H; [cbn in H; inversion H; split; [reflexivity | constructor] |].
  cbn [mapM] in H. apply bind_ok in H; destruct H as (r & R & H). apply bind_ok in H; destruct H as (rs & RS & H). apply ok_inj in H. subst ms.
  apply mark4_row in R. destruct R as (-> & R). destruct (IH rs RS) as (-> & F). split; [reflexivity | constructor; [exact R | exact F]].
Qed.

Lemma rows_last bs : Forall (fun '(k, b) => exists lo hi, mk_index b = Some (ILrange lo hi)) bs ->
  fold_left (fun m '((_, hi, _, _) : zrow) => Z.max m hi) (List.map row_of bs) 0 = last_boco bs.
Proof.
  unfold last_boco. generalize 0. induction bs as [| (k, b) bs IH]; intros a F; [reflexivity |].
  apply Forall_cons_iff in F. destruct F as ((lo & hi & I) & F). cbn [List.map fold_left row_of fst snd]. rewrite IH by exact F.
  unfold zone_last. rewrite I. reflexivity.
Qed.
Definition perio_rows (bs : list (string * mark Z)) : dict string (list Z) :=
  flat_map (fun '((_, _, (key, _), p) : zrow) => match p with Some l => [(key, l)] | None => [] end) (List.map row_of bs).
Lemma perio_keys bs k : In k (List.map fst (perio_rows bs)) -> exists b, In (k, b) bs /\ three b <> None.
Proof.
  unfold perio_rows. induction bs as [| (k', b) bs IH]; [intros [] |]. cbn [List.map flat_map row_of fst snd]. rewrite map_app. intros I.
  apply in_app_or in I. destruct I as [I | I].
  - destruct (three b) eqn:E; [| destruct I]. cbn in I. destruct I as [<- | []]. exists b. split; [left; reflexivity | congruence].
  - destruct (IH I) as (b' & I' & T). exists b'. split; [right; exact I' | exact T].
Qed.
Lemma perio_get bs : NoDup (List.map fst bs) -> forall k b, In (k, b) bs -> dget String.eqb k (perio_rows bs) = three b.
Proof.
  induction bs as [| (k', b') bs IH]; [intros _ k b [] |]. intros N k b I. cbn [List.map fst] in N. apply NoDup_cons_iff in N. destruct N as (N1 & N).
  unfold perio_rows. cbn [List.map flat_map row_of fst snd]. fold (perio_rows bs). destruct I as [I | I].
  - inversion I; subst. destruct (three b) eqn:E; cbn [app dget]; [rewrite String.eqb_refl; reflexivity |].
    destruct (dget String.eqb k (perio_rows bs)) eqn:G; [| reflexivity]. exfalso. apply N1.
    assert (Q : In k (List.map fst (perio_rows bs))). { apply (dget_in _ seqb_eq) in G. apply in_map_iff. eexists (k, _). split; [reflexivity | exact G]. }
    apply perio_keys in Q. destruct Q as (b' & Q & _). apply in_map_iff. exists (k, b'). auto.
  - assert (KN : k <> k'). { intros ->. apply N1. apply in_map_iff. exists (k', b). auto. }
    destruct (three b'); cbn [app dget]; [| apply IH; assumption].
    destruct (String.eqb_spec k k'); [contradiction | apply IH; assumption].
Qed.
Lemma perio_none bs k : ~ In k (List.map fst bs) -> dget String.eqb k (perio_rows bs) = None.
Proof.
  intros N. destruct (dget String.eqb k (perio_rows bs)) eqn:G; [| reflexivity]. exfalso. apply N.
  apply (dget_in _ seqb_eq) in G. assert (Q : In k (List.map fst (perio_rows bs))) by (apply in_map_iff; eexists (k, _); split; [reflexivity | exact G]).
  apply perio_keys in Q. destruct Q as (b & I & _). apply in_map_iff. exists (k, b). auto.
Qed.

(** Rows to sort, with the zone they stand for. *)
Definition krow : Type := (Z * (string * Z) * (Z -> mark Z))%type.
Definition krows (bs : list (string * mark Z)) (last : Z) : list krow :=
  List.map (fun kb => (zone_first (snd kb), (fst kb, kind_mark (snd kb)), mark_on (fst kb) (snd kb) (zone_first (snd kb)))) bs
  ++ [(last + 1, ("internal-domain"%string, 6), internal_on (last + 1))].
Definition kle (a b : krow) : bool := fst (fst a) <=? fst (fst b).
Definition ksort (bs : list (string * mark Z)) (last : Z) : list krow := isort kle (krows bs last).

Lemma kle_total a b : kle a b = true \/ kle b a = true.
Proof. unfold kle. rewrite !Z.leb_le. lia. Qed.

Lemma write_bounds_rows bs fa b : write_bounds4 bs fa = Ok b ->
  Forall (fun '(k, b) => mk_name b = k /\ (exists t, mk_type b = Some t /\ dget String.eqb t zonekinds <> None) /\ exists lo hi, mk_index b = Some (ILrange lo hi)) bs /\
  mapM (fun r : krow => label_of (fst (snd (fst r)))) (ksort bs (last_boco bs)) = Ok (b4_labels b) /\
  b4_offsets b = List.map (fun r : krow => fst (fst r)) (ksort bs (last_boco bs)) ++ [fa] /\ Forall int32 (b4_offsets b) /\
  b4_kinds b = List.map (fun r : krow => snd (snd (fst r))) (ksort bs (last_boco bs)) /\ b4_perio b = perio_rows bs.
Proof.
  unfold write_bounds4. intros H. apply bind_ok in H; destruct H as (ms & M & H). apply marks4_rows in M. destruct M as (-> & F). split; [exact F |].
  rewrite rows_last in H.
  2: { eapply Forall_impl; [| exact F]. intros (k, x) (_ & _ & Q). exact Q. }
  rewrite map_map in H.
  assert (E : List.map (fun x => let '(lo, _, kk, _) := row_of x in (lo, kk)) bs ++ [(last_boco bs + 1, ("internal-domain"%string, 6))] =
    List.map (fun r : krow => fst r) (krows bs (last_boco bs))).
  { unfold krows. rewrite map_app, map_map. f_equal. }
  rewrite E in H. clear E. rewrite (isort_map (fun r : krow => fst r) kle) in H by reflexivity. fold (ksort bs (last_boco bs)) in H.
  apply bind_ok in H; destruct H as (labels & L & H). rewrite mapM_over in L.
  match type of H with context [if ?c then _ else _] => destruct c; [discriminate |] end.
  apply bind_ok in H; destruct H as (offsets & O & H). apply ok_inj in H. subst b. cbn [b4_labels b4_offsets b4_kinds b4_perio].
  apply i4_list_ok in O. destruct O as (-> & O32). rewrite !map_map in *. split; [exact L |]. split; [reflexivity |]. split; [exact O32 |]. split; reflexivity.
Qed.

(** ** Reading zones *)
Definition zone_row (z : csr) (perio : dict string (list Z)) (r : krow) : Prop :=
  forall hi, read_zone4 z perio (fst (snd (fst r)), snd (snd (fst r)), fst (fst r), hi) = Ok (snd r hi).
Definition open_row (r : krow) : Z * (Z -> mark Z) := (fst (fst r), snd r).

Lemma read_rows z perio fa L : Forall (zone_row z perio) L ->
  mapM (read_zone4 z perio) (zip4 (List.map (fun r : krow => fst (snd (fst r))) L) (List.map (fun r : krow => snd (snd (fst r))) L)
     (removelast (List.map (fun r : krow => fst (fst r)) L ++ [fa])) (List.map (fun o => o - 1) (tl (List.map (fun r : krow => fst (fst r)) L ++ [fa])))) =
  Ok (cut_zones fa (List.map open_row L)).
Proof.
  rewrite removelast_last. induction L as [| r L IH]; intros F; [reflexivity |]. apply Forall_cons_iff in F. destruct F as (H & F).
  cbn [List.map app tl]. specialize (IH F). destruct L as [| r2 L].
  - cbn [List.map app zip4 mapM cut_zones open_row]. rewrite H. reflexivity.
  - cbn [List.map app tl] in *. cbn [zip4 mapM]. rewrite H. cbn [bind]. cbn [zip4 mapM] in IH. rewrite IH. reflexivity.
Qed.

Lemma kind_back t : dget String.eqb t zonekinds <> None -> dget Z.eqb (kind_of t) zonetypes = Some t.
Proof.
  unfold kind_of. destruct (dget String.eqb t zonekinds) as [k |] eqn:E; [| congruence]. intros _. apply (dget_in _ seqb_eq) in E.
  cbn in E. repeat (destruct E as [E | E]; [inversion E; subst; reflexivity |]). destruct E.
Qed.

Lemma rows_read z bs last : NoDup (List.map fst bs) -> ~ In "internal-domain"%string (List.map fst bs) ->
  Forall (fun '(k, b) => mk_name b = k /\ (exists t, mk_type b = Some t /\ dget String.eqb t zonekinds <> None) /\ exists lo hi, mk_index b = Some (ILrange lo hi)) bs ->
  (forall k b, In (k, b) bs -> mk_type b <> Some "internal"%string) ->
  (forall k b, In (k, b) bs -> 0 <= zone_first b < zlen (z_index z)) -> 0 <= last + 1 < zlen (z_index z) ->
  Forall (zone_row z (perio_rows bs)) (krows bs last).
Proof.
  intros N NI F NT R RL. apply Forall_forall. intros r I. unfold krows in I. apply in_app_or in I. destruct I as [I | [<- | []]].
  - apply in_map_iff in I. destruct I as ((k, b) & <- & I). rewrite Forall_forall in F. destruct (F _ I) as (_ & (t & T & K) & _).
    intros hi. cbn [fst snd]. unfold read_zone4, dget_err, kind_mark. rewrite T. rewrite (kind_back t K). cbn [bind].
    destruct (py_get_total (z_index z) (zone_first b)) as (x & G); [specialize (R k b I); lia |]. rewrite G. cbn [bind].
    rewrite (perio_get bs N k b I). unfold mark_on, perio3, three. rewrite T.
    assert (TI : String.eqb t "internal" = false). { apply String.eqb_neq. intros ->. exact (NT k b I T). }
    rewrite TI. destruct (mk_perio b) as [[l |] |]; reflexivity.
  - intros hi. cbn [fst snd]. unfold read_zone4, dget_err. change (dget Z.eqb 6 zonetypes) with (Some "internal"%string). cbn [bind].
    destruct (py_get_total (z_index z) (last + 1)) as (x & G); [lia |]. rewrite G. cbn [bind]. rewrite (perio_none bs _ NI). reflexivity.
Qed.

Lemma ksort_perm bs last : Permutation (ksort bs last) (krows bs last).
Proof. apply isort_perm. Qed.
Lemma ksort_sorted bs last : StronglySorted (fun a b => kle a b = true) (ksort bs last).
Proof.
  apply isort_sorted; [exact kle_total |]. unfold kle. intros a b c. rewrite !Z.leb_le. lia.
Qed.
Lemma krows_open m : List.map open_row (krows (zone_marks m) (last_boco (zone_marks m))) = open_zones m.
Proof.
  unfold krows, open_zones, marks_end. rewrite last_boco_end, map_app, map_map. f_equal. apply map_ext. intros (k, b). reflexivity.
Qed.

Lemma labels_good bs last labels : Forall good_label (List.map fst bs) ->
  mapM (fun r : krow => label_of (fst (snd (fst r)))) (ksort bs last) = Ok labels -> labels = List.map (fun r : krow => fst (snd (fst r))) (ksort bs last).
Proof.
  intros G H. rewrite (mapM_map _ (fun r : krow => fst (snd (fst r)))) in H; [congruence |]. intros r I. apply label_good.
  apply (Permutation_in _ (ksort_perm bs last)) in I. unfold krows in I. apply in_app_or in I. destruct I as [I | [<- | []]].
  - apply in_map_iff in I. destruct I as (kb & <- & I). cbn [fst snd]. rewrite Forall_forall in G. apply G. apply in_map. exact I.
  - cbn [fst snd]. split; [cbn; lia |]. intros c I. repeat (destruct I as [<- | I]; [cbn; lia |]). destruct I.
Qed.

(** ** The mesh file *)
Lemma index_len (ls : list (list Z)) : zlen (0 :: np_cumsum (List.map zlen ls)) = zlen ls + 1.
Proof. rewrite zlen_cons. unfold np_cumsum, zlen. rewrite cumsum_len, map_length. reflexivity. Qed.
Lemma zsum_zlen (ls : list (list Z)) : zsum (List.map zlen ls) = zlen (List.concat ls).
Proof. induction ls as [| r ls IH]; [reflexivity |]. cbn [List.map List.concat]. rewrite zlen_app, <- IH. reflexivity. Qed.
Lemma csr_make_check (ls : list (list Z)) : csr_check (csr_make ls) = Ok true.
Proof.
  unfold csr_make, csr_check. cbn [z_index z_value].
  change (py_get (0 :: np_cumsum (List.map zlen ls)) 0) with (@Ok Z 0). cbn [bind]. change (0 =? 0) with true. cbn [assertb bind].
  assert (MX : py_max (0 :: np_cumsum (List.map zlen ls)) = Ok (zlen (List.concat ls))).
  { apply py_max_ok. split.
    - apply (nth_error_In _ (List.length ls)). unfold np_cumsum. rewrite cumsum_nth by lia. rewrite firstn_all. f_equal; lia.
    - intros y Y. apply In_nth_error in Y. destruct Y as (k & Y).
      assert (K : (k <= List.length ls)%nat).
      { assert (KL : (k < List.length (0%Z :: np_cumsum (List.map zlen ls)))%nat) by (apply nth_error_Some; congruence).
        unfold np_cumsum in KL. cbn [List.length] in KL. rewrite cumsum_len, map_length in KL. lia. }
      unfold np_cumsum in Y. rewrite cumsum_nth in Y by exact K. inversion Y.
      rewrite <- (firstn_skipn k ls) at 2. rewrite concat_app, zlen_app. assert (Q3 := zlen_nonneg (List.concat (skipn k ls))). lia. }
  rewrite MX. cbn [bind]. rewrite Z.eqb_refl. reflexivity.
Qed.
Lemma read_noofa_make f ls : 1 <= zlen ls -> m4_noofa_i f = List.map zlen ls -> m4_noofa_v f = List.concat ls -> read_noofa4 f = Ok (csr_make ls).
Proof.
  intros L E1 E2. unfold read_noofa4. rewrite E1, E2. destruct (@exists_last _ ls) as (ls' & r & EL); [intros ->; rewrite zlen_nil in L; lia |].
  assert (LN := index_len ls).
  assert (G1 : py_get (0 :: np_cumsum (List.map zlen ls)) (-2) = Ok (zlen (List.concat ls'))).
  { unfold py_get. rewrite LN. change (-2 <? 0) with true. cbv iota.
    replace (-2 + (zlen ls + 1)) with (Z.of_nat (List.length ls')).
    2: { rewrite EL. rewrite zlen_app. unfold zlen. cbn [List.length]. lia. }
    replace (Z.of_nat (List.length ls') <? 0) with false by (symmetry; apply Z.ltb_ge; lia).
    unfold np_cumsum. rewrite Nat2Z.id, cumsum_nth by (rewrite EL, app_length; cbn; lia).
    rewrite EL, firstn_app, Nat.sub_diag, firstn_O, app_nil_r, firstn_all, Z.add_0_l. reflexivity. }
  rewrite G1. cbn [bind].
  assert (G2 : py_get (List.map zlen ls) (-1) = Ok (zlen r)). { rewrite EL, map_app. cbn [List.map]. apply py_get_last. }
  rewrite G2. cbn [bind]. rewrite zsum_zlen.
  replace (zlen (List.concat ls') =? zlen (List.concat ls) - zlen r) with true.
  2: { symmetry. apply Z.eqb_eq. rewrite EL, concat_app. cbn [List.concat]. rewrite app_nil_r, zlen_app. lia. }
  cbn [assertb bind]. fold (csr_make ls). rewrite csr_make_check. reflexivity.
Qed.

Lemma cut_names nf (L : list krow) : (forall r hi, In r L -> mk_name (snd r hi) = fst (snd (fst r))) ->
  List.map mk_name (cut_zones nf (List.map open_row L)) = List.map (fun r : krow => fst (snd (fst r))) L.
Proof.
  induction L as [| r L IH]; intros H; [reflexivity |]. cbn [List.map cut_zones open_row]. rewrite H by (left; reflexivity).
  f_equal. apply IH. intros r' hi I. apply H. right. exact I.
Qed.

Lemma last_below n (l : dict string (mark Z)) : 1 <= n ->
  (forall k b lo hi, In (k, b) l -> mk_index b = Some (ILrange lo hi) -> hi < n) -> 0 <= last_boco l < n.
Proof.
  intros N. unfold last_boco.
  enough (H : forall a, 0 <= a < n -> (forall k b lo hi, In (k, b) l -> mk_index b = Some (ILrange lo hi) -> hi < n) ->
    0 <= fold_left (fun m '((_, b) : string * mark Z) => match mk_index b with Some (ILrange _ hi) => Z.max m hi | _ => m end) l a < n) by (apply H; lia).
  induction l as [| (k, b) l IH]; intros a B ZN; [exact B |]. cbn [fold_left]. apply IH; [| intros k' b' lo hi I; apply (ZN k' b' lo hi); right; exact I].
  destruct (mk_index b) as [il |] eqn:E; [destruct il as [| lo hi | |]; try exact B | exact B]. specialize (ZN k b lo hi (or_introl eq_refl) E). lia.
Qed.

Section File.
  Context (i2d : Z -> Z) (narrow : Z -> Z).

  Lemma write4_parts tbl enum host endian sol fm mf so fm' : write4 i2d narrow tbl enum host endian sol fm = (Ok (mf, so), fm') ->
    exists w, writer_state fm' = Ok w /\ write_mesh4 narrow (fm_mesh fm') w = Ok mf /\
      (if sol then exists s, so = Some s /\ write_sol4 i2d (fm_params fm') w = Ok s else so = None) /\
      fm_cells fm' = fm_cells fm /\ fm_nodes fm' = fm_nodes fm /\ fm_params fm' = fm_params fm /\ fm_part fm' = fm_part fm.
  Proof.
    unfold write4. destruct (order_of host endian); [| discriminate]. destruct (prepare_mesh tbl enum (fm_mesh fm)) as (r & m). intros H.
    injection H as H E. subst fm'. apply bind_ok in H; destruct H as (u & _ & H). apply bind_ok in H; destruct H as (w & W & H).
    apply bind_ok in H; destruct H as (mf' & M & H). exists w. split; [exact W |]. cbn [fm_mesh fm_params fm_cells fm_nodes fm_part].
    destruct sol.
    - apply bind_ok in H; destruct H as (s & S & H). inversion H; subst. split; [exact M |]. split; [exists s; auto | auto].
    - inversion H; subst. auto 10.
  Qed.

  Lemma zone_type m k b : In (k, b) (zone_marks m) -> mk_type b <> Some "internal"%string.
  Proof.
    intros I. unfold zone_marks in I. apply filter_In in I. destruct I as (_ & I). destruct (mk_type b) as [t |]; [| discriminate].
    apply negb_true_iff in I. apply String.eqb_neq in I. congruence.
  Qed.

  (** The mesh read. *)
  Definition mesh_back4 (fm : fmesh) (x y z : list Z) (ls rows : list (list Z)) (con : econn) : mesh Z :=
    Mesh Z (me_ncell (fm_mesh fm)) (me_nnode (fm_mesh fm)) (zlen ls) None [("mixed"%string, FaceSet con (Some (Some (Mat (Some 2%nat) rows))))]
      [("x"%string, x); ("y"%string, y); ("z"%string, z)]
      (List.map (fun b => (mk_name b, b)) (cut_zones (zlen ls) (List.map open_row (ksort (zone_marks (fm_mesh fm)) (last_boco (zone_marks (fm_mesh fm))))))).

  Definition state4 (fm : fmesh) (ls rows coords : list (list Z)) (sol : option sol4) (cells : dataset) : rstate4 :=
    R4 (me_nnode (fm_mesh fm)) (zlen ls) (me_ncell (fm_mesh fm)) (zlen (List.concat ls)) (csr_make ls) rows
       (cut_zones (zlen ls) (List.map open_row (ksort (zone_marks (fm_mesh fm)) (last_boco (zone_marks (fm_mesh fm))))))
       coords (match sol with None => [("step"%string, SNum (NInt 0)); ("time"%string, SNum (NInt 0))] | Some s => read_info4 s end) cells.
  Definition cells4 : dataset := DS "instant" "cellaverage" 1 [] [].
  Definition nodes4 : dataset := DS "instant" "nodal" 1 [] [].

  Theorem read_mesh4 fm ls rows w mf : mesh4_ok fm ls rows -> writer_state fm = Ok w -> write_mesh4 narrow (fm_mesh fm) w = Ok mf ->
    exists x y z con, nodescoord (fm_mesh fm) = Ok (x, y, z) /\ ec_wf con /\ ec_boxed con /\ ec_import_csr ec_empty (csr_make ls) = Ok con /\
      Permutation (ec_pairs con) (ranked ls) /\ stack3 x y z = Ok (w_coords w) /\
      Forall (fun '(k, b) => mk_name b = k /\ (exists t, mk_type b = Some t /\ dget String.eqb t zonekinds <> None) /\ exists lo hi, mk_index b = Some (ILrange lo hi)) (zone_marks (fm_mesh fm)) /\
      forall sol, read4 mf sol =
        (cells <- match sol with None => Ok cells4 | Some s => read_vars4 (me_ncell (fm_mesh fm)) s cells4 end ;;
         Ok (FM (mesh_back4 fm x y z ls rows con) (FSet cells) (FSet nodes4)
                (dupdate (params4 (state4 fm ls rows (w_coords w) sol cells)) (r4_sim (state4 fm ls rows (w_coords w) sol cells))) (Some None))).
  Proof.
    intros M W WM.
    destruct (writer_state_ok fm w W) as (x & y & z & zf & f2e & NC & ST & LC & WF & E1 & E2 & E3 & E4 & E5 & E6 & E7 & _ & _ & _ & _ & _ & E8 & E9).
    destruct (writer_faces_of _ _ _ (v4_faces _ _ _ M)) as (mt & WF' & MR). rewrite WF in WF'. inversion WF' as [[Q1 Q2]]. rewrite Q1 in E4, E5. rewrite Q2 in E6. clear WF' WF Q1 Q2 zf f2e.
    destruct (import_csr_make ls (v4_sizes _ _ _ M)) as (con & IC & CW & CB & CP).
    unfold write_mesh4 in WM. rewrite E6 in WM. cbn [or_err bind] in WM. apply bind_ok in WM; destruct WM as (cvofa & CV & WM). apply bind_ok in WM; destruct WM as (bd & BD & WM).
    apply ok_inj in WM. apply i4_list_ok in CV. destruct CV as (-> & _). rewrite MR in WM.
    rewrite E7 in BD. apply write_bounds_rows in BD. destruct BD as (FZ & LB & OF & _ & KD & PE). apply labels_good in LB; [| apply M].
    exists x, y, z, con. do 4 (split; [assumption |]). split; [exact CP |]. split; [exact ST |]. split; [exact FZ |]. intros sol.
    assert (NNO : i4_array narrow (w_nno w) = List.map zlen ls).
    { rewrite E4, csr_make_diffs. apply i4_array_id. apply Forall_forall. intros v I. apply in_map_iff in I. destruct I as (r & <- & I).
      assert (S := v4_sizes _ _ _ M). rewrite Forall_forall in S. apply S in I. unfold int32. lia. }
    assert (NOV : i4_array narrow (w_noofa w) = List.concat ls). { rewrite E5. cbn [csr_make z_value]. apply i4_array_id. apply M. }
    assert (R1 : read_noofa4 mf = Ok (csr_make ls)).
    { apply read_noofa_make; [apply M | subst mf; exact NNO | subst mf; exact NOV]. }
    assert (LR : zlen rows = zlen ls).
    { destruct (v4_faces _ _ _ M) as [f _ S _ | nn b i lb li rb ri _ _ _ SB SI _ _ _ _ EL ER].
      - destruct (fs_cells _ _ _ S) as (? & _ & _ & _ & L). exact L.
      - destruct (fs_cells _ _ _ SB) as (? & _ & _ & _ & LB1). destruct (fs_cells _ _ _ SI) as (? & _ & _ & _ & LB2). rewrite EL, ER, !zlen_app. lia. }
    assert (R2 : read_cvofa4 mf = Ok rows).
    { unfold read_cvofa4. subst mf. cbn [m4_fa m4_cvofa m4_cv]. unfold reshape. rewrite (concat_len 2) by apply M.
      replace (zlen rows * Z.of_nat 2 =? w_fa w * Z.of_nat 2) with true.
      2: { symmetry. apply Z.eqb_eq. rewrite E2, (v4_nface _ _ _ M), LR. reflexivity. }
      cbn [bind]. rewrite (max_is _ (me_ncell (fm_mesh fm) - 1)); [| apply M | apply M]. cbn [bind]. rewrite E3.
      replace (me_ncell (fm_mesh fm) - 1 <? me_ncell (fm_mesh fm)) with true by (symmetry; apply Z.ltb_lt; lia). rewrite Z.eqb_refl. cbn [assertb bind].
      unfold rows_of. rewrite chunks_concat; [reflexivity | lia | apply M]. }
    assert (R3 : read_bounds4 (csr_make ls) (m4_bounds mf) = Ok (cut_zones (zlen ls) (List.map open_row (ksort (zone_marks (fm_mesh fm)) (last_boco (zone_marks (fm_mesh fm))))))).
    { subst mf. cbn [m4_bounds read_bounds4]. rewrite LB, OF, KD, PE, E2, (v4_nface _ _ _ M). apply read_rows.
      eapply Permutation_Forall; [symmetry; apply ksort_perm |]. apply rows_read; try apply M; [exact FZ | apply zone_type | |].
      - intros k b I. assert (F := FZ). rewrite Forall_forall in F. destruct (F _ I) as (_ & _ & lo & hi & IX). unfold zone_first. rewrite IX.
        destruct (v4_zones _ _ _ M k b lo hi I IX). cbn [csr_make z_index]. rewrite index_len. lia.
      - cbn [csr_make z_index]. rewrite index_len. assert (S1 := v4_some _ _ _ M).
        assert (Q' := last_below (zlen ls)).
        specialize (Q' (zone_marks (fm_mesh fm)) ltac:(lia)).
        enough (0 <= last_boco (zone_marks (fm_mesh fm)) < zlen ls) by lia. apply Q'. intros k b lo hi I IX. apply (v4_zones _ _ _ M k b lo hi I IX). }
    assert (R4E : reshape (m4_no mf) 3 (m4_coords mf) = Ok (w_coords w)).
    { subst mf. cbn [m4_no m4_coords]. unfold reshape. destruct (stack3_cols _ _ _ _ ST) as (C3 & _). rewrite (concat_len 3) by exact C3.
      rewrite LC, E1, Z.eqb_refl. unfold rows_of. rewrite chunks_concat; [reflexivity | lia | exact C3]. }
    unfold read4, read_data4. rewrite R1. cbn [bind]. rewrite R2. cbn [bind]. rewrite R3. cbn [bind]. rewrite R4E. cbn [bind].
    change (new_dataset "cellaverage" 1 "instant") with (@Ok dataset cells4). cbn [bind].
    assert (CE : m4_cv mf = me_ncell (fm_mesh fm)) by (subst mf; exact E3). rewrite CE.
    destruct (match sol with None => Ok cells4 | Some s => read_vars4 (me_ncell (fm_mesh fm)) s cells4 end) as [cells | e]; [| reflexivity]. cbn [bind].
    assert (SE : R4 (m4_no mf) (m4_fa mf) (me_ncell (fm_mesh fm)) (zsum (m4_noofa_i mf)) (csr_make ls) rows
         (cut_zones (zlen ls) (List.map open_row (ksort (zone_marks (fm_mesh fm)) (last_boco (zone_marks (fm_mesh fm)))))) (w_coords w)
         (match sol with None => [("step"%string, SNum (NInt 0)); ("time"%string, SNum (NInt 0))] | Some s => read_info4 s end) cells
       = state4 fm ls rows (w_coords w) sol cells).
    { unfold state4. subst mf. cbn [m4_no m4_fa m4_noofa_i]. rewrite NNO, zsum_zlen, E1, E2, (v4_nface _ _ _ M). reflexivity. }
    rewrite SE. unfold export_mesh4. cbn [state4 r4_cv r4_no r4_coords r4_cvofa r4_csr r4_bocos r4_cells].
    rewrite (set_coords_stack _ x y z _ ST); [| exact LC | reflexivity]. cbn [bind].
    unfold ii_set. cbn [m_cols bind]. rewrite IC. cbn [bind].
    unfold add_faces. change (existsb (String.eqb "mixed") facetypes) with true. cbv iota. cbn [bind].
    match goal with |- context [fold_left add_boco ?bs ?m] => rewrite (add_bocos_eq bs m) end.
    2: { cbn [with_nodes with_faces with_nface me_bocos new_mesh List.map app].
         rewrite cut_names.
         2: { intros r hi I. apply (Permutation_in _ (ksort_perm _ _)) in I. unfold krows in I. apply in_app_or in I. destruct I as [I | [<- | []]]; [| reflexivity].
              apply in_map_iff in I. destruct I as (kb & <- & _). reflexivity. }
         eapply Permutation_NoDup; [apply Permutation_map; symmetry; apply ksort_perm |]. unfold krows. rewrite map_app, map_map. cbn [List.map fst snd].
         apply NoDup_app. split; [apply M |]. split; [repeat constructor; intros [] |]. intros k I [<- | []]. exact (v4_reserved _ _ _ M I). }
    change (new_dataset "nodal" 1 "instant") with (@Ok dataset nodes4). cbn [bind]. f_equal. unfold mesh_back4.
    assert (NF : total_faces [("mixed"%string, FaceSet con (Some (Some (Mat (Some 2%nat) rows))))] = zlen ls).
    { unfold total_faces. cbn [List.map zsum fold_right f_f2n]. rewrite (ecwf_nelem _ CW), (zlen_perm _ _ CP). unfold ranked, zlen.
      rewrite combine_length, zrange_length. unfold zlen. lia. }
    unfold with_bocos, with_nface, with_faces, with_nodes.
    cbn [me_bocos me_faces me_nodes me_ncell me_nnode me_nface me_cell2node new_mesh dset app]. do 2 f_equal. exact NF.
  Qed.
End File.
