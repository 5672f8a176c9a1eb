(** * Proofs about [extract_cells]. *)
From Coq Require Import Permutation Sorted Lia.
From Verif Require Import Py PyFacts ConnProofs Conn Mesh Vtk VtkSpec.

Definition enc (cs : list (list Z)) : list Z := flat_map (fun c => zlen c :: c) cs.
Definition sizes (cs : list (list Z)) : list Z := List.map zlen cs.

Lemma enc_app a b : enc (a ++ b) = enc a ++ enc b.
Proof. unfold enc. apply flat_map_app. Qed.
Lemma enc_cons c cs : enc (c :: cs) = zlen c :: c ++ enc cs.
Proof. reflexivity. Qed.
Lemma zlen_enc cs : zlen (enc cs) = zlen (List.concat cs) + zlen cs.
Proof.
  induction cs as [|c cs IH]; [reflexivity|]. rewrite enc_cons.
  cbn [List.concat]. rewrite !zlen_cons, !zlen_app, IH. lia.
Qed.
Lemma zlen_concat (cs : list (list Z)) : zlen (List.concat cs) = zsum (sizes cs).
Proof. induction cs as [|c cs IH]; [reflexivity|]. cbn [List.concat sizes List.map zsum fold_right]. rewrite zlen_app, IH. reflexivity. Qed.

Lemma grid_enc {P} (g : grid P) cs : grid_of g cs -> g_cells g = enc (List.map snd cs).
Proof.
  intros H. rewrite (go_cells _ _ H). unfold enc. clear H. induction cs as [|c cs IH]; [reflexivity|].
  cbn [flat_map List.map]. rewrite IH. reflexivity.
Qed.

Lemma split_enc cs fuel : (List.length cs <= fuel)%nat -> split_cells fuel (enc cs) = Ok cs.
Proof.
  revert fuel. induction cs as [|c cs IH]; intros fuel Hf.
  - destruct fuel; reflexivity.
  - destruct fuel as [|fuel]; [cbn in Hf; lia|]. rewrite enc_cons. cbn [split_cells].
    assert ((zlen c <? 0) || (zlen (c ++ enc cs) <? zlen c) = false) as ->.
    { rewrite zlen_app. pose proof (zlen_nonneg c). pose proof (zlen_nonneg (enc cs)).
      apply Bool.orb_false_iff. split; lia. }
    rewrite to_nat_zlen. rewrite skipn_app, skipn_all, Nat.sub_diag. cbn [skipn app].
    rewrite IH by (cbn in Hf; lia). cbn [bind]. rewrite firstn_app, firstn_all, Nat.sub_diag. cbn [firstn].
    rewrite app_nil_r. reflexivity.
Qed.
Lemma enc_len_ge cs : (List.length cs <= List.length (enc cs))%nat.
Proof. induction cs as [|c cs IH]; [cbn; lia|]. rewrite enc_cons. cbn [List.length]. rewrite app_length. lia. Qed.

Lemma cumsum_from_len a l : List.length (cumsum_from a l) = List.length l.
Proof. revert a. induction l; intros; cbn; [reflexivity|]. rewrite IHl. reflexivity. Qed.
Lemma cumsum_from_nth a l k : (k < List.length l)%nat -> nth_error (cumsum_from a l) k = Some (a + zsum (firstn (S k) l)).
Proof.
  revert a k. induction l as [|x l IH]; intros a k Hk; [cbn in Hk; lia|].
  destruct k as [|k].
  - cbn. f_equal. lia.
  - cbn [cumsum_from nth_error]. cbn in Hk. rewrite IH by lia. cbn [firstn zsum fold_right]. f_equal. fold (zsum (firstn (S k) l)). unfold zsum. cbn. lia.
Qed.

(** A grid built from encoded cells describes these cells. *)
Lemma ug_new_of {P} (cs : list (Z * list Z)) (pts : list P) :
  exists g, ug_new (enc (List.map snd cs)) (List.map fst cs) pts = Ok g /\ grid_of g cs /\ g_points g = pts.
Proof.
  unfold ug_new. rewrite split_enc by apply enc_len_ge. cbn [bind].
  assert (zlen (List.map snd cs) =? zlen (List.map fst cs) = true) as -> by (rewrite !zlen_map; lia).
  eexists. split; [reflexivity|]. split; [|reflexivity]. constructor; cbn [g_types g_cells g_offset].
  - reflexivity.
  - unfold enc. clear. induction cs as [|c cs IH]; [reflexivity|]. cbn [flat_map List.map]. rewrite IH. reflexivity.
  - intros k Hk. destruct k as [|k]; [reflexivity|]. cbn [nth_error]. unfold np_cumsum.
    rewrite cumsum_from_nth by (rewrite !map_length; lia). f_equal.
    rewrite !firstn_map, List.map_map. reflexivity.
  - cbn. unfold np_cumsum. rewrite cumsum_from_len, !map_length. reflexivity.
Qed.

Lemma set_mid {A} (a b : list A) x v : py_set (a ++ x :: b) (zlen a) v = Ok (a ++ v :: b).
Proof.
  unfold py_set. pose proof (zlen_nonneg a). pose proof (zlen_nonneg b).
  assert (zlen a <? 0 = false) as -> by lia. cbv zeta.
  assert ((zlen a <? 0) || (zlen (a ++ x :: b) <=? zlen a) = false) as ->.
  { rewrite zlen_app, zlen_cons. apply Bool.orb_false_iff. split; lia. }
  rewrite to_nat_zlen. f_equal. induction a as [|y a IH]; [reflexivity|]. cbn. rewrite IH; [reflexivity|apply zlen_nonneg].
Qed.

Lemma setslice_mid {A} (a m b vals : list A) :
  zlen m = zlen vals -> np_setslice (a ++ m ++ b) (zlen a) (zlen a + zlen vals) vals = Ok (a ++ vals ++ b).
Proof.
  intros Hm. unfold np_setslice, slice_bound.
  pose proof (zlen_nonneg a). pose proof (zlen_nonneg m). pose proof (zlen_nonneg b). pose proof (zlen_nonneg vals).
  assert (zlen a <? 0 = false) as -> by lia. assert (zlen a + zlen vals <? 0 = false) as -> by lia. cbv zeta.
  rewrite !zlen_app.
  replace (Z.max 0 (Z.min (zlen a + (zlen m + zlen b)) (zlen a))) with (zlen a) by lia.
  replace (Z.max 0 (Z.min (zlen a + (zlen m + zlen b)) (zlen a + zlen vals))) with (zlen a + zlen vals) by lia.
  replace (Z.max 0 (zlen a + zlen vals - zlen a)) with (zlen vals) by lia.
  rewrite Z.eqb_refl. rewrite <- Hm. rewrite <- zlen_app. rewrite !to_nat_zlen. f_equal. f_equal.
  - rewrite firstn_app, firstn_all, Nat.sub_diag. cbn. apply app_nil_r.
  - f_equal. rewrite app_assoc, skipn_app, skipn_all, Nat.sub_diag. reflexivity.
Qed.

(** The loop writes the encoded cells. *)
Lemma fill_gen newv done todo rest tail ex (first : bool) :
  newv = List.concat (done ++ todo) ++ ex ->
  zlen rest = zlen (enc todo) ->
  (first = true -> done = [] /\ forall c r, todo = c :: r -> zlen c <= 254) ->
  foldM (fill_step newv) (enc done ++ rest ++ tail, zlen (enc done), zlen (List.concat done), first) (sizes todo) =
  Ok (enc (done ++ todo) ++ tail, zlen (enc (done ++ todo)), zlen (List.concat (done ++ todo)),
      match todo with [] => first | _ => false end).
Proof.
  revert done rest first. induction todo as [|c todo IH]; intros done rest first Hn Hr Hf.
  - cbn [enc flat_map] in Hr. destruct rest; [|rewrite zlen_cons in Hr; pose proof (zlen_nonneg rest); cbn in Hr; lia].
    cbn [sizes List.map foldM]. rewrite !app_nil_r. reflexivity.
  - cbn [sizes List.map foldM]. fold (sizes todo). rewrite enc_cons, zlen_cons, zlen_app in Hr.
    destruct rest as [|x rest]; [cbn in Hr; pose proof (zlen_nonneg c); pose proof (zlen_nonneg (enc todo)); lia|].
    rewrite zlen_cons in Hr.
    assert (exists m b, rest = m ++ b /\ zlen m = zlen c /\ zlen b = zlen (enc todo)) as (m & b & -> & Hm & Hb).
    { exists (firstn (List.length c) rest), (skipn (List.length c) rest). split; [symmetry; apply firstn_skipn|].
      unfold zlen in *. rewrite firstn_length, skipn_length. lia. }
    unfold fill_step at 1. cbn [app]. rewrite set_mid. cbn [bind].
    assert (Hsl : py_slice newv (zlen (List.concat done)) (zlen (List.concat done) + zlen c) = c).
    { rewrite Hn, concat_app. cbn [List.concat]. rewrite <- !app_assoc. apply py_slice_mid. }
    rewrite Hsl.
    assert ((if first then (zlen (enc done) + 1 + zlen c) mod 256 else zlen (enc done) + 1 + zlen c) = zlen (enc done) + 1 + zlen c) as ->.
    { destruct first; [|reflexivity]. destruct (Hf eq_refl) as [-> Hc]. specialize (Hc c todo eq_refl).
      apply Z.mod_small. change (zlen (enc [])) with 0. pose proof (zlen_nonneg c). lia. }
    replace (enc done ++ zlen c :: (m ++ b) ++ tail) with ((enc done ++ [zlen c]) ++ m ++ b ++ tail) by (rewrite <- !app_assoc; reflexivity).
    replace (zlen (enc done) + 1) with (zlen (enc done ++ [zlen c])) by (rewrite zlen_app; reflexivity).
    rewrite setslice_mid by exact Hm. cbn [bind].
    assert (E1 : (enc done ++ [zlen c]) ++ c ++ b ++ tail = enc (done ++ [c]) ++ b ++ tail).
    { rewrite enc_app. cbn [enc flat_map]. rewrite app_nil_r, <- !app_assoc. reflexivity. }
    assert (E2 : zlen (enc done) + zlen c + 1 = zlen (enc (done ++ [c]))).
    { rewrite enc_app, enc_cons, zlen_app, zlen_cons, zlen_app. change (zlen (enc [])) with 0. lia. }
    assert (E3 : zlen (List.concat done) + zlen c = zlen (List.concat (done ++ [c]))).
    { rewrite concat_app, zlen_app. cbn [List.concat]. rewrite app_nil_r. lia. }
    rewrite E1, E2, E3. rewrite IH.
    + rewrite <- !app_assoc. cbn [app]. destruct todo; reflexivity.
    + rewrite <- app_assoc. exact Hn.
    + exact Hb.
    + discriminate.
Qed.
Lemma fill_ok newv todo rest :
  newv = List.concat todo -> zlen rest = zlen (enc todo) -> (forall c r, todo = c :: r -> zlen c <= 254) ->
  foldM (fill_step newv) (rest, 0, 0, true) (sizes todo) =
  Ok (enc todo, zlen (enc todo), zlen newv, match todo with [] => true | _ => false end).
Proof.
  intros Hn Hr Hf. pose proof (fill_gen newv [] todo rest [] [] true) as H. rewrite !app_nil_r in H. subst newv. cbn [app enc flat_map List.concat] in H.
  rewrite !zlen_nil in H. apply H; auto.
Qed.

Lemma nth_error_split' {A} (l : list A) k x : nth_error l k = Some x -> exists a b, l = a ++ x :: b /\ List.length a = k.
Proof. apply nth_error_split. Qed.

Lemma py_get_nth {A} (l : list A) i a : 0 <= i -> nth_error l (Z.to_nat i) = Some a -> py_get l i = Ok a.
Proof. intros Hi Hn. unfold py_get. assert (i <? 0 = false) as -> by lia. rewrite Hn. assert (i <? 0 = false) as -> by lia. reflexivity. Qed.

Lemma sum_sizes_firstn (cs : list (Z * list Z)) a c b :
  cs = a ++ c :: b -> zsum (List.map (fun c => zlen (snd c)) (firstn (List.length a) cs)) = zlen (List.concat (List.map snd a)).
Proof.
  intros ->. rewrite firstn_app, firstn_all, Nat.sub_diag. cbn [firstn]. rewrite app_nil_r.
  rewrite zlen_concat. unfold sizes. rewrite List.map_map. reflexivity.
Qed.
Lemma sum_sizes_firstn_S (cs : list (Z * list Z)) a c b :
  cs = a ++ c :: b -> zsum (List.map (fun c => zlen (snd c)) (firstn (S (List.length a)) cs)) = zlen (List.concat (List.map snd a)) + zlen (snd c).
Proof.
  intros ->. replace (S (List.length a)) with (List.length (a ++ [c])) by (rewrite app_length; cbn; lia).
  replace (a ++ c :: b) with ((a ++ [c]) ++ b) by (rewrite <- app_assoc; reflexivity).
  rewrite firstn_app, firstn_all, Nat.sub_diag. cbn [firstn]. rewrite app_nil_r.
  rewrite map_app, zsum_app. cbn [List.map zsum fold_right]. rewrite zlen_concat. unfold sizes. rewrite List.map_map. lia.
Qed.

(** What is read of a cell: its vertices and its size. *)
Section Cell.
  Context {P : Type} (g : grid P) (cs : list (Z * list Z)) (Hg : grid_of g cs).
  Lemma cell_reads id c : 0 <= id -> nth_error cs (Z.to_nat id) = Some c ->
    exists a b, py_get (g_offset g) id = Ok a /\ py_get (g_offset g) (id + 1) = Ok b /\
      py_slice (g_cells g) (a + id + 1) (b + id + 1) = snd c /\
      py_get (g_cells g) (a + id) = Ok (zlen (snd c)) /\ py_get (g_types g) id = Ok (fst c).
  Proof.
    intros Hid Hc. destruct (nth_error_split' _ _ _ Hc) as (u & w & E & Hu).
    exists (zlen (List.concat (List.map snd u))), (zlen (List.concat (List.map snd u)) + zlen (snd c)).
    assert (Eid : id = zlen u) by (unfold zlen; lia).
    assert (Hlen : (List.length cs >= S (List.length u))%nat) by (rewrite E, app_length; cbn; lia).
    assert (Ecells : g_cells g = enc (List.map snd u) ++ zlen (snd c) :: snd c ++ enc (List.map snd w)).
    { rewrite (grid_enc _ _ Hg), E, map_app, enc_app. reflexivity. }
    assert (El : zlen (enc (List.map snd u)) = zlen (List.concat (List.map snd u)) + id).
    { rewrite zlen_enc, zlen_map. lia. }
    split; [|split; [|split; [|split]]].
    - apply py_get_nth; [exact Hid|]. rewrite (go_offset _ _ Hg) by lia.
      rewrite <- Hu. rewrite (sum_sizes_firstn _ _ _ _ E). reflexivity.
    - apply py_get_nth; [lia|]. replace (Z.to_nat (id + 1)) with (S (List.length u)) by lia.
      rewrite (go_offset _ _ Hg) by lia. rewrite (sum_sizes_firstn_S _ _ _ _ E). reflexivity.
    - rewrite Ecells. replace (enc (List.map snd u) ++ zlen (snd c) :: snd c ++ enc (List.map snd w))
        with ((enc (List.map snd u) ++ [zlen (snd c)]) ++ snd c ++ enc (List.map snd w)) by (rewrite <- app_assoc; reflexivity).
      replace (zlen (List.concat (List.map snd u)) + id + 1) with (zlen (enc (List.map snd u) ++ [zlen (snd c)])).
      2:{ rewrite zlen_app, El. reflexivity. }
      replace (zlen (List.concat (List.map snd u)) + zlen (snd c) + id + 1) with (zlen (enc (List.map snd u) ++ [zlen (snd c)]) + zlen (snd c)).
      2:{ rewrite zlen_app, El, zlen_cons, zlen_nil. lia. }
      apply py_slice_mid.
    - rewrite <- El, Ecells. apply py_get_nth; [apply zlen_nonneg|]. rewrite to_nat_zlen.
      rewrite nth_error_app2 by lia. rewrite Nat.sub_diag. reflexivity.
    - apply py_get_nth; [exact Hid|]. rewrite (go_types _ _ Hg), nth_error_map, Hc. reflexivity.
  Qed.
End Cell.

From Verif Require Import CheckProofs.

Lemma mapM_Forall2 {A B} (f : A -> res B) l bs : Forall2 (fun a b => f a = Ok b) l bs -> mapM f l = Ok bs.
Proof. induction 1 as [|a b l bs H _ IH]; [reflexivity|]. cbn [mapM]. rewrite H. cbn [bind]. rewrite IH. reflexivity. Qed.
Lemma Forall2_nth {A B} (R : A -> B -> Prop) l m k a : Forall2 R l m -> nth_error l k = Some a -> exists b, nth_error m k = Some b /\ R a b.
Proof.
  intros H. revert k. induction H as [|x y l m Hxy _ IH]; intros k Hk; [destruct k; discriminate|].
  destruct k as [|k]; [cbn in Hk; injection Hk as ->; exists y; split; [reflexivity|exact Hxy]|]. apply IH. exact Hk.
Qed.
Lemma in_combine_range {A} (l : list A) lo x k : In (x, k) (combine l (zrange lo (lo + zlen l))) <-> lo <= k /\ nth_error l (Z.to_nat (k - lo)) = Some x.
Proof.
  revert lo. induction l as [|a l IH]; intros lo.
  - cbn. split; [tauto|]. intros [_ H]. destruct (Z.to_nat (k - lo)); discriminate.
  - rewrite zlen_cons, zrange_cons by (pose proof (zlen_nonneg l); lia). cbn [combine].
    replace (lo + (zlen l + 1)) with ((lo + 1) + zlen l) by lia. cbn [In]. rewrite IH. split.
    + intros [H|[H1 H2]].
      * injection H as -> ->. split; [lia|]. rewrite Z.sub_diag. reflexivity.
      * split; [lia|]. replace (Z.to_nat (k - lo)) with (S (Z.to_nat (k - (lo + 1)))) by lia. exact H2.
    + intros [H1 H2]. destruct (Z.eq_dec k lo) as [->|Hn].
      * left. rewrite Z.sub_diag in H2. cbn in H2. injection H2 as ->. reflexivity.
      * right. split; [lia|]. replace (Z.to_nat (k - lo)) with (S (Z.to_nat (k - (lo + 1)))) in H2 by lia. exact H2.
Qed.

Section Renumber.
  Context (used : list Z) (Hnd : NoDup used).
  Definition idmap : dict Z Z := dict_of_zip used (zrange 0 (zlen used)).
  Definition ren (x : Z) : Z := match dget Z.eqb x idmap with Some k => k | None => 0 end.
  Lemma idmap_get x k : dget Z.eqb x idmap = Some k <-> 0 <= k /\ nth_error used (Z.to_nat k) = Some x.
  Proof.
    unfold idmap. rewrite dget_dict_of_zip.
    - rewrite <- (Z.add_0_l (zlen used)), in_combine_range, Z.sub_0_r. reflexivity.
    - exact Hnd.
    - rewrite zrange_length. unfold zlen. lia.
  Qed.
  Lemma idmap_in x : In x used -> dget Z.eqb x idmap = Some (ren x) /\ 0 <= ren x < zlen used /\ nth_error used (Z.to_nat (ren x)) = Some x.
  Proof.
    intros Hx. apply In_nth_error in Hx. destruct Hx as (k & Hk).
    assert (E : dget Z.eqb x idmap = Some (Z.of_nat k)). { apply idmap_get. split; [lia|]. rewrite Nat2Z.id. exact Hk. }
    unfold ren. rewrite E. rewrite Nat2Z.id. split; [reflexivity|]. split; [|exact Hk].
    assert (nth_error used k <> None) as Hne by congruence. apply nth_error_Some in Hne. unfold zlen. lia.
  Qed.
End Renumber.

Section Extract.
  Context {P : Type} (enum : list Z -> list Z) (Henum : set_enum enum) (junk : Z -> Z)
    (g : grid P) (cs : list (Z * list Z)) (Hg : grid_of g cs) (Hv : vertices_ok g cs).

  Lemma selected ids : Forall (fun id => 0 <= id < zlen cs) ids ->
    exists sel, Forall2 (fun id c => nth_error cs (Z.to_nat id) = Some c) ids sel.
  Proof.
    induction 1 as [|id ids Hid _ (sel & IH)]; [exists []; constructor|].
    destruct (nth_error cs (Z.to_nat id)) as [c|] eqn:E.
    - exists (c :: sel). constructor; assumption.
    - apply nth_error_None in E. unfold zlen in Hid. clear -E Hid. lia.
  Qed.

  (** The three arrays read of the selected cells. *)
  Lemma reads ids sel : Forall (fun id => 0 <= id < zlen cs) ids ->
    Forall2 (fun id c => nth_error cs (Z.to_nat id) = Some c) ids sel ->
    np_take (g_types g) ids = Ok (List.map fst sel) /\
    mapM (fun cid => a <- py_get (g_offset g) cid ;; b <- py_get (g_offset g) (cid + 1) ;;
                     Ok (py_slice (g_cells g) (a + cid + 1) (b + cid + 1))) ids = Ok (List.map snd sel) /\
    mapM (fun cid => a <- py_get (g_offset g) cid ;; s <- py_get (g_cells g) (a + cid) ;; Ok (s mod 256)) ids
      = Ok (List.map (fun c => zlen (snd c) mod 256) sel).
  Proof.
    intros Hr Hs. induction Hs as [|id c ids sel Hc _ IH].
    - split; [|split]; reflexivity.
    - inversion Hr as [|? ? Hid Hr']; subst. destruct (IH Hr') as (I1 & I2 & I3).
      destruct (cell_reads g cs Hg id c ltac:(lia) Hc) as (a & b & Ha & Hb & Hsl & Hsz & Hty).
      split; [|split].
      + unfold np_take in *. cbn [mapM List.map]. rewrite Hty. cbn [bind]. rewrite I1. reflexivity.
      + cbn [mapM List.map]. rewrite Ha. cbn [bind]. rewrite Hb. cbn [bind]. rewrite I2. cbn [bind]. rewrite Hsl. reflexivity.
      + cbn [mapM List.map]. rewrite Ha. cbn [bind]. rewrite Hsz. cbn [bind]. rewrite I3. reflexivity.
  Qed.

  Lemma sel_in ids sel c : Forall2 (fun id c => nth_error cs (Z.to_nat id) = Some c) ids sel -> In c sel ->
    exists id, In id ids /\ nth_error cs (Z.to_nat id) = Some c.
  Proof.
    intros H. induction H as [|id c' ids sel Hc _ IH]; [intros []|]. intros [->|Hin].
    - exists id. split; [left; reflexivity|exact Hc].
    - destruct (IH Hin) as (i & Hi & Hn). exists i. split; [right; exact Hi|exact Hn].
  Qed.

  Theorem extract_ok ids sel :
    ids <> [] -> Forall (fun id => 0 <= id < zlen cs) ids ->
    Forall2 (fun id c => nth_error cs (Z.to_nat id) = Some c) ids sel ->
    Forall (fun c => zlen (snd c) <= 255) sel ->
    (forall c r, sel = c :: r -> zlen (snd c) <= 254) ->
    exists g' used pts,
      extract_cells enum junk g ids = Ok g' /\
      used = enum (List.concat (List.map snd sel)) /\ np_take (g_points g) used = Ok pts /\ g_points g' = pts /\
      grid_of g' (List.map (fun c => (fst c, List.map (ren used) (snd c))) sel).
  Proof.
    intros Hne Hr Hs H255 H254. destruct (reads ids sel Hr Hs) as (R1 & R2 & R3).
    unfold extract_cells. rewrite R1. cbn [bind]. rewrite R2. cbn [bind].
    assert (Hsel : sel <> []). { destruct ids; [congruence|]. inversion Hs. discriminate. }
    assert (Ev : match List.map snd sel with [] => Err ValueError | _ => Ok (List.concat (List.map snd sel)) end = Ok (List.concat (List.map snd sel))).
    { destruct sel; [congruence|]. reflexivity. }
    rewrite Ev. cbn [bind]. rewrite R3. cbn [bind].
    set (vtex := List.concat (List.map snd sel)). set (used := enum vtex).
    destruct (Henum vtex) as [Hnd Hin]. fold used in Hnd, Hin. fold (idmap used).
    assert (En : mapM (fun x => dget_err Z.eqb x (idmap used)) vtex = Ok (List.map (ren used) vtex)).
    { apply mapM_map. intros x Hx. unfold dget_err. destruct (idmap_in used Hnd x ltac:(apply Hin; exact Hx)) as (E & _). rewrite E. reflexivity. }
    rewrite En. cbn [bind].
    set (new := List.map (fun c => List.map (ren used) (snd c)) sel).
    assert (Enew : List.map (ren used) vtex = List.concat ([] ++ new)).
    { unfold vtex, new. cbn [app]. rewrite concat_map, List.map_map. reflexivity. }
    assert (Esz : List.map (fun c => zlen (snd c) mod 256) sel = sizes new).
    { unfold sizes, new. rewrite List.map_map. apply map_ext_in. intros c Hc. rewrite zlen_map.
      rewrite Forall_forall in H255. specialize (H255 c Hc). apply Z.mod_small. pose proof (zlen_nonneg (snd c)). lia. }
    rewrite Esz.
    set (rest := List.map junk (zrange 0 (zlen (List.map (ren used) vtex) + zlen (List.map fst sel)))).
    assert (Hrest : zlen rest = zlen (enc new)).
    { unfold rest. rewrite zlen_map. rewrite zlen_zrange.
      2:{ pose proof (zlen_nonneg (List.map (ren used) vtex)). pose proof (zlen_nonneg (List.map fst sel)). lia. }
      rewrite zlen_enc, Enew. cbn [app]. assert (zlen new = zlen sel) as -> by (unfold new; apply zlen_map). rewrite zlen_map. lia. }
    assert (Hfirst : forall c r, new = c :: r -> zlen c <= 254).
    { intros c r E. unfold new in E. destruct sel as [|c0 sel0]; [discriminate|].
      cbn in E. injection E as E _. subst c. rewrite zlen_map. apply (H254 c0 sel0). reflexivity. }
    pose proof (fill_ok (List.map (ren used) vtex) new rest Enew Hrest Hfirst) as Hfill.
    rewrite Hfill. cbn [bind]. clear Hfill.
    assert (Hp : exists pts, np_take (g_points g) used = Ok pts).
    { unfold np_take. assert (Hall : forall v, In v used -> 0 <= v < zlen (g_points g)).
      { intros v Hvu. apply Hin in Hvu. unfold vtex in Hvu. apply in_concat in Hvu. destruct Hvu as (vs & Hvs & Hvv).
        apply in_map_iff in Hvs. destruct Hvs as (c & <- & Hc). destruct (sel_in ids sel c Hs Hc) as (id & _ & Hid).
        apply (Hv c v); [|exact Hvv]. apply nth_error_In in Hid. exact Hid. }
      clear -Hall. induction used as [|v l IH]; [exists []; reflexivity|].
      destruct (IH ltac:(intros w Hw; apply Hall; right; exact Hw)) as (ps & Eps).
      destruct (py_get_total (g_points g) v) as (p & Ep). { specialize (Hall v (or_introl eq_refl)). lia. }
      exists (p :: ps). cbn [mapM]. rewrite Ep. cbn [bind]. rewrite Eps. reflexivity. }
    destruct Hp as (pts & Hpts). rewrite Hpts. cbn [bind].
    destruct (ug_new_of (List.map (fun c => (fst c, List.map (ren used) (snd c))) sel) pts) as (g' & Eg' & Hgo & Egp).
    exists g', used, pts. split; [|split; [reflexivity|split; [exact Hpts|split; [exact Egp|exact Hgo]]]].
    rewrite <- Eg'. f_equal.
    - unfold new. rewrite List.map_map. reflexivity.
    - rewrite List.map_map. reflexivity.
  Qed.

  (** Positions are kept. *)
  Lemma ren_position used pts g' v :
    NoDup used -> np_take (g_points g) used = Ok pts -> g_points g' = pts -> In v used -> 0 <= v ->
    position g' (ren used v) = position g v.
  Proof.
    intros Hnd Hp Hgp Hin Hv0. destruct (idmap_in used Hnd v Hin) as (_ & Hk & Hnth).
    apply mapM_ok_Forall2 in Hp. destruct (Forall2_nth _ _ _ _ _ Hp Hnth) as (p & Hpp & Hget).
    unfold position. rewrite Hgp, Hpp. apply py_get_nonneg in Hget; [|exact Hv0]. symmetry. exact Hget.
  Qed.
End Extract.

(** ** Cells of 255 vertices and more *)
Lemma slice_setslice_len {A} (l : list A) a b vals l' : np_setslice l a b vals = Ok l' -> List.length l' = List.length l.
Proof.
  unfold np_setslice, slice_bound.
  set (n := zlen l). pose proof (zlen_nonneg l) as Hn0. fold n in Hn0.
  set (a' := Z.max 0 (Z.min n (if a <? 0 then a + n else a))). set (b' := Z.max 0 (Z.min n (if b <? 0 then b + n else b))). cbv zeta.
  assert (Ha : 0 <= a' <= n) by (unfold a'; lia). assert (Hb : 0 <= b' <= n) by (unfold b'; lia).
  assert (Hk : forall vs : list A, zlen vs = Z.max 0 (b' - a') ->
     List.length (firstn (Z.to_nat a') l ++ vs ++ skipn (Z.to_nat (a' + Z.max 0 (b' - a'))) l) = List.length l).
  { intros vs Hvs. rewrite !app_length, firstn_length, skipn_length. unfold n, zlen in *. lia. }
  destruct (zlen vals =? Z.max 0 (b' - a')) eqn:E.
  - intros H. injection H as <-. apply Hk. lia.
  - destruct vals as [|v [|]]; try discriminate. intros H. injection H as <-. apply Hk.
    rewrite zlen_map, zlen_zrange by lia. lia.
Qed.
Lemma setslice_before {A} (l : list A) a b vals l' k : 0 <= a -> (k < Z.to_nat a)%nat -> (k < List.length l)%nat ->
  np_setslice l a b vals = Ok l' -> nth_error l' k = nth_error l k.
Proof.
  intros Ha0 Hka Hkl. unfold np_setslice, slice_bound. set (n := zlen l).
  assert (a <? 0 = false) as -> by lia.
  set (a' := Z.max 0 (Z.min n a)). set (b' := Z.max 0 (Z.min n (if b <? 0 then b + n else b))). cbv zeta.
  assert (Hfirst : forall r : list A, nth_error (firstn (Z.to_nat a') l ++ r) k = nth_error l k).
  { intros r. rewrite nth_error_app1.
    - rewrite <- (firstn_skipn (Z.to_nat a') l) at 2. rewrite nth_error_app1; [reflexivity|].
      rewrite firstn_length. unfold a', n, zlen. lia.
    - rewrite firstn_length. unfold a', n, zlen. lia. }
  destruct (zlen vals =? Z.max 0 (b' - a')).
  - intros H. injection H as <-. apply Hfirst.
  - destruct vals as [|v [|]]; try discriminate. intros H. injection H as <-. apply Hfirst.
Qed.
Lemma fill_step_keeps newv arr i j f s arr' i' j' f' k : 0 <= i -> 0 <= s -> (k < Z.to_nat i)%nat -> (k < List.length arr)%nat ->
  fill_step newv (arr, i, j, f) s = Ok (arr', i', j', f') ->
  nth_error arr' k = nth_error arr k /\ i' = i + s + 1 /\ List.length arr' = List.length arr.
Proof.
  intros Hi Hs Hk Hkl H. unfold fill_step in H. apply bind_ok in H. destruct H as (a1 & H1 & H).
  apply bind_ok in H. destruct H as (a2 & H2 & H). injection H as <- <- _ _.
  unfold py_set in H1. assert (i <? 0 = false) as E by lia. rewrite E in H1. cbv zeta in H1. rewrite E in H1.
  destruct (zlen arr <=? i) eqn:E2; [discriminate|]. cbn [orb] in H1. injection H1 as <-.
  split; [|split; [reflexivity|]].
  - assert (Hkl' : (k < List.length (upd_nat arr (Z.to_nat i) s))%nat) by (rewrite upd_nat_length; exact Hkl).
    rewrite (setslice_before _ (i + 1) _ _ _ k ltac:(lia) ltac:(lia) Hkl' H2).
    rewrite nth_error_upd_nat. destruct (Nat.eqb (Z.to_nat i) k) eqn:Ek; [apply Nat.eqb_eq in Ek; lia|]. reflexivity.
  - rewrite (slice_setslice_len _ _ _ _ _ H2). apply upd_nat_length.
Qed.
Lemma fill_keeps newv ss : Forall (fun s => 0 <= s) ss -> forall arr i j f st k, 0 <= i -> (k < Z.to_nat i)%nat -> (k < List.length arr)%nat ->
  foldM (fill_step newv) (arr, i, j, f) ss = Ok st -> nth_error (fst (fst (fst st))) k = nth_error arr k.
Proof.
  induction 1 as [|s ss Hs _ IH]; intros arr i j f st k Hi Hk Hkl H.
  - cbn [foldM] in H. injection H as <-. reflexivity.
  - cbn [foldM] in H. apply bind_ok in H. destruct H as ((((a1 & i1) & j1) & f1) & H1 & H).
    destruct (fill_step_keeps _ _ _ _ _ _ _ _ _ _ k Hi Hs Hk Hkl H1) as (E & Ei & El).
    rewrite <- E. apply (IH a1 i1 j1 f1 st k ltac:(lia) ltac:(lia) ltac:(lia) H).
Qed.
