(** * Proofs about extrusion. *)
From Coq Require Import Permutation Lia ZArith.
From Verif Require Import PyFacts Conn ConnSpec ConnProofs FaceSpec Mesh MeshSpec MeshProofs FaceSetProofs CheckProofs SimpleProofs Extrude ExtrudeSpec.

Lemma combine_app' {A B} (a a' : list A) : forall (b b' : list B), List.length a = List.length b ->
  combine (a ++ a') (b ++ b') = combine a b ++ combine a' b'.
Proof. induction a as [|x a IH]; intros [|y b] b' H; try discriminate; auto. cbn. f_equal. apply IH. now inv H. Qed.

Lemma zlen_tile {A} k (l : list A) : 0 <= k -> zlen (tile k l) = k * zlen l.
Proof.
  intros Hk. unfold tile. replace k with (Z.of_nat (Z.to_nat k)) by lia. generalize (Z.to_nat k). clear. intros n.
  induction n as [|n IH]; [reflexivity|]. rewrite Nat2Z.inj_succ. unfold Z.succ. rewrite zrange_snoc by lia.
  rewrite flat_map_app, zlen_app, IH. cbn [flat_map]. rewrite app_nil_r. lia.
Qed.

Lemma map_const_on {A B} (g : Z * A -> B) (h : A -> B) (l : list A) : forall lo, 
  (forall p a, lo <= p < lo + zlen l -> g (p, a) = h a) -> List.map g (combine (zrange lo (lo + zlen l)) l) = List.map h l.
Proof.
  induction l as [|a l IH]; intros lo H; [now rewrite zlen_nil, Z.add_0_r, zrange_empty by lia|].
  rewrite zlen_cons in *. assert (0 <= zlen l) by apply zlen_nonneg. rewrite zrange_cons by lia. cbn [combine List.map]. f_equal.
  - apply H. lia.
  - replace (lo + (zlen l + 1)) with (lo + 1 + zlen l) by lia. apply IH. intros. apply H. lia.
Qed.

(** Adding per slice to a tiled list. *)
Lemma by_slices_tile {A} K (f : Z -> A -> A) l : 0 <= K ->
  by_slices (zlen l) K f (tile K l) = flat_map (fun i => List.map (f i) l) (zrange 0 K).
Proof.
  intros HK. destruct l as [|a0 l0] eqn:El.
  { unfold tile. assert (X : forall B (g : Z -> list B), (forall i, g i = []) -> flat_map g (zrange 0 K) = []).
    { intros B g Hg. induction (zrange 0 K); cbn; auto. now rewrite Hg. }
    rewrite (X _ (fun i => List.map (f i) [])), (X _ (fun _ => [])) by reflexivity. reflexivity. }
  rewrite <- El. assert (Hn : 0 < zlen l) by (rewrite El, zlen_cons; assert (0 <= zlen l0) by apply zlen_nonneg; lia).
  clear El a0 l0. unfold by_slices. set (g := fun '(p, a) => if (0 <? zlen l) && (p / zlen l <? K) then f (p / zlen l) a else a).
  assert (G : forall n, Z.of_nat n <= K ->
     List.map g (combine (zrange 0 (zlen (tile (Z.of_nat n) l))) (tile (Z.of_nat n) l)) =
     flat_map (fun i => List.map (f i) l) (zrange 0 (Z.of_nat n))).
  { induction n as [|n IH]; intros Hle; [reflexivity|].
    assert (T : tile (Z.of_nat (S n)) l = tile (Z.of_nat n) l ++ l).
    { unfold tile. rewrite Nat2Z.inj_succ. unfold Z.succ. rewrite zrange_snoc by lia. rewrite flat_map_app. cbn [flat_map].
      now rewrite app_nil_r. }
    rewrite T, zlen_app. rewrite (zrange_app 0 (zlen (tile (Z.of_nat n) l))) by (rewrite ?zlen_tile; nia).
    rewrite combine_app' by (rewrite zrange_length, Z.sub_0_r; unfold zlen; lia).
    rewrite map_app, IH by lia. rewrite Nat2Z.inj_succ. unfold Z.succ. rewrite zrange_snoc by lia.
    rewrite flat_map_app. f_equal. cbn [flat_map]. rewrite app_nil_r. rewrite zlen_tile by lia.
    apply map_const_on. intros p a Hp. unfold g.
    assert (E : p / zlen l = Z.of_nat n).
    { symmetry. apply (Z.div_unique _ _ _ (p - Z.of_nat n * zlen l)); nia. }
    rewrite E. replace (0 <? zlen l) with true by lia. replace (Z.of_nat n <? K) with true by lia. reflexivity. }
  specialize (G (Z.to_nat K)). rewrite Z2Nat.id in G by lia. apply G. lia.
Qed.

Lemma map_tile {A B} (f : A -> B) k l : List.map f (tile k l) = tile k (List.map f l).
Proof. unfold tile. induction (zrange 0 k); cbn [flat_map List.map]; auto. now rewrite map_app, IHl0. Qed.

Lemma map_flat_map {A B C} (f : B -> C) (g : A -> list B) l : List.map f (flat_map g l) = flat_map (fun x => List.map f (g x)) l.
Proof. induction l; cbn [flat_map List.map]; auto. now rewrite map_app, IHl. Qed.

Lemma add_columns_double s row : add_columns (zlen row) (2 * zlen row) s (row ++ row) = row ++ List.map (fun v => v + s) row.
Proof.
  unfold add_columns. rewrite zlen_app. assert (0 <= zlen row) by apply zlen_nonneg.
  rewrite (zrange_app 0 (zlen row)) by lia.
  rewrite combine_app' by (rewrite zrange_length, Z.sub_0_r; unfold zlen; lia). rewrite map_app. f_equal.
  - transitivity (List.map (fun v : Z => v) row); [|apply map_id]. apply (map_const_on _ (fun v => v) row 0).
    intros p a Hp. replace (zlen row <=? p) with false by lia. reflexivity.
  - apply map_const_on. intros p a Hp. replace (zlen row <=? p) with true by lia. replace (p <? 2 * zlen row) with true by lia. reflexivity.
Qed.

Lemma combine_flat_map {A B C} (f : C -> list A) (g : C -> list B) l :
  (forall c, List.length (f c) = List.length (g c)) -> combine (flat_map f l) (flat_map g l) = flat_map (fun c => combine (f c) (g c)) l.
Proof. intros H. induction l as [|c l IH]; auto. cbn [flat_map]. rewrite combine_app' by auto. now rewrite IH. Qed.

Lemma zlen_flat_map_const {A B} (f : A -> list B) l n : (forall a, In a l -> zlen (f a) = n) -> zlen (flat_map f l) = zlen l * n.
Proof.
  induction l as [|a l IH]; intros H; [reflexivity|]. cbn [flat_map]. rewrite zlen_app, zlen_cons, IH by (intros; apply H; cbn; auto).
  rewrite H by (cbn; auto). lia.
Qed.

(** ** One type *)
Definition xrow (shift i : Z) (row : list Z) : list Z :=
  List.map (fun v => v + i * shift) row ++ List.map (fun v => v + (i + 1) * shift) row.
Definition xed (shift k : Z) (ed : edict) : edict :=
  ED (ILlist (flat_map (fun i => List.map (fun v => v + i * shift) (entries (ed_index ed))) (zrange 0 k)))
     (Mat (option_map (fun w => 2 * w)%nat (m_cols (ed_e2n ed)))
          (flat_map (fun i => List.map (xrow shift i) (m_rows (ed_e2n ed))) (zrange 0 k))).
Definition xtype (t : string) : string := match dget String.eqb t becomes with Some x => x | None => "" end.

Lemma base_type t n : In (t, n) base_types -> dget String.eqb t nnode_elem = Some (Z.of_nat n) /\
  dget String.eqb t extruded_face = Some (xtype t) /\ In (t, xtype t) becomes.
Proof. unfold base_types. cbn [In]. intuition (inv H0 || inv H); subst; cbn; auto 10. Qed.

Lemma xtype_inj t t' n n' : In (t, n) base_types -> In (t', n') base_types -> xtype t = xtype t' -> t = t'.
Proof.
  unfold base_types. cbn [In]. intros H H' E.
  repeat (destruct H as [H|H]; [inv H; repeat (destruct H' as [H'|H']; [inv H'; cbn in E; congruence|]); destruct H'|]). destruct H.
Qed.

Lemma extrude_type_ok k shift n d t ed w : 0 <= k -> In (t, w) base_types -> m_cols (ed_e2n ed) = Some w ->
  ed_wf ed -> il_boxed (ed_index ed) = false -> ~ In (xtype t) (dkeys d) ->
  extrude_type k shift (EC n d) (t, ed) = Ok (EC (n + k * m_nrow (ed_e2n ed)) (d ++ [(xtype t, xed shift k ed)])).
Proof.
  intros Hk HB HC [W1 W2 W3] HP HN. destruct (base_type t w HB) as (B1 & B2 & _).
  unfold extrude_type, dget_err. rewrite HC, B1, B2. cbn [bind m_rows m_cols].
  rewrite il_list_entries by auto. cbn [bind].
  assert (WR : forall r, In r (m_rows (ed_e2n ed)) -> zlen r = Z.of_nat w).
  { intros r Hr. unfold mat_wf in W3. rewrite HC in W3. rewrite Forall_forall in W3. unfold zlen. rewrite (W3 r Hr). reflexivity. }
  assert (R : List.map (add_columns (Z.of_nat w) (2 * Z.of_nat w) shift) (tile k (List.map (fun r => r ++ r) (m_rows (ed_e2n ed)))) =
              tile k (List.map (fun r => r ++ List.map (fun v => v + shift) r) (m_rows (ed_e2n ed)))).
  { rewrite map_tile, map_map. f_equal. apply map_ext_in. intros r Hr. rewrite <- (WR r Hr). apply add_columns_double. }
  rewrite R. unfold m_nrow.
  assert (L1 : zlen (m_rows (ed_e2n ed)) = zlen (List.map (fun r => r ++ List.map (fun v => v + shift) r) (m_rows (ed_e2n ed)))) by (now rewrite zlen_map).
  rewrite L1 at 1. rewrite by_slices_tile by auto.
  assert (L2 : zlen (m_rows (ed_e2n ed)) = zlen (entries (ed_index ed))) by (unfold zlen; lia).
  rewrite L2 at 1. rewrite by_slices_tile by auto.
  unfold ec_add. cbn [ec_dict ec_nelem]. rewrite (proj2 (dget_None _ seqb_eq _ _) HN).
  rewrite (dset_notin _ seqb_eq) by auto. f_equal. f_equal.
  - unfold m_nrow. cbn [m_rows]. f_equal.
    rewrite (zlen_flat_map_const _ _ (zlen (m_rows (ed_e2n ed)))) by (intros; now rewrite !zlen_map).
    rewrite zlen_zrange; lia.
  - f_equal. f_equal. unfold xed. f_equal. rewrite HC. cbn [option_map]. f_equal. f_equal.
    apply flat_map_ext. intros i. rewrite map_map. apply map_ext. intros r. unfold xrow. rewrite map_app, map_map. f_equal.
    apply map_ext. intros v. lia.
Qed.

Lemma xed_wf shift k ed : ed_wf ed -> ed_wf (xed shift k ed).
Proof.
  intros [W1 W2 W3]. constructor; cbn [xed ed_index ed_e2n entries m_rows].
  - discriminate.
  - induction (zrange 0 k); cbn [flat_map]; auto. rewrite !app_length, !map_length. lia.
  - unfold mat_wf in *. cbn [xed ed_e2n m_cols m_rows]. destruct (m_cols (ed_e2n ed)) as [w|]; cbn [option_map].
    + apply Forall_forall. intros r Hr. apply in_flat_map in Hr. destruct Hr as (i & _ & Hr). apply in_map_iff in Hr.
      destruct Hr as (r0 & <- & Hr). rewrite Forall_forall in W3. unfold xrow. rewrite app_length, !map_length, (W3 _ Hr). lia.
    + rewrite W3. induction (zrange 0 k); cbn [flat_map]; auto.
Qed.
Lemma xed_pairs shift k ed : ed_wf ed -> ed_pairs (xed shift k ed) =
  flat_map (fun i => List.map (layer_cell shift i) (ed_pairs ed)) (zrange 0 k).
Proof.
  intros [W1 W2 W3]. unfold ed_pairs. cbn [xed ed_index ed_e2n entries m_rows].
  rewrite combine_flat_map by (intros; rewrite !map_length; auto). apply flat_map_ext. intros i.
  clear. generalize (m_rows (ed_e2n ed)). induction (entries (ed_index ed)) as [|n l IH]; intros [|r rs]; auto.
  cbn [List.map combine]. f_equal. apply IH.
Qed.

(** ** All types *)
Lemma extrude_fold k shift (d : dict string edict) : 0 <= k ->
  forall n acc, NoDup (dkeys d) ->
  (forall t ed, In (t, ed) d -> ed_wf ed /\ il_boxed (ed_index ed) = false /\ exists w, In (t, w) base_types /\ m_cols (ed_e2n ed) = Some w) ->
  (forall t, In t (dkeys d) -> ~ In (xtype t) (dkeys acc)) ->
  foldM (extrude_type k shift) (EC n acc) d =
  Ok (EC (n + k * zsum (List.map (fun kv => m_nrow (ed_e2n (snd kv))) d)) (acc ++ List.map (fun kv => (xtype (fst kv), xed shift k (snd kv))) d)).
Proof.
  intros Hk. induction d as [|[t ed] d IH]; intros n acc ND H HD.
  - cbn [foldM List.map]. rewrite app_nil_r. unfold zsum. cbn. rewrite Z.mul_0_r, Z.add_0_r. reflexivity.
  - destruct (H t ed) as (W & P & w & HB & HC); [cbn; auto|]. cbn [foldM].
    rewrite (extrude_type_ok k shift n acc t ed w); auto. 2:{ apply HD. cbn. auto. }
    cbn [bind]. cbn [dkeys List.map fst] in ND. apply NoDup_cons_iff in ND. destruct ND as [N1 N2].
    rewrite IH; auto.
    + f_equal. f_equal.
      * cbn [List.map snd]. unfold zsum. cbn [fold_right]. lia.
      * cbn [List.map fst snd]. now rewrite <- app_assoc.
    + intros t' ed' Hin. apply H. cbn; auto.
    + intros t' Hin. unfold dkeys. rewrite map_app, in_app_iff. cbn [List.map fst In]. intros [X|[X|[]]].
      * apply (HD t'); cbn; auto.
      * assert (exists ed', In (t', ed') d) as (ed' & Hin').
        { unfold dkeys in Hin. apply in_map_iff in Hin. destruct Hin as ((t0 & ed') & E & Hin). cbn in E. subst. eauto. }
        destruct (H t' ed') as (_ & _ & w' & HB' & _); [cbn; auto|].
        apply N1. rewrite (xtype_inj t t' w w'); auto.
Qed.

Lemma becomes_xtype t x : In (t, x) becomes -> x = xtype t /\ exists w, In (t, w) base_types.
Proof.
  unfold becomes, base_types. intros H.
  repeat (destruct H as [H|H]; [injection H as <- <-; split; [reflexivity|eexists; cbn [In]; eauto 8]|]). destruct H.
Qed.

Theorem extrude_ok c n shift : 2 <= n -> ec_wf c -> ec_plain c -> cells_of base_types c ->
  exists c', ec_extrude c n shift = Ok c' /\ extruded_conn shift n c c'.
Proof.
  intros Hn W P CO. unfold ec_extrude, assertb. replace (1 <? n) with true by lia. cbn [bind].
  assert (H : forall t ed, In (t, ed) (ec_dict c) -> ed_wf ed /\ il_boxed (ed_index ed) = false /\
     exists w, In (t, w) base_types /\ m_cols (ed_e2n ed) = Some w).
  { intros t ed Hin. split; [apply (ecwf_eds _ W t ed Hin)|]. split; [apply (P t ed Hin)|]. apply (CO t ed Hin). }
  unfold ec_empty. rewrite (extrude_fold (n - 1) shift (ec_dict c)); auto; try lia; [|apply (ecwf_keys _ W)].
  eexists. split; [reflexivity|]. rewrite Z.add_0_l. cbn [app].
  set (D := List.map (fun kv => (xtype (fst kv), xed shift (n - 1) (snd kv))) (ec_dict c)).
  assert (SZ : zsum (List.map (fun kv => m_nrow (ed_e2n (snd kv))) (ec_dict c)) = zlen (ec_pairs c)).
  { unfold ec_pairs. clear - H. induction (ec_dict c) as [|[t ed] d IH]; auto. cbn [List.map flat_map snd]. rewrite zlen_app, <- IH.
    - unfold zsum at 1. cbn [fold_right]. f_equal. unfold m_nrow, ed_pairs, zlen. rewrite combine_length.
      destruct (H t ed) as ([W1 W2 W3] & _); [cbn; auto|]. lia.
    - intros; apply H; cbn; auto. }
  constructor.
  - split.
    + constructor.
      * unfold ec_types. cbn [ec_dict]. unfold D. rewrite map_map. cbn [fst].
        rewrite <- (map_map fst xtype). apply NoDup_map_inj_in; [|apply (ecwf_keys _ W)].
        intros a b Ha Hb E. apply in_map_iff in Ha, Hb. destruct Ha as ((a', ea) & <- & Ha), Hb as ((b', eb) & <- & Hb).
        destruct (H _ _ Ha) as (_ & _ & w & HB & _), (H _ _ Hb) as (_ & _ & w' & HB' & _). eapply xtype_inj; eauto.
      * cbn [ec_dict]. intros t ed Hin. apply in_map_iff in Hin. destruct Hin as ((t', ed') & E & Hin). injection E as <- <-.
        apply xed_wf. apply (H _ _ Hin).
      * cbn [ec_nelem]. rewrite SZ. unfold ec_pairs. cbn [ec_dict]. unfold D. clear - H Hn. induction (ec_dict c) as [|[t ed] d IH]; [cbn; lia|].
        cbn [List.map flat_map snd]. rewrite !zlen_app, Z.mul_add_distr_l, IH by (intros; apply H; cbn; auto). f_equal.
        rewrite xed_pairs by (apply (H t ed); cbn; auto).
        rewrite (zlen_flat_map_const _ _ (zlen (ed_pairs ed))) by (intros; now rewrite zlen_map). rewrite zlen_zrange; lia.
    + intros t ed Hin. cbn [ec_dict] in Hin. apply in_map_iff in Hin. destruct Hin as ((t', ed') & E & Hin). now injection E as <- <-.
  - unfold ec_types. cbn [ec_dict]. unfold D. rewrite map_map. cbn [fst]. clear - H.
    induction (ec_dict c) as [|[t ed] d IH]; cbn [List.map fst]; constructor; [|apply IH; intros; apply H; cbn; auto].
    destruct (H t ed) as (_ & _ & w & HB & _); [cbn; auto|]. now apply (base_type t w).
  - intros t x HX. destruct (becomes_xtype t x HX) as (-> & w & HB).
    assert (K := ecwf_keys _ W). unfold ec_types in K. unfold pairs_of_type. cbn [ec_dict]. unfold D. clear - H HB K Hn.
    assert (E : flat_map (fun kv => if String.eqb (xtype t) (fst kv) then ed_pairs (snd kv) else [])
                  (List.map (fun kv : string * edict => (xtype (fst kv), xed shift (n - 1) (snd kv))) (ec_dict c)) =
                flat_map (fun kv => if String.eqb t (fst kv) then layers shift n (ed_pairs (snd kv)) else []) (ec_dict c)).
    { clear K. induction (ec_dict c) as [|[t' ed] d IH]; auto. cbn [List.map flat_map fst snd]. rewrite IH by (intros; apply H; cbn; auto).
      f_equal. destruct (H t' ed) as (We & _ & w' & HB' & _); [cbn; auto|].
      destruct (String.eqb_spec t t') as [->|N].
      - rewrite String.eqb_refl. rewrite xed_pairs by auto. reflexivity.
      - destruct (String.eqb_spec (xtype t) (xtype t')) as [E|]; auto. exfalso. apply N. eapply xtype_inj; eauto. }
    rewrite E. clear E H. 
    assert (NIL : forall d : dict string edict, ~ In t (dkeys d) ->
       flat_map (fun kv => if String.eqb t (fst kv) then layers shift n (ed_pairs (snd kv)) else []) d = [] /\
       flat_map (fun kv => if String.eqb t (fst kv) then ed_pairs (snd kv) else []) d = []).
    { induction d as [|[t' ed] d IH]; intros N; auto. cbn [dkeys List.map fst In] in N. cbn [flat_map fst snd].
      destruct (String.eqb_spec t t') as [->|]; [tauto|]. apply IH. tauto. }
    induction (ec_dict c) as [|[t' ed] d IH].
    + cbn. unfold layers. clear. induction (zrange 0 (n - 1)); auto.
    + cbn [flat_map fst snd]. cbn [List.map fst] in K. apply NoDup_cons_iff in K. destruct K as [K1 K2].
      destruct (String.eqb_spec t t') as [->|].
      * destruct (NIL d K1) as [-> ->]. now rewrite !app_nil_r.
      * apply IH; auto.
  - cbn [ec_dict]. intros x ed Hin. apply in_map_iff in Hin. destruct Hin as ((t', ed') & E & Hin). injection E as <- <-.
    destruct (H _ _ Hin) as (_ & _ & w & HB & HC). exists t', w. split; [now apply (base_type t' w)|]. split; auto.
    unfold xed. cbn. now rewrite HC.
  - cbn [ec_nelem]. rewrite SZ, (ecwf_nelem _ W). reflexivity.
Qed.

(** ** Meshes *)
Lemma foldM_add_boco {F} nrange nnode (bs : dict string (mark F)) : forall nm,
  (forall k b, In (k, b) bs -> nodebased b = true /\ mark_ok b /\ k = mk_name b /\
     exists t, mk_type b = Some t /\ In t available_types) -> 0 <= nrange ->
  NoDup (dkeys bs) -> (forall k, In k (dkeys bs) -> ~ In k (dkeys (me_bocos nm))) ->
  foldM (fun nm '(_, b) => b' <- extrude_mark nrange nnode b ;; Ok (add_boco nm b')) nm bs =
  Ok (with_bocos nm (me_bocos nm ++ List.map (fun kb => (fst kb,
     Mark F (mk_name (snd kb)) (mk_geodim (snd kb)) (mk_type (snd kb))
       (Some (ILlist (all_planes nnode nrange (mk_entries (snd kb))))) None)) bs)).
Proof.
  induction bs as [|[k b] bs IH]; intros nm H HR ND HD.
  - cbn [foldM List.map]. rewrite app_nil_r. unfold with_bocos. now destruct nm.
  - destruct (H k b) as (NB & MO & -> & t & HT & HA); [cbn; auto|].
    assert (EX : extrude_mark nrange nnode b = Ok (Mark F (mk_name b) (mk_geodim b) (mk_type b)
       (Some (ILlist (all_planes nnode nrange (mk_entries b)))) None)).
    { unfold extrude_mark. rewrite NB. cbn [assertb bind]. rewrite HT. cbn [bind].
      assert (existsb (String.eqb t) available_types = true) as ->.
      { apply existsb_exists. exists t. split; auto. apply String.eqb_refl. }
      cbn [assertb bind]. rewrite mark_ok_list by auto. cbn [bind]. rewrite by_slices_tile by auto. reflexivity. }
    cbn [foldM]. rewrite EX. cbn [bind]. cbn [dkeys List.map fst] in ND. apply NoDup_cons_iff in ND. destruct ND as [N1 N2].
    rewrite IH; auto.
    + f_equal. unfold add_boco, with_bocos. cbn [me_ncell me_nnode me_nface me_cell2node me_faces me_nodes me_bocos mk_name].
      f_equal. rewrite (dset_notin _ seqb_eq) by (apply HD; cbn; auto). cbn [List.map fst snd]. now rewrite <- app_assoc.
    + intros k' b' Hin. apply H. cbn; auto.
    + intros k' Hin. unfold add_boco, with_bocos. cbn [me_bocos mk_name].
      rewrite (dset_notin _ seqb_eq) by (apply HD; cbn; auto). unfold dkeys. rewrite map_app, in_app_iff. cbn [List.map fst In].
      intros [X|[X|[]]]; [apply (HD k'); cbn; auto|]. subst. auto.
Qed.

Lemma app_digit (s : string) : (s ++ "0")%string <> (s ++ "1")%string.
Proof. induction s as [|a s IH]; cbn; [discriminate|]. intros E. injection E as E. auto. Qed.

Lemma map_add_NoDup s (l : list Z) : NoDup l -> NoDup (List.map (fun v => v + s) l).
Proof. intros. apply NoDup_map_inj_in; auto. intros a b _ _ E. lia. Qed.

Lemma nth_blocks {A} (f : Z -> list A) w n i v a : (forall k, List.length (f k) = w) -> (i < Z.to_nat n)%nat ->
  nth_error (f (Z.of_nat i)) v = Some a -> nth_error (flat_map f (zrange 0 n)) (i * w + v)%nat = Some a.
Proof.
  intros L Hi E. assert (v < w)%nat by (rewrite <- (L (Z.of_nat i)); apply nth_error_Some; congruence).
  rewrite (zrange_app 0 (Z.of_nat i)) by lia. rewrite flat_map_app.
  assert (LI : List.length (flat_map f (zrange 0 (Z.of_nat i))) = (i * w)%nat).
  { assert (X := zlen_flat_map_const f (zrange 0 (Z.of_nat i)) (Z.of_nat w)). rewrite zlen_zrange in X by lia. unfold zlen in X.
    rewrite Z.sub_0_r in X. specialize (X ltac:(intros; rewrite L; reflexivity)). lia. }
  rewrite nth_error_app2 by lia. rewrite LI. replace (i * w + v - i * w)%nat with v by lia.
  rewrite zrange_cons by lia. cbn [flat_map]. rewrite nth_error_app1; auto. now rewrite L.
Qed.

Lemma nth_combine {A B} (la : list A) (lb : list B) : forall n a b, nth_error la n = Some a -> nth_error lb n = Some b ->
  nth_error (combine la lb) n = Some (a, b).
Proof. revert lb. induction la as [|a0 la IH]; intros [|b0 lb] [|n] a b Ha Hb; try discriminate; cbn in *; [congruence|auto]. Qed.

Lemma set_nd_axes {F} (m : mesh F) k rows m1 : me_nodes m = [] -> set_coords_nd m k rows = (Ok tt, m1) -> dkeys (me_nodes m1) = ["x"; "y"; "z"].
Proof.
  intros E H. unfold set_coords_nd in H. destruct (zlen rows =? me_nnode m); [|discriminate]. cbn [fold_left] in H.
  destruct (column rows k 0) as [a|]; [|discriminate]. destruct (column rows k 1) as [b|]; [|discriminate]. destruct (column rows k 2) as [c|]; [|discriminate].
  injection H as <-. unfold with_nodes. cbn [me_nodes]. rewrite E. reflexivity.
Qed.

Theorem extruded_ok {F} (add mul : F -> F -> F) enum (m : mesh F) c x y z dir planes domain :
  set_enum enum -> 2 <= zlen planes -> coords_ok m x y z ->
  me_cell2node m = Some c -> ec_wf c -> ec_plain c -> cells_of base_types c ->
  (forall k b, In (k, b) (me_bocos m) -> nodebased b = true /\ mark_ok b /\ k = mk_name b /\
     exists t, mk_type b = Some t /\ In t available_types) ->
  NoDup (dkeys (me_bocos m)) -> ~ In (domain ++ "0")%string (dkeys (me_bocos m)) -> ~ In (domain ++ "1")%string (dkeys (me_bocos m)) ->
  exists m', export_extruded add mul enum m dir planes domain = Ok m' /\ extruded_mesh add mul m m' dir planes domain.
Proof.
  intros HE HP (EC & Lx & Ly & Lz) Ec W P CO HM ND H0 H1. unfold export_extruded. destruct dir as [[dx dy] dz].
  unfold assertb at 1. replace (1 <? zlen planes) with true by lia. cbn [bind]. rewrite EC. cbn [bind].
  unfold stacked. rewrite Lx, Ly, Lz, Z.eqb_refl. cbn [andb bind].
  set (pts := combine (combine x y) z). set (nn := me_nnode m).
  assert (LP : zlen pts = nn). { unfold pts, zlen in *. rewrite !combine_length. unfold nn. lia. }
  set (g := fun (i : Z) '(x, y, z) => match nth_error planes (Z.to_nat i) with
              | Some s => (add x (mul s dx), add y (mul s dy), add z (mul s dz)) | None => (x, y, z) end).
  set (N := zlen planes) in *. rewrite <- LP. rewrite by_slices_tile by lia. rewrite LP.
  set (rows := List.map (fun '(x, y, z) => [x; y; z]) (flat_map (fun i => List.map (g i) pts) (zrange 0 N))).
  assert (LR : zlen rows = nn * N).
  { unfold rows. rewrite zlen_map, (zlen_flat_map_const _ _ nn) by (intros; now rewrite zlen_map). rewrite zlen_zrange; lia. }
  destruct (set_nd_ok (new_mesh (me_ncell m * N) (nn * N)) 3 rows) as (m1 & x' & y' & z' & E1 & C1 & S1 & L1 & L2 & L3 & R1); auto.
  { lia. }
  { apply Forall_forall. intros r Hr. unfold rows in Hr. apply in_map_iff in Hr. destruct Hr as (((?, ?), ?) & <- & _). reflexivity. }
  rewrite E1. cbn [bind]. rewrite Ec. cbn [bind].
  destruct (extrude_ok c N nn HP W P CO) as (c' & E2 & XC). rewrite E2. cbn [bind].
  assert (B0 : me_bocos (set_cell2node m1 c') = []) by (cbn; rewrite (sn_bocos _ _ S1); reflexivity).
  rewrite foldM_add_boco; auto; [|lia|rewrite B0; intros ? ? []]. cbn [bind]. rewrite B0. cbn [app].
  set (old := List.map _ (me_bocos m)).
  assert (K : dkeys old = dkeys (me_bocos m)). { unfold old, dkeys. rewrite map_map. reflexivity. }
  eexists. split; [reflexivity|].
  match goal with |- extruded_mesh _ _ _ ?mm _ _ _ => set (m' := mm) end.
  assert (BO : me_bocos m' = old ++ [((domain ++ "0")%string, plane_mark (domain ++ "0") (ec_nodelist enum c));
                 ((domain ++ "1")%string, plane_mark (domain ++ "1") (List.map (fun v => v + (N - 1) * nn) (ec_nodelist enum c)))]).
  { unfold m', add_boco, with_bocos. cbn [me_bocos mk_name plane_mark].
    rewrite (dset_notin _ seqb_eq (domain ++ "0")%string) by (rewrite K; auto).
    rewrite (dset_notin _ seqb_eq). { now rewrite <- app_assoc. }
    unfold dkeys. rewrite map_app, in_app_iff. cbn [List.map fst In]. fold (dkeys old). rewrite K.
    intros [X|[X|[]]]; [auto|]. apply (app_digit domain). auto. }
  assert (NC : me_ncell m' = ec_nelem c') by reflexivity.
  assert (NN : me_nnode m' = me_nnode m1) by reflexivity.
  assert (NO : nodescoord m' = nodescoord m1) by reflexivity.
  assert (AX : dkeys (me_nodes m') = ["x"; "y"; "z"]) by (change (me_nodes m') with (me_nodes m1); eapply set_nd_axes; [|exact E1]; reflexivity).
  assert (NF : me_faces m' = me_faces m1 /\ me_nface m' = me_nface m1) by (split; reflexivity).
  assert (CC : me_cell2node m' = Some c') by reflexivity.
  clearbody m'. destruct (nodelist_ok enum HE c W) as (NL1 & NL2).
  constructor.
  - rewrite NN, (sn_nnode _ _ S1). cbn. fold nn. lia.
  - intros c0 E0. rewrite Ec in E0. injection E0 as <-. rewrite NC, (xc_nelem _ _ _ _ XC). reflexivity.
  - rewrite (proj1 NF), (proj2 NF), (sn_faces _ _ S1), (sn_nface _ _ S1). split; reflexivity.
  - exists c, c'. auto.
  - exact AX.
  - intros x0 y0 z0 (E0 & _). rewrite EC in E0. injection E0 as <- <- <-.
    exists x', y', z'. split. { unfold coords_ok. rewrite NO, NN, C1, (sn_nnode _ _ S1). auto. }
    intros i v s a b d Hs Ha Hb Hd. cbn [fst snd].
    assert (Hp : nth_error pts v = Some (a, b, d)). { unfold pts. apply nth_combine; [apply nth_combine|]; auto. }
    assert (Hi : (i < List.length planes)%nat) by (apply nth_error_Some; congruence).
    assert (HR : nth_error rows (i * Z.to_nat nn + v)%nat = Some [add a (mul s dx); add b (mul s dy); add d (mul s dz)]).
    { unfold rows. rewrite nth_error_map.
      rewrite (nth_blocks _ (Z.to_nat nn) N i v (add a (mul s dx), add b (mul s dy), add d (mul s dz))); auto.
      - intros k. rewrite map_length. unfold zlen in LP. lia.
      - unfold N, zlen. lia.
      - rewrite nth_error_map, Hp. cbn. rewrite Nat2Z.id, Hs. reflexivity. }
    change (me_nnode m) with nn. destruct (R1 _ _ HR) as (-> & -> & ->). cbn. auto.
  - exists old. eexists. eexists. split; [exact BO|]. split; [|split].
    + unfold old. clear - HM. induction (me_bocos m) as [|[k b] bs IH]; cbn [List.map]; constructor.
      * cbn [fst snd mk_name mk_geodim mk_type]. repeat (split; [reflexivity|]).
        eexists. split; [reflexivity|]. split; [discriminate|reflexivity].
      * apply IH. intros; apply HM; cbn; auto.
    + split; [reflexivity|]. split; [reflexivity|]. split; [reflexivity|]. split; [reflexivity|]. split.
      { eexists. split; [reflexivity|]. split; [discriminate|reflexivity]. }
      split; [exact NL1|]. intros c0 E0. rewrite Ec in E0. injection E0 as <-. intros v. rewrite Z.sub_0_r. apply NL2.
    + split; [reflexivity|]. split; [reflexivity|]. split; [reflexivity|]. split; [reflexivity|]. split.
      { eexists. split; [reflexivity|]. split; [discriminate|reflexivity]. }
      unfold mk_entries, plane_mark. cbn [mk_index entries]. split; [now apply map_add_NoDup|].
      intros c0 E0. rewrite Ec in E0. injection E0 as <-. intros v. rewrite in_map_iff. fold N. fold nn. split.
      * intros (u & <- & Hu). apply NL2 in Hu. replace (u + (N - 1) * nn - (N - 1) * nn) with u by lia. exact Hu.
      * intros H. exists (v - (N - 1) * nn). split; [lia|]. apply NL2. exact H.
Qed.
