(** * Meshes of cells converted to IC3 files (C69). *)
From Coq Require Import ZArith List Bool String Lia Permutation.
From Verif Require Import Py PyFacts Conn ConnSpec ConnProofs CsrProofs FaceSpec FaceProofs FaceTable FaceThm Mesh MeshSpec MeshProofs ReindexProofs FaceSetProofs
  SimpleProofs CubeThm CubeMarks CubeReady
  Ic3Bytes Ic3 Ic3HeaderSpec Ic3FileSpec Ic3RoundSpec Ic3MeshProofs Ic3FileThm Ic3FileProps Ic3OkSpec Ic3OkProofs Ic3CubeProofs Ic3BodyProofs ConvSpec.

(** ** Pairs by type *)
Lemma pairs_by_type c : NoDup (ec_types c) -> ec_pairs c = flat_map (pairs_of_type c) (ec_types c).
Proof.
  unfold ec_pairs, pairs_of_type, ec_types. intros N.
  assert (G : forall d0, (forall k e, In (k, e) (ec_dict c) -> flat_map (fun kv => if String.eqb k (fst kv) then ed_pairs (snd kv) else []) (d0 ++ ec_dict c) = ed_pairs e) ->
    flat_map (fun kv => ed_pairs (snd kv)) (ec_dict c) =
    flat_map (fun t => flat_map (fun kv => if String.eqb t (fst kv) then ed_pairs (snd kv) else []) (d0 ++ ec_dict c)) (List.map fst (ec_dict c))).
  { intros d0 H. revert H. generalize (d0 ++ ec_dict c) as D. intros D. induction (ec_dict c) as [| (k, e) d IH]; intros H; [reflexivity |].
    cbn [flat_map List.map fst snd]. rewrite (H k e) by (left; reflexivity). f_equal. apply IH; [now inversion N |]. intros k' e' I. apply H. right. exact I. }
  apply (G []). cbn [app]. clear G. induction (ec_dict c) as [| (k, e) d IH]; intros k' e' I; [destruct I |].
  cbn [List.map fst] in N. apply NoDup_cons_iff in N. destruct N as (N1 & N2).
  assert (Z : forall x, ~ In x (List.map fst d) -> flat_map (fun kv : string * edict => if String.eqb x (fst kv) then ed_pairs (snd kv) else []) d = []).
  { clear. induction d as [| (k, e) d IH]; intros x H; [reflexivity |]. cbn [flat_map fst snd]. destruct (String.eqb x k) eqn:E.
    - apply String.eqb_eq in E. subst. exfalso. apply H. left. reflexivity.
    - apply IH. intros J. apply H. right. exact J. }
  cbn [flat_map fst snd]. destruct I as [I | I].
  - inversion I; subst. rewrite String.eqb_refl, (Z k' N1), app_nil_r. reflexivity.
  - destruct (String.eqb k' k) eqn:E; [| apply (IH N2 k' e' I)]. apply String.eqb_eq in E. subst. exfalso. apply N1. apply in_map_iff. exists (k, e'). auto.
Qed.
Lemma in_type_pairs c p : In p (ec_pairs c) <-> exists t, In t (ec_types c) /\ In p (pairs_of_type c t).
Proof.
  unfold ec_pairs, pairs_of_type, ec_types. rewrite in_flat_map. split.
  - intros ((t, e) & I & J). exists t. split; [apply in_map_iff; exists (t, e); auto |]. apply in_flat_map. exists (t, e). cbn [fst]. rewrite String.eqb_refl. auto.
  - intros (t & _ & J). apply in_flat_map in J. destruct J as (kv & I & J). exists kv. destruct (String.eqb t (fst kv)); [auto | destruct J].
Qed.
Lemma renumbered_pairs {F} num nb (m m' : mesh F) f f' : renumbered num nb m m' f f' -> ec_wf (f_f2n f) ->
  ec_pairs (f_f2n f') = List.map (fun p => (num (fst p), snd p)) (ec_pairs (f_f2n f)).
Proof.
  intros R W. destruct (rn_wf _ _ _ _ _ _ R) as (W' & _). rewrite (pairs_by_type _ (ecwf_keys _ W)), (pairs_by_type _ (ecwf_keys _ W')), (rn_types _ _ _ _ _ _ R).
  induction (ec_types (f_f2n f)) as [| t l IH]; [reflexivity |]. cbn [flat_map]. rewrite map_app, IH. f_equal. apply (rn_pairs _ _ _ _ _ _ R).
Qed.

(** ** Renumbered faces as a table *)
Lemma renumbered_table {F} num nb (m m' : mesh F) f f' mt : renumbered num nb m m' f f' -> ec_wf (f_f2n f) ->
  ec_numbers (f_f2n f) = zrange 0 nb -> 0 <= nb -> f_f2c f = Some (Some mt) -> m_cols mt = Some 2%nat -> zlen (m_rows mt) = nb ->
  exists vs, zlen vs = nb /\ faces_set f' (List.map fst vs) (List.map snd vs) /\
    Permutation vs (combine (List.map snd (ec_pairs (f_f2n f))) (m_rows mt)) /\
    (forall k v, nth_error vs k = Some v -> exists j, (j < Z.to_nat nb)%nat /\ num (Z.of_nat j) = Z.of_nat k /\
       nth_error (List.map snd (ec_pairs (f_f2n f))) j = Some (fst v) /\ nth_error (m_rows mt) j = Some (snd v)).
Proof.
  intros RN W NU NB EF EC LR. set (ps := List.map snd (ec_pairs (f_f2n f))). destruct (rn_f2c _ _ _ _ _ _ RN) as (mt0 & mt' & F1 & F2 & F3 & F4 & F5).
  rewrite EF in F1. injection F1 as <-. destruct (rn_wf _ _ _ _ _ _ RN) as (W' & P').
  assert (LP : List.length ps = Z.to_nat nb).
  { unfold ps. rewrite map_length, <- (map_length fst), (ec_numbers_pairs _ W), NU, zrange_length. lia. }
  assert (LR' : List.length (m_rows mt) = Z.to_nat nb) by (unfold zlen in LR; lia).
  set (L := combine (List.map num (zrange 0 nb)) (combine ps (m_rows mt))).
  assert (LC : List.length (combine ps (m_rows mt)) = Z.to_nat nb) by (rewrite combine_length; lia).
  assert (LZ : List.length (List.map num (zrange 0 nb)) = Z.to_nat nb) by (rewrite map_length, zrange_length; lia).
  destruct (rank_table L nb) as (vs & LV & PV).
  { unfold L. rewrite map_fst_combine by lia. apply (rn_bij _ _ _ _ _ _ RN). }
  assert (LVL : List.length vs = Z.to_nat nb) by (unfold zlen in LV; lia).
  assert (NTH : forall k v, nth_error vs k = Some v -> exists j, (j < Z.to_nat nb)%nat /\ num (Z.of_nat j) = Z.of_nat k /\
       nth_error ps j = Some (fst v) /\ nth_error (m_rows mt) j = Some (snd v)).
  { intros k v K. assert (I : In (Z.of_nat k, v) (ranked vs)).
    { unfold ranked. apply nth_error_In with (n := k). assert (B : (k < List.length vs)%nat) by (apply nth_error_Some; congruence).
      apply combine_nth_ok; [rewrite nth_error_zrange by (unfold zlen; lia); reflexivity | exact K]. }
    apply (Permutation_in _ (Permutation_sym PV)) in I. unfold L in I. apply In_nth_error in I. destruct I as (j & J).
    apply nth_combine in J. destruct J as (J1 & J2). apply nth_combine in J2. destruct J2 as (J2 & J3). cbn [fst snd] in J1, J2, J3.
    assert (JB : (j < Z.to_nat nb)%nat) by (rewrite <- LP; apply nth_error_Some; congruence).
    exists j. split; [exact JB |]. split; [| auto]. rewrite nth_error_map, nth_error_zrange in J1 by lia. cbn in J1. congruence. }
  assert (EMB : m_rows mt' = List.map snd vs).
  { apply nth_ext_error; [rewrite map_length; unfold zlen in F4; lia |]. intros k a K. rewrite nth_error_map in K.
    destruct (nth_error vs k) as [v |] eqn:KV; [| discriminate]. cbn in K. inversion K; subst a. destruct (NTH k v KV) as (j & JB & JN & _ & J4).
    rewrite <- J4. rewrite <- (Nat2Z.id j), <- F5 by lia. rewrite JN, Nat2Z.id. reflexivity. }
  exists vs. split; [lia |]. split; [| split; [| exact NTH]].
  - constructor; [exact W' | | exists mt'; split; [exact F2 |]; split; [congruence |]; split; [exact EMB | rewrite !zlen_map; reflexivity]].
    assert (Q : List.map (fun kv : Z * (list Z * list Z) => (fst kv, fst (snd kv))) (ranked vs) = ranked (List.map fst vs)).
    { unfold ranked. rewrite zlen_map. generalize (zrange 0 (zlen vs)). clear. induction vs as [| v vs IH]; intros [| z l]; try reflexivity. cbn. f_equal. apply IH. }
    rewrite <- Q, <- PV, (renumbered_pairs _ _ _ _ _ _ RN W). unfold L.
    assert (NP := ec_numbers_pairs _ W). rewrite NU in NP. unfold ps in *. clear -NP LR' LP. revert NP LR' LP. generalize (zrange 0 nb) (Z.to_nat nb) (m_rows mt). 
    induction (ec_pairs (f_f2n f)) as [| p l IH]; intros zs n rs NP LR LP; cbn in NP; subst zs; [constructor |].
    destruct rs as [| r rs]; [cbn in *; lia |]. cbn. apply perm_skip. destruct n as [| n]; [discriminate |]. apply (IH (List.map fst l) n rs); [reflexivity | cbn in LR; lia | cbn in LP; lia].
  - assert (Q : List.map snd (ranked vs) = vs) by apply map_snd_ranked.
    rewrite <- Q, <- PV. unfold L. rewrite map_snd_combine by lia. apply Permutation_refl.
Qed.

(** ** Marks *)
Lemma marks_become_lists {F} (m m' : mesh F) b : dget String.eqb "boundary" (me_faces m) = Some b -> bocomarks_set_node_to_face m = (Ok tt, m') ->
  (forall k c, In (k, c) (me_bocos m) -> nodebased c = true) ->
  forall k c, In (k, c) (me_bocos m') -> exists il, mk_index c = Some il /\ list_type il = true.
Proof.
  intros B E N. unfold bocomarks_set_node_to_face in E. rewrite B in E. destruct (ec_tuples (f_f2n b)) as [t | e]; [| discriminate].
  destruct (each_mark _ (me_bocos m)) as (r, bs) eqn:EM. inversion E; subst r m'. cbn [me_bocos with_bocos]. clear E.
  revert bs EM. induction (me_bocos m) as [| (k0, c0) l IH]; intros bs EM; [inversion EM; subst; intros k c [] |].
  cbn [each_mark] in EM. assert (NB := N k0 c0 (or_introl eq_refl)). unfold set_node_to_face in EM at 1. rewrite NB in EM.
  destruct (mark_list c0); [| discriminate]. destruct (each_mark _ l) as (r, bs') eqn:EM'. inversion EM; subst r bs.
  intros k c [I | I].
  - inversion I; subst. cbn [mk_index]. eexists. split; [reflexivity |]. destruct (existsb _ _); reflexivity.
  - apply (IH (fun k c J => N k c (or_intror J)) bs' eq_refl k c I).
Qed.
Lemma contiguous_end (bs : list (mark Z)) : forall s, 0 <= s -> contiguous s bs -> bs <> [] ->
  fold_right Z.max 0 (flat_map (fun b => match mk_index b with Some (ILrange _ hi) => [hi] | _ => [] end) bs) = s + zlen (flat_map mk_entries bs) - 1 /\ s <= s + zlen (flat_map mk_entries bs) - 1.
Proof.
  induction bs as [| b bs IH]; intros s S C NE; [congruence |]. destruct C as (hi & E & L & C). cbn [flat_map]. rewrite E. cbn [app fold_right].
  rewrite zlen_app. assert (ZE : zlen (mk_entries b) = hi - s + 1) by (apply range_entries; [exact E | exact L]). rewrite ZE.
  destruct bs as [| b' bs]; [cbn [flat_map fold_right zlen List.length]; unfold zlen; cbn [List.length]; lia |].
  destruct (IH (hi + 1) ltac:(lia) C) as (Q & Q'); [congruence |]. rewrite Q. lia.
Qed.
Lemma contiguous_app {F} (a b : list (mark F)) : forall s, contiguous s (a ++ b) -> contiguous s a.
Proof. induction a as [| x a IH]; intros s C; [exact I |]. destruct C as (hi & E & L & C). exists hi. split; [exact E |]. split; [exact L | exact (IH _ C)]. Qed.
Lemma marked_list (m : mesh Z) : all_marked m = flat_map mk_entries (List.map snd (me_bocos m)).
Proof. unfold all_marked. induction (me_bocos m) as [| kb l IH]; [reflexivity |]. cbn. f_equal. exact IH. Qed.
Lemma perm_inj (num : Z -> Z) nb i j : Permutation (List.map num (zrange 0 nb)) (zrange 0 nb) -> 0 <= i < nb -> 0 <= j < nb -> num i = num j -> i = j.
Proof.
  intros P Hi Hj E. assert (N : NoDup (List.map num (zrange 0 nb))) by (eapply Permutation_NoDup; [symmetry; exact P | apply NoDup_zrange]).
  assert (A : forall l, NoDup (List.map num l) -> In i l -> In j l -> i = j).
  { induction l as [| x l IH]; intros ND I J; [destruct I |]. cbn in ND. apply NoDup_cons_iff in ND. destruct ND as (N1 & N2).
    destruct I as [-> | I], J as [<- | J]; [reflexivity | | |exact (IH N2 I J)]; exfalso; apply N1; apply in_map_iff; eauto. }
  apply (A (zrange 0 nb)); [exact N | apply in_zrange; lia | apply in_zrange; lia].
Qed.

(** A mark on faces holding the faces whose nodes satisfy [Q]. *)
Definition holds_faces (e : econn) (Q : list Z -> Prop) (b : mark Z) : Prop :=
  forall i, In i (mk_entries b) <-> exists ns, In (i, ns) (ec_pairs e) /\ Q ns.
Record list_mark (e : econn) (Q : list Z -> Prop) (b : mark Z) : Prop := {
  lm_geo : mk_geodim b = Some Gbdface; lm_list : exists il, mk_index b = Some il /\ list_type il = true;
  lm_ok : mark_ok b; lm_nodup : NoDup (mk_entries b); lm_faces : holds_faces e Q b }.

Lemma pair_number e nb i ns : ec_wf e -> ec_numbers e = zrange 0 nb -> In (i, ns) (ec_pairs e) ->
  0 <= i < nb /\ nth_error (List.map snd (ec_pairs e)) (Z.to_nat i) = Some ns.
Proof.
  intros W N I. assert (B : In i (ec_numbers e)) by (rewrite <- (ec_numbers_pairs _ W); apply in_map_iff; exists (i, ns); auto). rewrite N in B. apply in_zrange in B.
  split; [lia |]. apply In_nth_error in I. destruct I as (k & K). assert (X := numbered_pairs e nb k (i, ns) W N K). cbn [fst] in X. subst i. rewrite Nat2Z.id, nth_error_map, K. reflexivity.
Qed.
Lemma number_pair e nb j ns : ec_wf e -> ec_numbers e = zrange 0 nb -> nth_error (List.map snd (ec_pairs e)) j = Some ns -> In (Z.of_nat j, ns) (ec_pairs e).
Proof.
  intros W N H. rewrite nth_error_map in H. destruct (nth_error (ec_pairs e) j) as [(i, ns') |] eqn:K; [| discriminate]. cbn in H. inversion H; subst.
  assert (X := numbered_pairs e nb j (i, ns) W N K). cbn [fst] in X. subst i. eapply nth_error_In. exact K.
Qed.

Lemma subseq_in {A} (a b : list A) x : subsequence a b -> In x a -> In x b.
Proof. induction 1; cbn [In]; intuition. Qed.
Lemma subseq_NoDup {A} (a b : list A) : subsequence a b -> NoDup b -> NoDup a.
Proof.
  induction 1 as [| x a b Hs IH | x a b Hs IH]; intros N; auto; apply NoDup_cons_iff in N; destruct N as (N1 & N2); auto.
  constructor; auto. intros X. apply N1. eapply subseq_in; eauto.
Qed.

(** Every cell has sides. *)
Lemma known_side tbl types t n : in_force tbl types -> In (t, n) types -> exists faces ft efs ef, dget String.eqb t tbl = Some faces /\ In (ft, efs) faces /\ In ef efs.
Proof.
  intros IF T.
  assert (B : match dget String.eqb t tbl with Some faces => existsb (fun '(_, efs) => match efs with [] => false | _ => true end) faces | None => false end = true).
  { destruct IF as [(-> & ->) | (-> & ->)]; cbn [In cgns_types gmsh_types] in T; repeat (destruct T as [T | T]; [injection T as <- <-; reflexivity |]); destruct T. }
  destruct (dget String.eqb t tbl) as [faces |]; [| discriminate]. apply existsb_exists in B. destruct B as ((ft, [| ef efs]) & I1 & I2); [discriminate |].
  exists faces, ft, (ef :: efs), ef. split; [reflexivity |]. split; [exact I1 | left; reflexivity].
Qed.
Lemma known_face tbl types c t ed n : in_force tbl types -> In (t, ed) (ec_dict c) -> In (t, n) types -> exists ft, has_face_type tbl c ft.
Proof.
  intros IF J T. destruct (known_side tbl types t n IF T) as (faces & ft & efs & ef & D & I1 & I2). exists ft, t, ed, faces, efs.
  split; [exact J |]. split; [exact D |]. split; [exact I1 |]. intros ->. destruct I2.
Qed.

(** Face types of linear cells. *)
Lemma linear_faces tbl types c ft : in_force tbl types -> cells_of types c -> ~ In "hexa27"%string (ec_types c) -> has_face_type tbl c ft ->
  In ft ["bar2"; "tri3"; "quad4"]%string.
Proof.
  intros IF C NH (t & ed & faces & efs & I & D & J & NE). destruct (C t ed I) as (n & T & _).
  assert (B : String.eqb t "hexa27" = true \/ match dget String.eqb t tbl with Some faces => forallb (fun '(ft, _) => existsb (String.eqb ft) ["bar2"; "tri3"; "quad4"]%string) faces | None => false end = true).
  { destruct IF as [(-> & ->) | (-> & ->)]; cbn [In cgns_types gmsh_types] in T; repeat (destruct T as [T | T]; [injection T as <- <-; try (right; reflexivity); left; reflexivity |]); destruct T. }
  destruct B as [B | B].
  - apply String.eqb_eq in B. subst t. exfalso. apply NH. unfold ec_types. apply in_map_iff. exists ("hexa27"%string, ed). auto.
  - rewrite D in B. rewrite forallb_forall in B. specialize (B (ft, efs) J). cbn beta iota in B. apply existsb_exists in B. destruct B as (x & X & Q). apply String.eqb_eq in Q. subst. exact X.
Qed.
Lemma nn_face_inj a b : In a ["bar2"; "tri3"; "quad4"]%string -> In b ["bar2"; "tri3"; "quad4"]%string -> nn_face a = nn_face b -> a = b.
Proof. intros [<- | [<- | [<- | []]]] [<- | [<- | [<- | []]]] E; try reflexivity; discriminate E. Qed.
Lemma same_nodes_length a b : same_nodes a b = true -> List.length a = List.length b.
Proof. intros H. apply same_nodes_perm in H. now apply Permutation_length. Qed.

Lemma count_one_type e ft ns : ec_wf e -> (forall t f nodes, t <> ft -> In (f, nodes) (pairs_of_type e t) -> same_nodes ns nodes = false) ->
  List.length (filter (same_nodes ns) (List.map snd (ec_pairs e))) = List.length (filter (fun p => same_nodes ns (snd p)) (pairs_of_type e ft)).
Proof.
  intros W H. rewrite length_filter_map, (pairs_by_type e (ecwf_keys _ W)).
  assert (Z : forall t, t <> ft -> filter (fun p => same_nodes ns (snd p)) (pairs_of_type e t) = []).
  { intros t NE. specialize (H t). induction (pairs_of_type e t) as [| (f, nodes) l IH]; [reflexivity |]. cbn [filter snd]. rewrite (H f nodes NE (or_introl eq_refl)). apply IH.
    intros f' nodes' NE' I. apply (H f' nodes' NE'). right. exact I. }
  destruct (in_dec string_dec ft (ec_types e)) as [I | NI].
  - assert (ND := ecwf_keys _ W). revert I ND. generalize (ec_types e) as ts. induction ts as [| t ts IH]; intros I ND; [destruct I |]. apply NoDup_cons_iff in ND. destruct ND as (N1 & N2).
    cbn [flat_map]. rewrite filter_app, app_length. destruct (string_dec t ft) as [-> | NE].
    + assert (Y : filter (fun p => same_nodes ns (snd p)) (flat_map (pairs_of_type e) ts) = []).
      { clear -Z N1. induction ts as [| t ts IH]; [reflexivity |]. cbn [flat_map]. rewrite filter_app, IH by (intros J; apply N1; right; exact J). rewrite app_nil_r. apply Z. intros ->. apply N1. left. reflexivity. }
      rewrite Y. cbn. lia.
    + rewrite (Z t NE). destruct I as [I | I]; [congruence |]. cbn. apply IH; assumption.
  - assert (Y : filter (fun p => same_nodes ns (snd p)) (flat_map (pairs_of_type e) (ec_types e)) = []).
    { revert NI. generalize (ec_types e) as ts. induction ts as [| t ts IH]; intros NI; [reflexivity |]. cbn [flat_map]. rewrite filter_app, IH by (intros J; apply NI; right; exact J). rewrite app_nil_r. apply Z. intros ->. apply NI. left. reflexivity. }
    rewrite Y. assert (X : pairs_of_type e ft = []); [| rewrite X; reflexivity]. unfold pairs_of_type, ec_types in *.
    clear -NI. induction (ec_dict e) as [| (t, ed) d IH]; [reflexivity |]. cbn [flat_map fst snd List.map] in *. destruct (String.eqb ft t) eqn:Q.
    + apply String.eqb_eq in Q. subst. exfalso. apply NI. left. reflexivity.
    + apply IH. intros J. apply NI. right. exact J.
Qed.

(** Sides of cells: local nodes are in the cell, every cell has a side. *)
Lemma table_nodes tbl types t n faces ft efs ef j : in_force tbl types -> In (t, n) types -> dget String.eqb t tbl = Some faces -> In (ft, efs) faces -> In ef efs -> In j ef -> 0 <= j < Z.of_nat n.
Proof.
  intros IF T D I1 I2 I3.
  assert (B : match dget String.eqb t tbl with Some faces => forallb (fun '(_, efs) => forallb (forallb (fun j => (0 <=? j) && (j <? Z.of_nat n))) efs) faces | None => false end = true).
  { clear D. destruct IF as [(-> & ->) | (-> & ->)]; cbn [In cgns_types gmsh_types] in T; repeat (destruct T as [T | T]; [injection T as <- <-; reflexivity |]); destruct T. }
  rewrite D in B. rewrite forallb_forall in B. specialize (B _ I1). cbn beta iota in B. rewrite forallb_forall in B. specialize (B _ I2). rewrite forallb_forall in B. specialize (B _ I3).
  apply andb_true_iff in B. destruct B as (B1 & B2). apply Z.leb_le in B1. apply Z.ltb_lt in B2. lia.
Qed.
Lemma side_of_cell tbl types c ft s : in_force tbl types -> ec_wf c -> cells_of types c -> In s (ec_sides tbl ft c) ->
  has_face_type tbl c ft /\ exists row, In (snd s, row) (ec_pairs c) /\ forall x, In x (fst s) -> In x row.
Proof.
  intros IF W CO I. unfold ec_sides in I. apply in_flat_map in I. destruct I as ((t, ed) & I0 & I). unfold ed_sides in I. cbn [fst snd] in I.
  destruct (dget String.eqb t tbl) as [faces |] eqn:D; [| destruct I]. apply in_flat_map in I. destruct I as ((ci, row) & IR & I). apply in_flat_map in I. destruct I as ((ft', efs) & I1 & I).
  destruct (String.eqb ft ft') eqn:Q; [| destruct I]. apply String.eqb_eq in Q. subst ft'. apply in_map_iff in I. destruct I as (ef & <- & I2). cbn [fst snd].
  split; [exists t, ed, faces, efs; split; [exact I0 |]; split; [exact D |]; split; [exact I1 |]; intros ->; destruct I2 |].
  exists row. split; [unfold ec_pairs; apply in_flat_map; exists (t, ed); auto |]. intros x X. unfold side_nodes in X. apply in_map_iff in X. destruct X as (j & <- & J). apply in_rev in J.
  destruct (CO t ed I0) as (n & T & EC). assert (B := table_nodes tbl types t n faces ft efs ef j IF T D I1 I2 J).
  assert (MW := edwf_mat _ (ecwf_eds _ W t ed I0)). unfold mat_wf in MW. rewrite EC in MW. rewrite Forall_forall in MW. unfold ed_pairs in IR. apply in_combine_r in IR. specialize (MW _ IR).
  apply nth_In. lia.
Qed.
Lemma cell_side tbl types c i row : in_force tbl types -> cells_of types c -> In (i, row) (ec_pairs c) -> exists ft s, In s (ec_sides tbl ft c) /\ snd s = i.
Proof.
  intros IF CO I. unfold ec_pairs in I. apply in_flat_map in I. destruct I as ((t, ed) & I0 & I). cbn [snd] in I. destruct (CO t ed I0) as (n & T & _).
  destruct (known_side tbl types t n IF T) as (faces & ft & efs & ef & D & I1 & I2). exists ft, (side_nodes row ef, i). split; [| reflexivity].
  unfold ec_sides. apply in_flat_map. exists (t, ed). split; [exact I0 |]. unfold ed_sides. cbn [fst snd]. rewrite D. apply in_flat_map. exists (i, row). split; [exact I |].
  apply in_flat_map. exists (ft, efs). split; [exact I1 |]. rewrite String.eqb_refl. apply in_map_iff. exists ef. auto.
Qed.

Lemma flat_map_nodup_eq {A} (f : A -> list Z) l : forall a b i, NoDup (flat_map f l) -> In a l -> In b l -> In i (f a) -> In i (f b) -> a = b.
Proof.
  induction l as [| x l IH]; intros a b i ND I J K L; [destruct I |]. cbn [flat_map] in ND. apply NoDup_app in ND. destruct ND as (_ & N2 & N3).
  destruct I as [-> | I], J as [-> | J]; [reflexivity | | | eapply IH; eauto].
  - exfalso. apply (N3 i K). apply in_flat_map. eauto.
  - exfalso. apply (N3 i L). apply in_flat_map. eauto.
Qed.

Section Conv.
  Context (tbl : sidetable) (types : list (string * nat)) (enum : list Z -> list Z) (IF : in_force tbl types) (SE : set_enum enum).
  Context (m : mesh Z) (c : econn) (CM : cell_mesh tbl types m c).

  Lemma conv_create : exists fs mb mi, ec_create_faces tbl c = Ok fs /\ faces_spec tbl c fs /\
    fs_bnd_f2c fs = Some mb /\ fs_int_f2c fs = Some mi /\ m_cols mb = Some 2%nat /\ m_cols mi = Some 2%nat /\
    ec_cols nn_face (fs_bnd fs) /\ ec_cols nn_face (fs_int fs) /\ 0 < ec_nelem (fs_bnd fs) /\ 0 < ec_nelem (fs_int fs).
  Proof.
    destruct (faces_returns tbl types c IF (cm_types _ _ _ _ CM) (cm_wf _ _ _ _ CM) (cm_plain _ _ _ _ CM) (cm_manifold _ _ _ _ CM)) as (fs & E).
    { intros ft H. destruct (proj2 (cm_both _ _ _ _ CM ft H)) as (s & I & NO). exists (fst s).
      assert (J : In s (sharing (fst s) (ec_sides tbl ft c))) by (apply filter_In; split; [exact I | apply same_nodes_refl]).
      destruct (sharing (fst s) (ec_sides tbl ft c)) as [| a [| b l]] eqn:Q; [destruct J | | cbn; lia].
      exfalso. apply NO. split; [exact I |]. rewrite Q. destruct J as [-> | []]. reflexivity. }
    assert (S := faces_sound tbl types c fs IF (cm_types _ _ _ _ CM) (cm_wf _ _ _ _ CM) (cm_plain _ _ _ _ CM) E).
    assert (II := create_ii_ok tbl c fs E).
    assert (EX : exists ft, has_face_type tbl c ft).
    { destruct (ec_pairs c) as [| (i0, ns0) l] eqn:Q.
      - exfalso. assert (X := ecwf_nelem _ (cm_wf _ _ _ _ CM)). rewrite Q in X. assert (Y := cm_some _ _ _ _ CM). rewrite X in Y. cbn in Y. lia.
      - assert (J : In (i0, ns0) (ec_pairs c)) by (rewrite Q; left; reflexivity). unfold ec_pairs in J. apply in_flat_map in J. destruct J as ((t, ed) & J & _).
        destruct (cm_types _ _ _ _ CM t ed J) as (n & T & _). exact (known_face tbl types c t ed n IF J T). }
    destruct EX as (ft0 & H0). 
    assert (HB : forall ft, In ft (ec_types (fs_bnd fs)) -> pairs_of_type (fs_bnd fs) ft <> []).
    { intros ft I. apply (fsp_bnd_types _ _ _ S) in I. destruct (cm_both _ _ _ _ CM ft I) as ((s & O1 & O2) & _).
      assert (CV := fsp_cover _ _ _ S ft s O1). rewrite filter_app, app_length in CV. intros Z. rewrite Z in CV. cbn [filter List.length Nat.add] in CV.
      destruct (filter _ _) as [| p l] eqn:Q in CV; [discriminate |]. assert (J : In p (p :: l)) by (left; reflexivity). rewrite <- Q in J. apply filter_In in J. destruct J as (J & SN).
      destruct p as (f, nodes). destruct (fsp_int_face _ _ _ S ft f nodes J) as (c1 & c2 & nodes2 & rest & _ & P).
      assert (EQ : sharing nodes (ec_sides tbl ft c) = sharing (fst s) (ec_sides tbl ft c)).
      { unfold sharing. apply filter_ext. intros x. cbn [snd] in SN. apply same_nodes_perm in SN. rewrite !same_nodes_key. f_equal. apply zsort_perm_iff. symmetry. exact SN. }
      rewrite EQ, O2 in P. apply Permutation_length in P. discriminate. }
    assert (HI : forall ft, In ft (ec_types (fs_int fs)) -> pairs_of_type (fs_int fs) ft <> []).
    { intros ft I. apply (fsp_int_types _ _ _ S) in I. destruct (cm_both _ _ _ _ CM ft I) as (_ & (s & O1 & O2)).
      assert (CV := fsp_cover _ _ _ S ft s O1). rewrite filter_app, app_length in CV. intros Z. rewrite Z in CV. cbn [filter List.length] in CV. rewrite Nat.add_0_r in CV.
      destruct (filter _ _) as [| p l] eqn:Q in CV; [discriminate |]. assert (J : In p (p :: l)) by (left; reflexivity). rewrite <- Q in J. apply filter_In in J. destruct J as (J & SN).
      destruct p as (f, nodes). destruct (fsp_bnd_face _ _ _ S ft f nodes J) as (ci & _ & P).
      assert (EQ : sharing nodes (ec_sides tbl ft c) = sharing (fst s) (ec_sides tbl ft c)).
      { unfold sharing. apply filter_ext. intros x. cbn [snd] in SN. apply same_nodes_perm in SN. rewrite !same_nodes_key. f_equal. apply zsort_perm_iff. symmetry. exact SN. }
      rewrite EQ in P. apply O2. split; [exact O1 |].
      assert (K : In s (sharing (fst s) (ec_sides tbl ft c))) by (apply filter_In; split; [exact O1 | apply same_nodes_refl]).
      rewrite P in K |- *. destruct K as [-> | []]. reflexivity. }
    assert (POS : forall e, ec_wf e -> (forall ft, In ft (ec_types e) -> pairs_of_type e ft <> []) -> In ft0 (ec_types e) -> 0 < ec_nelem e).
    { intros e W N I. rewrite (ecwf_nelem _ W). specialize (N ft0 I). destruct (pairs_of_type e ft0) as [| p l] eqn:Q; [congruence |].
      assert (J : In p (ec_pairs e)) by (apply in_type_pairs; exists ft0; rewrite Q; split; [exact I | left; reflexivity]).
      destruct (ec_pairs e); [destruct J | unfold zlen; cbn; lia]. }
    assert (COLS : forall e, ec_wf e -> (forall ft, In ft (ec_types e) -> pairs_of_type e ft <> []) ->
      (forall ft f nodes, In (f, nodes) (pairs_of_type e ft) -> exists s, In s (ec_sides tbl ft c) /\ Permutation nodes (fst s)) -> ec_cols nn_face e).
    { intros e W N H t ed I. assert (ED := ecwf_eds _ W t ed I). assert (X : In t (ec_types e)) by (unfold ec_types; apply in_map_iff; exists (t, ed); auto).
      specialize (N t X). destruct (pairs_of_type e t) as [| (f, nodes) l] eqn:Q; [congruence |]. destruct (H t f nodes) as (s & J & PM); [rewrite Q; left; reflexivity |].
      assert (LN : List.length nodes = nn_face t) by (rewrite (Permutation_length PM); exact (sides_uniform tbl nn_face c t s (in_force_uniform tbl types IF) J)).
      assert (K : In (f, nodes) (ed_pairs ed)).
      { assert (K : In (f, nodes) (pairs_of_type e t)) by (rewrite Q; left; reflexivity). unfold pairs_of_type in K. apply in_flat_map in K. destruct K as ((t', ed') & K1 & K2).
        cbn [fst snd] in K2. destruct (String.eqb t t') eqn:TE; [| destruct K2]. apply String.eqb_eq in TE. subst t'.
        assert (ed' = ed) as ->; [| exact K2]. assert (ND := ecwf_keys _ W). unfold ec_types in ND.
        apply (in_dget String.eqb String.eqb_eq) in K1; [| exact ND]. apply (in_dget String.eqb String.eqb_eq) in I; [| exact ND]. congruence. }
      unfold ed_pairs in K. apply in_combine_r in K. assert (MW := edwf_mat _ ED). unfold mat_wf in MW. destruct (m_cols (ed_e2n ed)) as [n |]; [| rewrite MW in K; destruct K].
      f_equal. rewrite Forall_forall in MW. rewrite <- (MW nodes K). exact LN. }
    destruct (fsp_bnd_wf _ _ _ S) as (WB & _). destruct (fsp_int_wf _ _ _ S) as (WI & _).
    assert (PB : 0 < ec_nelem (fs_bnd fs)) by (apply POS; [exact WB | exact HB | apply (fsp_bnd_types _ _ _ S); exact H0]).
    assert (PI : 0 < ec_nelem (fs_int fs)) by (apply POS; [exact WI | exact HI | apply (fsp_int_types _ _ _ S); exact H0]).
    assert (LB := fsp_bnd_len _ _ _ S). assert (LI := fsp_int_len _ _ _ S).
    destruct (fs_bnd_f2c fs) as [mb |] eqn:EB; [| cbn in LB; lia]. destruct (fs_int_f2c fs) as [mi |] eqn:EI; [| cbn in LI; lia].
    exists fs, mb, mi. split; [exact E |]. split; [exact S |]. split; [exact EB |]. split; [exact EI |]. split; [apply II |]. split; [apply II |].
    split; [| split; [| split; [exact PB | exact PI]]].
    - apply COLS; [exact WB | exact HB |]. intros ft f nodes I. destruct (fsp_bnd_face _ _ _ S ft f nodes I) as (ci & _ & P). exists (nodes, ci).
      split; [| apply Permutation_refl]. assert (X : In (nodes, ci) (sharing nodes (ec_sides tbl ft c))) by (rewrite P; left; reflexivity). apply filter_In in X. apply X.
    - apply COLS; [exact WI | exact HI |]. intros ft f nodes I. destruct (fsp_int_face _ _ _ S ft f nodes I) as (c1 & c2 & nodes2 & rest & _ & P). exists (nodes, c1).
      split; [| apply Permutation_refl]. assert (X : In (nodes, c1) (sharing nodes (ec_sides tbl ft c))) by (apply (Permutation_in _ (Permutation_sym P)); left; reflexivity).
      apply filter_In in X. apply X.
  Qed.

  (** The mesh as the writer needs it. *)
  Record conv_prepared (m3 : mesh Z) (lb li rb ri : list (list Z)) : Prop := {
    vp_ncell : me_ncell m3 = me_ncell m; vp_nnode : me_nnode m3 = me_nnode m; vp_nodes : me_nodes m3 = me_nodes m;
    vp_nface : me_nface m3 = zlen lb + zlen li; vp_lb : 0 < zlen lb;
    vp_faces : faces_of m3 (lb ++ li) (rb ++ ri); vp_cells : faces_from_cells tbl c lb li rb ri;
    vp_cont : contiguous 0 (List.map snd (me_bocos m3)); vp_all : zlen (all_marked m3) = zlen lb;
    vp_marks : exists zs rest, me_bocos m3 = zs ++ rest /\
      Forall2 (fun kb z => fst z = fst kb /\ mk_name (snd z) = mk_name (snd kb) /\ mk_geodim (snd z) = Some Gbdface /\ mk_type (snd z) = mk_type (snd kb) /\
        mk_perio (snd z) = mk_perio (snd kb) /\ exists lo hi, mk_index (snd z) = Some (ILrange lo hi) /\ 0 <= lo <= hi /\ hi < zlen lb /\
          forall n nodes, nth_error lb n = Some nodes -> (lo <= Z.of_nat n <= hi <-> spanned nodes (snd kb))) (me_bocos m) zs /\
      ((rest = [] /\ forall nodes, In nodes lb -> exists k b, In (k, b) (me_bocos m) /\ spanned nodes b) \/
       (exists nodes lo hi, In nodes lb /\ (forall k b, In (k, b) (me_bocos m) -> ~ spanned nodes b) /\
        rest = [("unmarked"%string, Mark Z "unmarked" (Some Gbdface) (Some "boundary"%string) (Some (ILrange lo hi)) (Some None))] /\ 0 <= lo <= hi /\ hi < zlen lb /\
        forall n nodes, nth_error lb n = Some nodes -> (lo <= Z.of_nat n <= hi <-> forall k b, In (k, b) (me_bocos m) -> ~ spanned nodes b))) }.

  Context (MA : marks_apart tbl m c).

  Lemma conv_marks m1 bnd : me_bocos m1 = me_bocos m -> dget String.eqb "boundary" (me_faces m1) = Some bnd -> ec_wf (f_f2n bnd) -> ec_plain (f_f2n bnd) ->
    NoDup (ec_numbers (f_f2n bnd)) ->
    exists m2, (if existsb (fun '(_, b) => nodebased b) (me_bocos m1) then bocomarks_set_node_to_face m1 else (Ok tt, m1)) = (Ok tt, m2) /\ same_but_bocos m1 m2 /\
      Forall2 (fun kb kb' => fst kb' = fst kb /\ mk_name (snd kb') = mk_name (snd kb) /\ mk_type (snd kb') = mk_type (snd kb) /\ mk_perio (snd kb') = mk_perio (snd kb) /\
        list_mark (f_f2n bnd) (fun ns => spanned ns (snd kb)) (snd kb')) (me_bocos m) (me_bocos m2).
  Proof using CM.
    intros EB FB W P ND. destruct (existsb (fun '(_, b) => nodebased b) (me_bocos m1)) eqn:X.
    - destruct (set_node_to_face_ok m1 bnd FB W P) as (m2 & E & S & F2).
      { intros k b I _. rewrite EB in I. apply (cm_marks _ _ _ _ CM k b I). }
      exists m2. split; [exact E |]. split; [exact S |]. rewrite EB in F2.
      assert (ML := marks_become_lists m1 m2 bnd FB E). 
      assert (NBM : forall k b, In (k, b) (me_bocos m1) -> nodebased b = true) by (intros k b I; rewrite EB in I; apply (cm_marks _ _ _ _ CM k b I)).
      specialize (ML NBM). rewrite EB in NBM. clear -F2 ML NBM ND. induction F2 as [| (k, b) (k', b') l l' H F2 IH]; [constructor |].
      constructor.
      + destruct H as (H1 & _ & H). cbn [fst snd] in *. destruct (H (NBM k b (or_introl eq_refl))) as (A1 & A2 & A3 & A4 & A5 & A6 & A7).
        split; [exact H1 |]. split; [exact A1 |]. split; [exact A2 |]. split; [exact A3 |]. constructor; [exact A4 | apply (ML k' b'); left; reflexivity | exact A5 | | ].
        * exact (subseq_NoDup _ _ A6 ND).
        * intros i. exact (A7 ND i).
      + apply IH; intros; [eapply ML | eapply NBM]; right; eassumption.
    - exists m1. split; [reflexivity |]. split; [constructor; reflexivity |]. rewrite EB in X |- *. 
      destruct (me_bocos m) as [| (k, b) l] eqn:Q; [constructor |]. exfalso. cbn [existsb] in X. 
      assert (Y : nodebased b = true) by (apply (cm_marks _ _ _ _ CM k b); rewrite Q; left; reflexivity). rewrite Y in X. discriminate.
  Qed.

  Lemma share_nodes ft ns ns' : Permutation ns ns' -> sharing ns (ec_sides tbl ft c) = sharing ns' (ec_sides tbl ft c).
  Proof using. intros P. unfold sharing. apply filter_ext. intros x. rewrite !same_nodes_key. f_equal. apply zsort_perm_iff. exact P. Qed.

  (** The faces, whatever their order on the boundary. *)
  Lemma conv_cells fs mb mi (vs : list (list Z * list Z)) : faces_spec tbl c fs -> fs_bnd_f2c fs = Some mb -> fs_int_f2c fs = Some mi ->
    Permutation vs (combine (List.map snd (ec_pairs (fs_bnd fs))) (m_rows mb)) ->
    faces_from_cells tbl c (List.map fst vs) (List.map snd (ec_pairs (fs_int fs))) (List.map snd vs) (m_rows mi).
  Proof using CM IF.
    intros S EB EI PV. destruct (fsp_bnd_wf _ _ _ S) as (WB & _). destruct (fsp_int_wf _ _ _ S) as (WI & _).
    assert (LB := fsp_bnd_len _ _ _ S). assert (LI := fsp_int_len _ _ _ S). rewrite EB in LB. rewrite EI in LI. cbn [ii_rows] in LB, LI.
    assert (LPB : List.length (ec_pairs (fs_bnd fs)) = List.length (m_rows mb)) by (rewrite (ecwf_nelem _ WB) in LB; unfold zlen in LB; lia).
    assert (LPI : List.length (ec_pairs (fs_int fs)) = List.length (m_rows mi)) by (rewrite (ecwf_nelem _ WI) in LI; unfold zlen in LI; lia).
    constructor.
    - assert (H : forall v, In v vs -> exists ft ci, snd v = [ci; -1] /\ sharing (fst v) (ec_sides tbl ft c) = [(fst v, ci)]).
      { intros v I. apply (Permutation_in _ PV) in I. apply In_nth_error in I. destruct I as (j & J). apply nth_combine in J. destruct J as (J1 & J2).
        assert (K := number_pair _ _ _ _ WB (fsp_bnd_numbers _ _ _ S) J1). apply in_type_pairs in K. destruct K as (ft & _ & K).
        destruct (fsp_bnd_face _ _ _ S ft _ _ K) as (ci & R & SH). exists ft, ci. rewrite EB, Nat2Z.id in R. cbn [ii_rows] in R. split; [congruence | exact SH]. }
      clear -H. induction vs as [| v vs IH]; [constructor |]. cbn [List.map]. constructor; [apply (H v); left; reflexivity | apply IH; intros v' I; apply H; right; exact I].
    - apply Forall2_of_nth; [rewrite map_length; exact LPI |]. intros j nodes r J1 J2.
      assert (K := number_pair _ _ _ _ WI (fsp_int_numbers _ _ _ S) J1). apply in_type_pairs in K. destruct K as (ft & _ & K).
      destruct (fsp_int_face _ _ _ S ft _ _ K) as (c1 & c2 & nodes2 & rest & R & SH). rewrite EI, Nat2Z.id in R. cbn [ii_rows] in R.
      exists ft, c1, c2, nodes2. split; [congruence |]. assert (L := cm_manifold _ _ _ _ CM ft nodes). rewrite (Permutation_length SH) in L.
      destruct rest; [exact SH | cbn in L; lia].
    - intros ft s I. rewrite filter_app, app_length.
      assert (PF : Permutation (List.map fst vs) (List.map snd (ec_pairs (fs_bnd fs)))).
      { rewrite PV, map_fst_combine; [apply Permutation_refl | rewrite map_length; exact LPB]. }
      rewrite (Permutation_length (filter_perm _ _ _ PF)).
      assert (U := in_force_uniform tbl types IF). assert (LS := sides_uniform tbl nn_face c ft s U I).
      assert (HT : forall t s', In s' (ec_sides tbl t c) -> has_face_type tbl c t).
      { intros t s' J. unfold ec_sides in J. apply in_flat_map in J. destruct J as ((t0, ed) & J0 & J). unfold ed_sides in J. cbn [fst snd] in J.
        destruct (dget String.eqb t0 tbl) as [faces |] eqn:D; [| destruct J]. apply in_flat_map in J. destruct J as ((ci, row) & _ & J). apply in_flat_map in J. destruct J as ((ft', efs) & J1 & J).
        destruct (String.eqb t ft') eqn:Q; [| destruct J]. apply String.eqb_eq in Q. subst ft'. exists t0, ed, faces, efs. split; [exact J0 |]. split; [exact D |]. split; [exact J1 |]. intros ->. destruct J. }
      assert (LF : forall t, has_face_type tbl c t -> In t ["bar2"; "tri3"; "quad4"]%string) by (intros t H; exact (linear_faces tbl types c t IF (cm_types _ _ _ _ CM) (cm_linear _ _ _ _ CM) H)).
      rewrite !(count_one_type _ ft).
      + rewrite <- app_length, <- filter_app. exact (fsp_cover _ _ _ S ft s I).
      + exact WI.
      + intros t f nodes NE J. destruct (same_nodes (fst s) nodes) eqn:SN; [| reflexivity]. exfalso. apply NE. destruct (fsp_int_face _ _ _ S t f nodes J) as (c1 & c2 & nodes2 & rest & _ & SH).
        assert (K : In (nodes, c1) (ec_sides tbl t c)).
        { assert (X : In (nodes, c1) (sharing nodes (ec_sides tbl t c))) by (apply (Permutation_in _ (Permutation_sym SH)); left; reflexivity). apply filter_In in X. apply X. }
        apply same_nodes_length in SN. rewrite LS in SN. assert (LK := sides_uniform tbl nn_face c t _ U K). cbn [fst] in LK. 
        apply nn_face_inj; [apply LF, (HT t _ K) | apply LF, (HT ft s I) | congruence].
      + exact WB.
      + intros t f nodes NE J. destruct (same_nodes (fst s) nodes) eqn:SN; [| reflexivity]. exfalso. apply NE. destruct (fsp_bnd_face _ _ _ S t f nodes J) as (c1 & _ & SH).
        assert (K : In (nodes, c1) (ec_sides tbl t c)).
        { assert (X : In (nodes, c1) (sharing nodes (ec_sides tbl t c))) by (rewrite SH; left; reflexivity). apply filter_In in X. apply X. }
        apply same_nodes_length in SN. rewrite LS in SN. assert (LK := sides_uniform tbl nn_face c t _ U K). cbn [fst] in LK. 
        apply nn_face_inj; [apply LF, (HT t _ K) | apply LF, (HT ft s I) | congruence].
  Qed.

  Lemma conv_prepare : exists m3 lb li rb ri, prepare_mesh tbl enum m = (Ok tt, m3) /\ conv_prepared m3 lb li rb ri.
  Proof using CM IF SE MA.
    destruct conv_create as (fs & mb & mi & E & S & EB & EI & CB & CI & KB & KI & PB & PI).
    destruct (fsp_bnd_wf _ _ _ S) as (WB & PLB). destruct (fsp_int_wf _ _ _ S) as (WI & PLI).
    assert (NB := fsp_bnd_numbers _ _ _ S). assert (NI := fsp_int_numbers _ _ _ S). assert (LB := fsp_bnd_len _ _ _ S). assert (LI := fsp_int_len _ _ _ S).
    rewrite EB in LB. rewrite EI in LI. cbn [ii_rows] in LB, LI. set (nb := ec_nelem (fs_bnd fs)) in *.
    set (bnd := FaceSet (fs_bnd fs) (Some (fs_bnd_f2c fs))). set (int := FaceSet (fs_int fs) (Some (fs_int_f2c fs))).
    assert (MF : exists m1, make_face_connectivity tbl m = (Ok tt, m1) /\ me_faces m1 = [("internal", int); ("boundary", bnd)]%string /\ me_bocos m1 = me_bocos m /\
       me_ncell m1 = me_ncell m /\ me_nnode m1 = me_nnode m /\ me_nodes m1 = me_nodes m /\ me_nface m1 = nb + ec_nelem (fs_int fs)).
    { unfold make_face_connectivity. rewrite (cm_cells _ _ _ _ CM), E. unfold pop_faces, add_faces. cbn [existsb facetypes String.eqb Ascii.eqb Bool.eqb orb snd].
      unfold with_faces, with_nface. cbn [me_faces me_ncell me_nnode me_nface me_cell2node me_nodes me_bocos].
      rewrite (cm_nofaces _ _ _ _ CM). cbn [dpop dset filter String.eqb Ascii.eqb Bool.eqb]. eexists. split; [reflexivity |].
      cbn [me_faces me_ncell me_nnode me_nface me_cell2node me_nodes me_bocos]. repeat (split; [reflexivity |]).
      unfold total_faces, zsum. cbn [List.map fold_right fold_left f_f2n]. unfold nb. lia. }
    destruct MF as (m1 & E1 & F1 & BC1 & R1 & R2 & R3 & R4).
    assert (FB1 : dget String.eqb "boundary" (me_faces m1) = Some bnd) by (rewrite F1; reflexivity).
    destruct (conv_marks m1 bnd BC1 FB1 WB PLB) as (m2 & E2 & S2 & MK); [cbn [f_f2n bnd]; rewrite NB; apply NoDup_zrange |]. cbn [f_f2n bnd] in MK.
    assert (FB2 : dget String.eqb "boundary" (me_faces m2) = Some bnd) by (rewrite (sb_faces _ _ S2); exact FB1).
    assert (KEYS : dkeys (me_bocos m2) = dkeys (me_bocos m)).
    { clear -MK. unfold dkeys. induction MK as [| kb kb' l l' H F IH]; [reflexivity |]. cbn [List.map]. rewrite IH. f_equal. apply H. }
    assert (FM2 : face_marked m2 bnd).
    { constructor; [exact FB2 | exact WB | exact PLB | rewrite KEYS; apply (cm_keys _ _ _ _ CM) |]. intros k b I.
      destruct (Forall2_in_r _ _ _ _ MK I) as (kb & _ & _ & _ & _ & _ & L). cbn [snd] in L. split; [| apply (lm_ok _ _ _ L)]. unfold on_faces, face_or_bdface. rewrite (lm_geo _ _ _ L). reflexivity. }
    destruct (make_unmarked_ok enum "unmarked" m2 bnd SE FM2) as (missing & m2' & E3 & ND3 & H3 & S3 & FM3 & Z3 & N3).
    cbn [f_f2n bnd] in H3, N3.
    assert (NU : ~ In "unmarked"%string (dkeys (me_bocos m2))).
    { rewrite KEYS. intros I. unfold dkeys in I. apply in_map_iff in I. destruct I as ((k, b) & Q & I). cbn in Q. subst k.
      destruct (nm_key _ _ (cm_marks _ _ _ _ CM _ _ I)) as (_ & _ & X & _). congruence. }
    (* faces and sides *)
    assert (OUT : forall i ns, In (i, ns) (ec_pairs (fs_bnd fs)) -> exists ft s, outer tbl c ft s /\ fst s = ns).
    { intros i ns I. apply in_type_pairs in I. destruct I as (ft & _ & I). destruct (fsp_bnd_face _ _ _ S ft i ns I) as (ci & _ & SH). exists ft, (ns, ci). split; [| reflexivity].
      split; [| exact SH]. assert (X : In (ns, ci) (sharing ns (ec_sides tbl ft c))) by (rewrite SH; left; reflexivity). apply filter_In in X. apply X. }
    assert (INN : forall ft s, outer tbl c ft s -> exists i ns, In (i, ns) (ec_pairs (fs_bnd fs)) /\ Permutation (fst s) ns).
    { intros ft s (O1 & O2). assert (CV := fsp_cover _ _ _ S ft s O1). rewrite filter_app, app_length in CV.
      destruct (filter (fun p => same_nodes (fst s) (snd p)) (pairs_of_type (fs_bnd fs) ft)) as [| p l] eqn:Q.
      - exfalso. cbn [List.length Nat.add] in CV. destruct (filter _ _) as [| p l] eqn:Q' in CV; [discriminate |]. assert (J : In p (p :: l)) by (left; reflexivity). rewrite <- Q' in J.
        apply filter_In in J. destruct J as (J & SN). destruct p as (f, nodes). cbn [snd] in SN. apply same_nodes_perm in SN.
        destruct (fsp_int_face _ _ _ S ft f nodes J) as (c1 & c2 & nodes2 & rest & _ & P). rewrite <- (share_nodes ft _ _ SN), O2 in P. apply Permutation_length in P. discriminate.
      - assert (J : In p (p :: l)) by (left; reflexivity). rewrite <- Q in J. apply filter_In in J. destruct J as (J & SN). destruct p as (f, nodes). exists f, nodes.
        cbn [snd] in SN. split; [| apply same_nodes_perm; exact SN]. apply in_type_pairs. exists ft. split; [| exact J].
        unfold pairs_of_type in J. apply in_flat_map in J. destruct J as ((t, ed) & J1 & J2). cbn [fst snd] in J2. destruct (String.eqb ft t) eqn:TE; [| destruct J2]. apply String.eqb_eq in TE. subst t.
        unfold ec_types. apply in_map_iff. exists (ft, ed). auto. }
    assert (RNG : forall i ns, In (i, ns) (ec_pairs (fs_bnd fs)) -> 0 <= i < nb) by (intros i ns I; apply (pair_number _ _ _ _ WB NB I)).
    assert (UNI : forall i ns ns', In (i, ns) (ec_pairs (fs_bnd fs)) -> In (i, ns') (ec_pairs (fs_bnd fs)) -> ns = ns').
    { intros i ns ns' I J. destruct (pair_number _ _ _ _ WB NB I) as (_ & A). destruct (pair_number _ _ _ _ WB NB J) as (_ & B). congruence. }
    assert (SPP : forall ns ns' b, Permutation ns ns' -> spanned ns b -> spanned ns' b) by (intros ns ns' b P H n I; apply H, (Permutation_in _ (Permutation_sym P) I)).
    (* marks are distinct and not empty *)
    assert (DIS : forall k b k' b' i, In (k, b) (me_bocos m2) -> In (k', b') (me_bocos m2) -> In i (mk_entries b) -> In i (mk_entries b') -> (k, b) = (k', b')).
    { intros k b k' b' i I I' J J'. destruct (Forall2_in_r _ _ _ _ MK I) as ((k0, b0) & I0 & Q1 & _ & _ & _ & L). destruct (Forall2_in_r _ _ _ _ MK I') as ((k0', b0') & I0' & Q1' & _ & _ & _ & L').
      cbn [fst snd] in *. subst k0 k0'. apply (lm_faces _ _ _ L) in J. apply (lm_faces _ _ _ L') in J'. destruct J as (ns & J1 & J2). destruct J' as (ns' & J1' & J2').
      rewrite <- (UNI _ _ _ J1 J1') in J2'. destruct (OUT _ _ J1) as (ft & s & O & Q). subst ns.
      assert (k = k') by (apply (proj2 MA ft s k b0 k' b0' O I0 I0' J2 J2')). subst k'. f_equal.
      assert (ND := fm_keys _ _ FM2). apply (in_dget String.eqb String.eqb_eq) in I; [| exact ND]. apply (in_dget String.eqb String.eqb_eq) in I'; [| exact ND]. congruence. }
    assert (NEM : forall k b, In (k, b) (me_bocos m2) -> mk_entries b <> []).
    { intros k b I. destruct (Forall2_in_r _ _ _ _ MK I) as ((k0, b0) & I0 & Q1 & _ & _ & _ & L). cbn [fst snd] in *. subst k0.
      destruct (proj1 MA k b0 I0) as (ft & s & O & SP). destruct (INN ft s O) as (i & ns & J & P). intros Z.
      assert (X : In i (mk_entries b)) by (apply (lm_faces _ _ _ L); exists ns; split; [exact J | exact (SPP _ _ _ P SP)]). rewrite Z in X. destruct X. }
    assert (NDM : NoDup (all_marked m2)).
    { unfold all_marked. apply NoDup_flat_map.
      - assert (X := fm_keys _ _ FM2). unfold dkeys in X. now apply NoDup_map_inv in X.
      - intros (k, b) I. destruct (Forall2_in_r _ _ _ _ MK I) as (kb & _ & _ & _ & _ & _ & L). apply (lm_nodup _ _ _ L).
      - intros (k, b) (k', b') i I I' J J'. exact (DIS k b k' b' i I I' J J'). }
    assert (MKD : forall i, marked m2 i <-> exists ns k b, In (i, ns) (ec_pairs (fs_bnd fs)) /\ In (k, b) (me_bocos m) /\ spanned ns b).
    { intros i. split.
      - intros (k & b & I & J). destruct (Forall2_in_r _ _ _ _ MK I) as ((k0, b0) & I0 & Q1 & _ & _ & _ & L). cbn [fst snd] in *. apply (lm_faces _ _ _ L) in J. destruct J as (ns & J1 & J2). eauto 8.
      - intros (ns & k & b & J & I & SP). destruct (Forall2_in_l _ _ _ _ MK I) as ((k', b') & I' & Q1 & _ & _ & _ & L). cbn [fst snd] in *. exists k', b'. split; [exact I' |]. apply (lm_faces _ _ _ L). eauto. }
    (* the marks before renumbering *)
    assert (M3 : exists rest, me_bocos m2' = me_bocos m2 ++ rest /\ Permutation (all_marked m2') (zrange 0 nb) /\ (forall k b, In (k, b) (me_bocos m2') -> mk_entries b <> []) /\
       (forall k b, In (k, b) (me_bocos m2') -> exists il, mk_index b = Some il /\ list_type il = true) /\
       ((rest = [] /\ forall i ns, In (i, ns) (ec_pairs (fs_bnd fs)) -> exists k b, In (k, b) (me_bocos m) /\ spanned ns b) \/
        (missing <> [] /\ rest = [("unmarked"%string, unmarked_mark "unmarked" missing)]))).
    { assert (LST : forall k b, In (k, b) (me_bocos m2) -> exists il, mk_index b = Some il /\ list_type il = true).
      { intros k b I. destruct (Forall2_in_r _ _ _ _ MK I) as (kb & _ & _ & _ & _ & _ & L). apply (lm_list _ _ _ L). }
      assert (INM : forall i, In i (all_marked m2) -> 0 <= i < nb).
      { intros i I. apply all_marked_iff, MKD in I. destruct I as (ns & _ & _ & I & _). exact (RNG _ _ I). }
      destruct missing as [| x l] eqn:EM.
      - specialize (Z3 eq_refl). subst m2'. exists []. rewrite app_nil_r. split; [reflexivity |].
        assert (ALL : forall i, 0 <= i < nb -> marked m2 i).
        { intros i B. destruct (in_dec Z.eq_dec i (all_marked m2)) as [Y | Y]; [apply all_marked_iff; exact Y |]. exfalso.
          apply (H3 i). split; [rewrite NB; apply in_zrange; lia |]. intros Q. apply Y, all_marked_iff, Q. }
        split; [| split; [exact NEM | split; [exact LST |]]].
        + apply NoDup_Permutation; [exact NDM | apply NoDup_zrange |]. intros i. rewrite in_zrange. split; [apply INM | intros B; apply all_marked_iff, ALL, B].
        + left. split; [reflexivity |]. intros i ns I. destruct (proj1 (MKD i) (ALL i (RNG _ _ I))) as (ns' & k & b & I' & J & SP). rewrite <- (UNI _ _ _ I I') in SP. eauto.
      - destruct N3 as (NB3 & ALL & _); [discriminate | exact NU |]. exists [("unmarked"%string, unmarked_mark "unmarked" (x :: l))]. split; [exact NB3 |].
        assert (AE : all_marked m2' = all_marked m2 ++ (x :: l)).
        { unfold all_marked. rewrite NB3, flat_map_app. cbn [flat_map snd]. unfold unmarked_mark, mk_entries at 2. cbn [mk_index entries]. rewrite app_nil_r. reflexivity. }
        split; [| split; [| split]].
        + rewrite AE. apply NoDup_Permutation; [| apply NoDup_zrange |].
          * apply NoDup_app. split; [exact NDM |]. split; [exact ND3 |]. intros i I J. apply H3 in J. apply (proj2 J), all_marked_iff, I.
          * intros i. rewrite in_zrange, <- AE. split.
            -- rewrite AE. intros I. apply in_app_or in I. destruct I as [I | I]; [apply INM, I |]. apply H3 in I. destruct I as (I & _). rewrite NB in I. apply in_zrange in I. lia.
            -- intros B. apply all_marked_iff, ALL. rewrite NB. apply in_zrange. lia.
        + intros k b I. rewrite NB3 in I. apply in_app_or in I. destruct I as [I | [I | []]]; [exact (NEM k b I) |]. inversion I; subst. discriminate.
        + intros k b I. rewrite NB3 in I. apply in_app_or in I. destruct I as [I | [I | []]]; [exact (LST k b I) |]. inversion I; subst. eexists. split; reflexivity.
        + right. split; [discriminate | reflexivity]. }
    destruct M3 as (rest & EB3 & PM3 & NE3 & LS3 & RS3).
    assert (EC3 : f_f2c bnd = Some (Some mb)) by (cbn [f_f2c bnd]; rewrite EB; reflexivity).
    destruct (reindex_ok m2' bnd mb FM3 EC3 CB LB NE3 PB) as (num & m3 & bnd' & E4 & RN); [cbn [f_f2n bnd]; rewrite NB; apply Permutation_refl | exact PM3 |]. cbn [f_f2n bnd] in RN. fold nb in RN.
    destruct (renumbered_table num nb m2' m3 bnd bnd' mb RN WB NB ltac:(lia) EC3 CB LB) as (vs & LV & FSB & PV & NTH). cbn [f_f2n bnd] in PV, NTH.
    assert (PREP : prepare_mesh tbl enum m = (Ok tt, m3)).
    { unfold prepare_mesh. rewrite (cm_nofaces _ _ _ _ CM), E1, E2. unfold dmem. rewrite FB2, E3.
      rewrite any_list_true; [exact E4 | | exact LS3]. intros Q. assert (X := zlen_perm _ _ PM3). unfold all_marked in X. rewrite Q in X. cbn [flat_map] in X. rewrite zlen_zrange in X by lia. unfold zlen in X. cbn in X. lia. }
    exists m3, (List.map fst vs), (List.map snd (ec_pairs (fs_int fs))), (List.map snd vs), (m_rows mi). split; [exact PREP |].
    destruct (rn_rest _ _ _ _ _ _ RN) as (Q1 & Q2 & Q3 & Q4 & Q5).
    assert (LIP : zlen (ec_pairs (fs_int fs)) = ec_nelem (fs_int fs)) by (symmetry; apply (ecwf_nelem _ WI)).
    assert (FC3 : forall k, dget String.eqb k (me_faces m2') = dget String.eqb k (me_faces m1)) by (intros k; rewrite (sb_faces _ _ S3), (sb_faces _ _ S2); reflexivity).
    assert (FACES : forall (n : nat) nodes Q E0, (forall i, In i E0 <-> exists ns, In (i, ns) (ec_pairs (fs_bnd fs)) /\ Q ns) -> nth_error (List.map fst vs) n = Some nodes ->
       (In (Z.of_nat n) (List.map num E0) <-> Q nodes)).
    { intros n nodes Q E0 H K. rewrite nth_error_map in K. destruct (nth_error vs n) as [v |] eqn:KV; [| discriminate]. cbn in K. inversion K; subst nodes. clear K.
      destruct (NTH n v KV) as (j & JB & JN & J1 & _). assert (I := number_pair _ _ _ _ WB NB J1). split.
      - intros X. apply in_map_iff in X. destruct X as (i & NQ & X). apply H in X. destruct X as (ns & X1 & X2).
        assert (i = Z.of_nat j) by (apply (perm_inj num nb i (Z.of_nat j) (rn_bij _ _ _ _ _ _ RN)); [exact (RNG _ _ X1) | lia | congruence]). subst i.
        rewrite (UNI _ _ _ I X1). exact X2.
      - intros X. rewrite <- JN. apply in_map. apply H. exists (fst v). auto. }
    assert (CONT := rn_contiguous _ _ _ _ _ _ RN).
    assert (ALLM : Permutation (all_marked m3) (zrange 0 nb)).
    { assert (X : all_marked m3 = List.map num (all_marked m2')).
      { assert (Y := rn_marks _ _ _ _ _ _ RN). unfold all_marked. clear -Y. induction Y as [| kb kb' l l' H F IH]; [reflexivity |]. cbn [flat_map]. rewrite map_app, <- IH. f_equal. apply H. }
      rewrite X, PM3. apply (rn_bij _ _ _ _ _ _ RN). }
    assert (RANGE : forall k b, In (k, b) (me_bocos m3) -> exists lo hi, mk_index b = Some (ILrange lo hi) /\ 0 <= lo <= hi /\ hi < nb /\ mk_entries b = zrange lo (hi + 1)).
    { intros k b I. destruct (contiguous_range (List.map snd (me_bocos m3)) 0 b CONT) as (lo & hi & MI & LH); [apply in_map_iff; exists (k, b); auto |].
      exists lo, hi. split; [exact MI |]. assert (ME : mk_entries b = zrange lo (hi + 1)) by (unfold mk_entries; rewrite MI; reflexivity).
      assert (IN : forall i, lo <= i <= hi -> 0 <= i < nb).
      { intros i B. assert (X : In i (all_marked m3)) by (apply all_marked_iff; exists k, b; split; [exact I | rewrite ME; apply in_zrange; lia]).
        apply (Permutation_in _ ALLM), in_zrange in X. lia. }
      assert (A := IN lo ltac:(lia)). assert (B := IN hi ltac:(lia)). split; [lia |]. split; [lia | exact ME]. }
    constructor.
    - rewrite Q1, (sb_ncell _ _ S3), (sb_ncell _ _ S2). exact R1.
    - rewrite Q2, (sb_nnode _ _ S3), (sb_nnode _ _ S2). exact R2.
    - rewrite Q5, (sb_nodes _ _ S3), (sb_nodes _ _ S2). exact R3.
    - rewrite Q3, (sb_nface _ _ S3), (sb_nface _ _ S2), R4, !zlen_map. lia.
    - rewrite zlen_map. lia.
    - apply (faces_split _ _ _ nn_face bnd' int (List.map fst vs) (List.map snd (ec_pairs (fs_int fs))) (List.map snd vs) (m_rows mi)); auto.
      + rewrite (rn_other _ _ _ _ _ _ RN) by discriminate. rewrite FC3, F1. reflexivity.
      + apply (rn_bnd _ _ _ _ _ _ RN).
      + rewrite (rn_other _ _ _ _ _ _ RN) by discriminate. rewrite FC3, F1. reflexivity.
      + constructor; [exact WI | | exists mi; cbn [f_f2c int]; rewrite EI; split; [reflexivity |]; split; [exact CI |]; split; [reflexivity | rewrite zlen_map; cbn [f_f2n int]; lia]].
        cbn [f_f2n int]. rewrite ranked_of_numbers; [apply Permutation_refl |]. rewrite (ec_numbers_pairs _ WI), NI, LIP. reflexivity.
      + apply (rn_wf _ _ _ _ _ _ RN).
      + intros t ed Hin. assert (X : In (t, ed_e2n ed) (List.map (fun kv => (fst kv, ed_e2n (snd kv))) (ec_dict (f_f2n bnd')))) by (apply in_map_iff; exists (t, ed); auto).
        rewrite (rn_arrays _ _ _ _ _ _ RN) in X. apply in_map_iff in X. destruct X as ((t', ed') & Q & X). injection Q as -> <-. exact (KB t ed' X).
    - exact (conv_cells fs mb mi vs S EB EI PV).
    - exact CONT.
    - rewrite (zlen_perm _ _ ALLM), zlen_zrange, zlen_map by lia. lia.
    - assert (RM := rn_marks _ _ _ _ _ _ RN). rewrite EB3 in RM. apply Forall2_app_inv_l in RM. destruct RM as (zs & rs & RM1 & RM2 & EZ). exists zs, rs. split; [exact EZ |].
      assert (RANGE' : forall k b, In (k, b) (zs ++ rs) -> exists lo hi, mk_index b = Some (ILrange lo hi) /\ 0 <= lo <= hi /\ hi < nb /\ mk_entries b = zrange lo (hi + 1)) by (rewrite <- EZ; exact RANGE).
      split.
      + assert (RZ : forall k b, In (k, b) zs -> exists lo hi, mk_index b = Some (ILrange lo hi) /\ 0 <= lo <= hi /\ hi < nb /\ mk_entries b = zrange lo (hi + 1)) by (intros k b I; apply (RANGE' k b); apply in_or_app; left; exact I).
        assert (LVS : zlen (List.map fst vs) = nb) by (rewrite zlen_map; exact LV).
        clear -MK RM1 RZ FACES LVS. revert zs RM1 RZ. induction MK as [| (k, b) (k', b') l l' H F IH]; intros zs RM RZ; [inversion RM; constructor |].
        inversion RM as [| ? (k2, b2) ? zs' G RM']; subst. constructor.
        * destruct H as (H1 & H2 & H3 & H4 & L). destruct G as (G1 & G2 & G3 & G4 & G5 & G6). cbn [fst snd] in *. split; [congruence |]. split; [congruence |]. split; [rewrite G3; apply (lm_geo _ _ _ L) |].
          split; [congruence |]. split; [congruence |]. destruct (RZ k2 b2 (or_introl eq_refl)) as (lo & hi & MI & B1 & B2 & ME). exists lo, hi. split; [exact MI |]. split; [exact B1 |]. split; [lia |].
          intros n nodes K. rewrite <- (FACES n nodes (fun ns => spanned ns b) (mk_entries b') (lm_faces _ _ _ L) K), <- G6, ME, in_zrange. lia.
        * apply IH; [exact RM' |]. intros k0 b0 I. apply (RZ k0 b0). right. exact I.
      + destruct RS3 as [(-> & ALL) | (NEM' & ->)].
        * left. inversion RM2. split; [reflexivity |]. intros nodes I. apply in_map_iff in I. destruct I as (v & <- & I). apply In_nth_error in I. destruct I as (k & K).
          destruct (NTH k v K) as (j & _ & _ & J & _). exact (ALL _ _ (number_pair _ _ _ _ WB NB J)).
        * right. inversion RM2 as [| ? (k2, b2) ? zs' G RM']; subst. inversion RM'; subst. destruct G as (G1 & G2 & G3 & G4 & G5 & G6). cbn [fst snd unmarked_mark mk_name mk_geodim mk_type mk_perio] in *.
          destruct (RANGE' k2 b2) as (lo & hi & MI & B1 & B2 & ME); [apply in_or_app; right; left; reflexivity |].
          assert (ENT : mk_entries (unmarked_mark (F := Z) "unmarked" missing) = missing) by reflexivity. rewrite ENT in G6. clear ENT.
          assert (HM : forall i, In i missing <-> exists ns, In (i, ns) (ec_pairs (fs_bnd fs)) /\ forall k b, In (k, b) (me_bocos m) -> ~ spanned ns b).
          { intros i. rewrite H3. split.
            - intros (I & NM). rewrite <- (ec_numbers_pairs _ WB) in I. apply in_map_iff in I. destruct I as ((i', ns) & Q & I). cbn in Q. subst i'. exists ns. split; [exact I |].
              intros k b J SP. apply NM. apply MKD. eauto 8.
            - intros (ns & I & NM). split; [rewrite <- (ec_numbers_pairs _ WB); apply in_map_iff; exists (i, ns); auto |]. intros X. apply MKD in X. destruct X as (ns' & k & b & I' & J & SP).
              rewrite <- (UNI _ _ _ I I') in SP. exact (NM k b J SP). }
          assert (KN : forall n nodes, nth_error (List.map fst vs) n = Some nodes -> (lo <= Z.of_nat n <= hi <-> forall k b, In (k, b) (me_bocos m) -> ~ spanned nodes b)).
          { intros n nodes K. rewrite <- (FACES n nodes (fun ns => forall k b, In (k, b) (me_bocos m) -> ~ spanned ns b) missing HM K), <- G6, ME, in_zrange. lia. }
          assert (LN : exists nodes, nth_error (List.map fst vs) (Z.to_nat lo) = Some nodes).
          { destruct (nth_error (List.map fst vs) (Z.to_nat lo)) as [x |] eqn:X; [eauto |]. apply nth_error_None in X. rewrite map_length in X. unfold zlen in LV. lia. }
          destruct LN as (nodes & LN). exists nodes, lo, hi. split; [eapply nth_error_In; exact LN |]. split; [apply (KN _ _ LN); lia |]. split.
          { f_equal. f_equal; [congruence |]. destruct b2 as [n2 g2 t2 i2 p2]. cbn [mk_name mk_geodim mk_type mk_perio mk_index] in *. congruence. }
          split; [exact B1 |]. split; [rewrite zlen_map; lia | exact KN].
  Qed.

  Lemma same_type ft ft' s s' : In s (ec_sides tbl ft c) -> In s' (ec_sides tbl ft' c) -> Permutation (fst s) (fst s') -> ft = ft'.
  Proof using CM IF.
    intros I I' P. assert (U := in_force_uniform tbl types IF). assert (L := sides_uniform tbl nn_face c ft s U I). assert (L' := sides_uniform tbl nn_face c ft' s' U I').
    destruct (side_of_cell tbl types c ft s IF (cm_wf _ _ _ _ CM) (cm_types _ _ _ _ CM) I) as (H & _). destruct (side_of_cell tbl types c ft' s' IF (cm_wf _ _ _ _ CM) (cm_types _ _ _ _ CM) I') as (H' & _).
    apply nn_face_inj; [exact (linear_faces tbl types c ft IF (cm_types _ _ _ _ CM) (cm_linear _ _ _ _ CM) H) | exact (linear_faces tbl types c ft' IF (cm_types _ _ _ _ CM) (cm_linear _ _ _ _ CM) H') |].
    rewrite <- L, <- L'. now apply Permutation_length.
  Qed.
  Lemma side_bounds ft s : In s (ec_sides tbl ft c) -> In (snd s) (ec_numbers c) /\ 1 <= zlen (fst s) <= 4 /\ Forall (fun n => 0 <= n < me_nnode m) (fst s).
  Proof using CM IF.
    intros I. destruct (side_of_cell tbl types c ft s IF (cm_wf _ _ _ _ CM) (cm_types _ _ _ _ CM) I) as (H & row & R1 & R2). split; [| split].
    - rewrite <- (ec_numbers_pairs _ (cm_wf _ _ _ _ CM)). apply in_map_iff. exists (snd s, row). auto.
    - unfold zlen. rewrite (sides_uniform tbl nn_face c ft s (in_force_uniform tbl types IF) I).
      destruct (linear_faces tbl types c ft IF (cm_types _ _ _ _ CM) (cm_linear _ _ _ _ CM) H) as [<- | [<- | [<- | []]]]; cbn; lia.
    - apply Forall_forall. intros n J. exact (cm_nodes _ _ _ _ CM _ _ n R1 (R2 n J)).
  Qed.
  Lemma sharing_in ft nodes s : In s (sharing nodes (ec_sides tbl ft c)) -> In s (ec_sides tbl ft c) /\ Permutation nodes (fst s).
  Proof. intros I. apply filter_In in I. destruct I as (I & E). split; [exact I | apply same_nodes_perm; exact E]. Qed.

  (** The cells and the nodes of the faces are in the mesh. *)
  Lemma conv_numbers lb li rb ri : faces_from_cells tbl c lb li rb ri ->
    Forall (fun r => 1 <= zlen r <= 4 /\ Forall (fun n => 0 <= n < me_nnode m) r) (lb ++ li) /\
    Forall (fun r => List.length r = 2%nat) (rb ++ ri) /\ Forall (fun x => x = -1 \/ In x (ec_numbers c)) (List.concat (rb ++ ri)) /\
    (forall x, In x (ec_numbers c) -> In x (List.concat (rb ++ ri))).
  Proof using CM IF.
    intros FC. 
    assert (B : forall nodes r, In (nodes, r) (combine lb rb) -> exists ft ci, r = [ci; -1] /\ sharing nodes (ec_sides tbl ft c) = [(nodes, ci)]).
    { assert (X := fc_bnd _ _ _ _ _ _ FC). clear -X. induction X as [| n r l l' H F IH]; intros nodes r0 I; [destruct I |]. destruct I as [E | I]; [inversion E; subst; exact H | exact (IH _ _ I)]. }
    assert (I : forall nodes r, In (nodes, r) (combine li ri) -> exists ft c1 c2 nodes2, r = [c1; c2] /\ Permutation (sharing nodes (ec_sides tbl ft c)) [(nodes, c1); (nodes2, c2)]).
    { assert (X := fc_int _ _ _ _ _ _ FC). clear -X. induction X as [| n r l l' H F IH]; intros nodes r0 I; [destruct I |]. destruct I as [E | I]; [inversion E; subst; exact H | exact (IH _ _ I)]. }
    assert (LB := Forall2_length' _ _ _ (fc_bnd _ _ _ _ _ _ FC)). assert (LI := Forall2_length' _ _ _ (fc_int _ _ _ _ _ _ FC)).
    assert (LK : forall (A C : list (list Z)) x, List.length A = List.length C -> In x A -> exists r, In (x, r) (combine A C) /\ In r C).
    { clear. intros A C. revert C. induction A as [| a A IH]; intros [| d C] x L J; try discriminate; [destruct J |]. destruct J as [-> | J]; [exists d; split; left; reflexivity |].
      destruct (IH C x ltac:(cbn in L; lia) J) as (r & R1 & R2). exists r. split; right; assumption. }
    assert (RK : forall (A C : list (list Z)) x, List.length A = List.length C -> In x C -> exists r, In (r, x) (combine A C)).
    { clear. intros A C. revert C. induction A as [| a A IH]; intros [| d C] x L J; try discriminate; [destruct J |]. destruct J as [-> | J]; [exists a; left; reflexivity |].
      destruct (IH C x ltac:(cbn in L; lia) J) as (r & R). exists r. right. assumption. }
    assert (SB : forall nodes ft ci, sharing nodes (ec_sides tbl ft c) = [(nodes, ci)] -> In (nodes, ci) (ec_sides tbl ft c)) by (intros nodes ft ci H; apply (sharing_in ft nodes); rewrite H; left; reflexivity).
    assert (SI : forall nodes ft c1 nodes2 c2, Permutation (sharing nodes (ec_sides tbl ft c)) [(nodes, c1); (nodes2, c2)] -> In (nodes, c1) (ec_sides tbl ft c) /\ In (nodes2, c2) (ec_sides tbl ft c)).
    { intros nodes ft c1 nodes2 c2 H. split; apply (sharing_in ft nodes); apply (Permutation_in _ (Permutation_sym H)); [left | right; left]; reflexivity. }
    assert (ROWS : forall r, In r (rb ++ ri) -> List.length r = 2%nat /\ Forall (fun x => x = -1 \/ In x (ec_numbers c)) r).
    { intros r J. apply in_app_or in J. destruct J as [J | J].
      - destruct (RK lb rb r LB J) as (nodes & K). destruct (B _ _ K) as (ft & ci & -> & SH). destruct (side_bounds ft _ (SB _ _ _ SH)) as (X & _). cbn [snd] in X. split; [reflexivity |]. auto.
      - destruct (RK li ri r LI J) as (nodes & K). destruct (I _ _ K) as (ft & c1 & c2 & nodes2 & -> & SH). destruct (SI _ _ _ _ _ SH) as (S1 & S2).
        destruct (side_bounds ft _ S1) as (X & _). destruct (side_bounds ft _ S2) as (Y & _). cbn [snd] in X, Y. split; [reflexivity |]. auto. }
    split; [| split; [| split]].
    - apply Forall_app. split; apply Forall_forall; intros nodes J.
      + destruct (LK lb rb nodes LB J) as (r & K & _). destruct (B _ _ K) as (ft & ci & _ & SH). apply (side_bounds ft _ (SB _ _ _ SH)).
      + destruct (LK li ri nodes LI J) as (r & K & _). destruct (I _ _ K) as (ft & c1 & c2 & nodes2 & _ & SH). apply (side_bounds ft _ (proj1 (SI _ _ _ _ _ SH))).
    - apply Forall_forall. intros r J. apply (ROWS r J).
    - apply all_concat. apply Forall_forall. intros r J. apply (ROWS r J).
    - intros x X. rewrite <- (ec_numbers_pairs _ (cm_wf _ _ _ _ CM)) in X. apply in_map_iff in X. destruct X as ((i, row) & Q & X). cbn [fst] in Q. subst i.
      destruct (cell_side tbl types c _ row IF (cm_types _ _ _ _ CM) X) as (ft & s & S1 & S2). assert (ON := fc_once _ _ _ _ _ _ FC ft s S1).
      destruct (filter (same_nodes (fst s)) (lb ++ li)) as [| nodes l] eqn:Q; [discriminate |]. assert (J : In nodes (nodes :: l)) by (left; reflexivity). rewrite <- Q in J. apply filter_In in J. destruct J as (J & SN).
      apply same_nodes_perm in SN. rewrite concat_app. apply in_or_app. apply in_app_or in J. destruct J as [J | J]; [left | right].
      + destruct (LK lb rb nodes LB J) as (r & K & KR). destruct (B _ _ K) as (ft' & ci & -> & SH).
        assert (ft = ft') by (apply (same_type ft ft' s (nodes, ci) S1 (SB _ _ _ SH) SN)). subst ft'. 
        assert (Y : In s (sharing nodes (ec_sides tbl ft c))) by (apply filter_In; split; [exact S1 | apply same_nodes_perm; symmetry; exact SN]). rewrite SH in Y. destruct Y as [<- | []]. cbn [snd] in S2.
        apply in_concat. exists [ci; -1]. split; [exact KR | left; exact S2].
      + destruct (LK li ri nodes LI J) as (r & K & KR). destruct (I _ _ K) as (ft' & c1 & c2 & nodes2 & -> & SH).
        assert (ft = ft') by (apply (same_type ft ft' s (nodes, c1) S1 (proj1 (SI _ _ _ _ _ SH)) SN)). subst ft'. 
        assert (Y : In s (sharing nodes (ec_sides tbl ft c))) by (apply filter_In; split; [exact S1 | apply same_nodes_perm; symmetry; exact SN]). apply (Permutation_in _ SH) in Y.
        apply in_concat. exists [c1; c2]. split; [exact KR |]. destruct Y as [<- | [<- | []]]; [left | right; left]; exact S2.
  Qed.

  (** The marks of the prepared mesh are complete. *)
  Lemma conv_mark m3 lb li rb ri k b : conv_prepared m3 lb li rb ri -> In (k, b) (me_bocos m3) ->
    mk_name b = k /\ mk_geodim b = Some Gbdface /\ (exists t, mk_type b = Some t /\ In t known_types) /\
    (exists lo hi, mk_index b = Some (ILrange lo hi) /\ 0 <= lo <= hi /\ hi < zlen lb) /\
    match mk_perio b with Some (Some l) => zlen l <= 16 /\ Forall pattern l | _ => True end /\
    good_name k /\ ~ deof k /\ k <> "internal-domain"%string.
  Proof using CM.
    intros V I. destruct (vp_marks _ _ _ _ _ V) as (zs & rest & E & F2 & R). rewrite E in I. apply in_app_or in I. destruct I as [I | I].
    - destruct (Forall2_in_r _ _ _ _ F2 I) as ((k0, b0) & I0 & H1 & H2 & H3 & H4 & H5 & lo & hi & H6 & H7 & H8 & _). cbn [fst snd] in *. subst k0.
      destruct (cm_marks _ _ _ _ CM k b0 I0) as [_ _ N1 N2 N3 (N4 & N5 & _ & N6)]. split; [congruence |]. split; [exact H3 |]. split; [rewrite H4; exact N2 |]. split; [eauto 6 |].
      split; [rewrite H5; exact N3 |]. auto.
    - destruct R as [(-> & _) | (nodes & lo & hi & _ & _ & -> & L1 & L2 & _)]; [destruct I |]. destruct I as [I | []]. inversion I; subst. cbn [mk_name mk_geodim mk_type mk_index mk_perio].
      split; [reflexivity |]. split; [reflexivity |]. split; [eexists; split; [reflexivity | left; reflexivity] |]. split; [exists lo, hi; auto |]. split; [exact I0 || exact Logic.I |].
      split; [split; [vm_compute; lia | intros x J; repeat (destruct J as [<- | J]; [vm_compute; lia |]); destruct J] |].
      split; [unfold deof; vm_compute; discriminate | discriminate].
  Qed.
  Lemma conv_zone_marks m3 lb li rb ri : conv_prepared m3 lb li rb ri -> zone_marks m3 = me_bocos m3.
  Proof using CM.
    intros V. unfold zone_marks. assert (Q := fun k b => conv_mark _ _ _ _ _ k b V). clear V. induction (me_bocos m3) as [| (k, b) l IH]; [reflexivity |].
    cbn [filter]. destruct (Q k b (or_introl eq_refl)) as (_ & _ & (t & -> & T) & _). assert (X : String.eqb t "internal" = false) by (repeat (destruct T as [<- | T]; [reflexivity |]); destruct T).
    rewrite X. cbn. f_equal. apply IH. intros k' b' I. apply (Q k' b'). right. exact I.
  Qed.
  Lemma conv_keys m3 lb li rb ri : conv_prepared m3 lb li rb ri -> NoDup (List.map fst (me_bocos m3)).
  Proof using CM.
    intros V. destruct (vp_marks _ _ _ _ _ V) as (zs & rest & E & F2 & R). rewrite E, map_app.
    assert (K : List.map fst zs = dkeys (me_bocos m)) by (clear -F2; unfold dkeys; induction F2 as [| kb z l l' H F IH]; [reflexivity |]; cbn [List.map]; rewrite IH; f_equal; apply H).
    rewrite K. destruct R as [(-> & _) | (nodes & lo & hi & _ & _ & -> & _)]; cbn [List.map fst]; [rewrite app_nil_r; apply (cm_keys _ _ _ _ CM) |].
    apply NoDup_app. split; [apply (cm_keys _ _ _ _ CM) |]. split; [repeat constructor; intros [] |]. intros k I [<- | []]. unfold dkeys in I. apply in_map_iff in I. destruct I as ((k, b) & Q & I). cbn in Q. subst k.
    destruct (nm_key _ _ (cm_marks _ _ _ _ CM _ _ I)) as (_ & _ & X & _). congruence.
  Qed.
  Lemma conv_marks_end m3 lb li rb ri : conv_prepared m3 lb li rb ri -> marks_end m3 = zlen lb - 1.
  Proof using CM.
    intros V. unfold marks_end. rewrite (conv_zone_marks _ _ _ _ _ V). assert (A := vp_all _ _ _ _ _ V). assert (P := vp_lb _ _ _ _ _ V).
    assert (Q : flat_map (fun '((_, b) : string * mark Z) => match mk_index b with Some (ILrange _ hi) => [hi] | _ => [] end) (me_bocos m3) =
                flat_map (fun b : mark Z => match mk_index b with Some (ILrange _ hi) => [hi] | _ => [] end) (List.map snd (me_bocos m3))).
    { rewrite !flat_map_concat_map, map_map. f_equal. apply map_ext. intros (k, b). reflexivity. }
    rewrite Q. destruct (contiguous_end (List.map snd (me_bocos m3)) 0 ltac:(lia) (vp_cont _ _ _ _ _ V)) as (E & _).
    { intros Z. apply map_eq_nil in Z. unfold all_marked in A. rewrite Z in A. unfold zlen in A, P. cbn in A. lia. }
    rewrite E. unfold all_marked in A. rewrite flat_map_concat_map, map_map, <- flat_map_concat_map, A. lia.
  Qed.

  Lemma conv_storable f2i v m3 lb li rb ri : conv_prepared m3 lb li rb ri -> me_nnode m < 2 ^ 31 -> me_ncell m < 2 ^ 31 -> zlen lb + zlen li < 2 ^ 31 ->
    storable f2i v (FM m3 (FDict []) (FDict []) [] None) (lb ++ li) (rb ++ ri).
  Proof using CM IF.
    intros V BN BC BF. destruct (conv_numbers _ _ _ _ (vp_cells _ _ _ _ _ V)) as (NODES & RR & RC & RE).
    assert (LB := vp_lb _ _ _ _ _ V). assert (LP : 0 <= zlen li) by (unfold zlen; lia). assert (LT : zlen (lb ++ li) = zlen lb + zlen li) by apply zlen_app.
    assert (ZM := conv_zone_marks _ _ _ _ _ V). assert (NC := cm_ncell _ _ _ _ CM). assert (NS := cm_some _ _ _ _ CM).
    assert (CT : cell_total v (FM m3 (FDict []) (FDict []) [] None) = me_ncell m).
    { unfold cell_total. cbn [fm_mesh fm_cells data_ndof]. rewrite (vp_ncell _ _ _ _ _ V). destruct v; lia. }
    assert (NN : 1 <= me_nnode m).
    { destruct (lb ++ li) as [| r l] eqn:Q; [unfold zlen in LT; cbn in LT; unfold zlen in *; lia |]. inversion NODES as [| ? ? (L & A) F]; subst. destruct r as [| n r]; [unfold zlen in L; cbn in L; lia |].
      inversion A; subst. lia. }
    destruct (cm_coords _ _ _ _ CM) as (x & y & z & CO1 & CO2 & CO3 & CO4).
    constructor; cbn [fm_mesh fm_cells fm_nodes fm_params fm_part fd_items param].
    - constructor; cbn [fm_mesh fm_cells fm_nodes fm_params fm_part fd_items]; rewrite ?(vp_ncell _ _ _ _ _ V), ?(vp_nnode _ _ _ _ _ V), ?LT; try assumption; try lia.
      + rewrite (vp_nface _ _ _ _ _ V). reflexivity.
      + apply (vp_faces _ _ _ _ _ V).
      + eapply Forall_impl; [| exact NODES]. cbn beta. intros r (Q & _). exact Q.
      + intros k b lo hi I MI. rewrite ZM in I. destruct (conv_mark _ _ _ _ _ k b V I) as (_ & _ & _ & (lo' & hi' & MI' & B1 & B2) & _). rewrite MI in MI'. injection MI' as <- <-. lia.
      + unfold mesh_names. cbn [fm_mesh fm_cells fm_nodes fm_params fd_items]. rewrite ZM. cbn [param dget wgt_names List.map app]. rewrite app_nil_r. apply Forall_forall. intros k I. apply in_map_iff in I. destruct I as ((k', b) & Q & I). cbn in Q. subst k'.
        destruct (conv_mark _ _ _ _ _ k b V I) as (_ & _ & _ & _ & _ & G & D & _). auto.
      + rewrite ZM. split; [exact (conv_keys _ _ _ _ _ V) |]. split; constructor.
      + rewrite ZM. intros I. apply in_map_iff in I. destruct I as ((k', b) & Q & I). cbn in Q. subst k'. destruct (conv_mark _ _ _ _ _ _ b V I) as (_ & _ & _ & _ & _ & _ & _ & N). congruence.
      + cbn. lia.
    - unfold fmesh_typed. cbn [fm_mesh fm_cells fm_nodes fm_params fd_items].
      rewrite (vp_ncell _ _ _ _ _ V), (vp_nface _ _ _ _ _ V), (vp_nodes _ _ _ _ _ V).
      split; [lia |]. split; [lia |]. split; [apply (cm_patterns _ _ _ _ CM) |]. split; [| split; [constructor | split; [constructor | split; [constructor | exact I]]]].
      apply Forall_forall. intros (k, b) J. destruct (conv_mark _ _ _ _ _ k b V J) as (_ & _ & _ & _ & P & _). unfold mark_typed. destruct (mk_perio b) as [[l |] |]; [apply P | exact I | exact I].
    - exists x, y, z. unfold nodescoord in *. rewrite (vp_nodes _ _ _ _ _ V), (vp_nnode _ _ _ _ _ V). auto.
    - rewrite (vp_ncell _ _ _ _ _ V), (vp_nnode _ _ _ _ _ V), LT, CT. split; [exact BN |]. split; [exact BF |]. split; [exact BC |].
      eapply Z.lt_trans; [exact BC | vm_compute; reflexivity].
    - apply all_concat. eapply Forall_impl; [| exact NODES]. cbn beta. intros r (_ & Q). eapply Forall_impl; [| exact Q]. cbn beta. intros n B. unfold int32. lia.
    - eapply Forall_impl; [| exact RC]. cbn beta. intros n [-> | B]; [split; vm_compute; congruence |]. assert (Q := cm_numbers _ _ _ _ CM). rewrite Forall_forall in Q. specialize (Q n B). unfold int32. lia.
    - intros k b J. rewrite ZM in J. destruct (conv_mark _ _ _ _ _ k b V J) as (M1 & M2 & M3 & (lo & hi & MI & B1 & B2) & M4 & _).
      split; [exact M1 |]. split; [left; exact M2 |]. split; [exact M3 |]. split; [exists lo, hi; split; [exact MI | unfold int64; lia] |].
      destruct (mk_perio b) as [[l |] |]; [apply M4 | exact I | exact I].
    - exact I.
    - exists 0. split; [reflexivity | split; vm_compute; congruence].
    - exists (NInt 0). reflexivity.
    - exists (NInt 0). reflexivity.
    - exists []. reflexivity.
    - constructor.
    - constructor.
    - right. reflexivity.
  Qed.
  Lemma conv_top m3 lb li rb ri k : conv_prepared m3 lb li rb ri -> ends_at c k -> py_max (List.concat (rb ++ ri)) = Ok k.
  Proof using CM IF.
    intros V (E1 & E2). destruct (conv_numbers _ _ _ _ (vp_cells _ _ _ _ _ V)) as (_ & _ & RC & RE). apply py_max_ok. split; [apply RE; exact E1 |].
    intros y Y. rewrite Forall_forall in RC. destruct (RC y Y) as [-> | Q]; [| apply E2; exact Q].
    assert (Z := cm_numbers _ _ _ _ CM). rewrite Forall_forall in Z. specialize (Z k E1). lia.
  Qed.

  Lemma conv_zones m3 lb li rb ri : conv_prepared m3 lb li rb ri ->
    zones_from_marks m lb li (List.map zone_back (zone_marks m3) ++
     [("internal-domain"%string, Mark Z "internal-domain" (Some Gintface) (Some "internal"%string)
         (Some (ILrange (marks_end m3 + 1) (zlen (lb ++ li) - 1))) (Some (Some (repeat 0 16))))]).
  Proof using CM.
    intros V. rewrite (conv_zone_marks _ _ _ _ _ V), (conv_marks_end _ _ _ _ _ V), zlen_app. destruct (vp_marks _ _ _ _ _ V) as (zs & rest & E & F2 & R).
    exists (List.map zone_back zs), (List.map zone_back rest). rewrite E, map_app, <- app_assoc. split; [do 2 f_equal; repeat f_equal; lia |]. split; [| split].
    - assert (NM : forall k b, In (k, b) (me_bocos m) -> mk_name b = k) by (intros k b I; apply (cm_marks _ _ _ _ CM k b I)).
      clear -F2 NM. induction F2 as [| (k, b) (k', b') l l' H F IH]; [constructor |]. cbn [List.map]. constructor; [| apply IH; intros; apply NM; right; assumption].
      destruct H as (H1 & H2 & H3 & H4 & H5 & lo & hi & H6 & H7 & H8 & H9). cbn [fst snd] in *. exists lo, hi. split; [| auto].
      unfold zone_back, perio_back. cbn [fst snd]. rewrite H1, H4, H5, H6. reflexivity.
    - intros ALL. destruct R as [(-> & _) | (nodes & lo & hi & I & N & _)]; [reflexivity |]. destruct (ALL nodes I) as (k & b & IB & SP). destruct (N k b IB SP).
    - intros (nodes & I & N). destruct R as [(_ & ALL) | (nodes' & lo & hi & _ & _ & -> & L1 & L2 & K)].
      + destruct (ALL nodes I) as (k & b & IB & SP). destruct (N k b IB SP).
      + eexists. split; [reflexivity |]. exists lo, hi. split; [reflexivity | auto].
  Qed.

  Lemma conv_face_count m3 lb li rb ri : conv_prepared m3 lb li rb ri -> all_sides tbl c < 2 ^ 31 -> zlen lb + zlen li < 2 ^ 31.
  Proof using CM IF.
    intros V BS. destruct (vp_cells _ _ _ _ _ V) as [FB FI ON].
      assert (SD : forall nodes, In nodes (lb ++ li) -> exists ft ci, In (nodes, ci) (ec_sides tbl ft c)).
      { intros nodes I. apply in_app_or in I. destruct I as [I | I].
        - destruct (Forall2_in_l _ _ _ _ FB I) as (r & _ & ft & ci & _ & SH). exists ft, ci. apply (sharing_in ft nodes). rewrite SH. left. reflexivity.
        - destruct (Forall2_in_l _ _ _ _ FI I) as (r & _ & ft & c1 & c2 & n2 & _ & SH). exists ft, c1. apply (sharing_in ft nodes). apply (Permutation_in _ (Permutation_sym SH)). left. reflexivity. }
      assert (ND : NoDup (lb ++ li)).
      { apply (NoDup_count_occ (list_eq_dec Z.eq_dec)). intros nodes. destruct (in_dec (list_eq_dec Z.eq_dec) nodes (lb ++ li)) as [I | NI]; [| rewrite (proj1 (count_occ_not_In _ _ _) NI); lia].
        destruct (SD nodes I) as (ft & ci & J). specialize (ON ft _ J). cbn [fst] in ON. rewrite <- ON. clear. induction (lb ++ li) as [| x l IH]; [reflexivity |]. cbn [count_occ filter].
        destruct (list_eq_dec Z.eq_dec x nodes) as [-> | NE]; [rewrite same_nodes_refl; cbn [List.length]; lia |]. destruct (same_nodes nodes x); cbn [List.length]; lia. }
      assert (INC : incl (lb ++ li) (List.map fst (flat_map (fun ft => ec_sides tbl ft c) ["bar2"; "tri3"; "quad4"]%string))).
      { intros nodes I. destruct (SD nodes I) as (ft & ci & J). apply in_map_iff. exists (nodes, ci). split; [reflexivity |]. apply in_flat_map. exists ft. split; [| exact J].
        destruct (side_of_cell tbl types c ft _ IF (cm_wf _ _ _ _ CM) (cm_types _ _ _ _ CM) J) as (H & _). exact (linear_faces tbl types c ft IF (cm_types _ _ _ _ CM) (cm_linear _ _ _ _ CM) H). }
      assert (L := NoDup_incl_length ND INC). rewrite map_length in L. rewrite <- zlen_app. eapply Z.le_lt_trans; [| exact BS]. exact (proj1 (Nat2Z.inj_le _ _) L).
  Qed.

  (** Written whatever the largest cell number; read if it is [ncell - 1]. *)
  Lemma conv_both i2d f2i host v endian o k : (forall n, pattern (i2d n)) -> order_of host endian = Ok o -> me_nnode m < 2 ^ 31 -> me_ncell m < 2 ^ 31 ->
    all_sides tbl c < 2 ^ 31 -> ends_at c k ->
    exists f m3 lb li rb ri, write_mesh tbl enum i2d f2i host v endian (FM m (FDict []) (FDict []) [] None) = (Ok f, FM m3 (FDict []) (FDict []) [] None) /\
      conv_prepared m3 lb li rb ri /\ storable f2i v (FM m3 (FDict []) (FDict []) [] None) (lb ++ li) (rb ++ ri) /\
      (k <> me_ncell m - 1 -> forall integrity, read_mesh integrity f = Err AssertionError).
  Proof using CM IF SE MA.
    intros PI OO BN BC BS TOP. destruct conv_prepare as (m3 & lb & li & rb & ri & PM & V).
    assert (BF := conv_face_count m3 lb li rb ri V BS).
    assert (WR := conv_storable f2i v m3 lb li rb ri V BN BC BF).
    destruct (mesh_written i2d f2i tbl enum host v endian o (FM m (FDict []) (FDict []) [] None) m3 _ _ OO PM WR) as (f & EW).
    cbn [fm_cells fm_nodes fm_params fm_part] in EW.
    exists f, m3, lb, li, rb, ri. split; [exact EW |]. split; [exact V |]. split; [exact WR |].
    intros NE integrity. destruct (write_mesh_data _ _ _ _ _ _ _ _ _ _ EW) as (o' & w & _ & W & WD).
    apply (refused_read i2d f2i v o' _ _ _ w f k PI (wr_typed _ _ _ _ _ WR) (wr_layout _ _ _ _ _ WR) (or_introl eq_refl) W WD (conv_top _ _ _ _ _ k V TOP)).
    cbn [fm_mesh]. rewrite (vp_ncell _ _ _ _ _ V). exact NE.
  Qed.

  Theorem conv_file i2d f2i host v endian o : (forall n, pattern (i2d n)) -> order_of host endian = Ok o -> me_nnode m < 2 ^ 31 -> me_ncell m < 2 ^ 31 ->
    all_sides tbl c < 2 ^ 31 -> ends_at c (me_ncell m - 1) ->
    exists f fm' fm2 lb li rb ri, write_mesh tbl enum i2d f2i host v endian (FM m (FDict []) (FDict []) [] None) = (Ok f, fm') /\
      (forall integrity, read_mesh integrity f = Ok fm2) /\ faces_from_cells tbl c lb li rb ri /\ converted tbl m c lb li rb ri fm2.
  Proof using CM IF SE MA.
    intros PI OO BN BC BS TOP.
    destruct (conv_both i2d f2i host v endian o _ PI OO BN BC BS TOP) as (f & m3 & lb & li & rb & ri & EW & V & WR & _).
    assert (FMH : file_mesh v (FM m3 (FDict []) (FDict []) [] None) (lb ++ li) (rb ++ ri)).
    { constructor; [apply WR | |]; cbn [fm_mesh]; rewrite (vp_ncell _ _ _ _ _ V); assert (Q := conv_top _ _ _ _ _ _ V TOP); apply py_max_ok in Q; [apply Q |].
      apply Forall_forall. apply Q. }
    destruct (C34_round_trip i2d f2i PI tbl enum host v endian _ f _ _ _ EW (wr_typed _ _ _ _ _ WR) FMH) as (fm2 & RD & RA); [left; reflexivity |].
    exists f, (FM m3 (FDict []) (FDict []) [] None), fm2, lb, li, rb, ri. split; [exact EW |]. split; [exact RD |]. split; [apply (vp_cells _ _ _ _ _ V) |].
    constructor.
    - rewrite (ra_ncell _ _ _ _ _ _ _ RA). apply (vp_ncell _ _ _ _ _ V).
    - rewrite (ra_nnode _ _ _ _ _ _ _ RA). apply (vp_nnode _ _ _ _ _ V).
    - rewrite (ra_nface _ _ _ _ _ _ _ RA). apply (vp_nface _ _ _ _ _ V).
    - rewrite (ra_coords _ _ _ _ _ _ _ RA). cbn [fm_mesh]. unfold nodescoord. rewrite (vp_nodes _ _ _ _ _ V). reflexivity.
    - apply (ra_faces _ _ _ _ _ _ _ RA).
    - rewrite (ra_marks _ _ _ _ _ _ _ RA). exact (conv_zones _ _ _ _ _ V).
    - split.
      + destruct (fd_items (fm_cells fm2)) as [| (k, a) l] eqn:Q; [reflexivity |]. destruct (ra_cell_names _ _ _ _ _ _ _ RA k); rewrite Q; left; reflexivity.
      + destruct (fd_items (fm_nodes fm2)) as [| (k, a) l] eqn:Q; [reflexivity |]. destruct (ra_node_names _ _ _ _ _ _ _ RA k); rewrite Q; left; reflexivity.
  Qed.

  (** Marks that span no face, or the same face: refused. *)
  Lemma conv_unprepared :
    (exists k b, In (k, b) (me_bocos m) /\ forall ft s, outer tbl c ft s -> ~ spanned (fst s) b) \/
    (exists ft s k b k' b', outer tbl c ft s /\ In (k, b) (me_bocos m) /\ In (k', b') (me_bocos m) /\ k <> k' /\ spanned (fst s) b /\ spanned (fst s) b') ->
    exists e m', prepare_mesh tbl enum m = (Err e, m').
  Proof using CM IF SE.
    intros BAD.
    destruct conv_create as (fs & mb & mi & E & S & EB & EI & CB & CI & KB & KI & PB & PI).
    destruct (fsp_bnd_wf _ _ _ S) as (WB & PLB). destruct (fsp_int_wf _ _ _ S) as (WI & PLI).
    assert (NB := fsp_bnd_numbers _ _ _ S). assert (NI := fsp_int_numbers _ _ _ S). assert (LB := fsp_bnd_len _ _ _ S). assert (LI := fsp_int_len _ _ _ S).
    rewrite EB in LB. rewrite EI in LI. cbn [ii_rows] in LB, LI. set (nb := ec_nelem (fs_bnd fs)) in *.
    set (bnd := FaceSet (fs_bnd fs) (Some (fs_bnd_f2c fs))). set (int := FaceSet (fs_int fs) (Some (fs_int_f2c fs))).
    assert (MF : exists m1, make_face_connectivity tbl m = (Ok tt, m1) /\ me_faces m1 = [("internal", int); ("boundary", bnd)]%string /\ me_bocos m1 = me_bocos m /\
       me_ncell m1 = me_ncell m /\ me_nnode m1 = me_nnode m /\ me_nodes m1 = me_nodes m /\ me_nface m1 = nb + ec_nelem (fs_int fs)).
    { unfold make_face_connectivity. rewrite (cm_cells _ _ _ _ CM), E. unfold pop_faces, add_faces. cbn [existsb facetypes String.eqb Ascii.eqb Bool.eqb orb snd].
      unfold with_faces, with_nface. cbn [me_faces me_ncell me_nnode me_nface me_cell2node me_nodes me_bocos].
      rewrite (cm_nofaces _ _ _ _ CM). cbn [dpop dset filter String.eqb Ascii.eqb Bool.eqb]. eexists. split; [reflexivity |].
      cbn [me_faces me_ncell me_nnode me_nface me_cell2node me_nodes me_bocos]. repeat (split; [reflexivity |]).
      unfold total_faces, zsum. cbn [List.map fold_right fold_left f_f2n]. unfold nb. lia. }
    destruct MF as (m1 & E1 & F1 & BC1 & R1 & R2 & R3 & R4).
    assert (FB1 : dget String.eqb "boundary" (me_faces m1) = Some bnd) by (rewrite F1; reflexivity).
    destruct (conv_marks m1 bnd BC1 FB1 WB PLB) as (m2 & E2 & S2 & MK); [cbn [f_f2n bnd]; rewrite NB; apply NoDup_zrange |]. cbn [f_f2n bnd] in MK.
    assert (FB2 : dget String.eqb "boundary" (me_faces m2) = Some bnd) by (rewrite (sb_faces _ _ S2); exact FB1).
    assert (KEYS : dkeys (me_bocos m2) = dkeys (me_bocos m)).
    { clear -MK. unfold dkeys. induction MK as [| kb kb' l l' H F IH]; [reflexivity |]. cbn [List.map]. rewrite IH. f_equal. apply H. }
    assert (FM2 : face_marked m2 bnd).
    { constructor; [exact FB2 | exact WB | exact PLB | rewrite KEYS; apply (cm_keys _ _ _ _ CM) |]. intros k b I.
      destruct (Forall2_in_r _ _ _ _ MK I) as (kb & _ & _ & _ & _ & _ & L). cbn [snd] in L. split; [| apply (lm_ok _ _ _ L)]. unfold on_faces, face_or_bdface. rewrite (lm_geo _ _ _ L). reflexivity. }
    destruct (make_unmarked_ok enum "unmarked" m2 bnd SE FM2) as (missing & m2' & E3 & ND3 & H3 & S3 & FM3 & Z3 & N3).
    cbn [f_f2n bnd] in H3, N3.
    assert (NU : ~ In "unmarked"%string (dkeys (me_bocos m2))).
    { rewrite KEYS. intros I. unfold dkeys in I. apply in_map_iff in I. destruct I as ((k, b) & Q & I). cbn in Q. subst k.
      destruct (nm_key _ _ (cm_marks _ _ _ _ CM _ _ I)) as (_ & _ & X & _). congruence. }
    (* faces and sides *)
    assert (OUT : forall i ns, In (i, ns) (ec_pairs (fs_bnd fs)) -> exists ft s, outer tbl c ft s /\ fst s = ns).
    { intros i ns I. apply in_type_pairs in I. destruct I as (ft & _ & I). destruct (fsp_bnd_face _ _ _ S ft i ns I) as (ci & _ & SH). exists ft, (ns, ci). split; [| reflexivity].
      split; [| exact SH]. assert (X : In (ns, ci) (sharing ns (ec_sides tbl ft c))) by (rewrite SH; left; reflexivity). apply filter_In in X. apply X. }
    assert (INN : forall ft s, outer tbl c ft s -> exists i ns, In (i, ns) (ec_pairs (fs_bnd fs)) /\ Permutation (fst s) ns).
    { intros ft s (O1 & O2). assert (CV := fsp_cover _ _ _ S ft s O1). rewrite filter_app, app_length in CV.
      destruct (filter (fun p => same_nodes (fst s) (snd p)) (pairs_of_type (fs_bnd fs) ft)) as [| p l] eqn:Q.
      - exfalso. cbn [List.length Nat.add] in CV. destruct (filter _ _) as [| p l] eqn:Q' in CV; [discriminate |]. assert (J : In p (p :: l)) by (left; reflexivity). rewrite <- Q' in J.
        apply filter_In in J. destruct J as (J & SN). destruct p as (f, nodes). cbn [snd] in SN. apply same_nodes_perm in SN.
        destruct (fsp_int_face _ _ _ S ft f nodes J) as (c1 & c2 & nodes2 & rest & _ & P). rewrite <- (share_nodes ft _ _ SN), O2 in P. apply Permutation_length in P. discriminate.
      - assert (J : In p (p :: l)) by (left; reflexivity). rewrite <- Q in J. apply filter_In in J. destruct J as (J & SN). destruct p as (f, nodes). exists f, nodes.
        cbn [snd] in SN. split; [| apply same_nodes_perm; exact SN]. apply in_type_pairs. exists ft. split; [| exact J].
        unfold pairs_of_type in J. apply in_flat_map in J. destruct J as ((t, ed) & J1 & J2). cbn [fst snd] in J2. destruct (String.eqb ft t) eqn:TE; [| destruct J2]. apply String.eqb_eq in TE. subst t.
        unfold ec_types. apply in_map_iff. exists (ft, ed). auto. }
    assert (RNG : forall i ns, In (i, ns) (ec_pairs (fs_bnd fs)) -> 0 <= i < nb) by (intros i ns I; apply (pair_number _ _ _ _ WB NB I)).
    assert (UNI : forall i ns ns', In (i, ns) (ec_pairs (fs_bnd fs)) -> In (i, ns') (ec_pairs (fs_bnd fs)) -> ns = ns').
    { intros i ns ns' I J. destruct (pair_number _ _ _ _ WB NB I) as (_ & A). destruct (pair_number _ _ _ _ WB NB J) as (_ & B). congruence. }
    assert (SPP : forall ns ns' b, Permutation ns ns' -> spanned ns b -> spanned ns' b) by (intros ns ns' b P H n I; apply H, (Permutation_in _ (Permutation_sym P) I)).

    assert (PREP : prepare_mesh tbl enum m = reindex_boundaryfaces m2').
    { unfold prepare_mesh. rewrite (cm_nofaces _ _ _ _ CM), E1, E2. unfold dmem. rewrite FB2, E3.
      assert (NE : me_bocos m2 <> []).
      { intros Z. assert (X : me_bocos m = []) by (rewrite Z in MK; inversion MK; reflexivity). destruct BAD as [(k & b & I & _) | (ft & s & k & b & _ & _ & _ & I & _)]; rewrite X in I; destruct I. }
      assert (LST : forall k b, In (k, b) (me_bocos m2) -> exists il, mk_index b = Some il /\ list_type il = true).
      { intros k b I. destruct (Forall2_in_r _ _ _ _ MK I) as (kb & _ & _ & _ & _ & _ & L). apply (lm_list _ _ _ L). }
      destruct missing as [| x l].
      - specialize (Z3 eq_refl). subst m2'. rewrite any_list_true; [reflexivity | exact NE | exact LST].
      - destruct N3 as (NB3 & _ & _); [discriminate | exact NU |]. rewrite any_list_true; [reflexivity | |].
        + rewrite NB3. intros Z. apply app_eq_nil in Z. destruct Z as (_ & Z). discriminate.
        + intros k b I. rewrite NB3 in I. apply in_app_or in I. destruct I as [I | [I | []]]; [exact (LST k b I) |]. inversion I; subst. eexists. split; reflexivity. }
    assert (SUB : forall kb, In kb (me_bocos m2) -> In kb (me_bocos m2')).
    { intros kb I. destruct missing as [| x l]; [specialize (Z3 eq_refl); subst m2'; exact I |]. destruct N3 as (NB3 & _ & _); [discriminate | exact NU |]. rewrite NB3. apply in_or_app. left. exact I. }
    rewrite PREP. destruct BAD as [(k & b & I & NONE) | (ft & s & k & b & k' & b' & O & I & I' & NE & SP & SP')].
    - destruct (Forall2_in_l _ _ _ _ MK I) as ((k2, b2) & I2 & _ & _ & _ & _ & L). cbn [snd] in L.
      destruct (reindex_empty_mark m2' bnd k2 b2 FM3 (SUB _ I2)) as (e & m' & R & _); [| eauto].
      destruct (mk_entries b2) as [| i l] eqn:Q; [reflexivity |]. exfalso. assert (J : In i (mk_entries b2)) by (rewrite Q; left; reflexivity).
      apply (lm_faces _ _ _ L) in J. destruct J as (ns & J1 & J2). destruct (OUT _ _ J1) as (ft & s & O & <-). exact (NONE ft s O J2).
    - destruct (reindex_refuses m2' bnd FM3) as (e & R); [| eauto].
      intros (PM & _). assert (ND : NoDup (all_marked m2')) by (eapply Permutation_NoDup; [symmetry; exact PM | apply NoDup_zrange]).
      destruct (INN ft s O) as (i & ns & J & P). 
      destruct (Forall2_in_l _ _ _ _ MK I) as ((k2, b2) & I2 & Q & _ & _ & _ & L). destruct (Forall2_in_l _ _ _ _ MK I') as ((k2', b2') & I2' & Q' & _ & _ & _ & L'). cbn [fst snd] in *. subst k2 k2'.
      assert (X : In i (mk_entries b2)) by (apply (lm_faces _ _ _ L); exists ns; split; [exact J | exact (SPP _ _ _ P SP)]).
      assert (X' : In i (mk_entries b2')) by (apply (lm_faces _ _ _ L'); exists ns; split; [exact J | exact (SPP _ _ _ P SP')]).
      apply NE. assert (EQ : (k, b2) = (k', b2')); [| congruence].
      apply (flat_map_nodup_eq (fun kb : string * mark Z => mk_entries (snd kb)) (me_bocos m2') _ _ i ND (SUB _ I2) (SUB _ I2') X X').
  Qed.
  Lemma conv_refused i2d f2i host v endian fm : fm_mesh fm = m ->
    (exists k b, In (k, b) (me_bocos m) /\ forall ft s, outer tbl c ft s -> ~ spanned (fst s) b) \/
    (exists ft s k b k' b', outer tbl c ft s /\ In (k, b) (me_bocos m) /\ In (k', b') (me_bocos m) /\ k <> k' /\ spanned (fst s) b /\ spanned (fst s) b') ->
    exists e fm', write_mesh tbl enum i2d f2i host v endian fm = (Err e, fm').
  Proof using CM IF SE.
    intros FE BAD.
    destruct (conv_unprepared BAD) as (e & m' & PR). unfold write_mesh. destruct (order_of host endian) as [o | e0]; [| eauto]. rewrite FE, PR. cbn. eauto.
  Qed.
End Conv.
