(** * Proofs about the Gmsh reader: elements, cells, boundaries. *)
From Coq Require Import Lia Permutation DecimalString.
From Verif Require Import Py PyFacts Elements IndexList Conn Mesh Files Gmsh GmshSpec GroupFacts.

Definition seqb_eq := String.eqb_eq.

(** ** One element *)

Lemma shape_table t name d n :
  shape_of t = Some (name, d, n) ->
  dget Z.eqb t gmshtype_elem = Some name /\ dget String.eqb name dim_elem = Some d.
Proof.
  intros H.
  assert (T : t = 1 \/ t = 2 \/ t = 3 \/ t = 4 \/ t = 5 \/ t = 6 \/ t = 7 \/ t = 15).
  { destruct t as [|p|p]; cbn in H; try discriminate.
    do 4 (destruct p as [p|p|]; cbn in H; try discriminate; try (cbv; tauto)). }
  repeat (destruct T as [T|T]; [subst t; cbn in H; injection H as <- <- <-; now split|]).
  subst t. cbn in H; injection H as <- <- <-; now split.
Qed.

Lemma felt_shape e : felt_ok e ->
  dget Z.eqb (fe_type e) gmshtype_elem = Some (felt_name e) /\
  dget String.eqb (felt_name e) dim_elem = Some (felt_dim e).
Proof.
  intros (name & d & n & H & _). unfold felt_name, felt_dim. rewrite H. eapply shape_table; eauto.
Qed.

Lemma felt_len e e' : felt_ok e -> felt_ok e' -> felt_name e = felt_name e' ->
  List.length (fe_nodes e) = List.length (fe_nodes e').
Proof.
  intros (name & d & n & H & L) (name' & d' & n' & H' & L') E. unfold felt_name in E. rewrite H, H' in E. subst name'.
  assert (X : forall t t' nm d n d' n', shape_of t = Some (nm, d, n) -> shape_of t' = Some (nm, d', n') -> n = n').
  { clear. intros t t' nm d n d' n' A B.
    assert (T : forall t nm d n, shape_of t = Some (nm, d, n) ->
       In (nm, n) [("bar2"%string, 2%nat); ("tri3"%string, 3%nat); ("quad4"%string, 4%nat); ("tetra4"%string, 4%nat);
                   ("hexa8"%string, 8%nat); ("prism6"%string, 6%nat); ("pyra5"%string, 5%nat); ("node1"%string, 1%nat)]).
    { clear. intros t nm d n H. destruct t as [|p|p]; cbn in H; try discriminate.
      do 4 (destruct p as [p|p|]; cbn in H; try discriminate; try (injection H as <- <- <-; simpl; tauto)). }
    apply T in A. apply T in B. simpl in A, B.
    repeat match goal with H : _ \/ _ |- _ => destruct H as [H|H] end;
      try contradiction; injection A as <- <-; inversion B; reflexivity. }
  rewrite L, L'. eapply X; eauto.
Qed.

Lemma felt_get1 e : py_get (felt_line e) 1 = Ok (fe_type e). Proof. reflexivity. Qed.
Lemma felt_get2 e : py_get (felt_line e) 2 = Ok (2 + Z.of_nat (List.length (fe_more e))). Proof. reflexivity. Qed.
Lemma felt_get3 e : py_get (felt_line e) 3 = Ok (fe_phys e). Proof. reflexivity. Qed.
Lemma felt_get4 e : py_get (felt_line e) 4 = Ok (fe_ent e). Proof. reflexivity. Qed.

Lemma felt_tail e :
  py_slice (felt_line e) (3 + (2 + Z.of_nat (List.length (fe_more e)))) (zlen (felt_line e)) = fe_nodes e.
Proof.
  set (pre := fe_num e :: fe_type e :: (2 + Z.of_nat (List.length (fe_more e))) :: fe_phys e :: fe_ent e :: fe_more e).
  assert (E : felt_line e = pre ++ fe_nodes e ++ []) by (rewrite app_nil_r; reflexivity).
  assert (L : 3 + (2 + Z.of_nat (List.length (fe_more e))) = zlen pre).
  { unfold pre, zlen. cbn [List.length]. lia. }
  rewrite L, E at 1. replace (zlen (felt_line e)) with (zlen pre + zlen (fe_nodes e)).
  - apply py_slice_mid.
  - rewrite E, !zlen_app, zlen_nil. lia.
Qed.

Lemma elt_dim_line e : felt_ok e -> elt_dim (felt_line e) = Ok (felt_dim e).
Proof.
  intros H. apply felt_shape in H. destruct H as [H1 H2]. unfold elt_dim. rewrite felt_get1. cbn [bind].
  unfold dget_err. rewrite H1. cbn [bind]. now rewrite H2.
Qed.

Lemma type_of_line e : felt_ok e -> type_of (felt_line e) = Ok (Some (felt_name e)).
Proof. intros H. apply felt_shape in H. unfold type_of. rewrite felt_get1. cbn [bind]. now rewrite (proj1 H). Qed.

Lemma dim_elem_nodup : NoDup (dkeys dim_elem).
Proof. cbv. repeat (constructor; [simpl; intuition discriminate|]). constructor. Qed.

Lemma types_of_dim_in e d : felt_ok e -> str_in (felt_name e) (types_of_dim d) = (felt_dim e =? d).
Proof.
  intros H. apply felt_shape in H. destruct H as [_ H]. apply Bool.eq_iff_eq_true. unfold str_in.
  rewrite (existsb_eqb _ seqb_eq). unfold types_of_dim. rewrite in_map_iff. split.
  - intros ((t & d') & E & X). apply filter_In in X. cbn [fst snd] in *. destruct X as [X1 X2]. subst t.
    apply (in_dget _ seqb_eq _ _ _ dim_elem_nodup) in X1. rewrite H in X1. injection X1 as ->. exact X2.
  - intros E. exists (felt_name e, felt_dim e). split; auto. apply filter_In. cbn [snd]. split; auto.
    apply (dget_in _ seqb_eq). exact H.
Qed.

(** ** The two loops over the elements *)

Lemma cells_fold d l : Forall felt_ok l ->
  foldM (cell_step (types_of_dim d)) [] (List.map felt_line l) =
  Ok (List.map (fun t => (t, List.map fe_nodes (having String.eqb felt_name t (of_dim d l))))
               (first_seen String.eqb (List.map felt_name (of_dim d l)))).
Proof.
  intros H. rewrite (foldM_map_ok _ (fun q e => if felt_dim e =? d then dextend String.eqb (felt_name e) [fe_nodes e] q else q)).
  - rewrite (fold_left_filter (fun e => felt_dim e =? d) (fun q e => dextend String.eqb (felt_name e) [fe_nodes e] q)).
    fold (of_dim d l). now rewrite (group_eq _ seqb_eq felt_name fe_nodes).
  - intros q e He. rewrite Forall_forall in H. specialize (H e He). unfold cell_step.
    rewrite type_of_line by auto. cbn [bind]. rewrite types_of_dim_in by auto.
    destruct (felt_dim e =? d); auto. unfold elt_tail. rewrite felt_get2. cbn [bind]. now rewrite felt_tail.
Qed.

(** Elements of [l] grouped by type. *)
Definition by_type (l : list felt) : dict string (list (list Z)) :=
  List.map (fun t => (t, List.map fe_nodes (having String.eqb felt_name t l)))
           (first_seen String.eqb (List.map felt_name l)).

Lemma by_type_fold l : by_type l = fold_left (fun q e => dextend String.eqb (felt_name e) [fe_nodes e] q) l [].
Proof. now rewrite (group_eq _ seqb_eq felt_name fe_nodes). Qed.

Definition last_phys (l : list felt) : Z := List.last (List.map fe_phys l) 0.

Lemma bcs_fold d l : Forall felt_ok l ->
  foldM (bc_step (types_of_dim d)) ([], []) (List.map felt_line l) =
  Ok (List.map (fun k => (k, by_type (having Z.eqb fe_ent k (of_dim d l)))) (first_seen Z.eqb (List.map fe_ent (of_dim d l))),
      List.map (fun k => (k, last_phys (having Z.eqb fe_ent k (of_dim d l)))) (first_seen Z.eqb (List.map fe_ent (of_dim d l)))).
Proof.
  intros H.
  set (f1 := fun (o : option (dict string (list (list Z)))) e =>
               dextend String.eqb (felt_name e) [fe_nodes e] (match o with Some q => q | None => [] end)).
  set (f2 := fun (o : option Z) e => fe_phys e).
  set (h := fun (st : dict Z (dict string (list (list Z))) * dict Z Z) e =>
              (dset Z.eqb (fe_ent e) (f1 (dget Z.eqb (fe_ent e) (fst st)) e) (fst st),
               dset Z.eqb (fe_ent e) (f2 (dget Z.eqb (fe_ent e) (snd st)) e) (snd st))).
  rewrite (foldM_map_ok _ (fun st e => if felt_dim e =? d then h st e else st)).
  - rewrite (fold_left_filter (fun e => felt_dim e =? d) h). fold (of_dim d l). f_equal.
    assert (X : forall q st, fold_left h q st =
      (fold_left (fun dd a => dset Z.eqb (fe_ent a) (f1 (dget Z.eqb (fe_ent a) dd) a) dd) q (fst st),
       fold_left (fun dd a => dset Z.eqb (fe_ent a) (f2 (dget Z.eqb (fe_ent a) dd) a) dd) q (snd st))).
    { induction q as [|a q IH]; intros st; [now destruct st|]. cbn [fold_left]. rewrite IH. reflexivity. }
    rewrite X. cbn [fst snd]. f_equal.
    + apply (accum_eq Z.eqb Z.eqb_eq fe_ent f1 by_type).
      * intros a. rewrite by_type_fold. reflexivity.
      * intros q a _. rewrite !by_type_fold, fold_left_app. reflexivity.
    + apply (accum_eq Z.eqb Z.eqb_eq fe_ent f2 last_phys).
      * intros a. reflexivity.
      * intros q a _. unfold last_phys. rewrite map_app. cbn [List.map]. apply last_last.
  - intros st e He. rewrite Forall_forall in H. specialize (H e He). unfold bc_step.
    rewrite type_of_line by auto. cbn [bind]. rewrite types_of_dim_in by auto.
    destruct (felt_dim e =? d); auto. rewrite felt_get2, felt_get4, felt_get3. cbn [bind].
    rewrite felt_tail. reflexivity.
Qed.

(** ** Shifting node numbers *)

Definition shifted (l : list felt) (t : string) : mat :=
  Mat (Some (List.length (List.hd [] (List.map fe_nodes (having String.eqb felt_name t l)))))
      (List.map nodes0 (having String.eqb felt_name t l)).

Lemma having_in {K A} (eqb : K -> K -> bool) (eqb_eq : forall a b, eqb a b = true <-> a = b) (key : A -> K) k l a :
  In a (having eqb key k l) <-> In a l /\ key a = k.
Proof. unfold having. rewrite filter_In, eqb_eq. tauto. Qed.

Lemma shift_by_type l : Forall felt_ok l ->
  shift_conn (by_type l) = Ok (List.map (fun t => (t, shifted l t)) (first_seen String.eqb (List.map felt_name l))).
Proof.
  intros H. unfold shift_conn, by_type. rewrite mapM_total with (g := fun tr => (fst tr, shifted l (fst tr))).
  - rewrite map_map. reflexivity.
  - intros (t & rows) Hin. apply in_map_iff in Hin. destruct Hin as (t' & E & Ht). injection E as <- <-.
    cbn [fst]. rewrite (first_seen_in _ seqb_eq) in Ht. apply in_map_iff in Ht. destruct Ht as (e0 & E0 & He0).
    unfold shift_rows, shifted.
    assert (Q : Forall (fun e => felt_ok e /\ felt_name e = t') (having String.eqb felt_name t' l)).
    { apply Forall_forall. intros e He. apply having_in in He; [|exact seqb_eq].
      rewrite Forall_forall in H. intuition. }
    assert (NE : having String.eqb felt_name t' l <> []).
    { intros E. assert (X : In e0 (having String.eqb felt_name t' l)) by (apply having_in; [exact seqb_eq|auto]).
      rewrite E in X. destruct X. }
    destruct (having String.eqb felt_name t' l) as [|a q]; [congruence|]. clear NE.
    apply Forall_cons_iff in Q. destruct Q as [[Qa Qn] Q].
    cbn [List.map List.hd]. unfold mat_of_rows.
    assert (X : forallb (fun r' : list Z => Nat.eqb (List.length r') (List.length (fe_nodes a)))
                        (fe_nodes a :: List.map fe_nodes q) = true).
    { apply forallb_forall. intros r [<-|Hr]; [apply Nat.eqb_refl|]. apply in_map_iff in Hr.
      destruct Hr as (e & <- & He). rewrite Forall_forall in Q. destruct (Q e He). apply Nat.eqb_eq.
      apply felt_len; auto. congruence. }
    rewrite X. cbn [bind m_cols m_rows List.map]. do 4 f_equal. rewrite map_map. reflexivity.
Qed.

Lemma conn_nodes_in v l :
  In v (conn_nodes (List.map (fun t => (t, shifted l t)) (first_seen String.eqb (List.map felt_name l)))) <->
  exists e, In e l /\ In v (nodes0 e).
Proof.
  unfold conn_nodes. rewrite in_flat_map. split.
  - intros ((t & m) & Hin & Hv). apply in_map_iff in Hin. destruct Hin as (t' & E & _). injection E as <- <-.
    rewrite np_unique_in in Hv. apply in_concat in Hv. destruct Hv as (row & Hr & Hv). unfold shifted in Hr.
    cbn [m_rows] in Hr. apply in_map_iff in Hr. destruct Hr as (e & <- & He). apply having_in in He; [|exact seqb_eq].
    exists e. tauto.
  - intros (e & He & Hv). exists (felt_name e, shifted l (felt_name e)). split.
    + apply in_map_iff. exists (felt_name e). split; auto. apply first_seen_in; [exact seqb_eq|]. now apply in_map.
    + rewrite np_unique_in. apply in_concat. exists (nodes0 e). split; auto. unfold shifted. cbn [m_rows].
      apply in_map. apply having_in; [exact seqb_eq|auto].
Qed.

(** ** Boundaries *)

Definition named (fam : option (dict string string)) (p : Z) : option string :=
  match fam with None => Some "fluid"%string | Some fam => dget String.eqb (py_str p) fam end.
(** A group that gives no boundary. *)
Definition skipped (fam : option (dict string string)) (name : string) : bool :=
  match fam with None => false | Some _ => String.eqb name "fluid" end.

Record bnds_ok (fam : option (dict string string)) (nm : Z -> string) (st : dict string bnd * list string)
  (tds : list (Z * dict string mat)) : Prop := {
  bo_famm : forall name, In name (snd st) <-> In name (dkeys (fst st));
  bo_nd : NoDup (dkeys (fst st));
  bo_key : forall name, In name (dkeys (fst st)) <->
      skipped fam name = false /\ exists td, In td tds /\ nm (fst td) = name;
  bo_val : forall name b, dget String.eqb name (fst st) = Some b -> b_type b = "boundary"%string /\
      forall v, In v (b_slicing b) <-> exists td, In td tds /\ nm (fst td) = name /\ In v (conn_nodes (snd td)) }.

Lemma create_bnd_ok fam nm st tds td :
  bnds_ok fam nm st tds -> skipped fam (nm (fst td)) = false ->
  exists st', create_bnd st (nm (fst td)) (snd td) = Ok st' /\ bnds_ok fam nm st' (tds ++ [td]).
Proof.
  intros [B1 B2 B3 B4] S. destruct st as [bs famm]. cbn [fst snd] in *. unfold create_bnd.
  set (name := nm (fst td)) in *.
  destruct (str_in name famm) eqn:E.
  - unfold str_in in E. rewrite (existsb_eqb _ seqb_eq) in E. apply B1 in E.
    destruct (proj2 (dget_Some_iff _ seqb_eq name bs) E) as (b & Hb).
    unfold dget_err. rewrite Hb. cbn [bind]. eexists. split; [reflexivity|].
    constructor; cbn [fst snd].
    + intros n. rewrite (dset_keys_in _ seqb_eq) by auto. apply B1.
    + rewrite (dset_keys_in _ seqb_eq) by auto. auto.
    + intros n. rewrite (dset_keys_in _ seqb_eq) by auto. rewrite B3. split.
      * intros (X & t & Ht & Hn). split; auto. exists t. rewrite in_app_iff. auto.
      * intros (X & t & Ht & Hn). apply in_app_iff in Ht. destruct Ht as [Ht|[<-|[]]]; [split; eauto|].
        fold name in Hn. subst n. now apply B3.
    + intros n b' Hb'. destruct (String.eqb_spec n name) as [->|Hne].
      * rewrite (dget_dset_eq _ seqb_eq) in Hb'. injection Hb' as <-. cbn [b_type b_slicing]. split; auto.
        intros v. rewrite np_unique_in, in_app_iff. destruct (B4 _ _ Hb) as [_ V]. rewrite V. split.
        -- intros [(t & Ht & Hn & Hv)|Hv]; [exists t|exists td]; rewrite in_app_iff; cbn [In]; auto.
        -- intros (t & Ht & Hn & Hv). apply in_app_iff in Ht. destruct Ht as [Ht|[<-|[]]]; eauto.
      * rewrite (dget_dset_neq _ seqb_eq) in Hb' by auto. destruct (B4 _ _ Hb') as [X V]. split; auto.
        intros v. rewrite V. split.
        -- intros (t & Ht & Hn & Hv). exists t. rewrite in_app_iff. auto.
        -- intros (t & Ht & Hn & Hv). apply in_app_iff in Ht. destruct Ht as [Ht|[<-|[]]]; eauto. fold name in Hn.
           congruence.
  - assert (NI : ~ In name (dkeys bs)).
    { intros X. apply B1 in X. unfold str_in in E. apply (existsb_eqb _ seqb_eq) in X. congruence. }
    eexists. split; [reflexivity|]. constructor; cbn [fst snd].
    + intros n. rewrite (dset_notin _ seqb_eq) by auto. unfold dkeys. rewrite map_app, !in_app_iff. cbn [List.map fst].
      rewrite B1. reflexivity.
    + now apply (dset_NoDup _ seqb_eq).
    + intros n. rewrite (dset_notin _ seqb_eq) by auto. unfold dkeys. rewrite map_app, in_app_iff. cbn [List.map fst].
      fold (dkeys bs). rewrite B3. split.
      * intros [(X & t & Ht & Hn)|[<-|[]]].
        -- split; auto. exists t. rewrite in_app_iff. auto.
        -- split; auto. exists td. rewrite in_app_iff. cbn [In]. auto.
      * intros (X & t & Ht & Hn). apply in_app_iff in Ht. destruct Ht as [Ht|[<-|[]]]; [left; split; eauto|].
        right. left. auto.
    + intros n b' Hb'. destruct (String.eqb_spec n name) as [->|Hne].
      * rewrite (dget_dset_eq _ seqb_eq) in Hb'. injection Hb' as <-. cbn [b_type b_slicing]. split; auto.
        intros v. split.
        -- intros Hv. exists td. rewrite in_app_iff. cbn [In]. auto.
        -- intros (t & Ht & Hn & Hv). apply in_app_iff in Ht. destruct Ht as [Ht|[<-|[]]]; auto.
           exfalso. apply NI, B3. split; eauto.
      * rewrite (dget_dset_neq _ seqb_eq) in Hb' by auto. destruct (B4 _ _ Hb') as [X V]. split; auto.
        intros v. rewrite V. split.
        -- intros (t & Ht & Hn & Hv). exists t. rewrite in_app_iff. auto.
        -- intros (t & Ht & Hn & Hv). apply in_app_iff in Ht. destruct Ht as [Ht|[<-|[]]]; eauto. fold name in Hn.
           congruence.
Qed.

Lemma bnd_steps fam b2f nm l : forall tds st,
  (forall td, In td l -> exists p, dget Z.eqb (fst td) b2f = Some p /\ named fam p = Some (nm (fst td))) ->
  bnds_ok fam nm st tds ->
  exists st', foldM (bnd_step fam b2f) st l = Ok st' /\ bnds_ok fam nm st' (tds ++ l).
Proof.
  induction l as [|td l IH]; intros tds st H B.
  - exists st. rewrite app_nil_r. auto.
  - destruct (H td) as (p & P1 & P2); [left; auto|].
    assert (S : exists st', bnd_step fam b2f st td = Ok st' /\ bnds_ok fam nm st' (tds ++ [td])).
    { unfold bnd_step. destruct fam as [fam|]; cbn [named] in P2.
      - unfold dget_err. rewrite P1. cbn [bind]. rewrite P2. cbn [bind].
        destruct (String.eqb (nm (fst td)) "fluid") eqn:E.
        + exists st. split; auto. destruct B as [B1 B2 B3 B4]. constructor; auto.
          * intros n. rewrite B3. split.
            -- intros (X & t & Ht & Hn). split; auto. exists t. rewrite in_app_iff. auto.
            -- intros (X & t & Ht & Hn). apply in_app_iff in Ht. destruct Ht as [Ht|[<-|[]]]; [split; eauto|].
               cbn [skipped] in X. rewrite <- Hn, E in X. discriminate.
          * intros n b Hb. destruct (B4 n b Hb) as [X V]. split; auto. intros v. rewrite V. split.
            -- intros (t & Ht & Hn & Hv). exists t. rewrite in_app_iff. auto.
            -- intros (t & Ht & Hn & Hv). apply in_app_iff in Ht. destruct Ht as [Ht|[<-|[]]]; eauto.
               exfalso. assert (K : In n (dkeys (fst st))) by (apply (dget_Some_iff _ seqb_eq); eauto).
               apply B3 in K. destruct K as [K _]. cbn [skipped] in K. rewrite <- Hn, E in K. discriminate.
        + apply create_bnd_ok; auto.
      - injection P2 as P2. rewrite P2. apply create_bnd_ok; auto. }
    destruct S as (st1 & S1 & S2).
    destruct (IH (tds ++ [td]) st1) as (st' & I1 & I2); auto.
    { intros t Ht. apply H. right; auto. }
    exists st'. cbn [foldM]. rewrite S1. cbn [bind]. rewrite I1. split; auto. now rewrite <- app_assoc in I2.
Qed.

Lemma bnd_steps_err fam b2f l td : forall st,
  In td l -> (forall t, In t l -> exists p, dget Z.eqb (fst t) b2f = Some p) ->
  (forall p, dget Z.eqb (fst td) b2f = Some p -> named fam p = None) ->
  foldM (bnd_step fam b2f) st l = Err KeyError.
Proof.
  induction l as [|t l IH]; intros st Hin K H; [destruct Hin|].
  cbn [foldM]. destruct fam as [fam|].
  2:{ destruct (K td) as (p & Hp); auto. specialize (H p Hp). discriminate. }
  destruct (K t) as (p & Hp); [left; auto|].
  unfold bnd_step at 1. unfold dget_err. rewrite Hp. cbn [bind].
  destruct (dget String.eqb (py_str p) fam) as [f|] eqn:E; [|reflexivity].
  destruct Hin as [->|Hin].
  - specialize (H p Hp). cbn [named] in H. congruence.
  - cbn [bind].
    assert (C : forall st d, exists r, create_bnd st f d = r /\ (r = Err KeyError \/ exists st', r = Ok st')).
    { clear. intros [bs famm] d. eexists. split; [reflexivity|]. unfold create_bnd, dget_err.
      destruct (str_in f famm); [|right; eauto]. destruct (dget String.eqb f bs); [right|left]; cbn [bind]; eauto. }
    destruct (String.eqb f "fluid").
    + cbn [bind]. apply IH; auto. intros t' Ht'. apply K. right; auto.
    + destruct (C st (snd t)) as (r & -> & [->|(st' & ->)]); auto. cbn [bind]. apply IH; auto.
      intros t' Ht'. apply K. right; auto.
Qed.

(** ** The whole analysis *)

Lemma max_dims d l : Forall felt_ok l -> top_dim d l ->
  exists dims, mapM elt_dim (List.map felt_line l) = Ok dims /\ py_max dims = Ok d.
Proof.
  intros H [(e0 & He0 & D0) D1]. exists (List.map felt_dim l). split.
  - rewrite <- (map_map felt_dim (fun x => x)). clear - H. induction l as [|e l IH]; auto.
    apply Forall_cons_iff in H. destruct H as [H1 H2]. cbn [List.map mapM]. rewrite elt_dim_line by auto. cbn [bind].
    rewrite IH by auto. reflexivity.
  - apply py_max_ok. split.
    + rewrite <- D0. now apply in_map.
    + intros y Hy. apply in_map_iff in Hy. destruct Hy as (e & <- & He). auto.
Qed.

Lemma of_dim_ok d l : Forall felt_ok l -> Forall felt_ok (of_dim d l).
Proof. intros H. unfold of_dim. apply Forall_forall. intros e He. apply filter_In in He. rewrite Forall_forall in H. apply H. tauto. Qed.
Lemma having_ok {K} (eqb : K -> K -> bool) key k l : Forall felt_ok l -> Forall felt_ok (having eqb key k l).
Proof. intros H. unfold having. apply Forall_forall. intros e He. apply filter_In in He. rewrite Forall_forall in H. apply H. tauto. Qed.

Definition conn_of (l : list felt) : dict string mat :=
  List.map (fun t => (t, shifted l t)) (first_seen String.eqb (List.map felt_name l)).
(** The boundary patches: by entity, then by type. *)
Definition patches (l : list felt) : list (Z * dict string mat) :=
  List.map (fun k => (k, conn_of (having Z.eqb fe_ent k l))) (first_seen Z.eqb (List.map fe_ent l)).
Definition ent_groups (l : list felt) : dict Z Z :=
  List.map (fun k => (k, last_phys (having Z.eqb fe_ent k l))) (first_seen Z.eqb (List.map fe_ent l)).

Lemma analyze_eq {F} fam xyz d l : Forall felt_ok l -> top_dim d l -> 2 <= d <= 3 ->
  @analyze F fam xyz (List.map felt_line l) =
  (st <- foldM (bnd_step fam (ent_groups (of_dim (d - 1) l))) ([], []) (patches (of_dim (d - 1) l)) ;;
   Ok (Gm F d xyz (conn_of (of_dim d l))
          (dset String.eqb "int_fluid"%string (Bnd "internal" (conn_nodes (conn_of (of_dim d l)))) (fst st)))).
Proof.
  intros H T D. unfold analyze. destruct (max_dims d l H T) as (dims & M1 & M2).
  rewrite M1. cbn [bind]. rewrite M2. cbn [bind].
  replace ((d <? 2) || (3 <? d)) with false by lia.
  rewrite cells_fold by auto. cbn [bind]. rewrite bcs_fold by auto. cbn [bind fst snd].
  fold (by_type (of_dim d l)). rewrite shift_by_type by now apply of_dim_ok. cbn [bind].
  rewrite (mapM_total _ (fun kd => (fst kd, conn_of (having Z.eqb fe_ent (fst kd) (of_dim (d - 1) l))))).
  - cbn [bind]. rewrite map_map. cbn [fst]. reflexivity.
  - intros (k & q) Hin. apply in_map_iff in Hin. destruct Hin as (k' & E & _). injection E as <- <-.
    cbn [fst]. rewrite shift_by_type by (apply having_ok, of_dim_ok; auto). reflexivity.
Qed.

Lemma ent_groups_get l k : In k (List.map fe_ent l) -> dget Z.eqb k (ent_groups l) = Some (last_group k l).
Proof.
  intros H. unfold ent_groups. rewrite (dget_map_keys _ Z.eqb_eq).
  assert (E : existsb (Z.eqb k) (first_seen Z.eqb (List.map fe_ent l)) = true).
  { apply (existsb_eqb _ Z.eqb_eq), (first_seen_in _ Z.eqb_eq). exact H. }
  now rewrite E.
Qed.

Lemma patches_in l td : In td (patches l) -> In (fst td) (List.map fe_ent l).
Proof.
  intros H. apply in_map_iff in H. destruct H as (k & <- & Hk). cbn [fst]. now rewrite (first_seen_in _ Z.eqb_eq) in Hk.
Qed.

Lemma analyze_ok {F} fam xyz d l : Forall felt_ok l -> top_dim d l -> 2 <= d <= 3 ->
  (forall e, In e (of_dim (d - 1) l) -> named fam (last_group (fe_ent e) (of_dim (d - 1) l)) <> None) ->
  exists g, @analyze F fam xyz (List.map felt_line l) = Ok g.
Proof.
  intros H T D G. rewrite (analyze_eq fam xyz d) by auto.
  set (q := of_dim (d - 1) l) in *.
  set (nm := fun k => match named fam (last_group k q) with Some n => n | None => ""%string end).
  destruct (bnd_steps fam (ent_groups q) nm (patches q) [] ([], [])) as (st & S & _).
  - intros td Htd. apply patches_in in Htd. exists (last_group (fst td) q). split; [now apply ent_groups_get|].
    apply in_map_iff in Htd. destruct Htd as (e & <- & He). specialize (G e He). unfold nm.
    destruct (named fam (last_group (fe_ent e) q)); congruence.
  - constructor; cbn [fst snd].
    + intros n. reflexivity.
    + constructor.
    + intros n. split; [intros []|intros (_ & t & [] & _)].
    + intros n b X. discriminate X.
  - rewrite S. cbn [bind]. eauto.
Qed.

Lemma analyze_err {F} fam xyz d l e : Forall felt_ok l -> top_dim d l -> 2 <= d <= 3 ->
  In e (of_dim (d - 1) l) -> named fam (last_group (fe_ent e) (of_dim (d - 1) l)) = None ->
  @analyze F fam xyz (List.map felt_line l) = Err KeyError.
Proof.
  intros H T D He G. rewrite (analyze_eq fam xyz d) by auto. set (q := of_dim (d - 1) l) in *.
  assert (Hk : In (fe_ent e) (List.map fe_ent q)) by now apply in_map.
  rewrite (bnd_steps_err fam (ent_groups q) (patches q) (fe_ent e, conn_of (having Z.eqb fe_ent (fe_ent e) q))).
  - reflexivity.
  - apply in_map_iff. exists (fe_ent e). split; auto. now apply (first_seen_in _ Z.eqb_eq).
  - intros t Ht. apply patches_in in Ht. rewrite ent_groups_get by auto. eauto.
  - cbn [fst]. intros p Hp. rewrite ent_groups_get in Hp by auto. injection Hp as <-. exact G.
Qed.

Definition group_name (fam : option (dict string string)) (l : list felt) (e : felt) (name : string) : Prop :=
  named fam (last_group (fe_ent e) l) = Some name.

Lemma analyze_bnds {F} fam xyz d l g : Forall felt_ok l -> top_dim d l -> 2 <= d <= 3 ->
  @analyze F fam xyz (List.map felt_line l) = Ok g ->
  g_maxdim g = d /\ g_xyz g = xyz /\ g_conn g = conn_of (of_dim d l) /\
  NoDup (dkeys (g_bnds g)) /\
  (exists s, dget String.eqb "int_fluid"%string (g_bnds g) = Some (Bnd "internal" s)) /\
  (forall name, name <> "int_fluid"%string ->
     (In name (dkeys (g_bnds g)) <->
      skipped fam name = false /\ exists e, In e (of_dim (d - 1) l) /\ group_name fam (of_dim (d - 1) l) e name) /\
     (forall b, dget String.eqb name (g_bnds g) = Some b -> b_type b = "boundary"%string /\
        forall v, In v (b_slicing b) <->
                  exists e, In e (of_dim (d - 1) l) /\ group_name fam (of_dim (d - 1) l) e name /\ In v (nodes0 e))).
Proof.
  intros H T D E. pose proof E as E0. rewrite (analyze_eq fam xyz d) in E by auto. set (q := of_dim (d - 1) l) in *.
  assert (G : forall e, In e q -> named fam (last_group (fe_ent e) q) <> None).
  { intros e He X. rewrite (analyze_err fam xyz d l e) in E0 by auto. discriminate. }
  set (nm := fun k => match named fam (last_group k q) with Some n => n | None => ""%string end).
  destruct (bnd_steps fam (ent_groups q) nm (patches q) [] ([], [])) as (st & S & [B1 B2 B3 B4]).
  - intros td Htd. apply patches_in in Htd. exists (last_group (fst td) q). split; [now apply ent_groups_get|].
    apply in_map_iff in Htd. destruct Htd as (e & <- & He). specialize (G e He). unfold nm.
    destruct (named fam (last_group (fe_ent e) q)); congruence.
  - constructor; cbn [fst snd].
    + intros n. reflexivity.
    + constructor.
    + intros n. split; [intros []|intros (_ & t & [] & _)].
    + intros n b X. discriminate X.
  - rewrite S in E. cbn [bind] in E. injection E as <-. cbn [g_maxdim g_xyz g_conn g_bnds].
    split; [reflexivity|]. split; [reflexivity|]. split; [reflexivity|].
    split; [now apply (dset_NoDup _ seqb_eq)|].
    split; [eexists; apply (dget_dset_eq _ seqb_eq)|].
    intros name Hn. cbn [app] in *.
    assert (Q : forall e, In e q -> (nm (fe_ent e) = name <-> group_name fam q e name)).
    { intros e He. unfold nm, group_name. specialize (G e He). destruct (named fam (last_group (fe_ent e) q)); [|congruence].
      split; [intros ->; auto|intros X; injection X; auto]. }
    split.
    + assert (K : In name (dkeys (dset String.eqb "int_fluid"%string (Bnd "internal" (conn_nodes (conn_of (of_dim d l)))) (fst st)))
                  <-> In name (dkeys (fst st))).
      { rewrite <- !(dget_Some_iff _ seqb_eq). rewrite (dget_dset_neq _ seqb_eq) by auto. reflexivity. }
      rewrite K, B3. split; intros (X & t & Ht & Hn').
      * split; auto. apply patches_in in Ht. apply in_map_iff in Ht. destruct Ht as (e & Ee & He).
        exists e. split; auto. apply Q; auto. now rewrite Ee.
      * split; auto. exists (fe_ent t, conn_of (having Z.eqb fe_ent (fe_ent t) q)). split; [|now apply Q].
        apply in_map_iff. exists (fe_ent t). split; auto. apply (first_seen_in _ Z.eqb_eq). now apply in_map.
    + intros b Hb. rewrite (dget_dset_neq _ seqb_eq) in Hb by auto. destruct (B4 _ _ Hb) as [X V]. split; auto.
      intros v. rewrite V. split.
      * intros (t & Ht & Hn' & Hv). apply in_map_iff in Ht. destruct Ht as (k & <- & Hk). cbn [fst snd] in *.
        unfold conn_of in Hv. apply conn_nodes_in in Hv. destruct Hv as (e & He & Hv).
        apply having_in in He; [|exact Z.eqb_eq]. destruct He as [He Ek]. exists e. split; auto. split; auto.
        apply Q; auto. now rewrite Ek.
      * intros (e & He & Hg & Hv). exists (fe_ent e, conn_of (having Z.eqb fe_ent (fe_ent e) q)). split.
        { apply in_map_iff. exists (fe_ent e). split; auto. apply (first_seen_in _ Z.eqb_eq). now apply in_map. }
        cbn [fst snd]. split; [now apply Q|]. unfold conn_of. apply conn_nodes_in. exists e. split; auto.
        apply having_in; [exact Z.eqb_eq|auto].
Qed.
