(** * C59: the CGNS reader *)
From Coq Require Import Lia Permutation.
From Verif Require Import Py PyFacts Elements IndexList Conn ConnSpec ConnProofs CheckProofs CsrProofs Mesh Cgns CgnsSpec.

Section Proofs.
  Context {F : Type}.

  Lemma holds_path (n : cgnode F) name p : holds n name p -> cg_path n name = Ok p.
  Proof. intros (l & k & H). unfold cg_path, cg_child, dget_err. rewrite H. reflexivity. Qed.
  Lemma holds_mem (n : cgnode F) name p : holds n name p -> dmem String.eqb name (cg_kids n) = true.
  Proof. intros (l & k & H). unfold dmem. now rewrite H. Qed.
  Lemma lacks_mem (n : cgnode F) name : lacks n name -> dmem String.eqb name (cg_kids n) = false.
  Proof. intros H. unfold lacks in H. unfold dmem. now rewrite H. Qed.
  Lemma flat_ok (p : payload F) l : flat_of p l -> as_flat p = Ok l.
  Proof. intros [->|(rows & -> & ->)]; reflexivity. Qed.

  Lemma cut_concat n : (0 < n)%nat -> forall ls fuel, (forall c, In c ls -> List.length c = n) ->
    (List.length ls <= fuel)%nat -> cut fuel n (List.concat ls) = ls.
  Proof.
    intros N. induction ls as [| c ls IH]; intros fuel H L.
    - destruct fuel; reflexivity.
    - assert (Hc := H c (or_introl eq_refl)). cbn [List.length] in L. destruct fuel as [| k]; [lia |].
      cbn [List.concat]. destruct (c ++ List.concat ls) as [| x r] eqn:E.
      + apply (f_equal (@List.length Z)) in E. rewrite app_length in E. cbn in E. lia.
      + cbn [cut]. rewrite <- E, <- Hc. rewrite firstn_app, Nat.sub_diag, firstn_all, firstn_O, app_nil_r.
        rewrite skipn_app, Nat.sub_diag, skipn_all, skipn_O. cbn [app]. rewrite Hc.
        rewrite IH; [reflexivity| |lia]. intros; apply H; right; auto.
  Qed.
  Lemma concat_len n (ls : list (list Z)) : (forall c, In c ls -> List.length c = n) ->
    List.length (List.concat ls) = (List.length ls * n)%nat.
  Proof.
    induction ls as [|c ls IH]; intros H; [reflexivity|]. cbn [List.concat List.length]. rewrite app_length, (H c) by (left; auto).
    rewrite IH by (intros; apply H; right; auto). lia.
  Qed.
  Lemma reshape_ok n ls : (0 < n)%nat -> (forall c, In c ls -> List.length c = n) ->
    reshape (Z.of_nat n) (List.concat ls) = Ok (Mat (Some n) ls).
  Proof.
    intros N H. unfold reshape. assert (L := concat_len n ls H).
    replace (zlen (List.concat ls) mod Z.of_nat n =? 0) with true.
    - rewrite Nat2Z.id, cut_concat; auto. rewrite L. nia.
    - symmetry. apply Z.eqb_eq. unfold zlen. rewrite L, Nat2Z.inj_mul. apply Z.mod_mul. lia.
  Qed.

  Lemma shape_tables code name d n : cg_shape code = Some (name, d, n) ->
    dget Z.eqb code ele_cgns2local = Some name /\ dget String.eqb name nnode_elem = Some (Z.of_nat n) /\
    dget String.eqb name dim_elem = Some d /\ (0 < n)%nat.
  Proof.
    unfold cg_shape. intros H. destruct code as [|q|q]; try discriminate.
    repeat (destruct q as [q|q|]; try discriminate); injection H as <- <- <-; repeat split; try reflexivity; lia.
  Qed.
  Lemma shape_none code : cg_shape code = None -> dget Z.eqb code ele_cgns2local = None.
  Proof.
    unfold cg_shape, ele_cgns2local. cbn [dget]. intros H.
    destruct (Z.eqb_spec code 2); [subst; discriminate|]. destruct (Z.eqb_spec code 3); [subst; discriminate|].
    destruct (Z.eqb_spec code 5); [subst; discriminate|]. destruct (Z.eqb_spec code 7); [subst; discriminate|].
    destruct (Z.eqb_spec code 17); [subst; discriminate|]. reflexivity.
  Qed.
  Lemma shape_name_inj c c' n d k d' k' : cg_shape c = Some (n, d, k) -> cg_shape c' = Some (n, d', k') -> d = d' /\ k = k'.
  Proof.
    intros H H'. apply shape_tables in H, H'. destruct H as (_ & A & B & _), H' as (_ & A' & B' & _).
    rewrite A in A'. rewrite B in B'. injection A' as E. injection B' as <-. split; auto. lia.
  Qed.

  (** What one section brings. *)
  Definition sec_mat (s : csec) : mat :=
    Mat (match cg_shape (cs_code s) with Some (_, _, n) => Some n | None => None end)
        (List.map (List.map (fun v => v - 1)) (cs_rows s)).
  Lemma section_ok d c (e : cgnode F) s : sec_is e s -> sec_ok s ->
    section_step d c e = if cs_dim s =? d then ec_add c (cs_name s) (sec_mat s) (Some (ILrange (cs_first s - 1) (cs_last s - 1)))
                         else Ok c.
  Proof.
    intros ((label & kids & more & ->) & (more' & H2) & H3) (name & dd & n & S & R & L).
    destruct (shape_tables _ _ _ _ S) as (T1 & T2 & T3 & T4).
    unfold section_step. cbn [cg_data bind as_ints]. change (py_get (cs_code s :: more) 0) with (Ok (cs_code s)). cbn [bind].
    unfold dget_err. rewrite T1. cbn [bind]. rewrite T2. cbn [bind]. rewrite T3. cbn [bind].
    unfold cs_dim, cs_name, sec_mat. rewrite S. destruct (dd =? d); auto.
    rewrite (holds_path _ _ _ H2). cbn [bind as_ints].
    change (py_get (cs_first s :: cs_last s :: more') 0) with (Ok (cs_first s)). cbn [bind].
    change (py_get (cs_first s :: cs_last s :: more') 1) with (Ok (cs_last s)). cbn [bind].
    rewrite (holds_path _ _ _ H3). cbn [bind as_ints]. rewrite (reshape_ok n) by auto. cbn [bind m_cols m_rows]. reflexivity.
  Qed.

  Definition nn_of (t : string) : nat := match dget String.eqb t nnode_elem with Some n => Z.to_nat n | None => O end.

  Lemma sec_new_wf c s : sec_ok s -> ed_wf (new_ed c (sec_mat s) (Some (ILrange (cs_first s - 1) (cs_last s - 1)))).
  Proof.
    intros (name & dd & n & S & R & L). split; cbn [new_ed ed_index ed_e2n entries]; [discriminate| |].
    - rewrite zrange_length. unfold sec_mat. cbn [m_rows]. rewrite map_length. unfold zlen in L. lia.
    - unfold mat_wf, sec_mat. cbn [m_cols m_rows]. rewrite S. apply Forall_forall. intros r Hr. apply in_map_iff in Hr.
      destruct Hr as (r' & <- & Hr'). rewrite map_length. auto.
  Qed.

  Lemma sec_new_pairs c s : ed_pairs (new_ed c (sec_mat s) (Some (ILrange (cs_first s - 1) (cs_last s - 1)))) = sec_elts s.
  Proof. unfold ed_pairs, sec_elts. cbn [new_ed ed_index ed_e2n entries sec_mat m_rows]. do 2 f_equal. lia. Qed.

  Lemma elemcon_fold d : forall (es : list (cgnode F)) secs c,
    Forall2 sec_is es secs -> Forall sec_ok secs -> ec_wf c -> ec_plain c -> ec_cols nn_of c ->
    exists c', foldM (section_step d) c es = Ok c' /\ ec_wf c' /\ ec_plain c' /\
      ec_nelem c' = ec_nelem c + zlen (flat_map sec_elts (secs_of_dim d secs)) /\
      Permutation (ec_pairs c') (ec_pairs c ++ flat_map sec_elts (secs_of_dim d secs)) /\
      (forall t, pairs_of_type c' t = pairs_of_type c t ++
          flat_map sec_elts (filter (fun s => String.eqb t (cs_name s)) (secs_of_dim d secs))).
  Proof.
    intros es secs c HF. revert c. induction HF as [|e s es secs He HF IH]; intros c Hok W P C.
    - exists c. cbn. rewrite app_nil_r. intuition (try rewrite app_nil_r; auto; lia).
    - apply Forall_cons_iff in Hok. destruct Hok as [Hs Hok]. cbn [foldM]. rewrite (section_ok d c e s He Hs).
      unfold secs_of_dim. cbn [filter]. destruct (cs_dim s =? d) eqn:Ed.
      + destruct (ec_add_total nn_of c (cs_name s) (sec_mat s) (Some (ILrange (cs_first s - 1) (cs_last s - 1)))) as (c1 & E1); auto.
        { destruct Hs as (name & dd & n & S & _). unfold sec_mat, cs_name, nn_of. rewrite S. cbn [m_cols].
          destruct (shape_tables _ _ _ _ S) as (_ & T2 & _). rewrite T2. now rewrite Nat2Z.id. }
        { discriminate. }
        { intros ed Hed. cbn [il_boxed]. apply (dget_in _ seqb_eq) in Hed. eapply P; eauto. }
        rewrite E1. cbn [bind].
        pose proof (ec_add_pairs _ _ _ _ _ W E1) as Q1. pose proof (sec_new_wf c s Hs) as Wn.
        pose proof (ec_add_wf _ _ _ _ _ W Wn E1) as W1.
        destruct (IH c1 Hok W1) as (c' & I1 & I2 & I3 & I4 & I5 & I6).
        { eapply ec_add_plain; [exact P| |exact E1]. reflexivity. }
        { eapply ec_add_cols; [exact C| |exact E1].
          destruct Hs as (name & dd & n & S & _). unfold sec_mat, cs_name, nn_of. rewrite S. cbn [m_cols].
          destruct (shape_tables _ _ _ _ S) as (_ & T2 & _). rewrite T2. now rewrite Nat2Z.id. }
        rewrite sec_new_pairs in Q1.
        exists c'. split; auto. split; auto. split; auto. cbn [flat_map]. split; [|split].
        * rewrite I4. rewrite (ecwf_nelem _ W1), (zlen_perm _ _ Q1), (ecwf_nelem _ W), !zlen_app. unfold secs_of_dim. lia.
        * rewrite I5, Q1. unfold secs_of_dim. now rewrite app_assoc.
        * intros t. rewrite I6, (ec_add_pairs_of_type _ _ _ _ _ t W E1), sec_new_pairs. unfold secs_of_dim.
          cbn [filter]. rewrite <- app_assoc. f_equal. destruct (String.eqb t (cs_name s)); reflexivity.
      + cbn [bind]. destruct (IH c Hok W P C) as (c' & I). exists c'. exact I.
  Qed.

  Lemma elemcon_ok (z : zone (F := F)) secs d :
    Forall2 sec_is (List.map snd (zo_elems z)) secs -> Forall sec_ok secs ->
    exists c, elemcon z d = Ok c /\ ec_wf c /\ ec_plain c /\
      ec_nelem c = zlen (flat_map sec_elts (secs_of_dim d secs)) /\
      Permutation (ec_pairs c) (flat_map sec_elts (secs_of_dim d secs)) /\
      (forall t, pairs_of_type c t = flat_map sec_elts (filter (fun s => String.eqb t (cs_name s)) (secs_of_dim d secs))).
  Proof.
    intros H1 H2. destruct (elemcon_fold d _ _ ec_empty H1 H2 ec_empty_wf ec_empty_plain (ec_empty_cols _)) as (c & I1 & I2 & I3 & I4 & I5 & I6).
    exists c. unfold elemcon. split; [exact I1|]. split; [exact I2|]. split; [exact I3|]. split; [exact I4|]. split; [exact I5|exact I6].
  Qed.

  Lemma pairs_numbers c : ec_wf c -> List.map fst (ec_pairs c) = ec_numbers c.
  Proof. intros W. now apply ec_numbers_pairs. Qed.

  (** ** One boundary condition *)
  Section BC.
    Variable enum : list Z -> list Z.
    Hypothesis Henum : set_enum enum.
    Variables (z : zone (F := F)) (secs : list csec) (nnode ncell : Z).
    Hypothesis Hsec : Forall2 sec_is (List.map snd (zo_elems z)) secs.
    Hypothesis Hok : Forall sec_ok secs.
    Hypothesis Hnn : zone_nnode z = Ok nnode.
    Hypothesis Hnc : zone_ncell z = Ok ncell.
    Notation faces := (flat_map sec_elts (secs_of_dim (zo_geodim z - 1) secs)).
    Hypothesis Hnd : NoDup (List.map fst faces).

    Lemma in_minus k (l : list Z) : In k (List.map (fun v => v - 1) l) <-> In (k + 1) l.
    Proof.
      rewrite in_map_iff. split.
      - intros (w & <- & Hw). now replace (w - 1 + 1) with w by lia.
      - intros H. exists (k + 1). split; auto. lia.
    Qed.

    Lemma faces_dec l : faces_in faces l \/ exists k, In k l /\ ~ In (k - 1) (List.map fst faces).
    Proof.
      induction l as [|k l [IH|(k' & H1 & H2)]].
      - left. intros k [].
      - destruct (in_dec Z.eq_dec (k - 1) (List.map fst faces)).
        + left. intros k' [<-|H]; auto.
        + right. exists k. split; auto. left; auto.
      - right. exists k'. split; auto. right; auto.
    Qed.

    Lemma face_marks l :
      (faces_in faces l /\ exists c s, elemcon z (zo_geodim z - 1) = Ok c /\
         ec_nodes_of_indexlist enum c (List.map (fun v => v - 1) l) = Ok s /\ face_nodes faces l s) \/
      (~ faces_in faces l /\ exists c, elemcon z (zo_geodim z - 1) = Ok c /\
         ec_nodes_of_indexlist enum c (List.map (fun v => v - 1) l) = Err TypeError).
    Proof.
      destruct (elemcon_ok z secs (zo_geodim z - 1) Hsec Hok) as (c & E & W & P & N & Q & _).
      assert (QN : Permutation (ec_numbers c) (List.map fst faces)).
      { rewrite <- pairs_numbers by auto. now apply Permutation_map. }
      assert (ND : NoDup (ec_numbers c)) by (eapply Permutation_NoDup; [symmetry; exact QN|auto]).
      destruct (faces_dec l) as [Hl|(k & H1 & H2)].
      - left. split; auto. exists c. destruct (nodes_of_indexlist_ok enum Henum c (List.map (fun v => v - 1) l) W P ND) as (s & S1 & S2 & S3).
        { intros k Hk. apply in_minus in Hk. apply Hl in Hk. replace (k + 1 - 1) with k in Hk by lia.
          eapply Permutation_in; [symmetry; exact QN|auto]. }
        exists s. split; auto. split; auto. split; auto. intros v. rewrite S3. split.
        + intros (k & nodes & A & B & C). apply in_minus in A. exists (k + 1), nodes. split; auto.
          replace (k + 1 - 1) with k by lia. split; auto. eapply Permutation_in; eauto.
        + intros (k & nodes & A & B & C). exists (k - 1), nodes. split; [apply in_minus; now replace (k - 1 + 1) with k by lia|].
          split; auto. eapply Permutation_in; [symmetry; exact Q|auto].
      - right. split; [intros X; apply H2, X, H1|]. exists c. split; auto.
        apply (nodes_of_indexlist_unknown enum c _ (k - 1)); auto.
        + apply in_minus. now replace (k - 1 + 1) with k by lia.
        + intros X. apply H2. eapply Permutation_in; eauto.
    Qed.

    Lemma readable_dec b : readable faces ncell b \/ ~ readable faces ncell b.
    Proof.
      unfold readable. destruct (cb_where b) as [loc l|l].
      - destruct (String.string_dec loc "Vertex"); [auto|]. destruct (String.string_dec loc "CellCenter"); [auto|].
        destruct (String.string_dec loc "FaceCenter"); [|tauto].
        destruct (faces_dec l) as [H|(k & H1 & H2)]; [auto|]. right. intros [X|[X|[_ X]]]; auto.
      - destruct (Z.eq_dec (zlen l) ncell); [auto|]. destruct (faces_dec l) as [H|(k & H1 & H2)]; [auto|].
        right. intros [X|X]; auto.
    Qed.

    Lemma bc_ok kn b : bc_is kn b ->
      (readable faces ncell b /\ exists m, export_BC enum z (fst kn) (snd kn) = Ok m /\
        (whole nnode ncell b /\ is_internal m = true \/
         ~ whole nnode ncell b /\ is_internal m = false /\ mark_of faces b m)) \/
      (~ readable faces ncell b /\ exists x, export_BC enum z (fst kn) (snd kn) = Err x /\ (x = TypeError \/ x = RuntimeError)).
    Proof.
      destruct kn as (key & n). intros ((label & t & kids & En) & Hname & Hw). cbn [fst snd].
      unfold export_BC.
      assert (N : (if dmem String.eqb "FamilyName" (cg_kids n) then p <- cg_path n "FamilyName" ;; as_text p else Ok key) = Ok (cb_name b)).
      { destruct Hname as [[H1 H2]|H1].
        - rewrite (lacks_mem _ _ H1). now rewrite H2.
        - rewrite (holds_mem _ _ _ H1), (holds_path _ _ _ H1). reflexivity. }
      rewrite N. cbn [bind]. assert (D : cg_data n = Ok (PText t)) by (subst n; reflexivity). rewrite D. cbn [bind as_text].
      unfold readable, whole, mark_of. destruct (cb_where b) as [loc l|l].
      - destruct Hw as ((p & H1 & H2) & H3). rewrite (holds_mem _ _ _ H1), (holds_path _ _ _ H1). cbn [bind].
        rewrite (flat_ok _ _ H2). cbn [bind].
        assert (G : cg_gridlocation n = Ok loc).
        { unfold cg_gridlocation. destruct H3 as [[H3 ->]|H3].
          - now rewrite (lacks_mem _ _ H3).
          - rewrite (holds_mem _ _ _ H3), (holds_path _ _ _ H3). reflexivity. }
        rewrite G. cbn [bind].
        destruct (String.eqb_spec loc "FaceCenter") as [->|Hf].
        + destruct (face_marks l) as [(A & c & s & E1 & E2 & E3)|(A & c & E1 & E2)]; rewrite E1; cbn [bind]; rewrite E2; cbn [bind].
          * left. split; [auto|]. eexists. split; [reflexivity|]. right. cbn [is_internal mk_type mk_name mk_index mk_geodim].
            split; [intros [X _]; discriminate|]. split; [reflexivity|]. split; [auto|]. split; [auto|]. exists s. auto.
          * right. split; [intros [X|[X|[_ X]]]; [discriminate|discriminate|tauto]|]. exists TypeError. auto.
        + destruct (String.eqb_spec loc "Vertex") as [->|Hv].
          * left. split; [auto|]. rewrite Hnn. cbn [bind]. eexists. split; [reflexivity|]. rewrite zlen_map.
            cbn [is_internal mk_type mk_name mk_index mk_geodim]. destruct (Z.eqb_spec (zlen l) nnode) as [En'|En'].
            -- left. auto.
            -- right. split; [intros [_ X]; auto|]. split; [reflexivity|]. split; [auto|]. split; [auto|]. eexists. split; [reflexivity|auto].
          * destruct (String.eqb_spec loc "CellCenter") as [->|Hc].
            -- left. split; [auto|]. eexists. split; [reflexivity|]. right. cbn [is_internal mk_type mk_name mk_index mk_geodim].
               split; [intros [X _]; discriminate|]. split; [reflexivity|]. split; [auto|]. split; [auto|]. eexists. split; [reflexivity|auto].
            -- right. split; [tauto|]. exists RuntimeError. auto.
      - destruct Hw as (H0 & p & H1 & H2). rewrite (lacks_mem _ _ H0), (holds_mem _ _ _ H1), (holds_path _ _ _ H1). cbn [bind].
        rewrite (flat_ok _ _ H2). cbn [bind]. rewrite Hnc. cbn [bind].
        destruct (Z.eqb_spec (zlen l) ncell) as [Ec|Ec]; cbn [bind].
        + cbn [String.eqb Ascii.eqb Bool.eqb]. left. split; [auto|]. eexists. split; [reflexivity|]. left. auto.
        + cbn [String.eqb Ascii.eqb Bool.eqb].
          destruct (face_marks l) as [(A & c & s & E1 & E2 & E3)|(A & c & E1 & E2)]; rewrite E1; cbn [bind]; rewrite E2; cbn [bind].
          * left. split; [auto|]. eexists. split; [reflexivity|]. right. cbn [is_internal mk_type mk_name mk_index mk_geodim].
            split; [auto|]. split; [reflexivity|]. split; [auto|]. split; [auto|]. exists s. auto.
          * right. split; [tauto|]. exists TypeError. auto.
    Qed.

    (** All of them. *)
    Definition bc_step (m : mesh F) (kb : string * cgnode F) : res (mesh F) :=
      let '(key, bc) := kb in b <- export_BC enum z key bc ;; Ok (if is_internal b then m else add_boco m b).

    Lemma bcs_err : forall kns bcs m, Forall2 bc_is kns bcs -> (exists b, In b bcs /\ ~ readable faces ncell b) ->
      exists x, foldM bc_step m kns = Err x /\ (x = TypeError \/ x = RuntimeError).
    Proof.
      intros kns bcs m H. revert m. induction H as [|(k & n) b kns bcs Hb HF IH]; intros m (b0 & Hin & Hr); [destruct Hin|].
      cbn [foldM bc_step]. destruct (bc_ok _ _ Hb) as [(R & mk & E & _)|(R & x & E & Hx)]; cbn [fst snd] in E; rewrite E; cbn [bind].
      - apply IH. destruct Hin as [<-|Hin]; [tauto|]. eauto.
      - eauto.
    Qed.

    (** [b] is the last boundary condition of its name that is not the whole zone. *)
    Definition last_named (bcs : list cbc) (b : cbc) : Prop :=
      exists l1 l2, bcs = l1 ++ b :: l2 /\ ~ whole nnode ncell b /\
        forall b', In b' l2 -> cb_name b' = cb_name b -> whole nnode ncell b'.

    Lemma whole_dec b : {whole nnode ncell b} + {~ whole nnode ncell b}.
    Proof.
      unfold whole. destruct (cb_where b).
      - destruct (String.string_dec location "Vertex"), (Z.eq_dec (zlen l) nnode); auto; right; tauto.
      - apply Z.eq_dec.
    Qed.

    Lemma bcs_fold : forall kns bcs m, Forall2 bc_is kns bcs -> (forall b, In b bcs -> readable faces ncell b) ->
      exists m', foldM bc_step m kns = Ok m' /\
        me_cell2node m' = me_cell2node m /\ me_ncell m' = me_ncell m /\ me_nnode m' = me_nnode m /\ me_nodes m' = me_nodes m /\
        forall name, match dget String.eqb name (me_bocos m') with
          | Some mk => (exists b, last_named bcs b /\ cb_name b = name /\ mark_of faces b mk) \/
                       (dget String.eqb name (me_bocos m) = Some mk /\ forall b, In b bcs -> cb_name b = name -> whole nnode ncell b)
          | None => dget String.eqb name (me_bocos m) = None /\ forall b, In b bcs -> cb_name b = name -> whole nnode ncell b
          end.
    Proof.
      intros kns bcs m H. revert m. induction H as [|(k & n) b kns bcs Hb HF IH]; intros m Hr.
      - exists m. cbn [foldM]. do 5 (split; [reflexivity|]). intros name.
        destruct (dget String.eqb name (me_bocos m)); [right|]; (split; [reflexivity|intros ? []]).
      - cbn [foldM bc_step]. destruct (bc_ok _ _ Hb) as [(R & mk & E & Hm)|(R & _)]; [|destruct R; apply Hr; left; auto].
        cbn [fst snd] in E. rewrite E. cbn [bind]. set (m1 := if is_internal mk then m else add_boco m mk).
        destruct (IH m1) as (m' & I1 & I2 & I3 & I4 & I5 & I6); [intros; apply Hr; right; auto|].
        exists m'. split; [exact I1|].
        assert (S : me_cell2node m1 = me_cell2node m /\ me_ncell m1 = me_ncell m /\ me_nnode m1 = me_nnode m /\ me_nodes m1 = me_nodes m)
          by (unfold m1; destruct (is_internal mk); auto).
        destruct S as (S1 & S2 & S3 & S4). rewrite I2, I3, I4, I5. do 4 (split; [assumption|]).
        assert (LN : forall b', last_named bcs b' -> last_named (b :: bcs) b').
        { intros b' (l1 & l2 & -> & X). exists (b :: l1), l2. auto. }
        intros name. specialize (I6 name). destruct (dget String.eqb name (me_bocos m')) as [mk'|].
        + destruct I6 as [(b' & X & Y)|[X Y]]; [left; exists b'; auto|].
          destruct Hm as [[Hw Hi]|(Hw & Hi & Hm)]; unfold m1 in X; rewrite Hi in X.
          * right. split; auto. intros b' [<-|Hin] En; auto.
          * assert (Nm : mk_name mk = cb_name b) by apply Hm. cbn [add_boco with_bocos me_bocos] in X. rewrite Nm in X.
            destruct (String.eqb_spec name (cb_name b)) as [->|Hne].
            -- rewrite (dget_dset_eq _ seqb_eq) in X. injection X as <-. left. exists b. split; [|auto].
               exists [], bcs. split; [reflexivity|]. auto.
            -- rewrite (dget_dset_neq _ seqb_eq) in X by auto. right. split; auto. intros b' [<-|Hin] En; [congruence|auto].
        + destruct I6 as [X Y]. destruct Hm as [[Hw Hi]|(Hw & Hi & Hm)]; unfold m1 in X; rewrite Hi in X.
          * split; auto. intros b' [<-|Hin] En; auto.
          * assert (Nm : mk_name mk = cb_name b) by apply Hm. cbn [add_boco with_bocos me_bocos] in X. rewrite Nm in X.
            destruct (String.eqb_spec name (cb_name b)) as [->|Hne].
            -- rewrite (dget_dset_eq _ seqb_eq) in X. discriminate.
            -- rewrite (dget_dset_neq _ seqb_eq) in X by auto. split; auto. intros b' [<-|Hin] En; [congruence|auto].
    Qed.
  End BC.
End Proofs.

(** ** C59 *)
Section Theorems.
  Context {F : Type}.
  Variable enum : list Z -> list Z.
  Hypothesis Henum : set_enum enum.

  (** A zone with the given sizes, coordinates, sections and boundary conditions. *)
  Record zone_holds (z : zone (F := F)) (nnode ncell : Z) (x y w : list F) (secs : list csec) (bcs : list cbc) : Prop := {
    zh_sizes : exists a b rest, cg_data (zo_node z) = Ok (PTable ((nnode :: a) :: (ncell :: b) :: rest));
    zh_coords : exists g, dget String.eqb "GridCoordinates"%string (cg_kids (zo_node z)) = Some g /\
        holds g "CoordinateX" (PReals x) /\ holds g "CoordinateY" (PReals y) /\ holds g "CoordinateZ" (PReals w);
    zh_len : zlen x = nnode /\ zlen y = nnode /\ zlen w = nnode;
    zh_secs : Forall2 sec_is (List.map snd (zo_elems z)) secs;
    zh_bcs : Forall2 bc_is (zo_BCs z) bcs }.

  Lemma sizes_ok z nnode ncell x y w secs bcs : zone_holds z nnode ncell x y w secs bcs ->
    zone_nnode z = Ok nnode /\ zone_ncell z = Ok ncell.
  Proof.
    intros [(a & b & rest & H) _ _ _ _]. unfold zone_nnode, zone_ncell, zone_size. rewrite H. split; reflexivity.
  Qed.
  Lemma coords_ok z nnode ncell x y w secs bcs : zone_holds z nnode ncell x y w secs bcs -> zone_coords z = Ok (x, y, w).
  Proof.
    intros [_ (g & H & Hx & Hy & Hw) _ _ _]. unfold zone_coords, zone_coord, cg_child, dget_err. rewrite H. cbn [bind].
    rewrite (holds_path _ _ _ Hx), (holds_path _ _ _ Hy), (holds_path _ _ _ Hw). reflexivity.
  Qed.

  Lemma export_cgns z nnode ncell x y w secs bcs :
    zone_holds z nnode ncell x y w secs bcs -> Forall sec_ok secs ->
    NoDup (List.map fst (flat_map sec_elts (secs_of_dim (zo_geodim z - 1) secs))) ->
    exists m0 c, elemcon z (zo_geodim z) = Ok c /\
      m0 = set_cell2node (with_nodes (new_mesh ncell nnode) [("x"%string, x); ("y"%string, y); ("z"%string, w)]) c /\
      export_mesh enum z = foldM (bc_step enum z) m0 (zo_BCs z).
  Proof.
    intros H Hok Hnd. destruct (sizes_ok _ _ _ _ _ _ _ _ H) as [S1 S2].
    destruct (elemcon_ok z secs (zo_geodim z) (zh_secs _ _ _ _ _ _ _ _ H) Hok) as (c & E & _).
    eexists. exists c. split; [exact E|]. split; [reflexivity|].
    unfold export_mesh. rewrite S1, S2. cbn [bind]. rewrite (coords_ok _ _ _ _ _ _ _ _ H). cbn [bind].
    destruct (zh_len _ _ _ _ _ _ _ _ H) as (L1 & L2 & L3). unfold set_coords_xyz. cbn [new_mesh me_nnode forallb].
    rewrite L1, L2, L3, !Z.eqb_refl. cbn [andb]. rewrite E. reflexivity.
  Qed.

  (** A zone is exported exactly when all its boundary conditions are readable: given on vertices,
      on cells, or on faces that are in the sections. *)
  Theorem C59_loads z nnode ncell x y w secs bcs :
    zone_holds z nnode ncell x y w secs bcs -> Forall sec_ok secs ->
    NoDup (List.map fst (flat_map sec_elts (secs_of_dim (zo_geodim z - 1) secs))) ->
    ((exists m, export_mesh enum z = Ok m) <->
     (forall b, In b bcs -> readable (flat_map sec_elts (secs_of_dim (zo_geodim z - 1) secs)) ncell b)) /\
    (forall e, export_mesh enum z = Err e -> e = TypeError \/ e = RuntimeError).
  Proof.
    intros H Hok Hnd. destruct (sizes_ok _ _ _ _ _ _ _ _ H) as [S1 S2].
    destruct (export_cgns _ _ _ _ _ _ _ _ H Hok Hnd) as (m0 & c & _ & _ & E). rewrite E.
    assert (D : (exists b, In b bcs /\ ~ readable (flat_map sec_elts (secs_of_dim (zo_geodim z - 1) secs)) ncell b) \/
                (forall b, In b bcs -> readable (flat_map sec_elts (secs_of_dim (zo_geodim z - 1) secs)) ncell b)).
    { clear - bcs. induction bcs as [|b l [(b' & H1 & H2)|IH]].
      - right. intros b [].
      - left. exists b'. split; auto. right; auto.
      - destruct (readable_dec z secs ncell b) as [R|R].
        + right. intros b' [<-|Hb]; auto.
        + left. exists b. split; auto. left; auto. }
    destruct D as [D|D].
    - destruct (bcs_err enum Henum z secs nnode ncell (zh_secs _ _ _ _ _ _ _ _ H) Hok S1 S2 Hnd _ _ m0 (zh_bcs _ _ _ _ _ _ _ _ H) D) as (e & Ee & He).
      rewrite Ee. split; [|intros e' X; injection X as <-; exact He]. split; [intros (m & X); discriminate|].
      intros R. destruct D as (b & H1 & H2). destruct (H2 (R b H1)).
    - destruct (bcs_fold enum Henum z secs nnode ncell (zh_secs _ _ _ _ _ _ _ _ H) Hok S1 S2 Hnd _ _ m0 (zh_bcs _ _ _ _ _ _ _ _ H) D) as (m & Em & _).
      rewrite Em. split; [|discriminate]. split; eauto.
  Qed.

  (** Cells: the elements of the sections of the dimension of the base, with their nodes counted from
      0, keeping their numbers minus one; within a type, in the order of the sections. *)
  Theorem C59_cells z nnode ncell x y w secs bcs m :
    zone_holds z nnode ncell x y w secs bcs -> Forall sec_ok secs ->
    NoDup (List.map fst (flat_map sec_elts (secs_of_dim (zo_geodim z - 1) secs))) ->
    export_mesh enum z = Ok m ->
    me_nnode m = nnode /\ nodescoord m = Ok (x, y, w) /\
    exists c tuples, me_cell2node m = Some c /\ ec_tuples c = Ok tuples /\
      Permutation tuples (flat_map sec_elts (secs_of_dim (zo_geodim z) secs)) /\
      me_ncell m = zlen tuples /\
      forall t, pairs_of_type c t = flat_map sec_elts (filter (fun s => String.eqb t (cs_name s)) (secs_of_dim (zo_geodim z) secs)).
  Proof.
    intros H Hok Hnd L. destruct (sizes_ok _ _ _ _ _ _ _ _ H) as [S1 S2].
    destruct (export_cgns _ _ _ _ _ _ _ _ H Hok Hnd) as (m0 & c & Ec & Em & E). rewrite E in L.
    assert (D : forall b, In b bcs -> readable (flat_map sec_elts (secs_of_dim (zo_geodim z - 1) secs)) ncell b).
    { apply (proj1 (C59_loads _ _ _ _ _ _ _ _ H Hok Hnd)). rewrite E. eauto. }
    destruct (bcs_fold enum Henum z secs nnode ncell (zh_secs _ _ _ _ _ _ _ _ H) Hok S1 S2 Hnd _ _ m0 (zh_bcs _ _ _ _ _ _ _ _ H) D) as (m' & Em' & M1 & M2 & M3 & M4 & _).
    rewrite L in Em'. injection Em' as <-. subst m0. cbn [set_cell2node me_cell2node me_ncell me_nnode me_nodes with_nodes new_mesh] in *.
    split; [auto|]. split. { unfold nodescoord. rewrite M4. reflexivity. }
    destruct (elemcon_ok z secs (zo_geodim z) (zh_secs _ _ _ _ _ _ _ _ H) Hok) as (c' & Ec' & W & P & N & Q & T).
    rewrite Ec in Ec'. injection Ec' as <-. exists c, (ec_pairs c). split; auto.
    split; [now apply ec_tuples_ok|]. split; auto. split; [|exact T]. rewrite M2. apply W.
  Qed.

  (** If no cell section starts the numbering at 1, the numbers do not start at 0 and
      [elem_connectivity.check] rejects the cells. *)
  Theorem C59_check_fails (z : zone (F := F)) secs c :
    Forall2 sec_is (List.map snd (zo_elems z)) secs -> Forall sec_ok secs ->
    elemcon z (zo_geodim z) = Ok c -> flat_map sec_elts (secs_of_dim (zo_geodim z) secs) <> [] ->
    ~ In 0 (List.map fst (flat_map sec_elts (secs_of_dim (zo_geodim z) secs))) ->
    ec_check c = Err AssertionError.
  Proof.
    intros H Hok E Hne Hz. destruct (elemcon_ok z secs (zo_geodim z) H Hok) as (c' & Ec' & W & P & N & Q & T).
    rewrite E in Ec'. injection Ec' as <-.
    assert (NZ : ~ In 0 (ec_numbers c)).
    { rewrite <- pairs_numbers by auto. intros X. apply Hz. eapply Permutation_in; [apply Permutation_map; exact Q|exact X]. }
    assert (NE : ec_numbers c <> []).
    { intros X. apply Hne. rewrite <- pairs_numbers in X by auto. apply map_eq_nil in X. rewrite X in Q.
      now apply Permutation_nil. }
    unfold ec_check. rewrite (mapM_map _ (fun kv => entries (ed_index (snd kv)))).
    2:{ intros (t & ed) Hin. apply il_entries_entries. eapply edwf_typed, ecwf_eds; eauto. }
    cbn [bind]. rewrite concat_map_flat_map. fold (ec_numbers c).
    assert (B : forall b, In b (List.map (fun '(_, ed) => il_boxed (ed_index ed)) (ec_dict c)) -> b = false).
    { intros b Hb. apply in_map_iff in Hb. destruct Hb as ((t & ed) & <- & Hin). eapply P; eauto. }
    destruct (List.map (fun '(_, ed) => il_boxed (ed_index ed)) (ec_dict c)) as [|b bs] eqn:Eb.
    - exfalso. apply NE. unfold ec_numbers. destruct (ec_dict c); [reflexivity|discriminate].
    - assert (FB : forallb (Bool.eqb b) (b :: bs) = true).
      { apply forallb_forall. intros b' Hb'. rewrite (B b), (B b') by (auto; left; auto). reflexivity. }
      rewrite FB. cbn [negb].
      destruct (ec_numbers c) as [|a l] eqn:En; [congruence|].
      destruct (py_min (a :: l)) as [mn|] eqn:Emn.
      + cbn [bind]. assert (In mn (a :: l)).
        { unfold py_min in Emn. injection Emn as <-. clear. revert a. induction l as [|b l IH]; intros a; cbn [fold_left]; [left; auto|].
          destruct (IH (Z.min a b)) as [X|X]; [|right; right; auto].
          destruct (Z.min_spec a b) as [[_ Y]|[_ Y]]; rewrite Y in *; [left; auto|right; left; auto]. }
        replace (mn =? 0) with false; [reflexivity|]. symmetry. apply Z.eqb_neq. intros ->. auto.
      + cbn in Emn. discriminate.
  Qed.

  (** Sections of another type than NODE, BAR_2, TRI_3, QUAD_4, HEXA_8 (say tetrahedra, or a boundary in
      NGON form) make the whole zone unreadable, whatever their dimension. *)
  Theorem C59_unsupported z d : forall es1 secs1 e code label kids more es2,
    List.map snd (zo_elems z) = es1 ++ e :: es2 -> Forall2 sec_is es1 secs1 -> Forall sec_ok secs1 ->
    e = CG label (Some (PInts (code :: more))) kids -> cg_shape code = None ->
    elemcon (F := F) z d = Err KeyError.
  Proof.
    intros es1 secs1 e code label kids more es2 E H1 H2 -> Hc. unfold elemcon. rewrite E, foldM_app.
    destruct (elemcon_fold d _ _ ec_empty H1 H2 ec_empty_wf ec_empty_plain (ec_empty_cols _)) as (c & I1 & _).
    rewrite I1. cbn [bind foldM]. unfold section_step. cbn [cg_data bind as_ints].
    change (py_get (code :: more) 0) with (Ok code). cbn [bind]. unfold dget_err. now rewrite (shape_none _ Hc).
  Qed.

  (** A section of the wanted dimension whose connectivity cannot be cut into elements of its type (a
      truncated list, or one that also holds sizes) is refused: it never gives elements that straddle. *)
  Theorem C59_cut z d : forall es1 secs1 e code label kids more es2 name n lo hi rest flat,
    List.map snd (zo_elems z) = es1 ++ e :: es2 -> Forall2 sec_is es1 secs1 -> Forall sec_ok secs1 ->
    e = CG label (Some (PInts (code :: more))) kids -> cg_shape code = Some (name, d, n) ->
    holds e "ElementRange" (PInts (lo :: hi :: rest)) -> holds e "ElementConnectivity" (PInts flat) ->
    ~ (exists rows : list (list Z), flat = List.concat rows /\ forall r, In r rows -> List.length r = n) ->
    elemcon (F := F) z d = Err ValueError.
  Proof.
    intros es1 secs1 e code label kids more es2 name n lo hi rest flat E H1 H2 He Hc Hr Hf Hn. unfold elemcon. rewrite E, foldM_app.
    destruct (elemcon_fold d _ _ ec_empty H1 H2 ec_empty_wf ec_empty_plain (ec_empty_cols _)) as (c & I1 & _).
    rewrite I1. cbn [bind foldM]. unfold section_step. destruct (shape_tables _ _ _ _ Hc) as (T1 & T2 & T3 & T4).
    assert (D : cg_data e = Ok (PInts (code :: more))) by now rewrite He. rewrite D. cbn [bind as_ints].
    change (py_get (code :: more) 0) with (Ok code). cbn [bind]. unfold dget_err. rewrite T1. cbn [bind]. rewrite T2. cbn [bind]. rewrite T3. cbn [bind].
    rewrite Z.eqb_refl, (holds_path _ _ _ Hr). cbn [bind as_ints].
    change (py_get (lo :: hi :: rest) 0) with (Ok lo). change (py_get (lo :: hi :: rest) 1) with (Ok hi). cbn [bind].
    rewrite (holds_path _ _ _ Hf). cbn [bind as_ints]. unfold reshape.
    destruct (Z.eqb_spec (zlen flat mod Z.of_nat n) 0) as [M|M]; [|reflexivity].
    exfalso. apply Hn. apply Z.div_exact in M; [|lia]. unfold zlen in M.
    assert (L : List.length flat = (n * Z.to_nat (Z.of_nat (List.length flat) / Z.of_nat n))%nat).
    { apply Nat2Z.inj. rewrite Nat2Z.inj_mul, Z2Nat.id; [exact M|]. apply Z.div_pos; lia. }
    revert L. generalize (Z.to_nat (Z.of_nat (List.length flat) / Z.of_nat n)) as k. clear - T4. intros k. revert flat.
    induction k as [|k IH]; intros flat L.
    - exists []. destruct flat; [split; [reflexivity|intros r []]|]. cbn in L. lia.
    - destruct (IH (skipn n flat)) as (rows & R1 & R2). { rewrite skipn_length. lia. }
      exists (firstn n flat :: rows). split; [cbn [List.concat]; rewrite <- R1; symmetry; apply firstn_skipn|].
      intros r [<-|Hr]; [rewrite firstn_length; lia|auto].
  Qed.

  (** Marks: the mark of a name is that of the last boundary condition of this name (others are lost),
      leaving out those that cover the whole zone; no other mark. *)
  Theorem C59_marks z nnode ncell x y w secs bcs m :
    zone_holds z nnode ncell x y w secs bcs -> Forall sec_ok secs ->
    NoDup (List.map fst (flat_map sec_elts (secs_of_dim (zo_geodim z - 1) secs))) ->
    export_mesh enum z = Ok m ->
    forall name, match dget String.eqb name (me_bocos m) with
      | Some mk => exists b l1 l2, bcs = l1 ++ b :: l2 /\ cb_name b = name /\ ~ whole nnode ncell b /\
          (forall b', In b' l2 -> cb_name b' = name -> whole nnode ncell b') /\
          mark_of (flat_map sec_elts (secs_of_dim (zo_geodim z - 1) secs)) b mk
      | None => forall b, In b bcs -> cb_name b = name -> whole nnode ncell b
      end.
  Proof.
    intros H Hok Hnd L name. destruct (sizes_ok _ _ _ _ _ _ _ _ H) as [S1 S2].
    destruct (export_cgns _ _ _ _ _ _ _ _ H Hok Hnd) as (m0 & c & Ec & Em & E). rewrite E in L.
    assert (D : forall b, In b bcs -> readable (flat_map sec_elts (secs_of_dim (zo_geodim z - 1) secs)) ncell b).
    { apply (proj1 (C59_loads _ _ _ _ _ _ _ _ H Hok Hnd)). rewrite E. eauto. }
    destruct (bcs_fold enum Henum z secs nnode ncell (zh_secs _ _ _ _ _ _ _ _ H) Hok S1 S2 Hnd _ _ m0 (zh_bcs _ _ _ _ _ _ _ _ H) D) as (m' & Em' & _ & _ & _ & _ & M).
    rewrite L in Em'. injection Em' as <-. specialize (M name).
    assert (B0 : dget String.eqb name (me_bocos m0) = None) by (subst m0; reflexivity). rewrite B0 in M.
    destruct (dget String.eqb name (me_bocos m)) as [mk|].
    - destruct M as [(b & (l1 & l2 & X1 & X2 & X3) & X4 & X5)|[X _]]; [|discriminate].
      exists b, l1, l2. subst name. auto.
    - apply M.
  Qed.

  (** Which nodes of the file are used: sections are the children of the zone with label Elements_t;
      boundary conditions those with label BC_t or GridConnectivity_t in its children with label ZoneBC_t
      or ZoneGridConnectivity_t (their names being distinct). *)
  Lemma dupdate_in {V} (d d' : dict string V) : forall kv, In kv (dupdate d d') -> In kv d \/ In kv d'.
  Proof.
    unfold dupdate. revert d. induction d' as [|(k & v) q IH]; intros d kv H; [auto|]. cbn [fold_left] in H. apply IH in H.
    destruct H as [H|H]; [|right; right; auto]. destruct kv as (k' & v'). apply in_dset in H. destruct H as [[-> ->]|H]; auto. right; left; auto.
  Qed.
  Lemma dupdate_app {V} (d d' : dict string V) : NoDup (dkeys (d ++ d')) -> dupdate d d' = d ++ d'.
  Proof.
    unfold dupdate. revert d. induction d' as [|(k & v) q IH]; intros d N; [now rewrite app_nil_r|]. cbn [fold_left].
    assert (K : ~ In k (dkeys d)).
    { unfold dkeys in *. rewrite map_app in N. cbn [List.map fst] in N. apply NoDup_remove_2 in N. intros X. apply N, in_app_iff. auto. }
    rewrite (dset_notin _ seqb_eq) by auto. rewrite IH.
    - now rewrite <- app_assoc.
    - now rewrite <- app_assoc.
  Qed.
  Theorem C59_tree (n : cgnode F) d z : zone_init n d = Ok z ->
    zo_elems z = filter (fun kv => String.eqb (cg_label (snd kv)) "Elements_t") (cg_kids n) /\
    (forall k bc, In (k, bc) (zo_BCs z) -> exists kz zb, In (kz, zb) (cg_kids n) /\ In (k, bc) (cg_kids zb) /\
       (cg_label zb = "ZoneBC_t" \/ cg_label zb = "ZoneGridConnectivity_t")%string /\
       (cg_label bc = "BC_t" \/ cg_label bc = "GridConnectivity_t")%string).
  Proof.
    unfold zone_init. intros H. apply bind_ok in H. destruct H as (p & _ & H). apply bind_ok in H. destruct H as (t & _ & H).
    apply bind_ok in H. destruct H as (u & _ & H). injection H as <-. cbn [zo_elems zo_BCs]. split; [reflexivity|].
    set (zbcs := dupdate _ _).
    assert (G : forall (l acc : dict string (cgnode F)) k bc,
      In (k, bc) (fold_left (fun d '(_, z) => dupdate (dupdate d (dict_cgnstype z "BC_t")) (dict_cgnstype z "GridConnectivity_t")) l acc) ->
      In (k, bc) acc \/ exists kz zb, In (kz, zb) l /\ In (k, bc) (cg_kids zb) /\ (cg_label bc = "BC_t" \/ cg_label bc = "GridConnectivity_t")%string).
    { induction l as [|(kz & zb) l IH]; intros acc k bc H; [auto|]. cbn [fold_left] in H. apply IH in H.
      destruct H as [H|(kz' & zb' & X & Y)]; [|right; exists kz', zb'; split; auto; right; auto].
      apply dupdate_in in H. destruct H as [H|H].
      - apply dupdate_in in H. destruct H as [H|H]; [auto|]. apply filter_In in H. destruct H as [H L]. apply seqb_eq in L.
        right. exists kz, zb. split; [left; auto|auto].
      - apply filter_In in H. destruct H as [H L]. apply seqb_eq in L. right. exists kz, zb. split; [left; auto|auto]. }
    intros k bc H. apply G in H. destruct H as [[]|(kz & zb & X & Y & Z)]. unfold zbcs in X. apply dupdate_in in X.
    exists kz, zb. destruct X as [X|X]; apply filter_In in X; destruct X as [X L]; apply seqb_eq in L; auto.
  Qed.

  Lemma filter_keys_sub {V} (f : string * V -> bool) (d : dict string V) : NoDup (dkeys d) -> NoDup (dkeys (filter f d)).
  Proof.
    induction d as [|(k & v) d IH]; cbn [dkeys List.map fst filter]; intros N; [constructor|].
    apply NoDup_cons_iff in N. destruct N as [N1 N2]. destruct (f (k, v)); [|auto].
    cbn [dkeys List.map fst]. apply NoDup_cons; [|auto]. intros X. apply N1. apply in_map_iff in X. destruct X as (kv & <- & X).
    apply filter_In in X. apply in_map. tauto.
  Qed.
  Lemma fst_inj {V} (d : dict string V) k v v' : NoDup (dkeys d) -> In (k, v) d -> In (k, v') d -> v = v'.
  Proof.
    induction d as [|(k0 & v0) d IH]; cbn [dkeys List.map fst]; intros N; [intros []|].
    apply NoDup_cons_iff in N. destruct N as [N1 N2]. intros [E|H] [E'|H'].
    - congruence.
    - injection E as -> ->. destruct N1. now apply (in_map fst) in H'.
    - injection E' as -> ->. destruct N1. now apply (in_map fst) in H.
    - auto.
  Qed.
  (** All of them are used when the names are distinct. *)
  Theorem C59_tree_all (n : cgnode F) d z : zone_init n d = Ok z -> NoDup (dkeys (cg_kids n)) ->
    let selected := fun zb => filter (fun kv => String.eqb (cg_label (snd kv)) "BC_t") (cg_kids zb) ++
                              filter (fun kv => String.eqb (cg_label (snd kv)) "GridConnectivity_t") (cg_kids zb) in
    let zbcs := filter (fun kv => String.eqb (cg_label (snd kv)) "ZoneBC_t") (cg_kids n) ++
                filter (fun kv => String.eqb (cg_label (snd kv)) "ZoneGridConnectivity_t") (cg_kids n) in
    NoDup (dkeys (flat_map (fun kv => selected (snd kv)) zbcs)) ->
    zo_BCs z = flat_map (fun kv => selected (snd kv)) zbcs.
  Proof.
    intros H N selected zbcs N2. unfold zone_init in H. apply bind_ok in H. destruct H as (p & _ & H). apply bind_ok in H. destruct H as (t & _ & H).
    apply bind_ok in H. destruct H as (u & _ & H). injection H as <-. cbn [zo_BCs].
    assert (Z : dupdate (dict_cgnstype n "ZoneBC_t") (dict_cgnstype n "ZoneGridConnectivity_t") = zbcs).
    { apply dupdate_app. unfold dkeys. rewrite map_app. apply NoDup_app. split; [now apply filter_keys_sub|]. split; [now apply filter_keys_sub|].
      intros k X Y. apply in_map_iff in X, Y. destruct X as ((k1 & v1) & E1 & X), Y as ((k2 & v2) & E2 & Y). cbn [fst] in *. subst k1 k2.
      apply filter_In in X, Y. destruct X as [X1 X2], Y as [Y1 Y2]. apply seqb_eq in X2, Y2. cbn [snd] in *.
      assert (EV : v1 = v2) by exact (fst_inj _ _ _ _ N X1 Y1). subst v2. rewrite X2 in Y2. discriminate. }
    rewrite Z. clear Z. generalize dependent zbcs. intros zbcs.
    assert (G : forall l acc, NoDup (dkeys (acc ++ flat_map (fun kv => selected (snd kv)) l)) ->
      fold_left (fun d '(_, z) => dupdate (dupdate d (dict_cgnstype z "BC_t")) (dict_cgnstype z "GridConnectivity_t")) l acc =
      acc ++ flat_map (fun kv : string * cgnode F => selected (snd kv)) l).
    { induction l as [|(k & zb) l IH]; intros acc Nd; [now rewrite app_nil_r|]. cbn [fold_left flat_map snd] in *.
      assert (S : dupdate (dupdate acc (dict_cgnstype zb "BC_t")) (dict_cgnstype zb "GridConnectivity_t") = acc ++ selected zb).
      { unfold selected in *. rewrite <- !app_assoc in Nd. unfold dkeys in Nd. rewrite !app_assoc, !map_app in Nd. 
        rewrite <- map_app in Nd. 
        rewrite (dupdate_app acc). 2:{ unfold dkeys. apply NoDup_app in Nd. destruct Nd as [Nd _]. apply NoDup_app in Nd. apply Nd. }
        rewrite dupdate_app; [now rewrite <- app_assoc|]. unfold dkeys. rewrite map_app. apply NoDup_app in Nd. apply Nd. }
      rewrite S, IH; [now rewrite <- app_assoc|]. now rewrite <- app_assoc. }
    intros N2. now rewrite (G zbcs []).
  Qed.

  (** The zones are looked for in the last base, the dimension in the first. *)
  Theorem C59_base (root : cgnode F) name z : read_data root (Some name) = Ok z ->
    exists b0 bl n rest l1 k0 kl d more label kids,
      filter (fun kv => String.eqb (cg_label (snd kv)) "CGNSBase_t") (cg_kids root) = (k0, b0) :: rest /\
      filter (fun kv => String.eqb (cg_label (snd kv)) "CGNSBase_t") (cg_kids root) = l1 ++ [(kl, bl)] /\
      b0 = CG label (Some (PInts (d :: more))) kids /\ In (name, n) (cg_kids bl) /\ cg_label n = "Zone_t"%string /\
      zo_node z = n /\ zo_geodim z = d.
  Proof.
    unfold read_data, dict_cgnstype. intros H. apply bind_ok in H. destruct H as (v & _ & H). apply bind_ok in H. destruct H as (vs & _ & H).
    apply bind_ok in H. destruct H as (u & _ & H).
    set (bases := filter (fun kv : string * cgnode F => String.eqb (cg_label (snd kv)) "CGNSBase_t") (cg_kids root)) in *.
    apply bind_ok in H. destruct H as ((k0 & b0) & B0 & H). apply bind_ok in H. destruct H as (p & P & H).
    apply bind_ok in H. destruct H as (l & L & H). apply bind_ok in H. destruct H as (d & D & H).
    apply bind_ok in H. destruct H as (nm & Nm & H). injection Nm as <-.
    apply bind_ok in H. destruct H as (n & N & H). apply bind_ok in H. destruct H as (z' & Z' & H).
    apply bind_ok in H. destruct H as (nc & _ & H). injection H as <-.
    destruct bases as [|b1 rest] eqn:Eb; [discriminate|]. change (py_get (b1 :: rest) 0) with (Ok b1) in B0. injection B0 as ->.
    destruct (rev ((k0, b0) :: rest)) as [|(kl & bl) r] eqn:Er.
    { apply (f_equal (@rev _)) in Er. rewrite rev_involutive in Er. discriminate. }
    destruct l as [|d' more]; [discriminate|]. change (py_get (d' :: more) 0) with (Ok d') in D. injection D as ->.
    destruct b0 as [label dat kids]. cbn [snd cg_data] in P. destruct dat as [p'|]; [|discriminate]. injection P as ->.
    destruct p; try discriminate. injection L as ->.
    unfold dget_err in N. destruct (dget String.eqb name (filter _ (cg_kids bl))) as [n'|] eqn:G; [|discriminate]. injection N as ->.
    apply (dget_in _ seqb_eq) in G. apply filter_In in G. destruct G as [G1 G2]. apply seqb_eq in G2.
    exists (CG label (Some (PInts (d :: more))) kids), bl, n, rest, (rev r), k0, kl, d, more, label, kids.
    split; [reflexivity|]. split.
    { apply (f_equal (@rev _)) in Er. rewrite rev_involutive in Er. rewrite Er. reflexivity. }
    split; [reflexivity|]. split; [auto|]. split; [auto|].
    unfold zone_init in Z'. apply bind_ok in Z'. destruct Z' as (? & _ & Z'). apply bind_ok in Z'. destruct Z' as (? & _ & Z').
    apply bind_ok in Z'. destruct Z' as (? & _ & Z'). injection Z' as <-. auto.
  Qed.

  (** Without the name of a zone: the only one of the last base; if there is not exactly one, AssertionError,
      though each of them may be read by its name. *)
  Theorem C59_zone (root : cgnode F) :
    let zones := filter (fun kv => String.eqb (cg_label (snd kv)) "Zone_t")
      (match rev (filter (fun kv => String.eqb (cg_label (snd kv)) "CGNSBase_t") (cg_kids root)) with [] => [] | kv :: _ => cg_kids (snd kv) end) in
    (forall z, read_data root None = Ok z -> exists name n, zones = [(name, n)] /\ read_data root (Some name) = Ok z) /\
    (forall name n, zones = [(name, n)] -> read_data root None = read_data root (Some name)) /\
    (forall name z, read_data root (Some name) = Ok z -> List.length zones <> 1%nat -> read_data root None = Err AssertionError).
  Proof.
    intros zones. unfold read_data, dict_cgnstype.
    replace (match rev (filter (fun kv => String.eqb (cg_label (snd kv)) "CGNSBase_t") (cg_kids root)) with [] => [] | (_, b) :: _ => filter (fun kv => String.eqb (cg_label (snd kv)) "Zone_t") (cg_kids b) end) with zones
      by (unfold zones; destruct (rev _) as [| (k & b) r]; reflexivity).
    clearbody zones. split; [| split].
    - intros z H. destruct zones as [| (name, n) [| y l]].
      + exfalso. do 7 (apply bind_ok in H; destruct H as (? & _ & H)). apply bind_ok in H. destruct H as (? & H & _). discriminate.
      + exists name, n. split; [reflexivity | exact H].
      + exfalso. do 7 (apply bind_ok in H; destruct H as (? & _ & H)). apply bind_ok in H. destruct H as (? & H & _).
        unfold assertb in H. replace (zlen ((name, n) :: y :: l) =? 1) with false in H by (symmetry; apply Z.eqb_neq; rewrite !zlen_cons; assert (Q := zlen_nonneg l); lia). discriminate.
    - intros name n ->. reflexivity.
    - intros name z H N. do 7 (apply bind_ok in H; destruct H as (? & E & H); rewrite E; cbn [bind]; clear E).
      unfold assertb. replace (zlen zones =? 1) with false by (symmetry; apply Z.eqb_neq; unfold zlen; lia). reflexivity.
  Qed.
End Theorems.

(** ** Example: a cube with three boundary faces; the faces are numbered before the cell. *)
Definition leaf (p : payload Z) : cgnode Z := CG "DataArray_t" (Some p) [].
Definition ex_zone_node : cgnode Z :=
  CG "Zone_t" (Some (PTable [[8]; [1]; [0]]))
    [("Cells"%string, CG "Elements_t" (Some (PInts [17; 0]))
        [("ElementRange"%string, leaf (PInts [4; 4])); ("ElementConnectivity"%string, leaf (PInts [1; 2; 3; 4; 5; 6; 7; 8]))]);
     ("Faces"%string, CG "Elements_t" (Some (PInts [7; 0]))
        [("ElementRange"%string, leaf (PInts [1; 3])); ("ElementConnectivity"%string, leaf (PInts [1; 2; 3; 4; 5; 6; 7; 8; 1; 2; 6; 5]))]);
     ("GridCoordinates"%string, CG "GridCoordinates_t" None
        [("CoordinateX"%string, leaf (PReals [0; 1; 1; 0; 0; 1; 1; 0])); ("CoordinateY"%string, leaf (PReals [0; 0; 1; 1; 0; 0; 1; 1]));
         ("CoordinateZ"%string, leaf (PReals [0; 0; 0; 0; 1; 1; 1; 1]))]);
     ("ZoneBC"%string, CG "ZoneBC_t" None
        [("in"%string, CG "BC_t" (Some (PText "BCInflow")) [("PointList"%string, leaf (PTable [[1; 3]])); ("GridLocation"%string, leaf (PText "FaceCenter"))]);
         ("all"%string, CG "BC_t" (Some (PText "Null")) [("PointList"%string, leaf (PTable [[1; 2; 3; 4; 5; 6; 7; 8]]))]);
         ("w1"%string, CG "BC_t" (Some (PText "BCWall")) [("FamilyName"%string, leaf (PText "wall")); ("PointList"%string, leaf (PTable [[1; 2; 3; 4]]))]);
         ("w2"%string, CG "BC_t" (Some (PText "BCWall")) [("FamilyName"%string, leaf (PText "wall")); ("ElementList"%string, leaf (PTable [[2; 3]]))])]);
     ("ZoneType"%string, leaf (PText "Unstructured"))].
Definition ex_zone : zone (F := Z) :=
  match zone_init ex_zone_node 3 with Ok z => z | Err _ => Zone ex_zone_node 0 [] [] end.
Definition ex_secs : list csec :=
  [CSec 17 4 4 [[1; 2; 3; 4; 5; 6; 7; 8]]; CSec 7 1 3 [[1; 2; 3; 4]; [5; 6; 7; 8]; [1; 2; 6; 5]]].
Definition ex_bcs : list cbc :=
  [CBC "in" (Points "FaceCenter" [1; 3]); CBC "all" (Points "Vertex" [1; 2; 3; 4; 5; 6; 7; 8]);
   CBC "wall" (Points "Vertex" [1; 2; 3; 4]); CBC "wall" (Elts [2; 3])].
Example ex_zone_holds : zone_holds ex_zone 8 1 [0; 1; 1; 0; 0; 1; 1; 0] [0; 0; 1; 1; 0; 0; 1; 1] [0; 0; 0; 0; 1; 1; 1; 1] ex_secs ex_bcs /\
  Forall sec_ok ex_secs /\ NoDup (List.map fst (flat_map sec_elts (secs_of_dim (zo_geodim ex_zone - 1) ex_secs))).
Proof.
  split; [|split].
  - constructor.
    + exists [], [], [[0]]. reflexivity.
    + eexists. split; [reflexivity|]. repeat split; repeat eexists.
    + auto.
    + constructor; [|constructor; [|constructor]].
      * split; [repeat eexists|]. split; [exists []; repeat eexists|repeat eexists].
      * split; [repeat eexists|]. split; [exists []; repeat eexists|repeat eexists].
    + constructor; [|constructor; [|constructor; [|constructor; [|constructor]]]]; (split; [repeat eexists|]); cbn [cb_name cb_where].
      * split; [left; split; reflexivity|]. split; [exists (PTable [[1; 3]]); split; [repeat eexists|right; exists [[1; 3]]; auto]|right; repeat eexists].
      * split; [left; split; reflexivity|]. split; [exists (PTable [[1; 2; 3; 4; 5; 6; 7; 8]]); split; [repeat eexists|right; eexists; split; reflexivity]|left; split; reflexivity].
      * split; [right; repeat eexists|]. split; [exists (PTable [[1; 2; 3; 4]]); split; [repeat eexists|right; eexists; split; reflexivity]|left; split; reflexivity].
      * split; [right; repeat eexists|]. split; [reflexivity|]. exists (PTable [[2; 3]]). split; [repeat eexists|right; eexists; split; reflexivity].
  - constructor; [|constructor; [|constructor]]; do 3 eexists; (split; [reflexivity|]); (split; [|reflexivity]); cbn; intuition subst; reflexivity.
  - vm_compute. repeat constructor; cbn; intuition discriminate.
Qed.
(** "wall" keeps the nodes of the second condition only; "all" is dropped; the cell has number 3. *)
Example ex_export : match export_mesh np_unique ex_zone with
  | Ok m => option_map (fun c => ec_tuples c) (me_cell2node m) = Some (Ok [(3, [0; 1; 2; 3; 4; 5; 6; 7])]) /\
      List.map (fun nb => (fst nb, mk_index (snd nb))) (me_bocos m) =
        [("in"%string, Some (ILlist [0; 1; 2; 3; 4; 5])); ("wall"%string, Some (ILlist [0; 1; 4; 5; 6; 7]))]
  | Err _ => False
  end.
Proof. vm_compute. auto. Qed.
Example ex_check : match elemcon ex_zone 3 with Ok c => ec_check c = Err AssertionError | Err _ => False end.
Proof. vm_compute. auto. Qed.

(** A zone whose second section has lost a number: eleven numbers are no list of quadrangles. *)
Example ex_cut : let e := CG "Elements_t" (Some (PInts [7; 0]))
    [("ElementRange"%string, leaf (PInts [1; 3])); ("ElementConnectivity"%string, leaf (PInts [1; 2; 3; 4; 5; 6; 7; 8; 1; 2; 6]))] in
  elemcon (Zone (CG "Zone_t" None []) 3 [("Cells"%string, nth 0 (List.map snd (zo_elems ex_zone)) e); ("Faces"%string, e)] []) 2 = Err ValueError /\
  ~ (exists rows : list (list Z), [1; 2; 3; 4; 5; 6; 7; 8; 1; 2; 6] = List.concat rows /\ forall r, In r rows -> List.length r = 4%nat).
Proof.
  split; [reflexivity|]. intros (rows & E & H). apply (f_equal (@List.length Z)) in E. cbn [List.length] in E.
  assert (L : List.length (List.concat rows) = (4 * List.length rows)%nat).
  { clear E. induction rows as [|r rows IH]; [reflexivity|]. cbn [List.concat]. rewrite app_length, IH, (H r); cbn; auto; [lia|].
    intros x Hx. apply H. now right. }
  lia.
Qed.

Print Assumptions C59_loads.
Print Assumptions C59_cut.
Print Assumptions C59_cells.
Print Assumptions C59_check_fails.
Print Assumptions C59_unsupported.
Print Assumptions C59_marks.
Print Assumptions C59_tree.
Print Assumptions C59_tree_all.
Print Assumptions C59_base.
Print Assumptions C59_zone.
