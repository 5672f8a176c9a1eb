(** * CGNS zones of hexahedra converted to IC3 files. *)
From Coq Require Import ZArith List Bool String Lia Permutation.
From Verif Require Import Py PyFacts Elements IndexList Conn ConnSpec ConnProofs FaceSpec FaceProofs Mesh MeshSpec Cgns CgnsSpec CgnsProps
  Ic3 Ic3HeaderSpec Ic3FileSpec Ic3OkSpec ConvSpec MarkProps CgnsIc3Spec.

Lemma shape_3 code name n : cg_shape code = Some (name, 3, n) -> name = "hexa8"%string /\ n = 8%nat.
Proof.
  unfold cg_shape. intros H. destruct code as [|q|q]; try discriminate.
  repeat (destruct q as [q|q|]; try discriminate); injection H as <- <-; auto.
Qed.
Lemma sec_name_3 s : sec_ok s -> cs_dim s = 3 -> cs_name s = "hexa8"%string.
Proof. intros (name & d & n & S & _) D. unfold cs_dim in D. unfold cs_name. rewrite S in *. subst d. apply shape_3 in S. apply S. Qed.

Section Cells.
  Context {F : Type}.
  Lemma elemcon_shape : forall (es : list (cgnode F)) secs c c',
    Forall2 sec_is es secs -> Forall sec_ok secs -> ec_cols nn_of c -> (forall t, In t (ec_types c) -> t = "hexa8"%string) ->
    foldM (section_step 3) c es = Ok c' -> ec_cols nn_of c' /\ (forall t, In t (ec_types c') -> t = "hexa8"%string).
  Proof.
    intros es secs c c' HF. revert c. induction HF as [|e s es secs He HF IH]; intros c Hok C T E.
    - injection E as <-. auto.
    - apply Forall_cons_iff in Hok. destruct Hok as [Hs Hok]. cbn [foldM] in E. rewrite (section_ok 3 c e s He Hs) in E. destruct (cs_dim s =? 3) eqn:Ed.
      + apply bind_ok in E. destruct E as (c1 & E1 & E). apply Z.eqb_eq in Ed. apply (IH c1 Hok); [| | exact E].
        * eapply ec_add_cols; [exact C | | exact E1]. destruct Hs as (name & dd & n & S & _). unfold sec_mat, cs_name, nn_of. rewrite S. cbn [m_cols].
          destruct (shape_tables _ _ _ _ S) as (_ & T2 & _). rewrite T2. now rewrite Nat2Z.id.
        * intros t I. apply (ec_add_types _ _ _ _ _ E1) in I. destruct I as [I | ->]; [auto | exact (sec_name_3 s Hs Ed)].
      + exact (IH c Hok C T E).
  Qed.

  (** The cells are the hexahedra of the file. *)
  Lemma zone_cells (z : zone (F := F)) secs c : Forall2 sec_is (List.map snd (zo_elems z)) secs -> Forall sec_ok secs -> elemcon z 3 = Ok c -> file_cells secs <> [] ->
    exists ed, ec_dict c = [("hexa8"%string, ed)] /\ m_cols (ed_e2n ed) = Some 8%nat /\ ed_pairs ed = file_cells secs.
  Proof.
    intros H1 H2 E NE. destruct (elemcon_ok z secs 3 H1 H2) as (c1 & E1 & W & P & N & Q & T). rewrite E in E1. injection E1 as <-.
    destruct (elemcon_shape _ _ _ _ H1 H2 (ec_empty_cols _) (fun t I => match I with end) E) as (C & TY).
    assert (KN := ecwf_keys _ W). assert (PT := T "hexa8"%string). unfold pairs_of_type, ec_types in *.
    assert (FE : flat_map sec_elts (filter (fun s => String.eqb "hexa8" (cs_name s)) (secs_of_dim 3 secs)) = file_cells secs).
    { unfold file_cells. f_equal. clear -H2. unfold secs_of_dim. induction H2 as [| s l Hs F' IH]; [reflexivity |]. cbn [filter]. destruct (cs_dim s =? 3) eqn:Ed; [| exact IH]. cbn [filter].
      apply Z.eqb_eq in Ed. rewrite (sec_name_3 s Hs Ed), String.eqb_refl. f_equal. exact IH. }
    rewrite FE in PT. destruct (ec_dict c) as [| (t, ed) [| (t', ed') l]] eqn:D.
    - cbn in PT. congruence.
    - assert (t = "hexa8"%string) by (apply TY; left; reflexivity). subst t. cbn in PT. rewrite app_nil_r in PT. exists ed. split; [reflexivity |]. split; [| exact PT].
      apply (C "hexa8"%string ed). rewrite D. left. reflexivity.
    - exfalso. assert (t = "hexa8"%string) by (apply TY; left; reflexivity). assert (t' = "hexa8"%string) by (apply TY; right; left; reflexivity). subst. cbn in KN. inversion KN as [| ? ? X Y]; subst. apply X. left. reflexivity.
  Qed.
  Lemma hexas_sides tbl c l ed ft : ec_dict c = [("hexa8"%string, ed)] -> ed_pairs ed = l -> ec_sides tbl ft c = ec_sides tbl ft (hexas l).
  Proof.
    intros D P. unfold ec_sides. rewrite D. cbn [hexas ec_dict flat_map fst snd]. rewrite !app_nil_r. unfold ed_sides. rewrite P.
    replace (ed_pairs (ED (ILlist (List.map fst l)) (Mat (Some 8%nat) (List.map snd l)))) with l; [reflexivity |].
    unfold ed_pairs. cbn [ed_index ed_e2n entries m_rows]. clear. induction l as [| (a, b) l IH]; [reflexivity |]. cbn [List.map fst snd combine]. f_equal. exact IH.
  Qed.
  Lemma dset_in_inv {V} k (v : V) d k' v' : In (k', v') (dset String.eqb k v d) -> (k' = k /\ v' = v) \/ In (k', v') d.
  Proof.
    induction d as [| (q, u) d IH]; cbn [dset In].
    - intros [E | []]. left. now inversion E.
    - destruct (String.eqb k q) eqn:Eq; cbn [In].
      + apply String.eqb_eq in Eq. subst q. intros [E | I]; [left; now inversion E | auto].
      + intros [E | I]; [auto |]. destruct (IH I); auto.
  Qed.
  Lemma bc_perio enum (z : zone (F := F)) k n b : export_BC enum z k n = Ok b -> mk_perio b = Some None.
  Proof.
    unfold export_BC. intros E. apply bind_ok in E. destruct E as (name & _ & E). apply bind_ok in E. destruct E as (p & _ & E). apply bind_ok in E. destruct E as (t & _ & E).
    apply bind_ok in E. destruct E as (((indices & loc) & type) & _ & E).
    destruct (String.eqb loc "FaceCenter").
    - apply bind_ok in E. destruct E as (c & _ & E). apply bind_ok in E. destruct E as (ns & _ & E). now injection E as <-.
    - destruct (String.eqb loc "Vertex"); [apply bind_ok in E; destruct E as (q & _ & E); now injection E as <- |].
      destruct (String.eqb loc "CellCenter"); [now injection E as <- | discriminate].
  Qed.
  Lemma keys_kept enum (z : zone (F := F)) : forall kns m m', foldM (bc_step enum z) m kns = Ok m' -> NoDup (dkeys (me_bocos m)) -> (forall k mk, In (k, mk) (me_bocos m) -> mk_perio mk = Some None) ->
    NoDup (dkeys (me_bocos m')) /\ me_faces m' = me_faces m /\ (forall k mk, In (k, mk) (me_bocos m') -> mk_perio mk = Some None).
  Proof.
    induction kns as [| (k, n) kns IH]; intros m m' E ND PE; [injection E as <-; auto |]. cbn [foldM] in E. apply bind_ok in E. destruct E as (m1 & E1 & E). unfold bc_step in E1.
    apply bind_ok in E1. destruct E1 as (b & Eb & E1). injection E1 as <-.
    assert (X : NoDup (dkeys (me_bocos (if is_internal b then m else add_boco m b))) /\ me_faces (if is_internal b then m else add_boco m b) = me_faces m).
    { destruct (is_internal b); [auto |]. split; [| reflexivity]. apply (dset_NoDup String.eqb seqb_eq). exact ND. }
    destruct X as (X1 & X2). destruct (IH _ _ E X1) as (Y1 & Y2 & Y3).
    - intros k' mk I. destruct (is_internal b); [exact (PE k' mk I) |]. cbn [add_boco me_bocos] in I. apply dset_in_inv in I. destruct I as [(-> & ->) | I]; [exact (bc_perio _ _ _ _ _ Eb) | exact (PE k' mk I)].
    - split; [exact Y1 |]. split; [congruence | exact Y3].
  Qed.
End Cells.

Lemma sec_eqs tbl c l ft s : (forall ft, ec_sides tbl ft c = ec_sides tbl ft (hexas l)) -> (outer tbl c ft s <-> outer tbl (hexas l) ft s).
Proof. intros E. unfold outer. rewrite E. reflexivity. Qed.
Lemma no_other_side tbl types l ft : in_force tbl types -> ft <> "quad4"%string -> ec_sides tbl ft (hexas l) = [].
Proof.
  intros IF NE. unfold ec_sides, hexas. cbn [ec_dict flat_map fst snd]. rewrite app_nil_r. unfold ed_sides.
  assert (HT : sget "hexa8" tbl = Some [("tri3", []); ("quad4", connectivity_hexa8)]%string) by (destruct IF as [(-> & _) | (-> & _)]; reflexivity).
  rewrite HT. induction (ed_pairs _) as [| (k, row) q IH]; [reflexivity |]. cbn [flat_map] in *. rewrite IH. apply String.eqb_neq in NE. rewrite NE. destruct (String.eqb ft "tri3"); reflexivity.
Qed.

Section Zone.
  Context (enum : list Z -> list Z) (tbl : sidetable) (types : list (string * nat)).
  Hypothesis SE : set_enum enum.
  Hypothesis IF : in_force tbl types.
  Context (z : zone (F := Z)) (nnode ncell : Z) (x y w : list Z) (secs : list csec) (bcs : list cbc).
  Hypothesis ZH : zone_holds z nnode ncell x y w secs bcs.
  Hypothesis D3 : zo_geodim z = 3.
  Hypothesis OK : Forall sec_ok secs.
  Hypothesis HZ : hexa_zone tbl nnode ncell x y w secs bcs.

  Lemma zone_exports : exists m c ed, Cgns.export_mesh enum z = Ok m /\ me_cell2node m = Some c /\ ec_wf c /\ ec_plain c /\
    ec_dict c = [("hexa8"%string, ed)] /\ m_cols (ed_e2n ed) = Some 8%nat /\ ed_pairs ed = file_cells secs /\ ec_nelem c = zlen (file_cells secs) /\
    me_nnode m = nnode /\ me_ncell m = ec_nelem c /\ me_nodes m = [("x", x); ("y", y); ("z", w)]%string /\ me_faces m = [] /\
    NoDup (dkeys (me_bocos m)) /\
    (forall k mk, In (k, mk) (me_bocos m) -> exists b, In b bcs /\ cb_name b = k /\ mark_of (file_faces secs) b mk /\ mk_perio mk = Some None) /\
    (forall b, In b bcs -> exists mk, In (cb_name b, mk) (me_bocos m) /\ mark_of (file_faces secs) b mk).
  Proof.
    assert (ND : NoDup (List.map fst (flat_map sec_elts (secs_of_dim (zo_geodim z - 1) secs)))) by (rewrite D3; exact (hz_faces _ _ _ _ _ _ _ _ HZ)).
    destruct (sizes_ok _ _ _ _ _ _ _ _ ZH) as [S1 S2].
    destruct (export_cgns enum z _ _ _ _ _ _ _ ZH OK ND) as (m0 & c & Ec & Em & E).
    assert (R : forall b, In b bcs -> readable (flat_map sec_elts (secs_of_dim (zo_geodim z - 1) secs)) ncell b).
    { rewrite D3. intros b I. destruct (hz_bcs _ _ _ _ _ _ _ _ HZ b I) as (O & _). unfold on_points_or_faces, readable in *. destruct (cb_where b); tauto. }
    destruct (proj2 (proj1 (C59_loads enum SE z _ _ _ _ _ _ _ ZH OK ND)) R) as (m & EX).
    destruct (bcs_fold enum SE z secs nnode ncell (zh_secs _ _ _ _ _ _ _ _ ZH) OK S1 S2 ND _ _ m0 (zh_bcs _ _ _ _ _ _ _ _ ZH) R) as (m' & Em' & M1 & M2 & M3 & M4 & _).
    assert (EQ : m' = m) by (rewrite <- E in Em'; congruence). subst m'.
    assert (K := keys_kept enum z _ _ _ Em'). subst m0. cbn [set_cell2node me_cell2node me_ncell me_nnode me_nodes me_bocos me_faces with_nodes new_mesh] in *.
    destruct K as (K1 & K2 & K3); [constructor | intros ? ? [] |]. rewrite D3 in Ec.
    destruct (elemcon_ok z secs 3 (zh_secs _ _ _ _ _ _ _ _ ZH) OK) as (c' & Ec' & W & P & N & _). rewrite Ec in Ec'. injection Ec' as <-.
    destruct (zone_cells z secs c (zh_secs _ _ _ _ _ _ _ _ ZH) OK Ec (hz_some _ _ _ _ _ _ _ _ HZ)) as (ed & D & CO & PE).
    exists m, c, ed. split; [exact EX |]. split; [exact M1 |]. split; [exact W |]. split; [exact P |]. split; [exact D |]. split; [exact CO |]. split; [exact PE |].
    split; [exact N |]. split; [exact M3 |]. split; [exact M2 |]. split; [exact M4 |]. split; [exact K2 |]. split; [exact K1 |].
    assert (MK := C59_marks enum SE z _ _ _ _ _ _ _ m ZH OK ND EX). rewrite D3 in MK. change (3 - 1) with 2 in MK. fold (file_faces secs) in MK. split.
    - intros k mk I. specialize (MK k). rewrite (in_dget String.eqb seqb_eq _ _ _ K1 I) in MK. destruct MK as (b & l1 & l2 & -> & NB & _ & _ & MO). exists b. split; [apply in_or_app; right; left; reflexivity |]. split; [exact NB |]. split; [exact MO |]. exact (K3 _ _ I).
    - intros b I. specialize (MK (cb_name b)). destruct (dget String.eqb (cb_name b) (me_bocos m)) as [mk |] eqn:G.
      + destruct MK as (b' & l1 & l2 & EB & NB & _ & _ & MO). exists mk. split; [apply (dget_in String.eqb seqb_eq); exact G |].
        assert (b' = b); [| subst; exact MO]. assert (NN := hz_names _ _ _ _ _ _ _ _ HZ). assert (I' : In b' bcs) by (rewrite EB; apply in_or_app; right; left; reflexivity).
        clear -NN I I' NB. induction bcs as [| q l IH]; [destruct I |]. cbn in NN. inversion NN as [| ? ? X Y]; subst. destruct I as [-> | I], I' as [-> | I']; try reflexivity.
        * exfalso. apply X. rewrite <- NB. apply in_map. exact I'.
        * exfalso. apply X. rewrite NB. apply in_map. exact I.
        * exact (IH I Y I').
      + exfalso. destruct (hz_bcs _ _ _ _ _ _ _ _ HZ b I) as (_ & NW & _). exact (NW (MK b I eq_refl)).
  Qed.

  Lemma mark_nodes b (mk : mark Z) v : In b bcs -> mark_of (file_faces secs) b mk -> In v (mk_entries mk) <-> bc_nodes (file_faces secs) b v.
  Proof.
    intros I (_ & _ & s & IX & M). destruct (hz_bcs _ _ _ _ _ _ _ _ HZ b I) as (O & _). unfold mk_entries, bc_nodes, on_points_or_faces in *. rewrite IX. cbn [entries].
    destruct (cb_where b) as [loc l | l].
    - destruct O as [-> | (-> & _)]; cbn [String.eqb Ascii.eqb Bool.eqb] in *.
      + destruct M as (-> & _). rewrite in_map_iff. split; [intros (u & <- & J); replace (u - 1 + 1) with u by lia; exact J | intros J; exists (v + 1); split; [lia | exact J]].
      + destruct M as (_ & M). apply M.
    - destruct M as (_ & M). apply M.
  Qed.
  Lemma mark_node_ok b (mk : mark Z) : In b bcs -> mark_of (file_faces secs) b mk -> mk_perio mk = Some None -> node_mark_ok (cb_name b) mk.
  Proof.
    intros I (N & T & s & IX & M) PE. destruct (hz_bcs _ _ _ _ _ _ _ _ HZ b I) as (O & _ & G & DF & U1 & U2). constructor.
    - unfold on_nodes, nodebased, on_points_or_faces in *. destruct (cb_where b) as [loc l | l].
      + destruct O as [-> | (-> & _)]; cbn [String.eqb Ascii.eqb Bool.eqb] in M; [destruct M as (_ & ->) | destruct M as (-> & _)]; reflexivity.
      + destruct M as (-> & _). reflexivity.
    - exists (ILlist s). split; [exact IX |]. split; [discriminate | reflexivity].
    - exact N.
    - exists "boundary"%string. split; [exact T | cbn; tauto].
    - rewrite PE; exact Logic.I.
    - auto.
  Qed.
End Zone.
