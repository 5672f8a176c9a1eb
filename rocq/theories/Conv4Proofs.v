(** * Meshes converted to the HDF5 files of IC3 (C88). *)
From Coq Require Import ZArith List Bool String Lia Permutation Sorted.
From Verif Require Import Py PyFacts Data Elements IndexList Conn ConnSpec ConnProofs FaceSpec FaceProofs FaceTable Mesh MeshSpec MeshProofs
  Ic3Bytes Ic3 Ic3HeaderSpec Ic3FileSpec Ic3RoundSpec Ic3MeshProofs Ic3FileThm Ic3FileProps Ic3OkSpec Ic3OkProofs Ic3WriteProofs Ic3CubeProofs ConvSpec ConvProofs
  Ic3V4 Ic3V4Spec Ic3V4Proofs Ic3V4MarkProofs Ic3V4Props CubeThm Ic3V4SolProofs Ic3CubeProps Ic3LossProofs Ic3LossProps Ic3FixProofs Ic3RoundProofs Ic3PartsProofs Ic3BodyProofs Ic3LossProofs 
  CsrProofs FaceThm ReindexProofs FaceSetProofs Simple SimpleSpec SimpleProofs CubeFaces CubeMarks CubeReady Ic3CubeSpec ConvSpec Conv4Spec.

(** ** The cells of a mesh are not changed by what the writers do first *)
Lemma prepare_cells tbl enum m r m' : prepare_mesh tbl enum m = (r, m') -> me_cell2node m' = me_cell2node m.
Proof.
  unfold prepare_mesh. intros H.
  destruct (match me_faces m with [] => make_face_connectivity tbl m | _ => (Ok tt, m) end) as (r1, m1) eqn:E1.
  assert (K1 : me_cell2node m1 = me_cell2node m).
  { destruct (me_faces m) as [| x l] eqn:EF; [| injection E1 as _ <-; reflexivity].
    unfold make_face_connectivity in E1. destruct (me_cell2node m) as [c |] eqn:EC2; [| injection E1 as _ <-; exact EC2].
    destruct (ec_create_faces tbl c) as [fs | e] eqn:EC; [| injection E1 as _ <-; exact EC2].
    cbn in E1. rewrite EF in E1. cbn in E1. injection E1 as _ <-. exact EC2. }
  destruct r1 as [u1 | e1]; [| injection H as _ <-; exact K1].
  destruct (if existsb (fun '(_, b) => nodebased b) (me_bocos m1) then bocomarks_set_node_to_face m1 else (Ok tt, m1)) as (r2, m2) eqn:E2.
  assert (K2 : me_cell2node m2 = me_cell2node m1).
  { destruct (existsb _ _); [| injection E2 as _ <-; reflexivity]. unfold bocomarks_set_node_to_face in E2.
    destruct (dget String.eqb "boundary" (me_faces m1)) as [b |]; [| injection E2 as _ <-; reflexivity].
    destruct (ec_tuples (f_f2n b)) as [tuples | e]; [| injection E2 as _ <-; reflexivity].
    destruct (each_mark _ (me_bocos m1)) as (r4, bs) eqn:EM. injection E2 as _ <-. reflexivity. }
  rewrite <- K1, <- K2. destruct r2 as [u2 | e2]; [| injection H as _ <-; reflexivity].
  destruct (if dmem String.eqb "boundary" (me_faces m2) then make_unmarked_BC enum "unmarked" m2 else (Ok [], m2)) as (r3, m3) eqn:E3.
  assert (K3 : me_cell2node m3 = me_cell2node m2).
  { destruct (dmem _ _ _); [| injection E3 as _ <-; reflexivity]. unfold make_unmarked_BC in E3.
    destruct (dget String.eqb "boundary" (me_faces m2)) as [b |]; [| injection E3 as _ <-; reflexivity].
    destruct (forallb _ _); [| injection E3 as _ <-; reflexivity].
    destruct (list_boco_index m2) as [marked |]; [| injection E3 as _ <-; reflexivity].
    destruct (ec_all_index (f_f2n b)) as [all |]; [| injection E3 as _ <-; reflexivity].
    destruct (enum _) as [| x l]; injection E3 as _ <-; reflexivity. }
  rewrite <- K3. destruct r3 as [u3 | e3]; [| injection H as _ <-; reflexivity].
  clear -H. destruct (any_list (me_bocos m3)) as [[|] |]; [| injection H as _ <-; reflexivity | injection H as _ <-; reflexivity].
  unfold reindex_boundaryfaces in H. destruct (dget String.eqb "boundary" (me_faces m3)) as [b |]; [| injection H as _ <-; reflexivity].
  destruct (negb _); [injection H as _ <-; reflexivity |].
  destruct (bind (list_boco_index m3) _) as [(old, new) |]; [| injection H as _ <-; reflexivity].
  destruct (each_mark _ (me_bocos m3)) as (r1, bs) eqn:EM.
  destruct r1 as [u |]; [| injection H as _ <-; reflexivity].
  destruct (reindex_types new _) as ([u2 |], d); [destruct (reindex_f2c old (f_f2c b)) |]; injection H as _ <-; reflexivity.
Qed.

(** ** Zones that follow each other come back in their order *)
Lemma sorted_same {A} (f : A -> Z) (O : list A) : forall L, StronglySorted (fun a b => f a < f b) O -> StronglySorted (fun a b => f a <= f b) L -> Permutation L O -> L = O.
Proof.
  induction O as [| a O IH]; intros L SO SL P; [apply Permutation_nil; symmetry; exact P |].
  destruct L as [| b L]; [apply Permutation_nil in P; discriminate |].
  apply StronglySorted_inv in SO. destruct SO as (SO & FO). apply StronglySorted_inv in SL. destruct SL as (SL & FL).
  assert (b = a).
  { assert (I : In b (a :: O)) by (apply (Permutation_in _ P); left; reflexivity). destruct I as [E | I]; [auto |].
    rewrite Forall_forall in FO. specialize (FO b I). assert (J : In a (b :: L)) by (apply (Permutation_in _ (Permutation_sym P)); left; reflexivity).
    destruct J as [E | J]; [auto |]. rewrite Forall_forall in FL. specialize (FL a J). lia. }
  subst b. f_equal. apply IH; [exact SO | exact SL | exact (Permutation_cons_inv P)].
Qed.

Definition kept_on (kb : string * mark Z) : string * mark Z :=
  (fst kb, Mark Z (fst kb) (Some Gbdface) (mk_type (snd kb)) (mk_index (snd kb)) (perio3 (snd kb))).
Lemma cut_contiguous nf (bs : dict string (mark Z)) : forall s e, contiguous s (List.map snd bs) ->
  (forall hi, In hi (flat_map (fun '((_, b) : string * mark Z) => match mk_index b with Some (ILrange _ hi) => [hi] | _ => [] end) bs) -> hi < e) ->
  (bs = [] -> e = s) -> (bs <> [] -> In (e - 1) (flat_map (fun '((_, b) : string * mark Z) => match mk_index b with Some (ILrange _ hi) => [hi] | _ => [] end) bs)) ->
  StronglySorted (fun a b => fst a < fst b) (List.map (fun '(k, b) => (zone_first b, mark_on k b (zone_first b))) bs ++ [(e, internal_on e)]) /\
  Forall (fun p => s <= fst p) (List.map (fun '(k, b) => (zone_first b, mark_on k b (zone_first b))) bs ++ [(e, internal_on e)]) /\
  List.map (fun b => (mk_name b, b)) (cut_zones nf (List.map (fun '(k, b) => (zone_first b, mark_on k b (zone_first b))) bs ++ [(e, internal_on e)])) =
  List.map kept_on bs ++ [("internal-domain"%string, internal_on e (nf - 1))].
Proof.
  induction bs as [| (k, b) bs IH]; intros s e C UB E0 IE.
  - rewrite (E0 eq_refl). cbn. split; [constructor; constructor |]. split; [constructor; [cbn; lia | constructor] | reflexivity].
  - cbn [List.map contiguous snd] in C. destruct C as (hi & IX & LH & C). cbn [flat_map] in UB, IE. rewrite IX in UB, IE. cbn [app] in UB, IE.
    assert (ZF : zone_first b = s) by (unfold zone_first; rewrite IX; reflexivity).
    assert (Q : exists S F, StronglySorted (fun a b => fst a < fst b) S /\ S = List.map (fun '(k, b) => (zone_first b, mark_on k b (zone_first b))) bs ++ [(e, internal_on e)] /\ Forall (fun p => hi + 1 <= fst p) S /\
      (exists lo' z' S', S = (lo', z') :: S' /\ lo' = hi + 1) /\ F = List.map (fun b => (mk_name b, b)) (cut_zones nf S) /\ F = List.map kept_on bs ++ [("internal-domain"%string, internal_on e (nf - 1))]).
    { destruct bs as [| (k2, b2) bs].
      - assert (EE : e = hi + 1). { destruct (IE ltac:(discriminate)) as [E | []]. lia. }
        destruct (IH (hi + 1) e C) as (I1 & I2 & I3); [intros h []| auto | congruence |]. do 2 eexists. split; [exact I1 |]. split; [reflexivity |]. split; [exact I2 |].
        split; [cbn [List.map app]; do 3 eexists; split; [reflexivity | exact EE] |]. split; [reflexivity | exact I3].
      - destruct (IH (hi + 1) e C) as (I1 & I2 & I3); [intros h H; apply UB; right; exact H | discriminate | |].
        { intros _. destruct (IE ltac:(discriminate)) as [E | I]; [| exact I]. exfalso. cbn [List.map contiguous snd] in C. destruct C as (hi2 & IX2 & LH2 & _).
          assert (hi2 < e) by (apply UB; right; cbn [flat_map]; rewrite IX2; left; reflexivity). lia. }
        do 2 eexists. split; [exact I1 |]. split; [reflexivity |]. split; [exact I2 |].
        split; [cbn [List.map app]; do 3 eexists; split; [reflexivity |] | split; [reflexivity | exact I3]].
        cbn [List.map contiguous snd] in C. destruct C as (hi2 & IX2 & _). unfold zone_first. rewrite IX2. reflexivity. }
    destruct Q as (S & F & S1 & S2 & S3 & (lo' & z' & S' & S4 & S5) & S6 & S7). cbn [List.map app]. rewrite <- S2, ZF.
    split; [| split].
    + constructor; [exact S1 |]. eapply Forall_impl; [| exact S3]. cbn. intros p. lia.
    + constructor; [cbn; lia |]. eapply Forall_impl; [| exact S3]. cbn. intros p. lia.
    + assert (CZ : forall g, cut_zones nf ((s, g) :: S) = g (lo' - 1) :: cut_zones nf S) by (intros g; rewrite S4; reflexivity).
      rewrite CZ. cbn [List.map]. rewrite <- S6, S7. cbn [List.map app]. f_equal.
      unfold kept_on, mark_on. cbn [fst snd mk_name]. rewrite IX, S5. repeat f_equal. lia.
Qed.

(** ** Writing and reading a mesh whose zones follow each other *)
Section Write.
  Context (i2d : Z -> Z) (narrow : Z -> Z).

  Lemma tiled4 tbl enum host endian solution fm m ls rows :
    In endian ["native"; "little"; "big"]%string -> prepare_mesh tbl enum (fm_mesh fm) = (Ok tt, m) ->
    let fm' := FM m (fm_cells fm) (fm_nodes fm) (fm_params fm) (fm_part fm) in
    writable4 fm' ls rows -> (solution = true -> solution4 fm /\ keyed fm) ->
    exists mf so, write4 i2d narrow tbl enum host endian solution fm = (Ok (mf, so), fm') /\ (so = None <-> solution = false) /\
      m4_cells mf = option_map (fun c => List.map (fun '(t, ed) => (t, ed_e2n ed)) (ec_dict c)) (me_cell2node (fm_mesh fm)) /\
      (exists fm2, read4 mf None = Ok fm2 /\ fd_items (fm_cells fm2) = [] /\
        dget String.eqb "step" (fm_params fm2) = Some (SNum (NInt 0)) /\ dget String.eqb "time" (fm_params fm2) = Some (SNum (NInt 0))) /\
      forall sol fm2, read4 mf sol = Ok fm2 -> mesh_as fm' fm2 ls rows /\
        (zone_marks m <> [] -> contiguous 0 (List.map snd (zone_marks m)) ->
         me_bocos (fm_mesh fm2) = List.map kept_on (zone_marks m) ++ [("internal-domain"%string, internal_on (marks_end m + 1) (zlen ls - 1))]).
  Proof.
    intros IE PR fm' WR SO. destruct (C44_written i2d narrow tbl enum host endian solution fm m ls rows IE PR WR SO) as (mf & so & W & S). fold fm' in W.
    exists mf, so. split; [exact W |]. split; [exact S |]. assert (M := w4_ok _ _ _ WR). split; [| split; [exact (C44_mesh_read i2d narrow _ _ _ _ _ _ _ _ _ _ _ W M) |]].
    - destruct (write4_parts _ _ _ _ _ _ _ _ _ _ _ W) as (w & _ & WM & _). unfold write_mesh4 in WM. apply bind_ok in WM. destruct WM as (f2e & _ & WM).
      apply bind_ok in WM. destruct WM as (cv & _ & WM). apply bind_ok in WM. destruct WM as (b & _ & WM). apply ok_inj in WM. subst mf. cbn [m4_cells fm_mesh fm'].
      rewrite (prepare_cells _ _ _ _ _ PR). reflexivity.
    - intros sol fm2 R. split; [exact (C44_mesh i2d narrow _ _ _ _ _ _ _ _ _ _ _ _ _ W M R) |]. intros NE C.
      destruct (C43_zones i2d narrow _ _ _ _ _ _ _ _ _ _ _ _ _ W M R) as (L & P & SL & E). change (fm_mesh fm') with m in *.
      destruct (contiguous_end (List.map snd (zone_marks m)) 0 ltac:(lia) C) as (ME & _); [intros Q; apply map_eq_nil in Q; congruence |].
      assert (FM : flat_map (fun '((_, b) : string * mark Z) => match mk_index b with Some (ILrange _ hi) => [hi] | _ => [] end) (zone_marks m) =
                   flat_map (fun b : mark Z => match mk_index b with Some (ILrange _ hi) => [hi] | _ => [] end) (List.map snd (zone_marks m))).
      { rewrite !flat_map_concat_map, map_map. f_equal. apply map_ext. intros (k, b). reflexivity. }
      assert (MX : forall l, Forall (fun h => 0 <= h) l -> l <> [] -> In (fold_right Z.max 0 l) l).
      { clear. induction l as [| a l IH]; intros F N; [congruence |]. inversion F; subst. cbn. destruct l as [| b l]; [left; cbn; lia |].
        destruct (Z.max_spec a (fold_right Z.max 0 (b :: l))) as [(_ & ->) | (_ & ->)]; [right; apply IH; [assumption | discriminate] | left; reflexivity]. }
      destruct (cut_contiguous (zlen ls) (zone_marks m) 0 (marks_end m + 1) C) as (C1 & _ & C3).
      + intros hi I. apply in_flat_map in I. destruct I as ((k, b) & I & J). destruct (mk_index b) as [il |] eqn:IX; [| destruct J]. destruct il; try (destruct J; fail). destruct J as [<- | []].
        assert (Q := end_bound _ _ _ _ _ I IX). lia.
      + congruence.
      + intros _. replace (marks_end m + 1 - 1) with (marks_end m) by lia. unfold marks_end. apply MX.
        * apply Forall_forall. intros h I. rewrite FM in I. clear -C I. assert (0 <= 0) as S by lia. revert C I S. generalize 0 at 1 3 4 as s. induction (List.map snd (zone_marks m)) as [| b l IH]; intros s C I S; [destruct I |].
          cbn [contiguous] in C. destruct C as (hi & IX & LH & C). cbn [flat_map] in I. rewrite IX in I. destruct I as [<- | I]; [lia |]. specialize (IH (hi + 1) C I). lia.
        * rewrite FM. destruct (zone_marks m) as [| (k, b) l]; [congruence |]. cbn [List.map snd contiguous] in C |- *. destruct C as (hi & IX & _). cbn [flat_map]. rewrite IX. discriminate.
      + rewrite E, (sorted_same fst _ _ C1 SL P). exact C3.
  Qed.

  (** The largest cell number is not the expected one: the file cannot be read. *)
  Lemma misnumbered4 m ls rows k w mf cells nodes params part : writable4 (FM (Mesh Z (k + 1) (me_nnode m) (me_nface m) (me_cell2node m) (me_faces m) (me_nodes m) (me_bocos m)) cells nodes params part) ls rows ->
    k <> me_ncell m - 1 -> writer_state (FM m cells nodes params part) = Ok w -> write_mesh4 narrow m w = Ok mf -> forall sol, read4 mf sol = Err AssertionError.
  Proof.
    intros WR NK W WM sol. set (m' := Mesh Z (k + 1) (me_nnode m) (me_nface m) (me_cell2node m) (me_faces m) (me_nodes m) (me_bocos m)) in *.
    destruct (mesh4_written i2d narrow _ _ _ WR) as (w' & mf' & W' & WM'). cbn [fm_mesh] in WM'.
    destruct (read_mesh4 i2d narrow _ _ _ _ _ (w4_ok _ _ _ WR) W' WM') as (x & y & z & con & _ & _ & _ & _ & _ & _ & _ & RD). specialize (RD None). cbn [bind] in RD.
    destruct (writer_state_ok _ w W) as (x1 & y1 & z1 & zf & f2e & _ & _ & _ & WF & E1 & E2 & E3 & E4 & E5 & E6 & E7 & _).
    destruct (writer_state_ok _ w' W') as (x2 & y2 & z2 & zf' & f2e' & _ & _ & _ & WF' & E1' & E2' & E3' & E4' & E5' & E6' & E7' & _).
    cbn [fm_mesh] in *. change (writer_faces m') with (writer_faces m) in WF'. rewrite WF in WF'. injection WF' as <- <-.
    assert (Q : m4_fa mf = m4_fa mf' /\ m4_cvofa mf = m4_cvofa mf' /\ m4_noofa_i mf = m4_noofa_i mf' /\ m4_noofa_v mf = m4_noofa_v mf' /\ m4_cv mf = me_ncell m /\ m4_cv mf' = k + 1).
    { unfold write_mesh4 in WM, WM'. rewrite E6 in WM. rewrite E6' in WM'. destruct f2e as [f2e |]; [| discriminate]. cbn [or_err bind] in WM, WM'.
      apply bind_ok in WM. destruct WM as (cv & I1 & WM). apply bind_ok in WM. destruct WM as (b & _ & WM). apply ok_inj in WM.
      apply bind_ok in WM'. destruct WM' as (cv' & I1' & WM'). apply bind_ok in WM'. destruct WM' as (b' & _ & WM'). apply ok_inj in WM'. subst mf mf'.
      cbn [m4_fa m4_cvofa m4_noofa_i m4_noofa_v m4_cv]. rewrite E2, E2', E4, E4', E5, E5', E3, E3'. rewrite I1 in I1'. apply ok_inj in I1'. repeat split; try reflexivity. exact I1'. }
    destruct Q as (Q1 & Q2 & Q3 & Q4 & Q5 & Q6).
    unfold read4, read_data4 in RD |- *. apply bind_ok in RD. destruct RD as (r & RD & _). apply bind_ok in RD. destruct RD as (zz & R1 & RD). apply bind_ok in RD. destruct RD as (rr & R2 & _).
    unfold read_noofa4 in R1 |- *. rewrite Q3, Q4, R1. cbn [bind]. unfold read_cvofa4 in R2 |- *. rewrite Q1, Q2, Q5. rewrite Q6 in R2.
    apply bind_ok in R2. destruct R2 as (r0 & R3 & R2). apply bind_ok in R2. destruct R2 as (mx & R4 & R2). rewrite R3. cbn [bind]. rewrite R4. cbn [bind].
    apply bind_ok in R2. destruct R2 as (u1 & _ & R2). apply bind_ok in R2. destruct R2 as (u2 & A2 & _).
    assert (mx = k). { destruct (mx =? k + 1 - 1) eqn:Q; [apply Z.eqb_eq in Q; lia | discriminate A2]. } subst mx.
    replace (k =? me_ncell m - 1) with false by (symmetry; apply Z.eqb_neq; exact NK). destruct (k <? me_ncell m); reflexivity.
  Qed.
End Write.

(** ** Meshes of cells *)
Lemma label_of_name k : good_name k -> good_label k.
Proof. intros (L & G). split; [lia | exact G]. Qed.

Section Cells.
  Context (tbl : sidetable) (types : list (string * nat)) (enum : list Z -> list Z) (IF : in_force tbl types) (SE : set_enum enum)
    (m : mesh Z) (c : econn) (CM : cell_mesh tbl types m c) (MA : marks_apart tbl m c) (MF : marks_fit4 (me_bocos m)).

  Definition with_ncell (m3 : mesh Z) (n : Z) : mesh Z := Mesh Z n (me_nnode m3) (me_nface m3) (me_cell2node m3) (me_faces m3) (me_nodes m3) (me_bocos m3).
  Lemma conv_writable4 m3 lb li rb ri k : conv_prepared tbl m c m3 lb li rb ri -> me_nnode m < 2 ^ 31 -> zlen lb + zlen li < 2 ^ 31 -> ends_at c k ->
    writable4 (FM (with_ncell m3 (k + 1)) (FDict []) (FDict []) [] None) (lb ++ li) (rb ++ ri).
  Proof using CM IF MF.
    intros V BN BF TOP. destruct (conv_numbers tbl types IF m c CM _ _ _ _ (vp_cells _ _ _ _ _ _ _ _ V)) as (NODES & RR & RC & RE).
    assert (LB := vp_lb _ _ _ _ _ _ _ _ V). assert (LP : 0 <= zlen li) by (unfold zlen; lia). assert (LT : zlen (lb ++ li) = zlen lb + zlen li) by apply zlen_app.
    assert (ZM := conv_zone_marks tbl types m c CM _ _ _ _ _ V). assert (ZM' : zone_marks (with_ncell m3 (k + 1)) = me_bocos m3) by exact ZM.
    assert (CK := conv_mark tbl types m c CM).
    assert (TP := conv_top tbl types IF m c CM _ _ _ _ _ k V TOP). apply py_max_ok in TP. destruct TP as (T1 & T2).
    assert (K0 : 0 <= k < 2 ^ 31). { assert (Q := cm_numbers _ _ _ _ CM). rewrite Forall_forall in Q. apply Q. apply TOP. }
    destruct (cm_coords _ _ _ _ CM) as (x & y & z & CO1 & CO2 & CO3 & CO4).
    constructor; cbn [fm_mesh with_ncell me_nnode me_ncell].
    - constructor; cbn [fm_mesh with_ncell me_ncell me_nface me_faces]; rewrite ?LT.
      + lia.
      + apply (vp_nface _ _ _ _ _ _ _ _ V).
      + lia.
      + destruct (vp_faces _ _ _ _ _ _ _ _ V) as [f F1 F2 F3 | nn b i lb' li' rb' ri' F1 F2 F3 F4 F5 F6 F7 F8 F9 F10 F11]; [eapply faces_mixed | eapply faces_split]; try eassumption.
      + eapply Forall_impl; [| exact NODES]. cbn beta. intros r (Q & _). exact Q.
      + exact RR.
      + apply all_concat. eapply Forall_impl; [| exact NODES]. cbn beta. intros r (_ & Q). eapply Forall_impl; [| exact Q]. cbn beta. intros n B. unfold int32. lia.
      + replace (k + 1 - 1) with k by lia. exact T1.
      + apply Forall_forall. intros y0 I. specialize (T2 y0 I). lia.
      + intros k0 b lo hi I MI. rewrite ZM' in I. destruct (CK _ _ _ _ _ k0 b V I) as (_ & _ & _ & (lo' & hi' & MI' & B1 & B2) & _). rewrite MI in MI'. injection MI' as <- <-. lia.
      + rewrite ZM'. apply Forall_forall. intros k0 I. apply in_map_iff in I. destruct I as ((k', b) & Q & I). cbn in Q. subst k'.
        destruct (CK _ _ _ _ _ k0 b V I) as (_ & _ & _ & _ & _ & G & _). apply label_of_name. exact G.
      + rewrite ZM'. exact (conv_keys tbl types m c CM _ _ _ _ _ V).
      + rewrite ZM'. intros I. apply in_map_iff in I. destruct I as ((k', b) & Q & I). cbn in Q. subst k'. destruct (CK _ _ _ _ _ _ b V I) as (_ & _ & _ & _ & _ & _ & _ & N). congruence.
    - exists x, y, z. unfold nodescoord in *. cbn [with_ncell me_nodes]. rewrite (vp_nodes _ _ _ _ _ _ _ _ V), (vp_nnode _ _ _ _ _ _ _ _ V). auto.
    - rewrite LT. exact BF.
    - eapply Forall_impl; [| exact RC]. cbn beta. intros n [-> | B]; [split; vm_compute; congruence |]. assert (Q := cm_numbers _ _ _ _ CM). rewrite Forall_forall in Q. specialize (Q n B). unfold int32. lia.
    - intros k0 b J. rewrite ZM' in J. destruct (CK _ _ _ _ _ k0 b V J) as (M1 & M2 & M3 & (lo & hi & MI & B1 & B2) & _).
      split; [exact M1 |]. split; [left; exact M2 |]. split; [exact M3 |]. split; [exists lo, hi; exact MI |].
      destruct (vp_marks _ _ _ _ _ _ _ _ V) as (zs & rest & E & F2 & R). rewrite E in J. apply in_app_or in J. destruct J as [J | J].
      + destruct (Forall2_in_r _ _ _ _ F2 J) as ((k1, b1) & I1 & H1 & _ & _ & _ & H5 & _). cbn [fst snd] in *. subst k1. rewrite H5.
        destruct (mk_perio b1) as [[l |] |] eqn:PE; [exact (MF k0 b1 l I1 PE) | exact I | exact I].
      + destruct R as [(-> & _) | (nodes & lo' & hi' & _ & _ & -> & _)]; [destruct J |]. destruct J as [J | []]. injection J as <- <-. exact I.
  Qed.

  Lemma conv_zones4 m3 lb li rb ri bs : conv_prepared tbl m c m3 lb li rb ri ->
    bs = List.map kept_on (zone_marks m3) ++ [("internal-domain"%string, internal_on (marks_end m3 + 1) (zlen (lb ++ li) - 1))] -> zones4_from_marks m lb li bs.
  Proof using CM.
    intros V ->. rewrite (conv_zone_marks tbl types m c CM _ _ _ _ _ V), (conv_marks_end tbl types m c CM _ _ _ _ _ V), zlen_app. destruct (vp_marks _ _ _ _ _ _ _ _ V) as (zs & rest & E & F2 & R).
    exists (List.map kept_on zs), (List.map kept_on rest). rewrite E, map_app, <- app_assoc. split; [do 2 f_equal; repeat f_equal; lia |]. split; [| split].
    - assert (NM : forall k b, In (k, b) (me_bocos m) -> mk_name b = k) by (intros k b I; apply (cm_marks _ _ _ _ CM k b I)).
      clear -F2 NM. induction F2 as [| (k, b) (k', b') l l' H F IH]; [constructor |]. cbn [List.map]. constructor; [| apply IH; intros; apply NM; right; assumption].
      destruct H as (H1 & H2 & H3 & H4 & H5 & lo & hi & H6 & H7 & H8 & H9). cbn [fst snd] in *. exists lo, hi. split; [| auto].
      unfold kept_on, perio3. cbn [fst snd]. rewrite H1, H4, H5, H6. reflexivity.
    - intros ALL. destruct R as [(-> & _) | (nodes & lo & hi & I & N & _)]; [reflexivity |]. destruct (ALL nodes I) as (k & b & IB & SP). destruct (N k b IB SP).
    - intros (nodes & I & N). destruct R as [(_ & ALL) | (nodes' & lo & hi & _ & _ & -> & L1 & L2 & K)].
      + destruct (ALL nodes I) as (k & b & IB & SP). destruct (N k b IB SP).
      + eexists. split; [reflexivity |]. exists lo, hi. split; [reflexivity | auto].
  Qed.

  Theorem conv4 i2d narrow host endian k : In endian ["native"; "little"; "big"]%string -> me_nnode m < 2 ^ 31 -> all_sides tbl c < 2 ^ 31 -> ends_at c k ->
    exists mf fm' lb li rb ri, write4 i2d narrow tbl enum host endian false (FM m (FDict []) (FDict []) [] None) = (Ok (mf, None), fm') /\
      faces_from_cells tbl c lb li rb ri /\
      m4_cells mf = Some (List.map (fun '(t, ed) => (t, ed_e2n ed)) (ec_dict c)) /\
      (k = me_ncell m - 1 -> exists fm2, read4 mf None = Ok fm2 /\ converted4 m lb li rb ri fm2) /\
      (k <> me_ncell m - 1 -> forall sol, read4 mf sol = Err AssertionError).
  Proof using CM IF MF MA SE.
    intros IE BN BS TOP. destruct (conv_prepare tbl types enum IF SE m c CM MA) as (m3 & lb & li & rb & ri & PM & V).
    assert (BF := conv_face_count tbl types IF m c CM _ _ _ _ _ V BS). assert (WR := conv_writable4 _ _ _ _ _ _ V BN BF TOP).
    destruct (Z.eq_dec k (me_ncell m - 1)) as [K | NK].
    - assert (EE : with_ncell m3 (k + 1) = m3).
      { unfold with_ncell. replace (k + 1) with (me_ncell m3) by (rewrite (vp_ncell _ _ _ _ _ _ _ _ V); lia). destruct m3. reflexivity. }
      rewrite EE in WR.
      destruct (tiled4 i2d narrow tbl enum host endian false (FM m (FDict []) (FDict []) [] None) m3 _ _ IE PM WR) as (mf & so & W & SO & CE & (fm2 & RD & D1 & D2 & D3) & MB); [discriminate |].
      destruct SO as (_ & SO). specialize (SO eq_refl). subst so. exists mf, (FM m3 (FDict []) (FDict []) [] None), lb, li, rb, ri. split; [exact W |].
      split; [apply (vp_cells _ _ _ _ _ _ _ _ V) |]. split; [rewrite CE; cbn [fm_mesh]; rewrite (cm_cells _ _ _ _ CM); reflexivity |]. split; [| congruence].
      intros _. exists fm2. split; [exact RD |]. destruct (MB _ _ RD) as (MS & ZB).
      assert (ZM := conv_zone_marks tbl types m c CM _ _ _ _ _ V).
      assert (NE : zone_marks m3 <> []).
      { rewrite ZM. intros Q. assert (A := vp_all _ _ _ _ _ _ _ _ V). unfold all_marked in A. rewrite Q in A. assert (P := vp_lb _ _ _ _ _ _ _ _ V). cbn in A. lia. }
      specialize (ZB NE). rewrite ZM in ZB. specialize (ZB (vp_cont _ _ _ _ _ _ _ _ V)). rewrite <- ZM in ZB.
      destruct MS as [S1 S2 S3 S4 S5 S6 S7 S8]. cbn [fm_mesh] in *.
      constructor.
      + rewrite S1. apply (vp_ncell _ _ _ _ _ _ _ _ V).
      + rewrite S2. apply (vp_nnode _ _ _ _ _ _ _ _ V).
      + rewrite S3. apply (vp_nface _ _ _ _ _ _ _ _ V).
      + rewrite S4. unfold nodescoord. rewrite (vp_nodes _ _ _ _ _ _ _ _ V). reflexivity.
      + exact S5.
      + exact S6.
      + exact (conv_zones4 _ _ _ _ _ _ V ZB).
      + auto.
      + auto.
    - destruct (mesh4_written i2d narrow _ _ _ WR) as (w' & mf' & W' & WM').
      assert (WX : exists w mf, writer_state (FM m3 (FDict []) (FDict []) [] None) = Ok w /\ write_mesh4 narrow m3 w = Ok mf).
      { unfold writer_state in W'. cbn [fm_mesh fm_cells fm_nodes fm_params fm_part] in W'. change (nodescoord (with_ncell m3 (k + 1))) with (nodescoord m3) in W'. change (writer_faces (with_ncell m3 (k + 1))) with (writer_faces m3) in W'.
        unfold writer_state. cbn [fm_mesh fm_cells fm_nodes fm_params fm_part].
        apply bind_ok in W'. destruct W' as (((x & y) & z) & C1 & W'). rewrite C1. cbn [bind]. apply bind_ok in W'. destruct W' as (co & C2 & W'). rewrite C2. cbn [bind].
        apply bind_ok in W'. destruct W' as (u & C3 & W'). change (me_nnode (with_ncell m3 (k + 1))) with (me_nnode m3) in C3. rewrite C3. cbn [bind].
        apply bind_ok in W'. destruct W' as ((zf & f2e) & C4 & W'). rewrite C4. cbn [bind]. apply ok_inj in W'. subst w'.
        unfold write_mesh4 in WM'. cbn [w_f2e w_bocos w_fa fm_mesh] in WM'.
        apply bind_ok in WM'. destruct WM' as (f & F1 & WM'). apply bind_ok in WM'. destruct WM' as (cv & F2 & WM'). apply bind_ok in WM'. destruct WM' as (b & F3 & _).
        change (me_nface (with_ncell m3 (k + 1))) with (me_nface m3) in F3. change (me_bocos (with_ncell m3 (k + 1))) with (me_bocos m3) in F3.
        eexists. eexists. split; [reflexivity |]. unfold write_mesh4. cbn [w_f2e w_bocos w_fa]. rewrite F1. cbn [bind]. rewrite F2. cbn [bind]. rewrite F3. cbn [bind]. reflexivity. }
      destruct WX as (w & mf & W & WM).
      exists mf, (FM m3 (FDict []) (FDict []) [] None), lb, li, rb, ri. split; [| split; [apply (vp_cells _ _ _ _ _ _ _ _ V) | split; [| split; [congruence |]]]].
      + unfold write4. cbn [fm_mesh fm_cells fm_nodes fm_params fm_part]. rewrite PM.
        assert (OE : exists o, order_of host endian = Ok o). { cbn [In] in IE. destruct IE as [<- | [<- | [<- | []]]]; eexists; reflexivity. }
        destruct OE as (o & ->). cbn [bind]. rewrite W. cbn [bind]. rewrite WM. reflexivity.
      + unfold write_mesh4 in WM. apply bind_ok in WM. destruct WM as (f2e & _ & WM). apply bind_ok in WM. destruct WM as (cv & _ & WM). apply bind_ok in WM. destruct WM as (b & _ & WM). apply ok_inj in WM. subst mf. cbn [m4_cells].
        rewrite (prepare_cells _ _ _ _ _ PM), (cm_cells _ _ _ _ CM). reflexivity.
      + intros _. apply (misnumbered4 i2d narrow m3 (lb ++ li) (rb ++ ri) k w mf (FDict []) (FDict []) [] None WR); [rewrite (vp_ncell _ _ _ _ _ _ _ _ V); exact NK | exact W | exact WM].
  Qed.
End Cells.

(** ** Meshes read from the files of the other versions *)
Section Files.
  Context (i2d : Z -> Z) (f2i : Z -> res Z) (patterns : forall n, pattern (i2d n)).

  Lemma read_params v ls w (c : Ic3PartsProofs.converted i2d f2i w) : Forall good_name (wgt_names (w_wgt w)) ->
    let p := dupdate (params_of (Ic3RoundProofs.expected i2d f2i Little v ls c)) (Ic3RoundProofs.exp_sim i2d f2i c) in
    NoDup (List.map fst p) /\ forall k x, In (k, x) p -> weight_name k -> exists y, x = SNum (NFlt y).
  Proof.
    intros G p. split.
    - apply dset_all_nodup. unfold params_of. cbn [List.map fst]. repeat (constructor; [cbn; intuition discriminate |]). constructor.
    - intros k x I W. assert (Q : forall l (d : dict string sval), In (k, x) (dset_all d l) -> In (k, x) d \/ In (k, x) l).
      { clear. induction l as [| (k', x') l IH]; intros d I; [left; exact I |]. apply (IH (dset String.eqb k' x' d)) in I. destruct I as [I | I]; [| right; right; exact I].
        apply in_dset in I. destruct I as [(-> & ->) | I]; [right; left; reflexivity | left; exact I]. }
      apply (Q _ _) in I. destruct I as [I | I].
      + exfalso. apply (not_weight k); [| exact W]. unfold params_of in I. cbn [In] in I |- *. repeat (destruct I as [I | I]; [injection I as <- _; auto 20 |]). destruct I.
      + rewrite exp_sim_eq in I. apply Q in I. destruct I as [I | I].
        * exfalso. apply ends_wgt in W. cbn [In] in I. repeat (destruct I as [I | I]; [injection I as <- _; discriminate W |]). destruct I.
        * apply in_map_iff in I. destruct I as ((k', y) & E & _). injection E as _ <-. exists y. reflexivity.
  Qed.

  Lemma first_file tbl enum host v endian fm m ls rows :
    In endian byte_orders -> prepare_mesh tbl enum (fm_mesh fm) = (Ok tt, m) ->
    let fm' := FM m (fm_cells fm) (fm_nodes fm) (fm_params fm) (fm_part fm) in
    writable f2i v fm' ls rows -> located fm' ls ->
    exists f fm1, write_mesh tbl enum i2d f2i host v endian fm = (Ok f, fm') /\ (forall integrity, read_mesh integrity f = Ok fm1) /\
      read_as i2d f2i v fm' fm1 ls rows /\ writable f2i v fm1 ls rows /\
      (forall tbl' enum', prepare_mesh tbl' enum' (fm_mesh fm1) = (Ok tt, fm_mesh fm1)) /\
      zone_marks (fm_mesh fm1) = List.map zone_back (zone_marks m) /\ me_cell2node (fm_mesh fm1) = None /\
      NoDup (List.map fst (fm_params fm1)) /\ (forall k x, In (k, x) (fm_params fm1) -> weight_name k -> exists y, x = SNum (NFlt y)).
  Proof using patterns.
    intros IE P fm' WR LOC. destruct (C34_written i2d f2i patterns tbl enum host v endian fm m ls rows IE P WR LOC) as (f & fm1 & W & RD & RA). fold fm' in W, RA.
    exists f, fm1. split; [exact W |]. split; [exact RD |]. split; [exact RA |].
    destruct (write_mesh_data _ _ _ _ _ _ _ _ _ _ W) as (o & w & _ & WS & WD).
    destruct (first_read i2d f2i v o fm' ls rows w f patterns WR LOC WS WD) as (fm1' & cv & no & x & y & z & con & zs & n & lc & ln & RD' & SH & WR1 & LOC1).
    assert (fm1' = fm1) by (specialize (RD true); specialize (RD' true); congruence). subst fm1'.
    split; [exact WR1 |]. split; [intros tbl' enum'; exact (shaped_prepare _ _ _ _ _ _ _ _ _ _ _ _ _ _ tbl' enum' SH) |].
    split; [| split; [rewrite (sp_mesh _ _ _ _ _ _ _ _ _ _ _ _ _ _ SH); reflexivity |]].
    - rewrite (shaped_zones _ _ _ _ _ _ _ _ _ _ _ _ _ _ SH). assert (E := ra_marks _ _ _ _ _ _ _ RA). rewrite (sp_mesh _ _ _ _ _ _ _ _ _ _ _ _ _ _ SH) in E. cbn [me_bocos] in E.
      apply app_inj_tail in E. apply E.
    - destruct (writer_state_ok fm' w WS) as (_ & _ & _ & _ & _ & _ & _ & _ & _ & E1 & E2 & E3 & _ & _ & _ & _ & _ & _ & _ & _ & E12 & E13 & E14).
      assert (M := wr_file _ _ _ _ _ WR). destruct (read_mesh_back i2d f2i v o fm' ls rows w f patterns (wr_typed _ _ _ _ _ WR) M) as (x0 & y0 & z0 & con0 & mt & c & _ & _ & _ & _ & _ & _ & _ & _ & _ & RM); try assumption.
      { rewrite E14, E3, E1, E2, (fi_nface _ _ _ _ M). destruct LOC as [A | A]; auto. }
      destruct (good_parts v fm' ls rows M) as (_ & GW & _). rewrite <- E12 in GW.
      specialize (RM true). rewrite (RD true) in RM. apply ok_inj in RM. subst fm1. unfold mesh_back. cbn [fm_params]. exact (read_params v ls w c GW).
  Qed.

  Lemma writable_writable4 v fm1 ls rows : writable f2i v fm1 ls rows -> marks_fit4 (zone_marks (fm_mesh fm1)) -> writable4 fm1 ls rows.
  Proof.
    intros WR NR. assert (M := wr_file _ _ _ _ _ WR).
    assert (FN := fi_names _ _ _ _ M). unfold mesh_names in FN. rewrite !Forall_app in FN. destruct FN as (G1 & _).
    constructor.
    - constructor; try apply M.
      + exact (wr_nodes _ _ _ _ _ WR).
      + eapply Forall_impl; [| exact G1]. cbn beta. intros k (G & _). apply label_of_name. exact G.
    - exact (wr_coords _ _ _ _ _ WR).
    - apply (wr_counts _ _ _ _ _ WR).
    - exact (wr_cells _ _ _ _ _ WR).
    - intros k b I. destruct (wr_marks _ _ _ _ _ WR k b I) as (M1 & M2 & M3 & (lo & hi & M4 & _) & _).
      split; [exact M1 |]. split; [tauto |]. split; [exact M3 |]. split; [eauto |].
      destruct (mk_perio b) as [[l |] |] eqn:PE; [exact (NR k b l I PE) | exact Logic.I | exact Logic.I].
  Qed.
  Lemma read_writable4 v fm1 bs ls rows : writable f2i v fm1 ls rows -> zone_marks (fm_mesh fm1) = List.map zone_back bs ->
    (forall k, In k (List.map fst bs) -> ~ In k ["labels"; "offsets"; "kinds"]%string) -> writable4 fm1 ls rows.
  Proof.
    intros WR ZM NR. apply (writable_writable4 v); [exact WR |]. intros k b l I PE. rewrite ZM in I. apply in_map_iff in I. destruct I as ((k0, b0) & E & I). unfold zone_back in E. cbn [fst snd] in E. injection E as <- <-. cbn [mk_perio] in PE. injection PE as <-. split.
    - set (l := match mk_perio b0 with Some (Some l) => l | _ => [] end). clearbody l. unfold zlen. rewrite app_length. destruct l as [| x1 [| x2 [| x3 l]]]; cbn [List.length]; cbn; lia.
    - apply NR. apply in_map_iff. exists (k0, b0). auto.
  Qed.

  Lemma zone_back_kept kb : match mk_perio (snd kb) with Some (Some l) => zlen l <= 16 | _ => True end -> mk_name (snd kb) = fst kb ->
    kept_on (zone_back kb) = zone4_back kb.
  Proof.
    destruct kb as (k, b). cbn [fst snd]. intros L E. unfold kept_on, zone_back, zone4_back, perio3. cbn [fst snd mk_name mk_type mk_index mk_perio].
    set (l := match mk_perio b with Some (Some l) => l | _ => [] end).
    assert (Q : (List.length l <= 16)%nat). { unfold l. destruct (mk_perio b) as [[l0 |] |]; cbn; unfold zlen in L; lia. }
    clearbody l. do 4 f_equal. destruct l as [| x1 [| x2 [| x3 l]]]; reflexivity.
  Qed.
  Lemma back_end m m1 : zone_marks m1 = List.map zone_back (zone_marks m) -> marks_end m1 = marks_end m.
  Proof.
    intros E. unfold marks_end. rewrite E. clear E. f_equal. induction (zone_marks m) as [| (k, b) l IH]; [reflexivity |]. cbn [List.map flat_map zone_back fst snd mk_index]. f_equal. exact IH.
  Qed.
  Lemma back_row m m1 : zone_marks m1 = List.map zone_back (zone_marks m) -> in_a_row m -> in_a_row m1.
  Proof.
    intros E (N & C). unfold in_a_row. rewrite E. split; [intros Q; apply map_eq_nil in Q; congruence |]. clear -C. revert C. generalize 0 as s.
    induction (zone_marks m) as [| (k, b) l IH]; intros s C; [exact I |]. cbn [List.map snd contiguous zone_back mk_index] in *. destruct C as (hi & IX & LH & C). exists hi. auto.
  Qed.

  Context (narrow : Z -> Z).
  (** From a file of version 2 or 3 to files of version 4. *)
  Theorem ic3_to_v4 tbl enum host v endian tbl' enum' host' endian' solution fm m ls rows :
    In endian byte_orders -> In endian' byte_orders -> prepare_mesh tbl enum (fm_mesh fm) = (Ok tt, m) ->
    let fm' := FM m (fm_cells fm) (fm_nodes fm) (fm_params fm) (fm_part fm) in
    writable f2i v fm' ls rows -> located fm' ls ->
    (forall k, In k (List.map fst (zone_marks m)) -> ~ In k ["labels"; "offsets"; "kinds"]%string) ->
    (solution = true -> forall s t, In s (List.map fst (fd_items (fm_cells fm))) -> In t (List.map fst (fd_items (fm_cells fm))) ->
       stat_name s -> stat_name t -> lower s = lower t -> s = t) ->
    exists f fm1 mf so, write_mesh tbl enum i2d f2i host v endian fm = (Ok f, fm') /\ (forall integrity, read_mesh integrity f = Ok fm1) /\ read_as i2d f2i v fm' fm1 ls rows /\
      write4 i2d narrow tbl' enum' host' endian' solution fm1 = (Ok (mf, so), fm1) /\ (so = None <-> solution = false) /\ m4_cells mf = None /\ mesh4_ok fm1 ls rows /\ (solution = true -> keyed fm1) /\
      (exists fm2, read4 mf None = Ok fm2 /\ fd_items (fm_cells fm2) = [] /\
        dget String.eqb "step" (fm_params fm2) = Some (SNum (NInt 0)) /\ dget String.eqb "time" (fm_params fm2) = Some (SNum (NInt 0))) /\
      forall sol fm2, read4 mf sol = Ok fm2 -> mesh_as fm' fm2 ls rows /\
        (in_a_row m -> me_bocos (fm_mesh fm2) = List.map zone4_back (zone_marks m) ++ [("internal-domain"%string, internal_on (marks_end m + 1) (zlen ls - 1))]).
  Proof using patterns.
    intros IE IE' PR fm' WR LOC NR NC. destruct (first_file tbl enum host v endian fm m ls rows IE PR WR LOC) as (f & fm1 & W & RD & RA & WR1 & PM & ZM & CN & NDP & PW). fold fm' in W, RA.
    assert (W4 := read_writable4 v fm1 _ ls rows WR1 ZM NR).
    assert (E1 : FM (fm_mesh fm1) (fm_cells fm1) (fm_nodes fm1) (fm_params fm1) (fm_part fm1) = fm1) by (destruct fm1; reflexivity).
    assert (KY : keyed fm1). { split; [exact NDP |]. apply (fi_keys _ _ _ _ (wr_file _ _ _ _ _ WR1)). }
    destruct (tiled4 i2d narrow tbl' enum' host' endian' solution fm1 (fm_mesh fm1) ls rows IE' (PM tbl' enum')) as (mf & so & W4' & SO & CE & RN & MB).
    { rewrite E1. exact W4. }
    { intros ->. split; [| exact KY]. constructor.
      - destruct (ra_step _ _ _ _ _ _ _ RA) as (n & G & _). destruct (wr_step _ _ _ _ _ WR1) as (n' & AI & I64). unfold param in *. rewrite G in *. cbn in AI |- *. subst n'. unfold int64 in I64. lia.
      - destruct (ra_time _ _ _ _ _ _ _ RA) as (x & G & _). unfold param. rewrite G. exact I.
      - intros k x I W0. destruct (PW k x I W0) as (y & ->). exact Logic.I.
      - intros s t I J. apply (ra_cell_names _ _ _ _ _ _ _ RA) in I. apply (ra_cell_names _ _ _ _ _ _ _ RA) in J. exact (NC eq_refl s t I J). }
    rewrite E1 in W4', MB. exists f, fm1, mf, so. split; [exact W |]. split; [exact RD |]. split; [exact RA |]. split; [exact W4' |]. split; [exact SO |].
    split; [rewrite CE, CN; reflexivity |]. split; [apply W4 |]. split; [intros _; exact KY |]. split; [exact RN |].
    intros sol fm2 R. destruct (MB sol fm2 R) as (MS & ZB). split.
    - destruct MS as [S1 S2 S3 S4 S5 S6 S7 S8]. destruct RA as [R1 R2 R3 R4]. constructor; [rewrite S1; exact R1 | rewrite S2; exact R2 | rewrite S3; exact R3 | rewrite S4; exact R4 | exact S5 | exact S6 | exact S7 | exact S8].
    - intros RW. destruct (back_row _ _ ZM RW) as (N & C). rewrite (ZB N C), ZM, (back_end _ _ ZM), map_map. f_equal. apply map_ext_in. intros (k, b) I.
      destruct (wr_marks _ _ _ _ _ WR k b I) as (M1 & _ & _ & _ & M5). apply zone_back_kept; assumption.
  Qed.

  Lemma kept_doubles v n a : array_doubles i2d (scalar_back i2d v n a) = array_doubles i2d a /\ List.length (a_val (scalar_back i2d v n a)) = List.length (a_val a).
  Proof.
    unfold scalar_back, array_doubles, kept_int. destruct v; [cbn; split; [reflexivity |]; destruct (a_int a); [apply map_length | reflexivity] |].
    destruct (a_int a) eqn:E; cbn; split; reflexivity.
  Qed.

  Theorem ic3_solution tbl enum host v endian tbl' enum' host' endian' fm m ls rows :
    In endian byte_orders -> In endian' byte_orders -> prepare_mesh tbl enum (fm_mesh fm) = (Ok tt, m) ->
    let fm' := FM m (fm_cells fm) (fm_nodes fm) (fm_params fm) (fm_part fm) in
    writable f2i v fm' ls rows -> located fm' ls ->
    (forall k, In k (List.map fst (zone_marks m)) -> ~ In k ["labels"; "offsets"; "kinds"]%string) ->
    (forall s t, In s (List.map fst (fd_items (fm_cells fm))) -> In t (List.map fst (fd_items (fm_cells fm))) ->
       stat_name s -> stat_name t -> lower s = lower t -> s = t) ->
    (forall name, In name ["RHO"; "RHOU"; "RHOE"]%string -> In name (List.map fst (fd_items (fm_cells fm)))) ->
    exists f fm1 mf s fm2, write_mesh tbl enum i2d f2i host v endian fm = (Ok f, fm') /\ (forall integrity, read_mesh integrity f = Ok fm1) /\
      write4 i2d narrow tbl' enum' host' endian' true fm1 = (Ok (mf, Some s), fm1) /\ m4_cells mf = None /\ read4 mf (Some s) = Ok fm2 /\
      mesh_as fm' fm2 ls rows /\ solution_kept i2d f2i fm' fm2 /\
      (in_a_row m -> me_bocos (fm_mesh fm2) = List.map zone4_back (zone_marks m) ++ [("internal-domain"%string, internal_on (marks_end m + 1) (zlen ls - 1))]).
  Proof using patterns.
    intros IE IE' PR fm' WR LOC NR NC AL.
    destruct (ic3_to_v4 tbl enum host v endian tbl' enum' host' endian' true fm m ls rows IE IE' PR WR LOC NR (fun _ => NC)) as (f & fm1 & mf & so & W & RD & RA & W4 & SO & CE & MO & KY & _ & MB). fold fm' in W, RA, MB.
    destruct so as [s |]; [| destruct SO as (SO & _); specialize (SO eq_refl); discriminate SO]. specialize (KY eq_refl).
    assert (DC := wr_cdata _ _ _ _ _ WR). unfold data_complete in DC. rewrite Forall_forall in DC.
    assert (CV : me_ncell (fm_mesh fm1) = me_ncell (fm_mesh fm')) by apply RA. assert (C1 := fi_ncell _ _ _ _ (wr_file _ _ _ _ _ WR)).
    (* each variable is read *)
    assert (VAR : forall name a, In (name, a) (fd_items (fm_cells fm')) -> exists a1, dget String.eqb name (fd_items (fm_cells fm1)) = Some a1 /\
              array_doubles i2d a1 = array_doubles i2d a /\ zlen (a_val a1) = zlen (a_val a)).
    { intros name a I. destruct (DC (name, a) I) as ([S | [S | S]] & _).
      - destruct (ra_cells _ _ _ _ _ _ _ RA name a _ I S) as (_ & G). eexists. split; [exact G |]. destruct (kept_doubles v (cell_total v fm') a) as (K1 & K2). split; [exact K1 |]. unfold zlen. rewrite K2. reflexivity.
      - destruct (ra_vectors _ _ _ _ _ _ _ RA name a _ I S) as (_ & G). eexists. split; [exact G |]. split; [reflexivity |]. cbn [a_val]. unfold array_doubles, zlen. destruct (a_int a); [rewrite map_length |]; reflexivity.
      - destruct (ra_tensors _ _ _ _ _ _ _ RA name a _ I S) as (_ & G). eexists. split; [exact G |]. split; [reflexivity |]. cbn [a_val]. unfold array_doubles, zlen. destruct (a_int a); [rewrite map_length |]; reflexivity. }
    assert (UN : forall name a, In (name, a) (fd_items (fm_cells fm1)) -> dget String.eqb name (fd_items (fm_cells fm1)) = Some a).
    { intros name a I. apply (in_dget _ seqb_eq); [| exact I]. apply KY. }
    destruct (C44_solution i2d narrow tbl' enum' host' endian' fm1 mf s fm1 ls rows W4 MO KY) as (fm2 & R2 & SA).
    { intros name I. specialize (AL name I). apply in_map_iff in AL. destruct AL as ((k, a) & E & J). cbn in E. subst k. destruct (VAR name a J) as (a1 & G & _). apply dget_in in G. apply in_map_iff. exists (name, a1). auto. }
    { intros name a (I & _). assert (J := ra_cell_names _ _ _ _ _ _ _ RA name (in_map fst _ _ I)). apply in_map_iff in J. destruct J as ((k, a0) & E & J). cbn in E. subst k.
      destruct (VAR name a0 J) as (a1 & G & _ & L). rewrite (UN name a I) in G. injection G as <-. unfold per_cell. rewrite L, CV.
      destruct (DC (name, a0) J) as (S & _). assert (TY := wr_typed _ _ _ _ _ WR). destruct TY as (_ & _ & _ & _ & _ & _ & TC & _). unfold data_typed in TC. rewrite Forall_forall in TC. destruct (TC (name, a0) J) as (WF & _).
      unfold a_wf in WF. destruct v; cbn [cell_total] in S.
      - destruct S as [S | [S | S]]; rewrite S in WF; cbn [fold_right] in WF; [exists 1 | exists 3 | exists 9]; (split; [lia |]); rewrite WF; ring.
      - set (d := data_ndof (fm_cells fm')) in *. assert (D1 : 1 <= d) by apply (fi_ndof _ _ _ _ (wr_file _ _ _ _ _ WR)). set (cv := me_ncell (fm_mesh fm')) in *.
        destruct S as [S | [S | S]]; rewrite S in WF; cbn [fold_right] in WF; [exists d | exists (3 * d) | exists (9 * d)]; (split; [lia |]); rewrite WF; ring. }
    exists f, fm1, mf, s, fm2. split; [exact W |]. split; [exact RD |]. split; [exact W4 |]. split; [exact CE |]. split; [exact R2 |]. destruct (MB _ _ R2) as (MS & ZB). split; [exact MS |]. split; [| exact ZB].
    assert (VB : forall k a a1, array_doubles i2d a1 = array_doubles i2d a -> var_back i2d (me_ncell (fm_mesh fm1)) k a1 = var_back i2d (me_ncell (fm_mesh fm')) k a).
    { intros k a a1 E. unfold var_back. rewrite E, CV. reflexivity. }
    constructor.
    - intros name a k IN I PC. destruct (VAR name a I) as (a1 & G & A & L). rewrite <- (VB k a a1 A). apply (s4s_conserved _ _ _ SA); [exact IN | exact G |]. unfold per_cell in *. rewrite L, CV. exact PC.
    - intros name a k I ST PC. destruct (VAR name a I) as (a1 & G & A & L). rewrite <- (VB k a a1 A). apply (s4s_stats _ _ _ SA); [apply dget_in in G; exact G | exact ST |]. unfold per_cell in *. rewrite L, CV. exact PC.
    - intros name I. destruct (s4s_names _ _ _ SA name I) as [Q | (t & J & ST & E)]; [left; exact Q |]. right. exists t. split; [apply (ra_cell_names _ _ _ _ _ _ _ RA); exact J | auto].
    - destruct (ra_step _ _ _ _ _ _ _ RA) as (n & G & A). exists n. split; [exact A |]. rewrite (s4s_step _ _ _ SA). unfold param. rewrite G. reflexivity.
    - destruct (ra_time _ _ _ _ _ _ _ RA) as (x & G & A). exists x. split; [exact A |]. rewrite (s4s_time _ _ _ SA). unfold param. rewrite G. reflexivity.
    - intros d t k x DW ND I ST IX. destruct (C39_weights i2d f2i patterns tbl enum host v endian fm f fm' ls rows d W (wr_typed _ _ _ _ _ WR) (wr_file _ _ _ _ _ WR) LOC DW ND) as (fm1' & RD' & WT & _).
      assert (fm1' = fm1) by (specialize (RD true); specialize (RD' true); congruence). subst fm1'.
      destruct (WT k x IX) as (y & A & G). exists y. split; [exact A |]. rewrite <- G. apply in_map_iff in I. destruct I as ((t', a) & E & J). cbn in E. subst t'. destruct (VAR t a J) as (a1 & G1 & _).
      apply (s4s_weights _ _ _ SA _ t); [| apply dget_in in G1; apply in_map_iff; exists (t, a1); auto | exact ST].
      unfold lower. rewrite smap_app. eexists. reflexivity.
  Qed.
End Files.

Lemma tables_kept c mf : m4_cells mf = Some (List.map (fun '(t, ed) => (t, ed_e2n ed)) (ec_dict c)) -> cell_tables c mf.
Proof. intros E. eexists. split; [exact E |]. clear E. induction (ec_dict c) as [| (t, ed) l IH]; [constructor |]. cbn [List.map]. constructor; [split; reflexivity | exact IH]. Qed.

(** ** Boxes *)
Section Box.
  Context (nx ny nz : Z) (Hx : 1 <= nx) (Hy : 1 <= ny) (Hz : 1 <= nz) (fdiv : Z -> Z -> Z).
  Lemma box_row bs : List.map (fun kb : string * mark Z => (fst kb, mk_index (snd kb))) bs = cube_ranges nx ny nz -> bs <> [] /\ contiguous 0 (List.map snd bs).
  Proof using Hx Hy Hz.
    clear fdiv. intros E. assert (1 <= nx * ny /\ 1 <= ny * nz /\ 1 <= nx * nz) as (A1 & A2 & A3) by nia. unfold cube_ranges in E. cbn zeta in E.
    split; [intros ->; discriminate E |]. repeat (destruct bs as [| (?k & ?b) bs]; [discriminate E |]; cbn [List.map fst snd] in E). destruct bs as [|]; [| discriminate E]. 
    assert (X := fun n => f_equal (fun l => nth n (List.map snd l) None) E). cbn [List.map snd] in X.
    assert (E1 := X 0%nat). assert (E2 := X 1%nat). assert (E3 := X 2%nat). assert (E4 := X 3%nat). assert (E5 := X 4%nat). assert (E6 := X 5%nat). cbn [nth] in E1, E2, E3, E4, E5, E6. clear X E.
    cbn [List.map snd contiguous]. rewrite E1, E2, E3, E4, E5, E6.
    clear E1 E2 E3 E4 E5 E6. revert A1 A2 A3. generalize (nx * ny) (ny * nz) (nx * nz). intros c a d A1 A2 A3.
    assert (ST : forall (P : Z -> Prop) lo hi s, lo = s -> s <= hi -> P hi -> exists h, Some (ILrange lo hi) = Some (ILrange s h) /\ s <= h /\ P h) by (intros P lo hi s -> L H; exists hi; auto).
    do 6 (apply ST; [lia | lia |]). exact I.
  Qed.
  Theorem box4 i2d narrow tbl types enum host endian m : (forall i n, pattern (fdiv i n)) ->
    in_force tbl types -> set_enum enum -> In endian byte_orders -> 2 <= nx * ny * nz ->
    cube_export nx ny nz fdiv = Ok m -> (nx + 1) * (ny + 1) * (nz + 1) < 2 ^ 31 -> cube_nface nx ny nz < 2 ^ 31 ->
    exists mf fm' fm2, write4 i2d narrow tbl enum host endian false (FM m (FDict []) (FDict []) [] None) = (Ok (mf, None), fm') /\
      m4_cells mf = option_map (fun c => List.map (fun '(t, ed) => (t, ed_e2n ed)) (ec_dict c)) (me_cell2node m) /\
      read4 mf None = Ok fm2 /\ cube_read nx ny nz fdiv fm2.
  Proof using Hx Hy Hz.
    intros PT IF SE IE H2 E BN BF. destruct (cube_prepare nx ny nz Hx Hy Hz fdiv tbl types enum m IF SE H2 E) as (m3 & gb & gi & lb & li & rb & ri & PM & C).
    assert (WR := cube_writable nx ny nz Hx Hy Hz fdiv (fun _ => Err OverflowError) V2 m m3 gb gi lb li rb ri E C PT BN BF).
    assert (ZM := cube_zone_marks nx ny nz _ _ _ _ _ _ _ _ C).
    destruct (tiled4 i2d narrow tbl enum host endian false (FM m (FDict []) (FDict []) [] None) m3 (lb ++ li) (rb ++ ri) IE PM) as (mf & so & W & SO & CE & (fm2 & RD & D1 & _) & MB); [| discriminate |].
    { cbn [fm_cells fm_nodes fm_params fm_part]. apply (writable_writable4 (fun _ => Err OverflowError) V2); [exact WR |]. intros k b l I PE. cbn [fm_mesh] in I. rewrite ZM in I. destruct (cp_marks _ _ _ _ _ _ _ _ _ _ _ C k b I) as (_ & _ & _ & Q). congruence. }
    destruct SO as (_ & SO). specialize (SO eq_refl). subst so. exists mf, (FM m3 (FDict []) (FDict []) [] None), fm2. split; [exact W |]. split; [exact CE |]. split; [exact RD |].
    destruct (MB _ _ RD) as (MS & ZB). destruct MS as [S1 S2 S3 S4 S5 S6 S7 S8]. cbn [fm_mesh fm_cells fm_nodes fm_params fm_part] in *.
    destruct (cube_ok nx ny nz Hx Hy Hz fdiv) as (m0 & E0 & CU). rewrite E in E0. injection E0 as <-.
    assert (TOT := cube_total nx ny nz Hx Hy Hz gb gi (cp_gb _ _ _ _ _ _ _ _ _ _ _ C) (cp_gi _ _ _ _ _ _ _ _ _ _ _ C)).
    constructor.
    - rewrite S1. apply (cp_ncell _ _ _ _ _ _ _ _ _ _ _ C).
    - rewrite S2. apply (cp_nnode _ _ _ _ _ _ _ _ _ _ _ C).
    - rewrite S3, (cp_nface _ _ _ _ _ _ _ _ _ _ _ C). exact TOT.
    - destruct (cu_coords _ _ _ _ _ _ CU) as (x & y & z & (N & X & Y & ZZ) & Q). exists x, y, z. split; [| exact Q].
      unfold MeshSpec.coords_ok. rewrite S4, S2. unfold nodescoord in *.
      rewrite (cp_nodes _ _ _ _ _ _ _ _ _ _ _ C), (cp_nnode _ _ _ _ _ _ _ _ _ _ _ C), <- (cu_nnode _ _ _ _ _ _ CU). auto.
    - destruct S5 as (fs & F1 & F2). exists fs, gb, gi, (lb ++ li), rb, ri.
      split; [exact F1 |]. split; [exact F2 |]. split; [apply (cp_gb _ _ _ _ _ _ _ _ _ _ _ C) |]. split; [apply (cp_gi _ _ _ _ _ _ _ _ _ _ _ C) |].
      split; [apply (boundary_count nx ny nz Hx Hy Hz gb (cp_gb _ _ _ _ _ _ _ _ _ _ _ C)) |].
      split; [apply Forall2_app; [apply (cp_lb _ _ _ _ _ _ _ _ _ _ _ C) | apply (cp_li _ _ _ _ _ _ _ _ _ _ _ C)] |].
      split; [apply (cp_rb _ _ _ _ _ _ _ _ _ _ _ C) |]. split; [apply (cp_ri _ _ _ _ _ _ _ _ _ _ _ C) |]. apply (cp_sides _ _ _ _ _ _ _ _ _ _ _ C).
    - assert (RG := cp_ranges _ _ _ _ _ _ _ _ _ _ _ C). destruct (box_row _ RG) as (N & CT). rewrite ZM in ZB. rewrite (ZB N CT), map_app. f_equal.
      + rewrite map_map, <- RG. apply map_ext_in. intros (k, b) I. destruct (cube_mark_range nx ny nz Hx Hy Hz fdiv _ _ _ _ _ _ _ _ k b C I) as (lo & hi & MI & _).
        unfold kept_on. cbn [fst snd mk_index]. reflexivity.
      + cbn [List.map fst snd mk_index internal_on]. rewrite (cube_marks_end nx ny nz Hx Hy Hz fdiv _ _ _ _ _ _ _ _ C). do 4 f_equal.
        * lia.
        * rewrite zlen_app. assert (L1 := Forall2_length' _ _ _ (cp_lb _ _ _ _ _ _ _ _ _ _ _ C)). assert (L2 := Forall2_length' _ _ _ (cp_li _ _ _ _ _ _ _ _ _ _ _ C)). unfold zlen in *. lia.
    - auto.
  Qed.
End Box.
