(** * Properties of the HDF5 files of IC3, C43 and C44. *)
From Coq Require Import ZArith List Bool String Lia Permutation Sorted.
From Verif Require Import Py PyFacts Data Elements Conn ConnSpec ConnProofs Mesh MeshSpec Ic3Bytes Ic3 Ic3HeaderSpec Ic3FileSpec Ic3RoundSpec Ic3MeshProofs Ic3FileThm Ic3FileProps Ic3OkProofs Ic3WriteProofs Ic3V4 Ic3V4Spec Ic3V4Proofs Ic3V4MarkProofs Ic3V4SolProofs.

Section Props.
  (** [float(n)], and what HDF5 makes of integers out of its type, whatever they are. *)
  Context (i2d : Z -> Z) (narrow : Z -> Z).

  (** What is read is known. *)
  Lemma read_back tbl enum host endian solution fm mf so fm' ls rows sol fm2 :
    write4 i2d narrow tbl enum host endian solution fm = (Ok (mf, so), fm') -> mesh4_ok fm' ls rows -> read4 mf sol = Ok fm2 ->
    mesh_as fm' fm2 ls rows /\
    exists L, Permutation L (open_zones (fm_mesh fm')) /\ StronglySorted (fun a b => fst a <= fst b) L /\
      me_bocos (fm_mesh fm2) = List.map (fun b => (mk_name b, b)) (cut_zones (zlen ls) L).
  Proof.
    intros H M R. destruct (write4_parts _ _ _ _ _ _ _ _ _ _ _ H) as (w & W & WM & _).
    destruct (read_mesh4 i2d narrow _ _ _ _ _ M W WM) as (x & y & z & con & NC & CW & CB & IC & CP & ST & FZ & RD).
    rewrite RD in R. apply bind_ok in R; destruct R as (cells & _ & R). apply ok_inj in R. subst fm2. split.
    - constructor; cbn [fm_mesh mesh_back4 me_ncell me_nnode me_nface me_faces me_cell2node fm_part fm_nodes fd_items nodes4 ds_data]; try reflexivity.
      + symmetry. apply M.
      + rewrite NC. reflexivity.
      + eexists. split; [reflexivity |]. constructor; cbn [f_f2n f_f2c]; [exact CW | exact CP |]. eexists. split; [reflexivity |]. cbn [m_cols m_rows]. split; [reflexivity |]. split; [reflexivity |].
        destruct (v4_faces _ _ _ M) as [f _ S _ | nn b i lb li rb ri _ _ _ SB SI _ _ _ _ EL ER].
        * destruct (fs_cells _ _ _ S) as (? & _ & _ & _ & L). exact L.
        * destruct (fs_cells _ _ _ SB) as (? & _ & _ & _ & LB1). destruct (fs_cells _ _ _ SI) as (? & _ & _ & _ & LB2). rewrite EL, ER, !zlen_app. lia.
    - eexists. split; [| split; [| reflexivity]].
      + rewrite <- krows_open. apply Permutation_map, ksort_perm.
      + apply StronglySorted_map. eapply StronglySorted_impl; [| apply ksort_sorted]. intros [[lo kk] r] [[lo' kk'] r'] Q. unfold kle in Q. apply Z.leb_le in Q. exact Q.
  Qed.

  (** C43: the zones read are the marks of the mesh and the internal domain, sorted by first face, and
      each one ends where the next begins. *)
  Theorem C43_zones tbl enum host endian solution fm mf so fm' ls rows sol fm2 :
    write4 i2d narrow tbl enum host endian solution fm = (Ok (mf, so), fm') -> mesh4_ok fm' ls rows -> read4 mf sol = Ok fm2 ->
    exists L, Permutation L (open_zones (fm_mesh fm')) /\ StronglySorted (fun a b => fst a <= fst b) L /\
      me_bocos (fm_mesh fm2) = List.map (fun b => (mk_name b, b)) (cut_zones (zlen ls) L).
  Proof. intros H M R. exact (proj2 (read_back _ _ _ _ _ _ _ _ _ _ _ _ _ H M R)). Qed.

  (** Marks that begin at different faces: each one is found under its name, with its type, from its
      first face to the face before the next start, whatever its last face was. *)
  Theorem C43_ranges tbl enum host endian solution fm mf so fm' ls rows sol fm2 :
    write4 i2d narrow tbl enum host endian solution fm = (Ok (mf, so), fm') -> mesh4_ok fm' ls rows -> read4 mf sol = Ok fm2 ->
    NoDup (firsts (fm_mesh fm')) ->
    (forall k b, In (k, b) (zone_marks (fm_mesh fm')) -> exists n, next_start (firsts (fm_mesh fm')) (zlen ls) (zone_first b) n /\
       dget String.eqb k (me_bocos (fm_mesh fm2)) = Some (mark_on k b (zone_first b) (n - 1))) /\
    (exists n, next_start (firsts (fm_mesh fm')) (zlen ls) (marks_end (fm_mesh fm') + 1) n /\
       dget String.eqb "internal-domain" (me_bocos (fm_mesh fm2)) = Some (internal_on (marks_end (fm_mesh fm') + 1) (n - 1))) /\
    Permutation (List.map fst (me_bocos (fm_mesh fm2))) (List.map fst (zone_marks (fm_mesh fm')) ++ ["internal-domain"%string]).
  Proof.
    intros H M R ND. destruct (C43_zones _ _ _ _ _ _ _ _ _ _ _ _ _ H M R) as (L & P & S & E).
    assert (PF : forall x, In x (List.map fst L) <-> In x (firsts (fm_mesh fm'))).
    { intros x. rewrite <- firsts_open. split; apply Permutation_in, Permutation_map; [| symmetry]; exact P. }
    assert (NL : NoDup (List.map fst L)). { eapply Permutation_NoDup; [| exact ND]. rewrite <- firsts_open. apply Permutation_map. symmetry. exact P. }
    assert (SUB : forall p, In p L -> In p (open_zones (fm_mesh fm'))) by (intros p; apply Permutation_in; exact P).
    assert (KE : List.map fst (me_bocos (fm_mesh fm2)) = List.map (fun p => mk_name (snd p 0)) L).
    { rewrite E, map_map. cbn [fst]. eapply cut_names_open. exact SUB. }
    assert (PK : Permutation (List.map fst (me_bocos (fm_mesh fm2))) (List.map fst (zone_marks (fm_mesh fm')) ++ ["internal-domain"%string])).
    { rewrite KE, <- open_names. apply Permutation_map. exact P. }
    assert (NK : NoDup (List.map fst (me_bocos (fm_mesh fm2)))).
    { eapply Permutation_NoDup; [symmetry; exact PK |]. apply NoDup_app. split; [apply M |]. split; [repeat constructor; intros [] |]. intros k I [<- | []]. exact (v4_reserved _ _ _ M I). }
    assert (FI : forall lo z, In (lo, z) (open_zones (fm_mesh fm')) -> exists n, next_start (firsts (fm_mesh fm')) (zlen ls) lo n /\ dget String.eqb (mk_name (z 0)) (me_bocos (fm_mesh fm2)) = Some (z (n - 1))).
    { intros lo z I. assert (J : In (lo, z) L) by (eapply Permutation_in; [symmetry; exact P | exact I]).
      destruct (cut_next (zlen ls) L (strict L NL S) lo z J) as (n & N & C). exists n. split; [eapply next_ext; [exact PF | exact N] |].
      apply (in_dget _ seqb_eq); [exact NK |]. rewrite E. apply in_map_iff. exists (z (n - 1)). split; [| exact C]. f_equal. eapply open_name. exact I. }
    split; [| split; [| exact PK]].
    - intros k b I. destruct (FI (zone_first b) (mark_on k b (zone_first b))) as (n & N & G); [| exists n; split; [exact N | exact G]].
      unfold open_zones. apply in_or_app. left. apply in_map_iff. exists (k, b). auto.
    - destruct (FI (marks_end (fm_mesh fm') + 1) (internal_on (marks_end (fm_mesh fm') + 1))) as (n & N & G); [| exists n; split; [exact N | exact G]].
      unfold open_zones. apply in_or_app. right. left. reflexivity.
  Qed.

  (** Marks that tile the faces [0 .. nb - 1], in any order: they come back with the same ranges, and the
      internal domain has the other faces. *)
  Theorem C43_round_trip tbl enum host endian solution fm mf so fm' ls rows sol fm2 nb :
    write4 i2d narrow tbl enum host endian solution fm = (Ok (mf, so), fm') -> mesh4_ok fm' ls rows -> read4 mf sol = Ok fm2 ->
    mark_ranges (zone_marks (fm_mesh fm')) -> Permutation (mark_faces (zone_marks (fm_mesh fm'))) (zrange 0 nb) -> 1 <= nb ->
    (forall k b lo hi, In (k, b) (zone_marks (fm_mesh fm')) -> mk_index b = Some (ILrange lo hi) ->
       dget String.eqb k (me_bocos (fm_mesh fm2)) = Some (mark_on k b lo hi)) /\
    dget String.eqb "internal-domain" (me_bocos (fm_mesh fm2)) = Some (internal_on nb (me_nface (fm_mesh fm') - 1)) /\
    Permutation (List.map fst (me_bocos (fm_mesh fm2))) (List.map fst (zone_marks (fm_mesh fm')) ++ ["internal-domain"%string]).
  Proof.
    intros H M R RG TL NB. assert (ME := marks_end_is (fm_mesh fm') _ nb eq_refl RG TL NB).
    destruct (C43_ranges _ _ _ _ _ _ _ _ _ _ _ _ _ H M R) as (Z1 & Z2 & Z3); [apply (tile_firsts _ nb RG TL NB); apply M |].
    split; [| split; [| exact Z3]].
    - intros k b lo hi I IX. destruct (Z1 k b I) as (n & N & G). assert (ZF : zone_first b = lo) by (unfold zone_first; rewrite IX; reflexivity).
      rewrite ZF in *. assert (n = hi + 1).
      { eapply next_unique; [exact N |]. eapply (tile_next _ nb RG TL NB); eassumption. }
      subst n. replace (hi + 1 - 1) with hi in G by lia. exact G.
    - destruct Z2 as (n & N & G). rewrite ME in *. replace (nb - 1 + 1) with nb in * by lia. rewrite (v4_nface _ _ _ M). rewrite G. do 2 f_equal.
      destruct N as [(N1 & N2 & _) | (_ & N2)]; [| lia]. exfalso. unfold firsts in N1. rewrite ME in N1. apply in_app_or in N1. destruct N1 as [N1 | [N1 | []]]; [| lia].
      apply in_map_iff in N1. destruct N1 as ((k, b) & E & I). cbn [snd] in E. unfold mark_ranges in RG. rewrite Forall_forall in RG. destruct (RG _ I) as (lo & hi & IX & LH).
      unfold zone_first in E. rewrite IX in E. assert (Q := tile_bound _ nb TL k b lo I). fold (zone_marks (fm_mesh fm')) in Q.
      specialize (Q (proj2 (faces_range k b lo hi lo IX) ltac:(lia))). lia.
  Qed.

  (** A mark followed by faces of no mark takes them. *)
  Theorem C43_gap tbl enum host endian solution fm mf so fm' ls rows sol fm2 k b lo hi :
    write4 i2d narrow tbl enum host endian solution fm = (Ok (mf, so), fm') -> mesh4_ok fm' ls rows -> read4 mf sol = Ok fm2 ->
    NoDup (firsts (fm_mesh fm')) -> In (k, b) (zone_marks (fm_mesh fm')) -> mk_index b = Some (ILrange lo hi) -> lo <= hi ->
    (forall x, In x (firsts (fm_mesh fm')) -> lo < x -> hi + 1 < x) ->
    exists hi', hi < hi' /\ dget String.eqb k (me_bocos (fm_mesh fm2)) = Some (mark_on k b lo hi').
  Proof.
    intros H M R ND I IX LH GP. destruct (C43_ranges _ _ _ _ _ _ _ _ _ _ _ _ _ H M R ND) as (Z1 & _). destruct (Z1 k b I) as (n & N & G).
    assert (ZF : zone_first b = lo) by (unfold zone_first; rewrite IX; reflexivity). rewrite ZF in *. exists (n - 1). split; [| exact G].
    destruct N as [(N1 & N2 & _) | (N1 & _)]; [specialize (GP n N1 N2); lia |]. exfalso.
    assert (Q := end_bound _ _ _ _ _ I IX). specialize (N1 (marks_end (fm_mesh fm') + 1)). cut (marks_end (fm_mesh fm') + 1 <= lo); [lia |].
    apply N1. unfold firsts. apply in_or_app. right. left. reflexivity.
  Qed.

  (** Two marks that begin at the same face: one of them comes back without faces. *)
  Theorem C43_same_start tbl enum host endian solution fm mf so fm' ls rows sol fm2 k1 b1 k2 b2 :
    write4 i2d narrow tbl enum host endian solution fm = (Ok (mf, so), fm') -> mesh4_ok fm' ls rows -> read4 mf sol = Ok fm2 ->
    In (k1, b1) (zone_marks (fm_mesh fm')) -> In (k2, b2) (zone_marks (fm_mesh fm')) -> k1 <> k2 -> zone_first b1 = zone_first b2 ->
    In (k1, mark_on k1 b1 (zone_first b1) (zone_first b1 - 1)) (me_bocos (fm_mesh fm2)) \/
    In (k2, mark_on k2 b2 (zone_first b2) (zone_first b2 - 1)) (me_bocos (fm_mesh fm2)).
  Proof.
    intros H M R I1 I2 NE ZE. destruct (C43_zones _ _ _ _ _ _ _ _ _ _ _ _ _ H M R) as (L & P & S & E).
    assert (J : forall k b, In (k, b) (zone_marks (fm_mesh fm')) -> In (zone_first b, mark_on k b (zone_first b)) L).
    { intros k b I. eapply Permutation_in; [symmetry; exact P |]. unfold open_zones. apply in_or_app. left. apply in_map_iff. exists (k, b). auto. }
    assert (J1 := J k1 b1 I1). assert (J2 := J k2 b2 I2). rewrite E.
    apply in_split in J1. destruct J1 as (A & B & EL). rewrite EL in J2. apply in_app_or in J2. destruct J2 as [J2 | [J2 | J2]].
    - right. apply in_split in J2. destruct J2 as (A1 & A2 & EA). apply in_map_iff. exists (mark_on k2 b2 (zone_first b2) (zone_first b2 - 1)). split; [reflexivity |].
      apply (cut_same (zlen ls) L A1 A2 B (zone_first b2) (mark_on k2 b2 (zone_first b2)) (mark_on k1 b1 (zone_first b1)) S).
      rewrite EL, EA, <- ZE, <- app_assoc. reflexivity.
    - exfalso. apply NE. assert (Q : mark_on k1 b1 (zone_first b1) = mark_on k2 b2 (zone_first b2)) by congruence.
      apply (f_equal (fun f => mk_name (f 0))) in Q. exact Q.
    - left. apply in_split in J2. destruct J2 as (A1 & A2 & EA). apply in_map_iff. exists (mark_on k1 b1 (zone_first b1) (zone_first b1 - 1)). split; [reflexivity |].
      apply (cut_same (zlen ls) L A A1 A2 (zone_first b1) (mark_on k1 b1 (zone_first b1)) (mark_on k2 b2 (zone_first b2)) S).
      rewrite EL, EA, ZE. reflexivity.
  Qed.

  (** Without any mark the internal domain begins at face 1. *)
  Theorem C43_no_mark tbl enum host endian solution fm mf so fm' ls rows sol fm2 :
    write4 i2d narrow tbl enum host endian solution fm = (Ok (mf, so), fm') -> mesh4_ok fm' ls rows -> read4 mf sol = Ok fm2 ->
    zone_marks (fm_mesh fm') = [] ->
    me_bocos (fm_mesh fm2) = [("internal-domain"%string, internal_on 1 (me_nface (fm_mesh fm') - 1))].
  Proof.
    intros H M R NM. destruct (C43_zones _ _ _ _ _ _ _ _ _ _ _ _ _ H M R) as (L & P & _ & ->).
    unfold open_zones, marks_end in P. rewrite NM in P. cbn [List.map app flat_map fold_right] in P. apply Permutation_sym, Permutation_length_1_inv in P. subst L.
    rewrite (v4_nface _ _ _ M). reflexivity.
  Qed.

  (** C44: the mesh that was written is read, with or without the solution. *)
  Theorem C44_mesh tbl enum host endian solution fm mf so fm' ls rows sol fm2 :
    write4 i2d narrow tbl enum host endian solution fm = (Ok (mf, so), fm') -> mesh4_ok fm' ls rows -> read4 mf sol = Ok fm2 ->
    mesh_as fm' fm2 ls rows.
  Proof. intros H M R. exact (proj1 (read_back _ _ _ _ _ _ _ _ _ _ _ _ _ H M R)). Qed.
  Theorem C44_mesh_read tbl enum host endian solution fm mf so fm' ls rows :
    write4 i2d narrow tbl enum host endian solution fm = (Ok (mf, so), fm') -> mesh4_ok fm' ls rows ->
    exists fm2, read4 mf None = Ok fm2 /\ fd_items (fm_cells fm2) = [] /\
      dget String.eqb "step" (fm_params fm2) = Some (SNum (NInt 0)) /\ dget String.eqb "time" (fm_params fm2) = Some (SNum (NInt 0)).
  Proof.
    intros H M. destruct (write4_parts _ _ _ _ _ _ _ _ _ _ _ H) as (w & W & WM & _).
    destruct (read_mesh4 i2d narrow _ _ _ _ _ M W WM) as (x & y & z & con & _ & _ & _ & _ & _ & _ & _ & RD). eexists. split; [exact (RD None) |]. repeat split.
  Qed.

  (** The variables of the solution file and its parameters, when the three conserved variables are there. *)
  Theorem C44_solution tbl enum host endian fm mf s fm' ls rows :
    write4 i2d narrow tbl enum host endian true fm = (Ok (mf, Some s), fm') -> mesh4_ok fm' ls rows -> keyed fm ->
    (forall name, In name ["RHO"; "RHOU"; "RHOE"]%string -> In name (List.map fst (fd_items (fm_cells fm)))) ->
    (forall name a, sol_vars fm name a -> exists k, per_cell (me_ncell (fm_mesh fm')) a k) ->
    exists fm2, read4 mf (Some s) = Ok fm2 /\ sol_as i2d fm' fm2.
  Proof.
    intros H M (KP & KC) AL PC. destruct (write4_parts _ _ _ _ _ _ _ _ _ _ _ H) as (w & W & WM & (s' & E & WS) & EC & EN & EP & EQ).
    injection E as <-. destruct (read_mesh4 i2d narrow _ _ _ _ _ M W WM) as (x & y & z & con & _ & _ & _ & _ & _ & _ & _ & RD).
    destruct (writer_state_ok fm' w W) as (_ & _ & _ & _ & _ & _ & _ & _ & _ & _ & _ & _ & _ & _ & _ & _ & _ & _ & _ & _ & _ & _ & E9).
    apply sol_written in WS. rewrite E9 in WS. rewrite <- EP in KP. rewrite <- EC in KC, AL.
    assert (HA : has_all (fd_items (fm_cells fm')) = true).
    { unfold has_all. apply forallb_forall. intros n I. apply dmem_keys. apply AL. exact I. }
    destruct (read_written i2d _ _ _ _ WS (v4_ncell _ _ _ M) HA KC) as (d & RV & D1 & D2 & D3).
    { intros name a I V. apply (PC name a). unfold sol_vars. rewrite <- EC. auto. }
    eexists. split; [rewrite RD, RV; cbn [bind]; reflexivity |].
    assert (PB := params_back i2d _ _ _ (state4 fm' ls rows (w_coords w) (Some s) d) WS KP). cbn zeta in PB. destruct PB as (P1 & P2 & P3 & P4).
    constructor; cbn [fm_cells fm_params fd_items state4 r4_sim]; assumption.
  Qed.
  (** When one is missing, no conserved variable is in the file, and it cannot be read. *)
  Theorem C44_missing tbl enum host endian fm mf s fm' ls rows name :
    write4 i2d narrow tbl enum host endian true fm = (Ok (mf, Some s), fm') -> mesh4_ok fm' ls rows ->
    In name ["RHO"; "RHOU"; "RHOE"]%string -> ~ In name (List.map fst (fd_items (fm_cells fm))) ->
    s4_vars s = [] /\ read4 mf (Some s) = Err KeyError.
  Proof.
    intros H M I NI. destruct (write4_parts _ _ _ _ _ _ _ _ _ _ _ H) as (w & W & WM & (s' & E & WS) & EC & _).
    injection E as <-. destruct (read_mesh4 i2d narrow _ _ _ _ _ M W WM) as (x & y & z & con & _ & _ & _ & _ & _ & _ & _ & RD).
    destruct (writer_state_ok fm' w W) as (_ & _ & _ & _ & _ & _ & _ & _ & _ & _ & _ & _ & _ & _ & _ & _ & _ & _ & _ & _ & _ & _ & E9).
    apply sol_written in WS. rewrite E9, EC in WS.
    assert (HA : has_all (fd_items (fm_cells fm)) = false).
    { destruct (has_all (fd_items (fm_cells fm))) eqn:HA; [| reflexivity]. exfalso. unfold has_all in HA. rewrite forallb_forall in HA. apply NI. apply dmem_keys. apply HA. exact I. }
    split.
    - assert (V := sq_vars _ _ _ _ WS). rewrite HA in V. exact V.
    - rewrite RD. rewrite (read_missing i2d _ _ _ _ _ WS HA). reflexivity.
  Qed.

  (** Names in upper and lower case: the 26 letters, and no other character. *)
  Theorem C44_letters s : String.length (upper s) = String.length s /\ String.length (lower s) = String.length s /\
    forall i c, String.get i s = Some c ->
      (forall j, String.get j "abcdefghijklmnopqrstuvwxyz" = Some c -> String.get i (upper s) = String.get j "ABCDEFGHIJKLMNOPQRSTUVWXYZ") /\
      ((forall j, String.get j "abcdefghijklmnopqrstuvwxyz" <> Some c) -> String.get i (upper s) = Some c) /\
      (forall j, String.get j "ABCDEFGHIJKLMNOPQRSTUVWXYZ" = Some c -> String.get i (lower s) = String.get j "abcdefghijklmnopqrstuvwxyz") /\
      ((forall j, String.get j "ABCDEFGHIJKLMNOPQRSTUVWXYZ" <> Some c) -> String.get i (lower s) = Some c).
  Proof.
    clear i2d narrow. unfold upper, lower. assert (L : forall g s, String.length (smap g s) = String.length s) by (intros g; induction s0; cbn; auto).
    assert (G : forall g s i c, String.get i s = Some c -> String.get i (smap g s) = Some (g c)).
    { intros g. induction s0 as [| d s0 IH]; intros i c H; destruct i; cbn in *; try discriminate; [congruence | auto]. }
    split; [apply L |]. split; [apply L |]. intros i c H. rewrite !(G _ _ _ _ H). clear.
    assert (T : forall t j, String.get j t = Some c -> (j < String.length t)%nat).
    { induction t as [| d t IH]; intros j H; destruct j; cbn in *; try discriminate; [lia | apply IH in H; lia]. }
    split; [| split; [| split]].
    - intros j H. assert (J := T _ _ H). cbn in J. do 26 (destruct j as [| j]; [cbn in H; injection H as <-; reflexivity |]). lia.
    - intros N. clear T. destruct c as [[] [] [] [] [] [] [] []]; try reflexivity; exfalso;
        [ .. ]; match type of N with forall j, _ <> Some ?c => first
          [ exact (N 0%nat eq_refl) | exact (N 1%nat eq_refl) | exact (N 2%nat eq_refl) | exact (N 3%nat eq_refl) | exact (N 4%nat eq_refl) | exact (N 5%nat eq_refl) | exact (N 6%nat eq_refl) | exact (N 7%nat eq_refl) | exact (N 8%nat eq_refl) | exact (N 9%nat eq_refl)
          | exact (N 10%nat eq_refl) | exact (N 11%nat eq_refl) | exact (N 12%nat eq_refl) | exact (N 13%nat eq_refl) | exact (N 14%nat eq_refl) | exact (N 15%nat eq_refl) | exact (N 16%nat eq_refl) | exact (N 17%nat eq_refl) | exact (N 18%nat eq_refl) | exact (N 19%nat eq_refl)
          | exact (N 20%nat eq_refl) | exact (N 21%nat eq_refl) | exact (N 22%nat eq_refl) | exact (N 23%nat eq_refl) | exact (N 24%nat eq_refl) | exact (N 25%nat eq_refl) ] end.
    - intros j H. assert (J := T _ _ H). cbn in J. do 26 (destruct j as [| j]; [cbn in H; injection H as <-; reflexivity |]). lia.
    - intros N. clear T. destruct c as [[] [] [] [] [] [] [] []]; try reflexivity; exfalso;
        [ .. ]; match type of N with forall j, _ <> Some ?c => first
          [ exact (N 0%nat eq_refl) | exact (N 1%nat eq_refl) | exact (N 2%nat eq_refl) | exact (N 3%nat eq_refl) | exact (N 4%nat eq_refl) | exact (N 5%nat eq_refl) | exact (N 6%nat eq_refl) | exact (N 7%nat eq_refl) | exact (N 8%nat eq_refl) | exact (N 9%nat eq_refl)
          | exact (N 10%nat eq_refl) | exact (N 11%nat eq_refl) | exact (N 12%nat eq_refl) | exact (N 13%nat eq_refl) | exact (N 14%nat eq_refl) | exact (N 15%nat eq_refl) | exact (N 16%nat eq_refl) | exact (N 17%nat eq_refl) | exact (N 18%nat eq_refl) | exact (N 19%nat eq_refl)
          | exact (N 20%nat eq_refl) | exact (N 21%nat eq_refl) | exact (N 22%nat eq_refl) | exact (N 23%nat eq_refl) | exact (N 24%nat eq_refl) | exact (N 25%nat eq_refl) ] end.
  Qed.

  Lemma mesh4_written fm' ls rows : writable4 fm' ls rows -> exists w mf, writer_state fm' = Ok w /\ write_mesh4 narrow (fm_mesh fm') w = Ok mf.
  Proof.
    intros [M (x & y & z & NC & L1 & L2 & L3) CT CL MK]. destruct fm' as [m cells nodes params part]. set (fm' := FM m cells nodes params part) in *. change (write_mesh4 narrow (fm_mesh fm')) with (write_mesh4 narrow m).
    destruct (stack3_ok i2d (fun _ => Err OverflowError) x y z) as (co & SC & LC & _); [unfold zlen in *; lia | unfold zlen in *; lia |].
    destruct (writer_faces_of _ _ _ (v4_faces _ _ _ M)) as (mt & WF & MR).
    assert (W : exists w, writer_state fm' = Ok w).
    { unfold writer_state. rewrite NC. cbn [bind]. rewrite SC. cbn [bind]. replace (zlen co =? me_nnode (fm_mesh fm')) with true by (symmetry; apply Z.eqb_eq; unfold zlen in *; lia).
      cbn [assertb bind]. rewrite WF. cbn [bind]. eauto. }
    destruct W as (w & W). exists w.
    destruct (writer_state_ok fm' w W) as (x' & y' & z' & zf & f2e & _ & _ & _ & WF' & E1 & E2 & E3 & E4 & E5 & E6 & E7 & _ & _ & _ & _ & _ & E8 & E9).
    rewrite WF in WF'. injection WF' as <- <-.
    enough (WM : exists mf, write_mesh4 narrow m w = Ok mf) by (destruct WM as (mf & WM); exists mf; auto).
    unfold write_mesh4. rewrite E6. cbn [or_err bind]. rewrite MR, (i4_list_total _ CL). cbn [bind].
      assert (WB : exists b, write_bounds4 (w_bocos w) (w_fa w) = Ok b).
      { rewrite E7. unfold write_bounds4. fold fm' in MK. change (fm_mesh fm') with m in *.
        assert (MM : exists ms, mapM mark4 (zone_marks m) = Ok ms).
        { exists (List.map row_of (zone_marks m)). apply mapM_map. intros (k, b) I. apply mark4_total. apply MK. exact I. }
        destruct MM as (ms & MM). rewrite MM. cbn [bind]. apply marks4_rows in MM. destruct MM as (-> & _).
        assert (FZ : Forall (fun '((k, b) : string * mark Z) => exists lo hi, mk_index b = Some (ILrange lo hi)) (zone_marks m)).
        { apply Forall_forall. intros (k, b) I. destruct (MK k b I) as (_ & _ & _ & IX & _). exact IX. }
        match goal with |- context [fold_left ?f ?l 0] => replace (fold_left f l 0) with (last_boco (zone_marks m)) by (symmetry; exact (rows_last _ FZ)) end.
        assert (LB := last_below (zlen ls) (zone_marks m) (v4_some _ _ _ M)). specialize (LB (fun k b lo hi I IX => proj2 (v4_zones _ _ _ M k b lo hi I IX))).
        match goal with |- context [isort ?le ?l] => set (rows' := l); set (srt := isort le l); assert (SP : Permutation srt rows') by apply isort_perm end.
        assert (IR : forall r, In r rows' -> good_label (fst (snd r)) /\ 0 <= fst r <= zlen ls).
        { intros r I. unfold rows' in I. apply in_app_or in I. destruct I as [I | [<- | []]].
          - rewrite map_map in I. apply in_map_iff in I. destruct I as ((k, b) & <- & I). cbn [row_of fst snd].
            split; [assert (G := v4_labels _ _ _ M); rewrite Forall_forall in G; apply G; apply (in_map fst) in I; exact I |].
            destruct (MK k b I) as (_ & _ & _ & (lo & hi & IX) & _). unfold zone_first. rewrite IX. destruct (v4_zones _ _ _ M k b lo hi I IX). lia.
          - cbn [fst snd]. split; [| lia]. split; [cbn; lia |]. intros c C. cbn in C. repeat (destruct C as [<- | C]; [cbn; lia |]). destruct C. }
        rewrite (mapM_map _ (fun r => fst (snd r))) by (intros r I; apply label_good; apply IR; eapply Permutation_in; eassumption). cbn [bind].
        match goal with |- context [if existsb ?f ?l then _ else _] => assert (EX : existsb f l = false) end.
        { apply not_true_is_false. intros X. apply existsb_exists in X. destruct X as (k & I & X). apply perio_keys in I. destruct I as (b & I & T3).
          destruct (MK k b I) as (_ & _ & _ & _ & P). unfold three in T3. destruct (mk_perio b) as [[l |] |]; try congruence.
          destruct P as (_ & P). apply existsb_exists in X. destruct X as (r & IRs & EQ). apply String.eqb_eq in EQ. subst r. apply P. exact IRs. }
        rewrite EX. rewrite i4_list_total; [cbn [bind]; eauto |]. apply Forall_app. split.
        - apply Forall_forall. intros v I. apply in_map_iff in I. destruct I as (r & <- & I). apply (Permutation_in _ SP) in I. apply IR in I. destruct I as (_ & I). clear - I CT. unfold int32. lia.
        - constructor; [| constructor]. assert (Q := v4_some _ _ _ M). assert (Q2 := v4_nface _ _ _ M). change (fm_mesh fm') with m in Q2. rewrite E2, Q2. clear - CT Q. unfold int32. lia. }
      destruct WB as (b & ->). cbn [bind]. eauto.
  Qed.
  (** What can be written is written. *)
  Theorem C44_written tbl enum host endian solution fm m ls rows :
    In endian ["native"; "little"; "big"]%string -> prepare_mesh tbl enum (fm_mesh fm) = (Ok tt, m) ->
    writable4 (FM m (fm_cells fm) (fm_nodes fm) (fm_params fm) (fm_part fm)) ls rows -> (solution = true -> solution4 fm /\ keyed fm) ->
    exists mf so, write4 i2d narrow tbl enum host endian solution fm = (Ok (mf, so), FM m (fm_cells fm) (fm_nodes fm) (fm_params fm) (fm_part fm)) /\
      (so = None <-> solution = false).
  Proof.
    intros IE PR WR SO. unfold write4. rewrite PR.
    set (fm' := FM m (fm_cells fm) (fm_nodes fm) (fm_params fm) (fm_part fm)) in *.
    assert (OE : exists o, order_of host endian = Ok o). { cbn [In] in IE. destruct IE as [<- | [<- | [<- | []]]]; eexists; reflexivity. }
    destruct OE as (o & ->). cbn [bind].
    destruct (mesh4_written fm' ls rows WR) as (w & mf & W & WM). rewrite W. cbn [bind]. change (fm_mesh fm') with m in WM.
    destruct (writer_state_ok fm' w W) as (x' & y' & z' & zf & f2e & _ & _ & _ & WF' & E1 & E2 & E3 & E4 & E5 & E6 & E7 & _ & _ & _ & _ & _ & E8 & E9).
    rewrite WM. cbn [bind]. destruct solution; [| exists mf, None; split; [reflexivity | split; reflexivity]].
    destruct (SO eq_refl) as ([S1 S2 S3 S4] & KP & KC).
    destruct (sol_total i2d (fm_params fm') w S1 S2 S3) as (s & WS).
    { rewrite E9. cbn [fm_cells fm']. clear - S4 KC.
      assert (Q : forall l : dict string array, (forall p, In p l -> In p (fd_items (fm_cells fm))) -> NoDup (List.map fst l) -> NoDup (List.map (fun x => lower (fst x)) (filter is_stat_var l))).
      { induction l as [| (n, a) l IH]; intros SUB N; [constructor |]. cbn [List.map fst] in N. apply NoDup_cons_iff in N. destruct N as (N1 & N). cbn [filter].
        assert (IH' := IH (fun p I => SUB p (or_intror I)) N). destruct (is_stat_var (n, a)) eqn:IS; [| exact IH']. cbn [List.map fst]. constructor; [| exact IH'].
        intros I. apply in_map_iff in I. destruct I as ((n', a') & EQ & I). apply filter_In in I. destruct I as (I & IS'). cbn [fst] in EQ.
        apply N1. replace n with n'; [apply in_map_iff; exists (n', a'); auto |]. apply S4; [| | apply is_stat_iff; exact IS' | apply is_stat_iff; exact IS | exact EQ].
        - apply (in_map fst) with (x := (n', a')). apply SUB. right. exact I.
        - apply (in_map fst) with (x := (n, a)). apply SUB. left. reflexivity. }
      apply Q; [auto | exact KC]. }
    rewrite WS. cbn [bind]. exists mf, (Some s). split; [reflexivity |]. split; discriminate.
  Qed.

  (** A mesh read from these files cannot be written in the other formats of IC3. *)
  Theorem C44_not_v2 tbl enum host endian solution fm mf so fm' ls rows sol fm2 :
    write4 i2d narrow tbl enum host endian solution fm = (Ok (mf, so), fm') -> mesh4_ok fm' ls rows -> read4 mf sol = Ok fm2 ->
    forall tbl' enum' f2i host' v endian' f fm3, write_mesh tbl' enum' i2d f2i host' v endian' fm2 <> (Ok f, fm3).
  Proof.
    intros H M R tbl' enum' f2i host' v endian' f fm3 WR.
    assert (MA := C44_mesh _ _ _ _ _ _ _ _ _ _ _ _ _ H M R). unfold write_mesh in WR. destruct (order_of host' endian') as [o |]; [| discriminate].
    destruct (prepare_mesh tbl' enum' (fm_mesh fm2)) as (r & m). injection WR as WR _. apply bind_ok in WR; destruct WR as (u & _ & WR).
    apply bind_ok in WR; destruct WR as (w & W & WR). unfold write_data in WR. apply bind_ok in WR; destruct WR as (h & _ & WR). apply bind_ok in WR; destruct WR as (bs & BS & _).
    apply mapM_ok_Forall2 in BS.
    assert (I : In (Err AttributeError) (sections i2d f2i v w)).
    { unfold sections, conn_sections. apply in_or_app. left. apply in_or_app. right. apply in_or_app. right. apply in_or_app. right. apply in_or_app. right. right. left.
      assert (WP : w_part w = None).
      { unfold writer_state in W. apply bind_ok in W; destruct W as (((x & y) & z) & _ & W). apply bind_ok in W; destruct W as (c & _ & W). apply bind_ok in W; destruct W as (u' & _ & W).
        apply bind_ok in W; destruct W as ((zf & f2e) & _ & W). apply ok_inj in W. subst w. cbn [w_part fm_part]. rewrite (m4s_part _ _ _ _ MA). reflexivity. }
      rewrite WP. reflexivity. }
    clear - BS I. induction BS as [| rs b l l' E BS IH]; [destruct I |]. destruct I as [-> | I]; [| exact (IH I)]. discriminate E.
  Qed.
End Props.
Print Assumptions C43_zones.
Print Assumptions C43_ranges.
Print Assumptions C43_round_trip.
Print Assumptions C43_gap.
Print Assumptions C43_same_start.
Print Assumptions C43_no_mark.
Print Assumptions C44_mesh.
Print Assumptions C44_mesh_read.
Print Assumptions C44_solution.
Print Assumptions C44_missing.
Print Assumptions C44_letters.
Print Assumptions C44_written.
Print Assumptions C44_not_v2.

(** ** Concrete cases *)
(** The two triangles of [ex_mesh], with data for a solution file. *)
Definition ex4_fm (marks : dict string (mark Z)) (rho : string) : fmesh :=
  FM (ex_mesh marks)
     (FSet (DS "instant" "cellaverage" 1 [] [(rho, Arr [2] false [10; 11]); ("RHOU"%string, Arr [2; 3] false [1; 2; 3; 4; 5; 6]); ("RHOE"%string, Arr [2] true [1; 2]);
                                             ("P_AVG"%string, Arr [2] false [20; 21]); ("Q"%string, Arr [2] false [30; 31])]))
     (FDict []) [("step"%string, SNum (NInt 7)); ("p_wgt"%string, SNum (NFlt 5))] None.
Definition ex4_write (sol : bool) (fm : fmesh) : res (mesh4 * option sol4) * fmesh :=
  write4 ex_i2d (fun _ => 0) cgns_elem2faces (fun l => l) Little "native" sol fm.
Definition ex4_mesh_file (fm : fmesh) : mesh4 := match fst (ex4_write true fm) with Ok (mf, _) => mf | Err _ => M4 0 0 0 [] None [] [] [] None end.
Definition ex4_sol_file (fm : fmesh) : sol4 := match fst (ex4_write true fm) with Ok (_, Some s) => s | _ => S4 [] [] None end.

Lemma good_label_lit s : Nat.leb (String.length s) 128 && forallb (fun c => Nat.ltb 0 (Ascii.nat_of_ascii c) && Nat.ltb (Ascii.nat_of_ascii c) 128) (list_ascii_of_string s) = true -> good_label s.
Proof.
  intros F. apply andb_true_iff in F. destruct F as (L & F). apply Nat.leb_le in L. split; [exact L |]. intros c I. rewrite forallb_forall in F. specialize (F c I). apply andb_true_iff in F.
  destruct F as (A & B). apply Nat.ltb_lt in A. apply Nat.ltb_lt in B. auto.
Qed.
Lemma ex4_ok marks rho :
  (forall k b lo hi, In (k, b) (zone_marks (ex_mesh marks)) -> mk_index b = Some (ILrange lo hi) -> 0 <= lo <= 5 /\ hi < 5) ->
  Forall good_label (List.map fst (zone_marks (ex_mesh marks))) -> NoDup (List.map fst (zone_marks (ex_mesh marks))) ->
  ~ In "internal-domain"%string (List.map fst (zone_marks (ex_mesh marks))) -> mesh4_ok (ex4_fm marks rho) ex_ls ex_rows.
Proof.
  intros Z G N R. constructor; try assumption; try (cbn; lia); try reflexivity.
  - apply ex_faces.
  - repeat (apply Forall_cons; [cbn; lia |]); apply Forall_nil.
  - repeat (apply Forall_cons; [reflexivity |]); apply Forall_nil.
  - repeat (apply Forall_cons; [unfold int32; lia |]); apply Forall_nil.
  - repeat (apply Forall_cons; [cbn; lia |]); apply Forall_nil.
Qed.
Ltac labels := repeat (apply Forall_cons; [apply good_label_lit; reflexivity |]); apply Forall_nil.
Definition bmark (k : string) (lo hi : Z) : string * mark Z := (k, Mark Z k (Some Gbdface) (Some "boundary"%string) (Some (ILrange lo hi)) None).
(** Marks in another order than their faces; a gap; a common start; no mark. *)
Definition ex4_tiles : dict string (mark Z) := [bmark "out" 2 3; ("per"%string, Mark Z "per" (Some Gbdface) (Some "perio_cart"%string) (Some (ILrange 0 1)) (Some (Some [1; 2; 3; 4])))].
Definition ex4_gap : dict string (mark Z) := [bmark "out" 3 3; bmark "wall" 0 0].
Definition ex4_same : dict string (mark Z) := [bmark "out" 0 3; bmark "wall" 0 1].

Lemma ex4_each marks : In marks [ex4_tiles; ex4_gap; ex4_same; []] -> forall rho, mesh4_ok (ex4_fm marks rho) ex_ls ex_rows.
Proof.
  intros I rho. cbn [In] in I. destruct I as [<- | [<- | [<- | [<- | []]]]]; (apply ex4_ok;
    [ intros k b lo hi J IX; cbn in J; repeat (destruct J as [J | J]; [inversion J; subst; inversion IX; subst; lia |]); destruct J
    | cbn; labels | cbn; nodups | cbn; intuition discriminate ]).
Qed.
Lemma ex4_written marks : In marks [ex4_tiles; ex4_gap; ex4_same; []] -> forall rho, In rho ["RHO"; "R"]%string ->
  ex4_write true (ex4_fm marks rho) = (Ok (ex4_mesh_file (ex4_fm marks rho), Some (ex4_sol_file (ex4_fm marks rho))), ex4_fm marks rho).
Proof.
  intros I rho J. cbn [In] in I, J. destruct J as [<- | [<- | []]]; destruct I as [<- | [<- | [<- | [<- | []]]]]; vm_compute; reflexivity.
Qed.
Definition ex4_bocos (marks : dict string (mark Z)) : option (dict string (mark Z)) :=
  match read4 (ex4_mesh_file (ex4_fm marks "RHO")) None with Ok fm2 => Some (me_bocos (fm_mesh fm2)) | Err _ => None end.
(** C43: the conditions of the theorems and what is read. *)
Example c43_tiles_case : mark_ranges (zone_marks (ex_mesh ex4_tiles)) /\ Permutation (mark_faces (zone_marks (ex_mesh ex4_tiles))) (zrange 0 4) /\
  ex4_bocos ex4_tiles = Some
    [("per"%string, Mark Z "per" (Some Gbdface) (Some "perio_cart"%string) (Some (ILrange 0 1)) (Some (Some [1; 2; 3])));
     bmark "out" 2 3; ("internal-domain"%string, internal_on 4 4)].
Proof.
  split; [repeat (apply Forall_cons; [do 2 eexists; split; [reflexivity | lia] |]); apply Forall_nil |].
  split; [exact (Permutation_app_comm [2; 3] [0; 1]) | vm_compute; reflexivity].
Qed.
Example c43_gap_case : NoDup (firsts (ex_mesh ex4_gap)) /\ (forall x, In x (firsts (ex_mesh ex4_gap)) -> 0 < x -> 0 + 1 < x) /\
  ex4_bocos ex4_gap = Some [bmark "wall" 0 2; bmark "out" 3 3; ("internal-domain"%string, internal_on 4 4)].
Proof.
  split; [repeat (apply NoDup_cons; [cbn; lia |]); apply NoDup_nil |]. split; [intros x I; cbn in I; lia | vm_compute; reflexivity].
Qed.
Example c43_same_case : zone_first (snd (bmark "out" 0 3)) = zone_first (snd (bmark "wall" 0 1)) /\
  ex4_bocos ex4_same = Some [bmark "out" 0 (-1); bmark "wall" 0 3; ("internal-domain"%string, internal_on 4 4)].
Proof. split; [reflexivity | vm_compute; reflexivity]. Qed.
Example c43_no_mark_case : ex4_bocos [] = Some [("internal-domain"%string, internal_on 1 4)].
Proof. vm_compute. reflexivity. Qed.
(** C44. *)
Example c44_case : writable4 (ex4_fm ex4_tiles "RHO") ex_ls ex_rows /\ solution4 (ex4_fm ex4_tiles "RHO") /\ keyed (ex4_fm ex4_tiles "RHO") /\
  prepare_mesh cgns_elem2faces (fun l => l) (ex_mesh ex4_tiles) = (Ok tt, ex_mesh ex4_tiles) /\
  (forall name a, sol_vars (ex4_fm ex4_tiles "RHO") name a -> exists k, per_cell 2 a k).
Proof.
  split; [| split; [| split; [| split]]].
  - constructor.
    + apply ex4_each. left. reflexivity.
    + do 3 eexists. split; [reflexivity |]. cbn. lia.
    + cbn. lia.
    + repeat (apply Forall_cons; [unfold int32; lia |]); apply Forall_nil.
    + intros k b I. cbn in I. repeat (destruct I as [I | I]; [inversion I; subst; clear I |]); [| | destruct I]; repeat split.
      all: try (left; reflexivity). all: try (eexists; split; [reflexivity | cbn; tauto]). all: try (do 2 eexists; reflexivity). all: try (cbn; lia). cbn. intuition discriminate.
  - constructor; cbn; try lia; try exact I.
    + intros k v [E | [E | []]] _; inversion E; subst; cbn; [lia | exact I].
    + intros s t I J S1 S2 _. apply is_stat_iff in S1. apply is_stat_iff in S2.
      repeat (destruct I as [<- | I]; [try discriminate S1 |]); [| destruct I]. repeat (destruct J as [<- | J]; [try discriminate S2 |]); [| destruct J]. reflexivity.
  - split; cbn; nodups.
  - vm_compute. reflexivity.
  - intros name a (I & _). cbn in I. unfold per_cell. repeat (destruct I as [I | I]; [inversion I; subst; [> first [exists 1; split; [lia | reflexivity] | exists 3; split; [lia | reflexivity]]] |]). destruct I.
Qed.
Example c44_read :
  match read4 (ex4_mesh_file (ex4_fm ex4_tiles "RHO")) (Some (ex4_sol_file (ex4_fm ex4_tiles "RHO"))) with
  | Ok fm2 => (fd_items (fm_cells fm2), dget String.eqb "step" (fm_params fm2), dget String.eqb "p_wgt" (fm_params fm2)) =
      ([("RHO"%string, Arr [2] false [10; 11]); ("RHOU"%string, Arr [2; 3] false [1; 2; 3; 4; 5; 6]); ("RHOE"%string, Arr [2] false [1; 2]); ("P_AVG"%string, Arr [2] false [20; 21])],
       Some (SNum (NInt 7)), Some (SNum (NFlt 5)))
  | Err _ => False
  end.
Proof. vm_compute. reflexivity. Qed.
Example c44_missing_case : ~ In "RHO"%string (List.map fst (fd_items (fm_cells (ex4_fm ex4_tiles "R")))) /\
  read4 (ex4_mesh_file (ex4_fm ex4_tiles "R")) (Some (ex4_sol_file (ex4_fm ex4_tiles "R"))) = Err KeyError.
Proof. split; [cbn; intuition discriminate | vm_compute; reflexivity]. Qed.
Example c44_letters_case : upper "u_AVG{z}" = "U_AVG{Z}"%string /\ lower "Rho[Z]" = "rho[z]"%string.
Proof. split; reflexivity. Qed.
