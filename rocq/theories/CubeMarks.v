(** * The cube made ready for the writers: faces, face marks, renumbering (C25, C66). *)
From Coq Require Import Permutation Lia ZArith.
From Verif Require Import PyFacts Conn ConnSpec ConnProofs FaceSpec FaceProofs FaceTable Mesh MeshSpec MeshProofs
  ReindexProofs FaceSetProofs Simple SimpleSpec SimpleProofs CubeFaces CubeThm.

Section Marks.
  Context (nx ny nz : Z) (Hx : 1 <= nx) (Hy : 1 <= ny) (Hz : 1 <= nz).
  Notation gface_ok := (gface_ok nx ny nz).
  Notation on_side := (on_side nx ny nz).
  Notation on_boundary := (on_boundary nx ny nz).
  Notation node_no := (node_no ny nz).
  Notation gnodes := (gface_nodes ny nz).

  (** ** Counting *)

  Definition gmap (a : axis) (l : list (Z * Z * Z)) : list gface := List.map (fun '(i, j, k) => (a, P3 i j k)) l.
  Lemma in_gmap a l g : In g (gmap a l) <-> fst g = a /\ In (pi (snd g), pj (snd g), pk (snd g)) l.
  Proof.
    unfold gmap. rewrite in_map_iff. destruct g as [a' [i j k]]. cbn. split.
    - intros (((i', j'), k') & E & H). inv E. auto.
    - intros (-> & H). exists (i, j, k). auto.
  Qed.
  Lemma NoDup_gmap a l : NoDup l -> NoDup (gmap a l).
  Proof. intros. apply NoDup_map_inj_in; auto. intros ((?, ?), ?) ((?, ?), ?) _ _ E. now inv E. Qed.

  (** The faces of one side. *)
  Definition side_faces (s : string) : list gface :=
    let ri := zrange 0 nx in let rj := zrange 0 ny in let rk := zrange 0 nz in
    match dget String.eqb s [("imin", gmap AX (product3 [0] rj rk)); ("imax", gmap AX (product3 [nx] rj rk));
                             ("jmin", gmap AY (product3 ri [0] rk)); ("jmax", gmap AY (product3 ri [ny] rk));
                             ("kmin", gmap AZ (product3 ri rj [0])); ("kmax", gmap AZ (product3 ri rj [nz]))] with
    | Some l => l
    | None => []
    end.
  Lemma in_side_faces s g : In s sides -> (In g (side_faces s) <-> gface_ok g /\ on_side s g).
  Proof.
    intros Hs. unfold sides in Hs. cbn [In] in Hs. destruct g as [a [i j k]].
    destruct Hs as [<-|[<-|[<-|[<-|[<-|[<-|[]]]]]]]; unfold side_faces; cbn [dget String.eqb Ascii.eqb Bool.eqb];
      rewrite in_gmap, in_product3, !in_zrange; unfold SimpleSpec.on_side, SimpleSpec.gface_ok, in_box; cbn [fst snd In pi pj pk];
      (split; [intros (-> & Q); split; [lia|intuition congruence]|
               intros (Q1 & Q2); destruct a; destruct Q2 as [(E & Q2)|(E & Q2)]; try discriminate E; split; auto; lia]).
  Qed.
  Lemma NoDup_one (z : Z) : NoDup [z].
  Proof. constructor; [intros []|constructor]. Qed.
  Lemma NoDup_side_faces s : NoDup (side_faces s).
  Proof.
    unfold side_faces. cbn [dget].
    repeat (match goal with |- context[if ?b then _ else _] => destruct b end;
      [apply NoDup_gmap, NoDup_product3; auto using NoDup_zrange, NoDup_one|]). constructor.
  Qed.
  Definition side_size (s : string) : Z :=
    match dget String.eqb s [("imin", ny * nz); ("imax", ny * nz); ("jmin", nx * nz); ("jmax", nx * nz);
                             ("kmin", nx * ny); ("kmax", nx * ny)] with Some n => n | None => 0 end.
  Lemma len_side_faces s : In s sides -> zlen (side_faces s) = side_size s.
  Proof.
    intros Hs. unfold sides in Hs. cbn [In] in Hs.
    destruct Hs as [<-|[<-|[<-|[<-|[<-|[<-|[]]]]]]]; unfold side_faces, side_size; cbn [dget String.eqb Ascii.eqb Bool.eqb];
      unfold gmap; rewrite zlen_map; unfold zlen; rewrite product3_length, !zrange_length; cbn [List.length];
      rewrite !Z.sub_0_r, !Nat2Z.inj_mul, !Z2Nat.id by lia; lia.
  Qed.

  Lemma one_side_only s s' g : on_side s g -> on_side s' g -> s = s'.
  Proof. destruct g as [[] p]; cbn; intuition (subst; auto; lia). Qed.

  Lemma boundary_perm gb : boundary_faces nx ny nz gb -> Permutation gb (flat_map side_faces sides).
  Proof.
    intros (N & H). apply NoDup_Permutation; auto.
    - apply NoDup_flat_map.
      + unfold sides. repeat constructor; simpl; intuition discriminate.
      + intros; apply NoDup_side_faces.
      + intros s s' g Hs Hs' H1 H2. apply in_side_faces in H1, H2; auto. apply (one_side_only s s' g); tauto.
    - intros g. rewrite H, in_flat_map. split.
      + intros (Hg & s & Hs & O). exists s. split; auto. apply in_side_faces; auto.
      + intros (s & Hs & O). apply in_side_faces in O; auto. split; [tauto|]. exists s. tauto.
  Qed.
  Lemma boundary_count gb : boundary_faces nx ny nz gb -> zlen gb = 2 * (nx * ny + ny * nz + nx * nz).
  Proof.
    intros H. rewrite (zlen_perm _ _ (boundary_perm gb H)). unfold sides. cbn [flat_map].
    rewrite !zlen_app, !len_side_faces by (unfold sides; simpl; tauto). unfold side_size.
    cbn [dget String.eqb Ascii.eqb Bool.eqb]. change (zlen (@nil gface)) with 0. lia.
  Qed.
  Lemma inner_cells g : gface_ok g -> ~ on_boundary g -> cell_ok nx ny nz (cell_below g) /\ cell_ok nx ny nz (cell_above g).
  Proof.
    intros Hg N. assert (D : forall p, cell_ok nx ny nz p \/ ~ cell_ok nx ny nz p).
    { intros [i j k]. unfold SimpleSpec.cell_ok, in_box. cbn [pi pj pk]. lia. }
    rewrite (boundary_iff nx ny nz) in N by auto.
    destruct (D (cell_below g)), (D (cell_above g)); tauto.
  Qed.
  Lemma inner_count gi : inner_faces nx ny nz gi ->
    zlen gi = (nx - 1) * ny * nz + nx * (ny - 1) * nz + nx * ny * (nz - 1).
  Proof.
    intros (N & H).
    assert (P : Permutation gi (gmap AX (product3 (zrange 1 nx) (zrange 0 ny) (zrange 0 nz)) ++
       gmap AY (product3 (zrange 0 nx) (zrange 1 ny) (zrange 0 nz)) ++ gmap AZ (product3 (zrange 0 nx) (zrange 0 ny) (zrange 1 nz)))).
    { apply NoDup_Permutation; auto.
      - apply NoDup_app. split; [apply NoDup_gmap, NoDup_product3; apply NoDup_zrange|]. split.
        + apply NoDup_app. split; [apply NoDup_gmap, NoDup_product3; apply NoDup_zrange|].
          split; [apply NoDup_gmap, NoDup_product3; apply NoDup_zrange|]. intros g H1 H2. apply in_gmap in H1, H2.
          destruct H1 as [H1 _], H2 as [H2 _]. congruence.
        + intros g H1 H2. apply in_app_iff in H2. rewrite !in_gmap in H2. apply in_gmap in H1.
          destruct H1 as [H1 _]. destruct H2 as [[H2 _]|[H2 _]]; congruence.
      - intros g. rewrite H, !in_app_iff, !in_gmap, !in_product3, !in_zrange.
        split.
        + intros (Hg & O). apply inner_cells in O; auto. destruct g as [[] [i j k]];
            unfold SimpleSpec.gface_ok, SimpleSpec.cell_ok, in_box in *; cbn in *.
          * left; split; [auto|lia].
          * right; left; split; [auto|lia].
          * right; right; split; [auto|lia].
        + intros O. assert (Hg : gface_ok g).
          { destruct g as [[] [i j k]]; unfold SimpleSpec.gface_ok, in_box; cbn in *;
              destruct O as [[E O]|[[E O]|[E O]]]; try discriminate E; lia. }
          split; auto. rewrite (boundary_iff nx ny nz) by auto. 
          destruct g as [[] [i j k]]; unfold SimpleSpec.cell_ok, SimpleSpec.gface_ok, in_box in *; cbn in *;
              destruct O as [[E O]|[[E O]|[E O]]]; try discriminate E; lia. }
    rewrite (zlen_perm _ _ P), !zlen_app. unfold gmap. rewrite !zlen_map. unfold zlen.
    rewrite !product3_length, !zrange_length, !Z.sub_0_r, !Nat2Z.inj_mul, !Z2Nat.id by lia. ring.
  Qed.

  (** ** Faces of the mesh *)

  Context {F : Type} (fdiv : Z -> Z -> F).
  Notation cells := (cube_cells nx ny nz).

  Lemma cube_faces_mesh tbl types (m : mesh F) : in_force tbl types -> 2 <= nx * ny * nz -> is_cube nx ny nz fdiv m cells ->
    exists m1 b i gb gi, make_face_connectivity tbl m = (Ok tt, m1) /\
      me_faces m1 = [("internal", i); ("boundary", b)] /\ cube_faces nx ny nz b i gb gi /\
      ec_nelem (f_f2n b) = zlen gb /\ ec_nelem (f_f2n i) = zlen gi /\
      me_nface m1 = zlen gb + zlen gi /\
      me_ncell m1 = me_ncell m /\ me_nnode m1 = me_nnode m /\ me_cell2node m1 = me_cell2node m /\
      me_nodes m1 = me_nodes m /\ me_bocos m1 = me_bocos m.
  Proof.
    intros IF H2 C. destruct (cube_create nx ny nz Hx Hy Hz tbl types IF H2) as (fs & gb & gi & E & CF & N1 & N2).
    unfold make_face_connectivity. rewrite (proj1 (cu_cells _ _ _ _ _ _ C)), E.
    unfold pop_faces, add_faces. cbn [existsb facetypes String.eqb Ascii.eqb Bool.eqb orb snd].
    unfold with_faces, with_nface. cbn [me_faces me_ncell me_nnode me_nface me_cell2node me_nodes me_bocos].
    rewrite (cu_nofaces _ _ _ _ _ _ C). cbn [dpop dset filter String.eqb Ascii.eqb Bool.eqb].
    eexists _, _, _, gb, gi. split; [reflexivity|]. cbn [me_faces me_ncell me_nnode me_nface me_cell2node me_nodes me_bocos].
    split; [reflexivity|]. split; [exact CF|]. cbn [f_f2n]. repeat (split; [auto; fail|]).
    split; [unfold total_faces, zsum; cbn [List.map fold_right fold_left f_f2n]; rewrite N1, N2; lia|].
    assert (X := proj1 (cu_cells _ _ _ _ _ _ C)). repeat (split; [first [reflexivity|exact X]|]). reflexivity.
  Qed.

  Lemma spanned s g : In s sides -> gface_ok g ->
    ((forall n, In n (gnodes g) -> exists p, in_box (nx + 1) (ny + 1) (nz + 1) p /\ n = node_no p /\
          In (s, true) [("imin", pi p =? 0); ("imax", pi p =? nx); ("jmin", pj p =? 0);
                        ("jmax", pj p =? ny); ("kmin", pk p =? 0); ("kmax", pk p =? nz)]) <-> on_side s g).
  Proof.
    intros Hs Hg.
    assert (A : (forall n, In n (gnodes g) -> exists p, in_box (nx + 1) (ny + 1) (nz + 1) p /\ n = node_no p /\
          In (s, true) [("imin", pi p =? 0); ("imax", pi p =? nx); ("jmin", pj p =? 0);
                        ("jmax", pj p =? ny); ("kmin", pk p =? 0); ("kmax", pk p =? nz)]) <->
        (forall p, In p (corners g) -> In (s, true) [("imin", pi p =? 0); ("imax", pi p =? nx); ("jmin", pj p =? 0);
                        ("jmax", pj p =? ny); ("kmin", pk p =? 0); ("kmax", pk p =? nz)])).
    { split.
      - intros H p Hp. destruct (H (node_no p)) as (q & Hq & E & X). { unfold gface_nodes. now apply in_map. }
        apply (rank3_inj (nx + 1)) in E; auto; [now subst|]. now apply (corners_in_box nx ny nz g).
      - intros H n Hn. apply in_map_iff in Hn. destruct Hn as (p & <- & Hp). exists p. split; [|split; auto].
        now apply (corners_in_box nx ny nz g). }
    rewrite A. clear A. unfold sides in Hs. cbn [In] in Hs.
    destruct g as [a [i j k]]. unfold SimpleSpec.gface_ok, in_box in Hg. 
    split.
    - intros H. assert (H1 := H (P3 i j k)).
      destruct a; cbn [corners In pi pj pk] in *; specialize (H1 (or_introl eq_refl)).
      + assert (H2 := H (P3 i (j + 1) (k + 1)) ltac:(auto)). cbn [pi pj pk] in H2. unfold SimpleSpec.on_side. cbn [pi pj pk].
        destruct Hs as [<-|[<-|[<-|[<-|[<-|[<-|[]]]]]]];
          repeat (destruct H1 as [H1|H1]; [try discriminate H1|]); try (destruct H1; fail);
          repeat (destruct H2 as [H2|H2]; [try discriminate H2|]); try (destruct H2; fail); inv H1; inv H2; lia || idtac.
        * left. split; auto. lia.
        * right. split; auto. lia.
      + assert (H2 := H (P3 (i + 1) j (k + 1)) ltac:(auto)). cbn [pi pj pk] in H2. unfold SimpleSpec.on_side. cbn [pi pj pk].
        destruct Hs as [<-|[<-|[<-|[<-|[<-|[<-|[]]]]]]];
          repeat (destruct H1 as [H1|H1]; [try discriminate H1|]); try (destruct H1; fail);
          repeat (destruct H2 as [H2|H2]; [try discriminate H2|]); try (destruct H2; fail); inv H1; inv H2; lia || idtac.
        * left. split; auto. lia.
        * right. split; auto. lia.
      + assert (H2 := H (P3 (i + 1) (j + 1) k) ltac:(auto)). cbn [pi pj pk] in H2. unfold SimpleSpec.on_side. cbn [pi pj pk].
        destruct Hs as [<-|[<-|[<-|[<-|[<-|[<-|[]]]]]]];
          repeat (destruct H1 as [H1|H1]; [try discriminate H1|]); try (destruct H1; fail);
          repeat (destruct H2 as [H2|H2]; [try discriminate H2|]); try (destruct H2; fail); inv H1; inv H2; lia || idtac.
        * left. split; auto. lia.
        * right. split; auto. lia.
    - intros O p Hp. destruct a; cbn [SimpleSpec.on_side corners In pi pj pk] in *;
        destruct O as [(-> & O)|(-> & O)]; repeat (destruct Hp as [<-|Hp]; [cbn [pi pj pk]; rewrite O, Z.eqb_refl; tauto|]); destruct Hp.
  Qed.

  Lemma sub_in {A} (a b : list A) x : subsequence a b -> In x a -> In x b.
  Proof. induction 1; cbn [In]; intuition. Qed.
  Lemma sub_NoDup {A} (a b : list A) : subsequence a b -> NoDup b -> NoDup a.
  Proof.
    induction 1 as [|x a b Hs IH|x a b Hs IH]; intros N; auto; apply NoDup_cons_iff in N; destruct N as [N1 N2]; auto.
    constructor; auto. intros X. apply N1. eapply sub_in; eauto.
  Qed.

  Lemma cube_marks_mesh (m m1 : mesh F) c b i gb gi : is_cube nx ny nz fdiv m c -> me_bocos m1 = me_bocos m ->
    me_faces m1 = [("internal", i); ("boundary", b)] -> cube_faces nx ny nz b i gb gi ->
    exists m2, bocomarks_set_node_to_face m1 = (Ok tt, m2) /\ same_but_bocos m1 m2 /\ cube_marks nx ny nz gb (me_bocos m2).
  Proof.
    intros C EB EF CF. destruct (cu_marks _ _ _ _ _ _ C) as (K & M). rewrite <- EB in K, M.
    destruct (cf_bwf _ _ _ _ _ _ _ CF) as (W & P & T & CC).
    destruct (set_node_to_face_ok m1 b) as (m2 & E & S & R); auto.
    { rewrite EF. reflexivity. }
    { intros k b' Hin _. apply (M k b' Hin). }
    exists m2. split; auto. split; auto. split.
    { rewrite <- K. clear - R. unfold dkeys. induction R; cbn [List.map]; auto. f_equal; auto. apply H. }
    intros s b2 Hin. destruct (Forall2_in_r _ _ _ _ R Hin) as ((s' & b1) & Hin1 & (E1 & _ & Q)). cbn [fst snd] in *. subst s'.
    destruct (M s b1 Hin1) as (Hn & Hg & Ht & Hm & HN & HE).
    destruct Q as (Q1 & Q2 & Q3 & Q4 & Q5 & Q6 & Q7). { unfold on_nodes, nodebased. now rewrite Hg. }
    assert (ND : NoDup (ec_numbers (f_f2n b))). { rewrite (cf_bnum _ _ _ _ _ _ _ CF). apply NoDup_zrange. }
    assert (Hs : In s sides). { rewrite <- K. unfold dkeys. apply in_map_iff. exists (s, b1). auto. }
    split; [congruence|]. split; auto. split; [congruence|]. split; auto. split; [now apply (sub_NoDup _ _ Q6)|].
    intros f. rewrite (Q7 ND). 
    assert (LP : List.length gb = List.length (ec_pairs (f_f2n b))) by (apply Forall2_length' with (1 := cf_bnodes _ _ _ _ _ _ _ CF)).
    assert (NUM : forall n p, nth_error (ec_pairs (f_f2n b)) n = Some p -> fst p = Z.of_nat n).
    { intros n p H. assert (X := ec_numbers_pairs _ W). rewrite (cf_bnum _ _ _ _ _ _ _ CF) in X.
      assert (Y : nth_error (List.map fst (ec_pairs (f_f2n b))) n = Some (fst p)) by (now rewrite nth_error_map, H).
      rewrite X, nth_error_zrange in Y; [inv Y; lia|]. rewrite Z.sub_0_r. unfold zlen. rewrite Nat2Z.id, LP.
      apply nth_error_Some. congruence. }
    split.
    - intros (ns & Hp & Hns). apply In_nth_error in Hp. destruct Hp as (n & Hn').
      destruct (nth_error gb n) as [g|] eqn:Hgn.
      2:{ apply nth_error_None in Hgn. assert (n < List.length (ec_pairs (f_f2n b)))%nat by (apply nth_error_Some; congruence). lia. }
      assert (PP := Forall2_nth_error _ _ _ _ _ _ (cf_bnodes _ _ _ _ _ _ _ CF) Hgn Hn').
      assert (X := NUM _ _ Hn'). cbn in X. exists g. split; [lia|]. split; [subst f; now rewrite Nat2Z.id|].
      apply spanned; auto. { apply (proj2 (cf_gb _ _ _ _ _ _ _ CF)). now apply nth_error_In in Hgn. }
      intros x Hx'. apply HE, Hns. exact (Permutation_in _ PP Hx').
    - intros (g & Hf & Hgn & O). 
      destruct (nth_error (ec_pairs (f_f2n b)) (Z.to_nat f)) as [[f' ns]|] eqn:Hn'.
      2:{ apply nth_error_None in Hn'. assert (Z.to_nat f < List.length gb)%nat by (apply nth_error_Some; congruence). lia. }
      assert (PP := Forall2_nth_error _ _ _ _ _ _ (cf_bnodes _ _ _ _ _ _ _ CF) Hgn Hn').
      assert (X := NUM _ _ Hn'). cbn in X. exists ns. split; [apply nth_error_In in Hn'; replace f with f' by lia; auto|].
      intros x Hx'. apply HE. apply (spanned s g); auto.
      { apply (proj2 (cf_gb _ _ _ _ _ _ _ CF)). now apply nth_error_In in Hgn. }
      exact (Permutation_in _ (Permutation_sym PP) Hx').
  Qed.

  (** Each boundary face is on exactly one side. *)
  Lemma boundary_one_side g : gface_ok g -> on_boundary g -> exists s, In s sides /\ on_side s g /\ forall s', on_side s' g -> s' = s.
  Proof. intros Hg (s & Hs & O). exists s. split; auto. split; auto. intros s' O'. now apply (one_side_only s' s g). Qed.
End Marks.
