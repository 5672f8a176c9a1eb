(** * CGNS zones of hexahedra converted to IC3 files (C72). *)
From Coq Require Import ZArith List Bool String Lia Permutation.
From Verif Require Import Py PyFacts Elements IndexList Conn ConnSpec ConnProofs FaceSpec FaceProofs FaceTable FaceProps Mesh MeshSpec Cgns CgnsSpec CgnsProps
  Ic3Bytes Ic3 Ic3HeaderSpec Ic3FileSpec Ic3RoundSpec Ic3FileProps Ic3OkSpec Ic3CubeProps CubeThm ConvSpec ConvProps LayerProps CgnsIc3Spec CgnsIc3Proofs.

Lemma flat_map_const_len {A B} (f : A -> list B) k l : (forall a, In a l -> List.length (f a) = k) -> List.length (flat_map f l) = (List.length l * k)%nat.
Proof. induction l as [| a l IH]; intros H; [reflexivity |]. cbn [flat_map]. rewrite app_length, (H a), IH; [cbn; lia | intros; apply H; right; assumption | left; reflexivity]. Qed.

(** A conforming zone of hexahedra is exported to a mesh of cells whose marks are apart. *)
Lemma zone_converts tbl types enum z nnode ncell x y w secs bcs :
  in_force tbl types -> set_enum enum ->
  zone_holds z nnode ncell x y w secs bcs -> zo_geodim z = 3 -> Forall sec_ok secs -> hexa_zone tbl nnode ncell x y w secs bcs ->
  6 * zlen (file_cells secs) < 2 ^ 31 ->
  exists m c k, Cgns.export_mesh enum z = Ok m /\ cell_mesh tbl types m c /\ marks_apart tbl m c /\ all_sides tbl c < 2 ^ 31 /\
  ends_at c k /\ (k = me_ncell m - 1 <-> cells_first secs) /\ me_nnode m = nnode /\ me_ncell m = zlen (file_cells secs) /\ nodescoord m = Ok (x, y, w) /\
  (forall lb li rb ri, faces_from_cells tbl c lb li rb ri -> faces_from_cells tbl (hexas (file_cells secs)) lb li rb ri) /\
  (forall k0, (exists b, In b bcs /\ cb_name b = k0) <-> In k0 (dkeys (me_bocos m))) /\
  (forall k mk, In (k, mk) (me_bocos m) -> exists b, In b bcs /\ cb_name b = k /\ forall nodes, spanned nodes mk <-> bc_covers (file_faces secs) b nodes) /\
  (forall k mk, In (k, mk) (me_bocos m) -> mk_perio mk = Some None).
Proof.
  intros IF SE ZH D3 OK HZ BS.
  destruct (zone_exports enum tbl SE z nnode ncell x y w secs bcs ZH D3 OK HZ)
    as (m & c & ed & EX & C & W & P & D & CO & PE & NE & NN & NC & XY & NF & KN & M1 & M2).
  assert (SD : forall ft, ec_sides tbl ft c = ec_sides tbl ft (hexas (file_cells secs))) by (intros ft; exact (hexas_sides tbl c _ ed ft D PE)).
  assert (OU : forall ft s, outer tbl c ft s <-> outer tbl (hexas (file_cells secs)) ft s) by (intros; apply sec_eqs; exact SD).
  assert (Q4 : forall ft s, outer tbl c ft s -> ft = "quad4"%string).
  { intros ft s (I & _). destruct (String.eqb_spec ft "quad4"%string) as [-> | N]; [reflexivity |]. rewrite SD, (no_other_side tbl types _ ft IF N) in I. destruct I. }
  assert (PR : ec_pairs c = file_cells secs) by (unfold ec_pairs; rewrite D; cbn [flat_map snd]; rewrite app_nil_r; exact PE).
  assert (NU : ec_numbers c = List.map fst (file_cells secs)).
  { rewrite <- PR. symmetry. exact (ec_numbers_pairs c W). }
  assert (L1 : 1 <= zlen (file_cells secs)).
  { assert (X := hz_some _ _ _ _ _ _ _ _ HZ). destruct (file_cells secs); [congruence |]. unfold zlen. cbn [List.length]. lia. }
  destruct (zh_len _ _ _ _ _ _ _ _ ZH) as (LX & LY & LW). destruct (hz_reals _ _ _ _ _ _ _ _ HZ) as (PX & PY & PW).
  assert (SP : forall b mk nodes, In b bcs -> mark_of (file_faces secs) b mk -> spanned nodes mk <-> bc_covers (file_faces secs) b nodes).
  { intros b mk nodes I MO. unfold spanned, bc_covers. split; intros H u J; apply (mark_nodes tbl nnode ncell x y w secs bcs HZ b mk u I MO); auto. }
  assert (CM : cell_mesh tbl types m c).
  { constructor.
    - exact C.
    - exact W.
    - exact P.
    - intros t e I. rewrite D in I. destruct I as [E | []]. injection E as <- <-. exists 8%nat. split; [| exact CO]. destruct IF as [(_ & ->) | (_ & ->)]; cbn; tauto.
    - unfold ec_types. rewrite D. cbn. intros [E | []]. discriminate E.
    - exact NF.
    - exact NC.
    - rewrite NE. exact L1.
    - rewrite NU. apply Forall_forall. intros i I. apply in_map_iff in I. destruct I as ((i', ns) & <- & I). apply (hz_nodes _ _ _ _ _ _ _ _ HZ i' ns I).
    - intros i ns n I J. rewrite PR in I. rewrite NN. apply (hz_nodes _ _ _ _ _ _ _ _ HZ i ns I). exact J.
    - exists x, y, w. unfold MeshSpec.coords_ok, nodescoord. rewrite XY, NN. auto.
    - rewrite XY. repeat constructor; assumption.
    - intros ft s. rewrite SD. apply (hz_manifold _ _ _ _ _ _ _ _ HZ).
    - intros ft (t & e & faces & efs & I & G & IFS & NZ). rewrite D in I. destruct I as [E | []]. injection E as <- <-.
      assert (ft = "quad4"%string). { destruct IF as [(-> & _) | (-> & _)]; cbn in G; injection G as <-; destruct IFS as [E | [E | []]]; injection E as <- <-; congruence. } subst ft.
      destruct (hz_bnd _ _ _ _ _ _ _ _ HZ) as (s & O). destruct (hz_inside _ _ _ _ _ _ _ _ HZ) as (s' & I' & O').
      split; [exists s; apply OU; exact O | exists s'; rewrite SD, OU; auto].
    - exact KN.
    - intros k b I. destruct (M1 k b I) as (q & IQ & <- & MO & PE'). exact (mark_node_ok tbl nnode ncell x y w secs bcs HZ q b IQ MO PE'). }
  assert (MA : marks_apart tbl m c).
  { split.
    - intros k b I. destruct (M1 k b I) as (q & IQ & _ & MO & _). destruct (hz_cover _ _ _ _ _ _ _ _ HZ q IQ) as (s & O & CV). exists "quad4"%string, s. split; [apply OU; exact O | apply (SP q); assumption].
    - intros ft s k b k' b' O I I' S S'. assert (ft = "quad4"%string) by exact (Q4 ft s O). subst ft. apply OU in O.
      destruct (M1 k b I) as (q & IQ & <- & MO & _). destruct (M1 k' b' I') as (q' & IQ' & <- & MO' & _). f_equal.
      apply (hz_apart _ _ _ _ _ _ _ _ HZ s q q' O IQ IQ'); [apply (SP q b) | apply (SP q' b')]; assumption. }
  assert (AS : all_sides tbl c < 2 ^ 31).
  { enough (all_sides tbl c = 6 * zlen (file_cells secs)) by lia. unfold all_sides. cbn [flat_map]. rewrite !SD, (no_other_side tbl types _ "bar2"%string IF), (no_other_side tbl types _ "tri3"%string IF) by discriminate. cbn [app]. rewrite app_nil_r.
    rewrite <- SD. unfold ec_sides. rewrite D. cbn [flat_map fst snd]. rewrite app_nil_r. unfold ed_sides. rewrite PE. unfold zlen.
    assert (HT : sget "hexa8"%string tbl = Some [("tri3"%string, []); ("quad4", connectivity_hexa8)]%string) by (destruct IF as [(-> & _) | (-> & _)]; reflexivity).
    rewrite HT. rewrite (flat_map_const_len _ 6). { lia. } intros (i, ns) _. reflexivity. }
  assert (TE : forall k, ends_at c k <-> In k (List.map fst (file_cells secs)) /\ forall i, In i (List.map fst (file_cells secs)) -> i <= k) by (intros k; unfold ends_at; rewrite NU; reflexivity).
  assert (MX : exists k, ends_at c k).
  { assert (X : List.map fst (file_cells secs) <> []) by (destruct (file_cells secs); [cbn in L1; lia | discriminate]). setoid_rewrite TE. clear -X. induction (List.map fst (file_cells secs)) as [| a l IH]; [congruence |].
    destruct l as [| b l]; [exists a; split; [left; reflexivity | intros i [-> | []]; lia] |]. destruct IH as (k & K1 & K2); [discriminate |].
    destruct (Z_le_gt_dec a k); [exists k; split; [right; exact K1 | intros i [-> | I]; [lia | auto]] | exists a; split; [left; reflexivity | intros i [-> | I]; [lia | specialize (K2 i I); lia]]]. }
  assert (FI : forall lb li rb ri, faces_from_cells tbl c lb li rb ri -> faces_from_cells tbl (hexas (file_cells secs)) lb li rb ri).
  { intros lb li rb ri [F1 F2 F3]. constructor.
    - revert F1. apply Forall2_impl'. intros a b (ft & ci & E1 & E2). exists ft, ci. rewrite <- SD. auto.
    - revert F2. apply Forall2_impl'. intros a b (ft & c1 & c2 & n2 & E1 & E2). exists ft, c1, c2, n2. rewrite <- SD. auto.
    - intros ft s. rewrite <- SD. apply F3. }
  destruct MX as (k & MX). 
  assert (KEYS : forall k0, (exists b, In b bcs /\ cb_name b = k0) <-> In k0 (dkeys (me_bocos m))).
  { intros k0. unfold dkeys. rewrite in_map_iff. split.
    - intros (b & I & <-). destruct (M2 b I) as (mk & J & _). exists (cb_name b, mk). auto.
    - intros ((k1, mk) & <- & J). destruct (M1 k1 mk J) as (b & I & E & _). exists b. auto. }
  assert (SPS : forall k mk, In (k, mk) (me_bocos m) -> exists b, In b bcs /\ cb_name b = k /\ forall nodes, spanned nodes mk <-> bc_covers (file_faces secs) b nodes).
  { intros k0 mk J. destruct (M1 k0 mk J) as (b & I & E & MO & _). exists b. split; [exact I |]. split; [exact E |]. intros nodes. apply SP; assumption. }
  exists m, c, k. split; [exact EX |]. split; [exact CM |]. split; [exact MA |]. split; [exact AS |]. split; [exact MX |]. split; [| split; [exact NN |]].
  - rewrite NC, NE. apply TE in MX. destruct MX as (X1 & X2). split; [intros ->; split; assumption |]. intros (F1 & F2). apply Z.le_antisymm; auto.
  - split; [congruence |]. split; [unfold nodescoord; rewrite XY; reflexivity |]. split; [exact FI |]. split; [exact KEYS |]. split; [exact SPS |]. intros k0 mk J. destruct (M1 k0 mk J) as (b & _ & _ & _ & PE'). exact PE'.
Qed.

Section Props.
  Context (i2d : Z -> Z) (f2i : Z -> res Z).
  Hypothesis patterns : forall i, pattern (i2d i).

  (** A conforming zone of hexahedra is exported and written, whatever the numbers of its cells. The file
      is read back with the faces of the hexahedra and one zone per boundary condition if the cells come
      first in the CGNS file; otherwise it cannot be read. *)
  Theorem C72_cgns_to_ic3 tbl types enum enum' host v endian z nnode ncell x y w secs bcs :
    in_force tbl types -> set_enum enum -> set_enum enum' -> In endian byte_orders ->
    zone_holds z nnode ncell x y w secs bcs -> zo_geodim z = 3 -> Forall sec_ok secs -> hexa_zone tbl nnode ncell x y w secs bcs ->
    nnode < 2 ^ 31 -> 6 * zlen (file_cells secs) < 2 ^ 31 ->
    exists m f fm', Cgns.export_mesh enum z = Ok m /\
      (forall k, (exists b, In b bcs /\ cb_name b = k) <-> In k (dkeys (me_bocos m))) /\
      (forall k mk, In (k, mk) (me_bocos m) -> exists b, In b bcs /\ cb_name b = k /\ forall nodes, spanned nodes mk <-> bc_covers (file_faces secs) b nodes) /\
      write_mesh tbl enum' i2d f2i host v endian (FM m (FDict []) (FDict []) [] None) = (Ok f, fm') /\
      (cells_first secs -> exists fm2 lb li rb ri, (forall integrity, read_mesh integrity f = Ok fm2) /\
         faces_from_cells tbl (hexas (file_cells secs)) lb li rb ri /\ converted tbl m (hexas (file_cells secs)) lb li rb ri fm2 /\
         me_ncell (fm_mesh fm2) = zlen (file_cells secs) /\ me_nnode (fm_mesh fm2) = nnode /\ nodescoord (fm_mesh fm2) = Ok (x, y, w)) /\
      (~ cells_first secs -> forall integrity, read_mesh integrity f = Err AssertionError).
  Proof using patterns.
    intros IF SE SE' IE ZH D3 OK HZ BN BS.
    destruct (zone_converts tbl types enum z nnode ncell x y w secs bcs IF SE ZH D3 OK HZ BS) as (m & c & k & EX & CM & MA & AS & MX & CF & NN & NC & XY & FI & KEYS & SPS & _).
    assert (L1 := zlen_nonneg (file_cells secs)). assert (BN' : me_nnode m < 2 ^ 31) by lia. assert (BC' : me_ncell m < 2 ^ 31) by lia.
    destruct (Z.eq_dec k (me_ncell m - 1)) as [E | NK].
    - rewrite E in MX. destruct (C69_converted i2d f2i patterns tbl types enum' host v endian m c IF SE' IE CM MA BN' BC' AS MX) as (f & fm' & fm2 & lb & li & rb & ri & WR & RD & FC & CV).
      exists m, f, fm'. split; [exact EX |]. split; [exact KEYS |]. split; [exact SPS |]. split; [exact WR |]. split.
      + intros _. exists fm2, lb, li, rb, ri. split; [exact RD |]. split; [apply FI; exact FC |]. assert (CV' := CV). destruct CV' as [V1 V2 V3 V4 _ _ _]. split; [destruct CV; constructor; assumption |].
        split; [congruence |]. split; [congruence |]. rewrite V4. exact XY.
      + intros NF'. destruct NF'. apply CF. exact E.
    - destruct (C70_misnumbered i2d f2i patterns tbl types enum' host v endian m c k IF SE' IE CM MA BN' BC' AS MX NK) as (f & fm' & WR & RD).
      exists m, f, fm'. split; [exact EX |]. split; [exact KEYS |]. split; [exact SPS |]. split; [exact WR |]. split; [| intros _; exact RD].
      intros F. destruct NK. apply CF. exact F.
  Qed.
End Props.
Print Assumptions C72_cgns_to_ic3.

(** ** Concrete cases: two hexahedra, one above the other; cells from number [a], the face of number [b] *)
Definition ex_stack_node (a b : Z) : cgnode Z :=
  CG "Zone_t" (Some (PTable [[12]; [2]; [0]]))
    [("Cells"%string, CG "Elements_t" (Some (PInts [17; 0]))
        [("ElementRange"%string, leaf (PInts [a; a + 1])); ("ElementConnectivity"%string, leaf (PInts [1; 2; 3; 4; 5; 6; 7; 8; 5; 6; 7; 8; 9; 10; 11; 12]))]);
     ("Faces"%string, CG "Elements_t" (Some (PInts [7; 0]))
        [("ElementRange"%string, leaf (PInts [b; b])); ("ElementConnectivity"%string, leaf (PInts [1; 2; 3; 4]))]);
     ("GridCoordinates"%string, CG "GridCoordinates_t" None
        [("CoordinateX"%string, leaf (PReals (ex_coords 1))); ("CoordinateY"%string, leaf (PReals (ex_coords 2))); ("CoordinateZ"%string, leaf (PReals (ex_coords 3)))]);
     ("ZoneBC"%string, CG "ZoneBC_t" None
        [("in"%string, CG "BC_t" (Some (PText "BCInflow")) [("PointList"%string, leaf (PTable [[b]])); ("GridLocation"%string, leaf (PText "FaceCenter"))]);
         ("w1"%string, CG "BC_t" (Some (PText "BCWall")) [("FamilyName"%string, leaf (PText "top")); ("PointList"%string, leaf (PTable [[9; 10; 11; 12]]))])]);
     ("ZoneType"%string, leaf (PText "Unstructured"))].
Definition ex_stack (a b : Z) : zone (F := Z) := match zone_init (ex_stack_node a b) 3 with Ok z => z | Err _ => Zone (ex_stack_node a b) 0 [] [] end.
Definition ex_stack_secs (a b : Z) : list csec := [CSec 17 a (a + 1) [[1; 2; 3; 4; 5; 6; 7; 8]; [5; 6; 7; 8; 9; 10; 11; 12]]; CSec 7 b b [[1; 2; 3; 4]]].
Definition ex_stack_bcs (b : Z) : list cbc := [CBC "in" (Points "FaceCenter" [b]); CBC "top" (Points "Vertex" [9; 10; 11; 12])].

Lemma ex_stack_holds a b : zone_holds (ex_stack a b) 12 2 (ex_coords 1) (ex_coords 2) (ex_coords 3) (ex_stack_secs a b) (ex_stack_bcs b) /\
  zo_geodim (ex_stack a b) = 3 /\ Forall sec_ok (ex_stack_secs a b).
Proof.
  split; [| split; [reflexivity |]].
  - constructor.
    + exists [], [], [[0]]. reflexivity.
    + eexists. split; [reflexivity|]. repeat split; repeat eexists.
    + auto.
    + constructor; [|constructor; [|constructor]].
      * split; [repeat eexists|]. split; [exists []; repeat eexists|repeat eexists].
      * split; [repeat eexists|]. split; [exists []; repeat eexists|repeat eexists].
    + constructor; [|constructor; [|constructor]]; (split; [repeat eexists|]); cbn [cb_name cb_where].
      * split; [left; split; reflexivity|]. split; [exists (PTable [[b]]); split; [repeat eexists|right; exists [[b]]; auto]|right; repeat eexists].
      * split; [right; repeat eexists|]. split; [exists (PTable [[9; 10; 11; 12]]); split; [repeat eexists|right; eexists; split; reflexivity]|left; split; reflexivity].
  - constructor; [|constructor; [|constructor]].
    + do 3 eexists; (split; [reflexivity|]); (split; [cbn; intuition subst; reflexivity |]). cbn [cs_last cs_first cs_rows]. unfold zlen. cbn [List.length]. lia.
    + do 3 eexists; (split; [reflexivity|]); (split; [cbn; intuition subst; reflexivity |]). cbn [cs_last cs_first cs_rows]. unfold zlen. cbn [List.length]. lia.
Qed.
Lemma covers_in (b : Z) nodes :
  bc_covers [(b - 1, [0; 1; 2; 3])] (CBC "in" (Points "FaceCenter" [b])) nodes <-> forallb (fun n => existsb (Z.eqb n) [0; 1; 2; 3]) nodes = true.
Proof.
  unfold bc_covers, bc_nodes. cbn [cb_where String.eqb Ascii.eqb Bool.eqb]. rewrite forallb_forall. split; intros H n I; specialize (H n I).
  - destruct H as (k & ns & _ & [E | []] & J). inversion E; subst. apply existsb_exists. exists n. split; [exact J | apply Z.eqb_refl].
  - apply existsb_exists in H. destruct H as (n' & J & E). apply Z.eqb_eq in E. subst. exists b, [0; 1; 2; 3]. split; [left; reflexivity |]. split; [left; reflexivity | exact J].
Qed.
Lemma covers_top faces nodes : bc_covers faces (CBC "top" (Points "Vertex" [9; 10; 11; 12])) nodes <-> forallb (fun n => existsb (Z.eqb n) [8; 9; 10; 11]) nodes = true.
Proof.
  unfold bc_covers, bc_nodes. cbn [cb_where String.eqb Ascii.eqb Bool.eqb]. rewrite forallb_forall. split; intros H n I; specialize (H n I).
  - apply existsb_exists. exists n. split; [cbn in *; lia | apply Z.eqb_refl].
  - apply existsb_exists in H. destruct H as (n' & J & E). apply Z.eqb_eq in E. subst. cbn in *. lia.
Qed.
Lemma ex_stack_hexa a b : In (a, b) [(1, 3); (2, 1)] -> hexa_zone cgns_elem2faces 12 2 (ex_coords 1) (ex_coords 2) (ex_coords 3) (ex_stack_secs a b) (ex_stack_bcs b).
Proof.
  intros AB.
  assert (FF : file_faces (ex_stack_secs a b) = [(b - 1, [0; 1; 2; 3])]) by (destruct AB as [E | [E | []]]; injection E as <- <-; reflexivity).
  assert (FC : file_cells (ex_stack_secs a b) = [(a - 1, [0; 1; 2; 3; 4; 5; 6; 7]); (a, [4; 5; 6; 7; 8; 9; 10; 11])]) by (destruct AB as [E | [E | []]]; injection E as <- <-; reflexivity).
  constructor; rewrite ?FF, ?FC.
  - discriminate.
  - intros i ns I. cbn in I. destruct AB as [E | [E | []]]; injection E as <- <-; cbn in I;
      repeat (destruct I as [I | I]; [injection I as <- <-; split; [lia | intros n J; repeat (destruct J as [<- | J]; [lia |]); destruct J] |]); destruct I.
  - split; [| split]; repeat constructor; vm_compute; discriminate || reflexivity.
  - repeat constructor. intros [].
  - destruct AB as [E | [E | []]]; injection E as <- <-; apply no_tripleb_ok; vm_compute; reflexivity.
  - exists ([3; 2; 1; 0], a - 1). destruct AB as [E | [E | []]]; injection E as <- <-; split; [vm_compute; tauto | vm_compute; reflexivity | vm_compute; tauto | vm_compute; reflexivity].
  - exists ([5; 6; 7; 4], a - 1). destruct AB as [E | [E | []]]; injection E as <- <-; (split; [vm_compute; tauto |]); intros (_ & Q); vm_compute in Q; discriminate.
  - repeat constructor; cbn; intuition discriminate.
  - assert (GN : forall k, In k ["in"; "top"]%string -> good_name k /\ ~ deof k /\ k <> "unmarked"%string /\ k <> "internal-domain"%string).
    { intros k [<- | [<- | []]]; (split; [apply good_key; [cbn; lia | reflexivity] | split; [unfold deof; vm_compute; discriminate | split; discriminate]]). }
    intros q [<- | [<- | []]]; cbn [cb_name]; (split; [| split; [| apply GN; cbn; tauto]]).
    + right. split; [reflexivity |]. intros k [<- | []]. left. reflexivity.
    + intros (Q & _). discriminate Q.
    + left. reflexivity.
    + intros (_ & Q). vm_compute in Q. discriminate Q.
  - intros q [<- | [<- | []]].
    + exists ([3; 2; 1; 0], a - 1). split; [| apply covers_in; reflexivity]. destruct AB as [E | [E | []]]; injection E as <- <-; split; [vm_compute; tauto | vm_compute; reflexivity | vm_compute; tauto | vm_compute; reflexivity].
    + exists ([9; 10; 11; 8], a). split; [| apply covers_top; reflexivity]. destruct AB as [E | [E | []]]; injection E as <- <-; split; [vm_compute; tauto | vm_compute; reflexivity | vm_compute; tauto | vm_compute; reflexivity].
  - assert (NB : forall s, outer cgns_elem2faces (hexas [(a - 1, [0; 1; 2; 3; 4; 5; 6; 7]); (a, [4; 5; 6; 7; 8; 9; 10; 11])]) "quad4" s ->
      forallb (fun n => existsb (Z.eqb n) [0; 1; 2; 3]) (fst s) = true -> forallb (fun n => existsb (Z.eqb n) [8; 9; 10; 11]) (fst s) = true -> False).
    { intros s (O & _) S S'. cbn in O. repeat (destruct O as [<- | O]; [cbn in S, S'; discriminate |]); destruct O. }
    intros s q q' O [<- | [<- | []]] [<- | [<- | []]] S S'; try reflexivity; exfalso.
    + exact (NB s O (proj1 (covers_in b _) S) (proj1 (covers_top _ _) S')).
    + exact (NB s O (proj1 (covers_in b _) S') (proj1 (covers_top _ _) S)).
Qed.
Example c72_case : hexa_zone cgns_elem2faces 12 2 (ex_coords 1) (ex_coords 2) (ex_coords 3) (ex_stack_secs 1 3) (ex_stack_bcs 3) /\ cells_first (ex_stack_secs 1 3) /\
  hexa_zone cgns_elem2faces 12 2 (ex_coords 1) (ex_coords 2) (ex_coords 3) (ex_stack_secs 2 1) (ex_stack_bcs 1) /\ ~ cells_first (ex_stack_secs 2 1).
Proof.
  split; [apply ex_stack_hexa; cbn; tauto |]. split; [split; [vm_compute; tauto | intros i I; vm_compute in I; change (zlen (file_cells (ex_stack_secs 1 3)) - 1) with 1; lia] |].
  split; [apply ex_stack_hexa; cbn; tauto |]. intros (_ & Q). specialize (Q 2 (or_intror (or_introl eq_refl))). vm_compute in Q. congruence.
Qed.
(** From the nodes of the CGNS file to the zones read back; faces before cells: the file cannot be read. *)
Definition ex_pipeline (a b : Z) : res (list (string * option indexlist)) :=
  z <- zone_init (ex_stack_node a b) 3 ;; m <- Cgns.export_mesh np_unique z ;;
  ex_zones (fst (write_mesh cgns_elem2faces (fun l => l) ex_i2d ex_f2i Little V3 "native" (FM m (FDict []) (FDict []) [] None))).
Example c72_zones : ex_pipeline 1 3 = Ok [("in", Some (ILrange 0 0)); ("top", Some (ILrange 1 1)); ("unmarked", Some (ILrange 2 9)); ("internal-domain", Some (ILrange 10 10))]%string.
Proof. vm_compute. reflexivity. Qed.
Example c72_unreadable : ex_pipeline 2 1 = Err AssertionError.
Proof. vm_compute. reflexivity. Qed.
