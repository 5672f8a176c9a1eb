(** * Property C70: cell numbers with gaps, and extruded meshes converted to IC3 files. *)
From Coq Require Import ZArith List Bool Ascii String Lia Permutation.
From Verif Require Import Py PyFacts Elements Conn ConnSpec ConnProofs FaceSpec FaceProofs FaceTable Mesh MeshSpec
  Extrude ExtrudeSpec ExtrudeProofs ExtrudeProps Ic3Bytes Ic3 Ic3HeaderSpec Ic3FileSpec Ic3RoundSpec Ic3FileProps Ic3OkSpec Ic3CubeProps
  ConvSpec ConvProofs ConvProps LayerSpec LayerProofs.

Section Props.
  Context (i2d : Z -> Z) (f2i : Z -> res Z).
  Hypothesis patterns : forall n, pattern (i2d n).

  (** A conforming mesh whose largest cell number is not the number of cells minus one is written
      without any complaint, in any version and byte order, but the file cannot be read. *)
  Theorem C70_misnumbered tbl types enum host v endian m c k :
    in_force tbl types -> set_enum enum -> In endian byte_orders -> cell_mesh tbl types m c -> marks_apart tbl m c ->
    me_nnode m < 2 ^ 31 -> me_ncell m < 2 ^ 31 -> all_sides tbl c < 2 ^ 31 -> ends_at c k -> k <> me_ncell m - 1 ->
    exists f fm', write_mesh tbl enum i2d f2i host v endian (FM m (FDict []) (FDict []) [] None) = (Ok f, fm') /\
      forall integrity, read_mesh integrity f = Err AssertionError.
  Proof using patterns.
    intros IF SE IE CM MA BN BC BS TOP NE. destruct (order_known host endian IE) as (o & OO).
    destruct (conv_both tbl types enum IF SE m c CM MA i2d f2i host v endian o k patterns OO BN BC BS TOP) as (f & m3 & lb & li & rb & ri & W & _ & _ & R).
    exists f, (FM m3 (FDict []) (FDict []) [] None). split; [exact W | exact (R NE)].
  Qed.

  (** A conforming planar mesh of quadrangles, extruded over two planes or more, is written without
      any complaint. The file is read back, as described by [converted], if there is one layer or as
      many cells as nodes in the plane; otherwise it cannot be read. *)
  Theorem C70_extruded tbl types enum enum' host v endian add mul m c dir planes domain :
    in_force tbl types -> set_enum enum -> set_enum enum' -> In endian byte_orders -> (forall a b, pattern (add a b)) ->
    flat_mesh tbl m c -> flat_marks tbl m c -> 2 <= zlen planes -> some_inside tbl c (zlen planes) ->
    free_name m (domain ++ "0") -> free_name m (domain ++ "1") ->
    zlen planes * me_nnode m < 2 ^ 31 -> 6 * (zlen planes - 1) * ec_nelem c < 2 ^ 31 -> (zlen planes - 2) * me_nnode m + ec_nelem c <= 2 ^ 31 ->
    exists m' c' f fm', export_extruded add mul enum m dir planes domain = Ok m' /\ me_cell2node m' = Some c' /\
      write_mesh tbl enum' i2d f2i host v endian (FM m' (FDict []) (FDict []) [] None) = (Ok f, fm') /\
      (zlen planes = 2 \/ me_nnode m = ec_nelem c -> exists fm2 lb li rb ri,
        (forall integrity, read_mesh integrity f = Ok fm2) /\ faces_from_cells tbl c' lb li rb ri /\ converted tbl m' c' lb li rb ri fm2) /\
      (zlen planes <> 2 -> me_nnode m <> ec_nelem c -> forall integrity, read_mesh integrity f = Err AssertionError).
  Proof using patterns.
    intros IF SE SE' IE PA FL MK N2 SI F0 F1 BN BS BC. destruct (fl_coords _ _ _ FL) as (x & y & z & CO).
    destruct (C27_extruded Z add mul enum m c x y z dir planes domain SE N2 CO (fl_cells _ _ _ FL) (fl_wf _ _ _ FL) (fl_plain _ _ _ FL) (fl_width _ _ _ FL)) as (m' & EX & XM).
    - intros k b I. destruct (fl_marks _ _ _ FL k b I) as [A1 A2 A3 A4 A5 A6]. split; [exact A1 |]. split; [exact A2 |]. split; [symmetry; exact A3 |].
      destruct A4 as (t & A4 & T). exists t. split; [exact A4 |]. cbn in T |- *. tauto.
    - exact (fl_keys _ _ _ FL).
    - apply F0.
    - apply F1.
    - destruct (xm_cells _ _ _ _ _ _ _ XM) as (c0 & c' & E0 & E1 & _). clear c0 E0.
      assert (X := xconn tbl m m' c c' add mul dir planes domain FL XM E1).
      assert (CM : cell_mesh tbl types m' c') by (eapply ext_mesh; eassumption).
      assert (MA : marks_apart tbl m' c') by (eapply ext_apart; eassumption).
      assert (NC : me_ncell m' = (zlen planes - 1) * ec_nelem c) by exact (xm_ncell _ _ _ _ _ _ _ XM c (fl_cells _ _ _ FL)).
      assert (TOP := layers_end tbl m c c' (zlen planes) FL N2 X).
      assert (AL := layers_all tbl types IF m c c' (zlen planes) FL N2 X).
      assert (B1 : me_nnode m' < 2 ^ 31) by (rewrite (xm_nnode _ _ _ _ _ _ _ XM); exact BN).
      assert (X1 := fl_some _ _ _ FL). assert (B2 : me_ncell m' < 2 ^ 31) by (rewrite NC; nia). assert (B3 : all_sides tbl c' < 2 ^ 31) by lia.
      destruct (Z.eq_dec (zlen planes) 2) as [E2 | E2]; [| destruct (Z.eq_dec (me_nnode m) (ec_nelem c)) as [EN | EN]].
      + assert (T : ends_at c' (me_ncell m' - 1)) by (replace (me_ncell m' - 1) with (ec_nelem c - 1 + (zlen planes - 2) * me_nnode m) by (rewrite NC, E2; lia); exact TOP).
        destruct (C69_converted i2d f2i patterns tbl types enum' host v endian m' c' IF SE' IE CM MA B1 B2 B3 T) as (f & fm' & fm2 & lb & li & rb & ri & W & R & FC & CV).
        exists m', c', f, fm'. split; [exact EX |]. split; [exact E1 |]. split; [exact W |]. split; [| congruence]. intros _. exists fm2, lb, li, rb, ri. auto.
      + assert (T : ends_at c' (me_ncell m' - 1)) by (replace (me_ncell m' - 1) with (ec_nelem c - 1 + (zlen planes - 2) * me_nnode m) by (rewrite NC, EN; lia); exact TOP).
        destruct (C69_converted i2d f2i patterns tbl types enum' host v endian m' c' IF SE' IE CM MA B1 B2 B3 T) as (f & fm' & fm2 & lb & li & rb & ri & W & R & FC & CV).
        exists m', c', f, fm'. split; [exact EX |]. split; [exact E1 |]. split; [exact W |]. split; [| congruence]. intros _. exists fm2, lb, li, rb, ri. auto.
      + assert (NE : ec_nelem c - 1 + (zlen planes - 2) * me_nnode m <> me_ncell m' - 1) by (rewrite NC; nia).
        destruct (C70_misnumbered tbl types enum' host v endian m' c' _ IF SE' IE CM MA B1 B2 B3 TOP NE) as (f & fm' & W & R).
        exists m', c', f, fm'. split; [exact EX |]. split; [exact E1 |]. split; [exact W |]. split; [intros [H | H]; congruence |]. intros _ _. exact R.
  Qed.
End Props.
Print Assumptions C70_misnumbered.
Print Assumptions C70_extruded.

(** ** Concrete cases *)
(** Two squares with a mark along two of their edges. *)
Lemma ex_flat : flat_mesh cgns_elem2faces ex_plane ex_base.
Proof.
  destruct ex_base_wf as (W & P & B). constructor; try assumption; try reflexivity.
  - vm_compute. discriminate.
  - intros i row I. change (me_nnode ex_plane) with 6. vm_compute in I. destruct I as [I | [I | []]]; injection I as <- <-;
      (split; [repeat constructor; cbn; lia | cbn; lia]).
  - intros i row i' row' I I' PR. vm_compute in I, I'. destruct I as [I | [I | []]], I' as [I' | [I' | []]]; injection I as <- <-; injection I' as <- <-; try reflexivity; exfalso.
    + assert (J := Permutation_in 0 PR (or_introl eq_refl)). cbn in J. lia.
    + assert (J := Permutation_in 0 (Permutation_sym PR) (or_introl eq_refl)). cbn in J. lia.
  - apply no_tripleb_ok; vm_compute; reflexivity.
  - exists [0; 1; 1; 0; 2; 2], [0; 0; 1; 1; 0; 1], [0; 0; 0; 0; 0; 0]. repeat split.
  - repeat constructor. intros [].
  - intros k b [E | []]. inversion E; subst. node_mark.
Qed.
Lemma ex_flat_marks : flat_marks cgns_elem2faces ex_plane ex_base.
Proof.
  split; [| split; [| split]].
  - intros k b v [E | []] I. inversion E; subst. change (me_nnode ex_plane) with 6. cbn in I. lia.
  - intros k b [E | []]. inversion E; subst. exists ([1; 0], 0). split; [split; [vm_compute; tauto | vm_compute; reflexivity] | apply spanned_b; reflexivity].
  - intros s k b k' b' _ [E | []] [E' | []] _ _. congruence.
  - intros k b i row [E | []] I S. inversion E; subst. apply spanned_b in S. vm_compute in I. destruct I as [I | [I | []]]; injection I as <- <-; vm_compute in S; discriminate.
Qed.
Lemma ex_free a : In a ["0"; "1"]%string -> free_name ex_plane ("fluid" ++ a).
Proof.
  intros [<- | [<- | []]]; (split; [apply good_key; [cbn; lia | reflexivity] | split; [intros H; vm_compute in H; discriminate H |]]); intros H; vm_compute in H; destruct H as [H | []]; discriminate H.
Qed.
Definition add64 (a b : Z) : Z := (a + b) mod 2 ^ 64.
(** One layer: the file is read. Two layers: numbers 0, 1, 6, 7, and the file is not. *)
Example c70_case : flat_mesh cgns_elem2faces ex_plane ex_base /\ flat_marks cgns_elem2faces ex_plane ex_base /\
  some_inside cgns_elem2faces ex_base 2 /\ some_inside cgns_elem2faces ex_base 3 /\ free_name ex_plane "fluid0" /\ free_name ex_plane "fluid1" /\
  (forall a b, pattern (add64 a b)) /\ me_nnode ex_plane <> ec_nelem ex_base.
Proof.
  split; [exact ex_flat |]. split; [exact ex_flat_marks |]. split; [right; exists ([2; 1], 0); split; [vm_compute; tauto |]; intros (_ & Q); vm_compute in Q; discriminate |].
  split; [left; lia |]. split; [apply (ex_free "0"); left; reflexivity |]. split; [apply (ex_free "1"); right; left; reflexivity |].
  split; [intros a b; apply Z.mod_pos_bound; reflexivity | discriminate].
Qed.
Definition ex_layers (planes : list Z) (v : version) : res (res (Z * list (string * option indexlist))) :=
  m <- export_extruded add64 Z.mul np_unique ex_plane (0, 0, 1) planes "fluid" ;;
  f <- fst (write_mesh cgns_elem2faces (fun l => l) ex_i2d ex_f2i Little v "big" (FM m (FDict []) (FDict []) [] None)) ;;
  Ok (fm <- read_mesh true f ;; Ok (me_ncell (fm_mesh fm), List.map (fun kb => (fst kb, mk_index (snd kb))) (me_bocos (fm_mesh fm)))).
Example c70_one_layer : forall v, ex_layers [0; 10] v =
  Ok (Ok (2, [("wall", Some (ILrange 0 1)); ("fluid0", Some (ILrange 2 3)); ("fluid1", Some (ILrange 4 5)); ("unmarked", Some (ILrange 6 9)); ("internal-domain", Some (ILrange 10 10))]%string)).
Proof. intros []; vm_compute; reflexivity. Qed.
Example c70_two_layers : forall v, ex_layers [0; 10; 30] v = Ok (Err AssertionError).
Proof. intros []; vm_compute; reflexivity. Qed.
