(** * Property C69: meshes of cells converted to IC3 files. *)
From Coq Require Import ZArith List Bool Ascii String Lia Permutation.
From Verif Require Import Py PyFacts Elements Conn ConnSpec ConnProofs FaceSpec FaceProofs FaceTable FaceProps Mesh MeshSpec
  Ic3Bytes Ic3 Ic3HeaderSpec Ic3FileSpec Ic3RoundSpec Ic3FileProps Ic3OkSpec Ic3CubeProps ConvSpec ConvProofs.

Section Props.
  Context (i2d : Z -> Z) (f2i : Z -> res Z).
  Hypothesis patterns : forall n, pattern (i2d n).

  (** A conforming mesh of linear cells with marks on nodes, as read from another format, is written
      in any version and byte order, and read back: counts, coordinates, every side of every cell as
      one face with the cells along it, one zone for each mark with the boundary faces whose nodes
      are all in the mark, a zone for the boundary faces of no mark, and the inside. *)
  Theorem C69_converted tbl types enum host v endian m c :
    in_force tbl types -> set_enum enum -> In endian byte_orders -> cell_mesh tbl types m c -> marks_apart tbl m c ->
    me_nnode m < 2 ^ 31 -> me_ncell m < 2 ^ 31 -> all_sides tbl c < 2 ^ 31 -> ends_at c (me_ncell m - 1) ->
    exists f fm' fm2 lb li rb ri, write_mesh tbl enum i2d f2i host v endian (FM m (FDict []) (FDict []) [] None) = (Ok f, fm') /\
      (forall integrity, read_mesh integrity f = Ok fm2) /\ faces_from_cells tbl c lb li rb ri /\ converted tbl m c lb li rb ri fm2.
  Proof using patterns.
    intros IF SE IE CM MA BN BC BS TOP. destruct (order_known host endian IE) as (o & OO).
    exact (conv_file tbl types enum IF SE m c CM MA i2d f2i host v endian o patterns OO BN BC BS TOP).
  Qed.

  (** A mark that has all the nodes of no boundary face: the mesh is refused. *)
  Theorem C69_refused_empty tbl types enum host v endian fm m c k b :
    in_force tbl types -> set_enum enum -> cell_mesh tbl types m c -> fm_mesh fm = m ->
    In (k, b) (me_bocos m) -> (forall ft s, outer tbl c ft s -> ~ spanned (fst s) b) ->
    exists e fm', write_mesh tbl enum i2d f2i host v endian fm = (Err e, fm').
  Proof. intros IF SE CM FE I N. apply (conv_refused tbl types enum IF SE m c CM i2d f2i host v endian fm FE). left. eauto. Qed.
  (** Two marks that have all the nodes of the same boundary face: the mesh is refused. *)
  Theorem C69_refused_overlap tbl types enum host v endian fm m c ft s k b k' b' :
    in_force tbl types -> set_enum enum -> cell_mesh tbl types m c -> fm_mesh fm = m ->
    outer tbl c ft s -> In (k, b) (me_bocos m) -> In (k', b') (me_bocos m) -> k <> k' -> spanned (fst s) b -> spanned (fst s) b' ->
    exists e fm', write_mesh tbl enum i2d f2i host v endian fm = (Err e, fm').
  Proof. intros IF SE CM FE O I I' N S S'. apply (conv_refused tbl types enum IF SE m c CM i2d f2i host v endian fm FE). right. eauto 12. Qed.
End Props.
Print Assumptions C69_converted.
Print Assumptions C69_refused_empty.
Print Assumptions C69_refused_overlap.

(** ** Concrete cases *)
(** Four prisms, with triangles and quadrangles outside and inside. *)
Definition ex_bottom : mark Z := Mark Z "bottom" (Some Gnode) (Some "boundary"%string) (Some (ILlist [0; 1; 2; 3])) None.
Definition ex_top : mark Z := Mark Z "top" (Some Gbdnode) (Some "perio_cart"%string) (Some (ILlist [8; 9; 10; 11])) (Some (Some [5; 6])).
Definition ex_edge : mark Z := Mark Z "edge" (Some Gnode) (Some "boundary"%string) (Some (ILlist [0; 1])) None.
Definition ex_half : mark Z := Mark Z "half" (Some Gnode) (Some "boundary"%string) (Some (ILlist [0; 1; 2; 4])) None.
Definition ex_coords (k : Z) : list Z := List.map (fun i => i * k) (zrange 0 12).
Definition ex_prism_mesh (marks : dict string (mark Z)) : mesh Z :=
  Mesh Z 4 12 0 (Some ex_prisms) [] [("x"%string, ex_coords 1); ("y"%string, ex_coords 2); ("z"%string, ex_coords 3)] marks.
Lemma good_key k : (String.length k <= 52)%nat -> forallb (fun c => Nat.ltb 0 (nat_of_ascii c) && Nat.ltb (nat_of_ascii c) 128) (list_ascii_of_string k) = true -> good_name k.
Proof.
  intros L H. split; [exact L |]. rewrite forallb_forall in H. intros c I. specialize (H c I). apply andb_true_iff in H. destruct H as (A & B).
  apply PeanoNat.Nat.ltb_lt in A. apply PeanoNat.Nat.ltb_lt in B. lia.
Qed.
Lemma ex_prism_types ft : has_face_type cgns_elem2faces ex_prisms ft -> ft = "tri3"%string \/ ft = "quad4"%string.
Proof.
  intros (t & ed & faces & efs & [I | []] & D & J & _). injection I as <- <-. vm_compute in D. injection D as <-.
  repeat (destruct J as [J | J]; [injection J as <- _; auto |]). destruct J.
Qed.
Lemma ex_prism_cells marks : NoDup (dkeys marks) -> (forall k b, In (k, b) marks -> node_mark_ok k b) ->
  cell_mesh cgns_elem2faces cgns_types (ex_prism_mesh marks) ex_prisms.
Proof.
  intros ND MK. destruct ex_prisms_ok as (W & P & CT & NT). constructor; try assumption; try reflexivity.
  - cbn. intuition discriminate.
  - vm_compute. discriminate.
  - repeat constructor; vm_compute; discriminate || reflexivity.
  - intros i ns n I J. change (me_nnode (ex_prism_mesh marks)) with 12. vm_compute in I.
    repeat (destruct I as [I | I]; [injection I as <- <-; repeat (destruct J as [<- | J]; [lia |]); destruct J |]). destruct I.
  - exists (ex_coords 1), (ex_coords 2), (ex_coords 3). repeat split.
  - repeat constructor; vm_compute; discriminate || reflexivity.
  - intros ft H. destruct (ex_prism_types ft H) as [-> | ->].
    + split; [exists ([2; 1; 0], 0); split; [vm_compute; tauto | vm_compute; reflexivity] |].
      exists ([5; 6; 4], 0). split; [vm_compute; tauto |]. intros (_ & Q). vm_compute in Q. discriminate.
    + split; [exists ([1; 5; 4; 0], 0); split; [vm_compute; tauto | vm_compute; reflexivity] |].
      exists ([0; 4; 6; 2], 0). split; [vm_compute; tauto |]. intros (_ & Q). vm_compute in Q. discriminate.
Qed.
Definition ex_marks69 : dict string (mark Z) := [("bottom", ex_bottom); ("top", ex_top)]%string.
Lemma spanned_b nodes b : spanned nodes b <-> forallb (fun n => existsb (Z.eqb n) (mk_entries b)) nodes = true.
Proof.
  rewrite forallb_forall. split; intros H n I; specialize (H n I).
  - apply existsb_exists. exists n. split; [exact H | apply Z.eqb_refl].
  - apply existsb_exists in H. destruct H as (n' & J & E). apply Z.eqb_eq in E. subst. exact J.
Qed.
Lemma ex_sides ft s : outer cgns_elem2faces ex_prisms ft s -> In s (ec_sides cgns_elem2faces "tri3" ex_prisms ++ ec_sides cgns_elem2faces "quad4" ex_prisms).
Proof.
  intros (I & _). destruct ex_prisms_ok as (W & _ & CT & _). 
  destruct (side_of_cell cgns_elem2faces cgns_types ex_prisms ft s (or_introl (conj eq_refl eq_refl)) W CT I) as (H & _).
  apply in_or_app. destruct (ex_prism_types ft H) as [-> | ->]; auto.
Qed.
Ltac node_mark := constructor; [reflexivity | eexists; split; [reflexivity | split; [discriminate | reflexivity]] | reflexivity
  | eexists; split; [reflexivity | cbn; tauto] | cbn; try exact Logic.I; try (split; [vm_compute; discriminate | repeat constructor; vm_compute; discriminate || reflexivity])
  | split; [apply good_key; [cbn; lia | reflexivity] | split; [unfold deof; vm_compute; discriminate | split; discriminate]]].
Example c69_case : cell_mesh cgns_elem2faces cgns_types (ex_prism_mesh ex_marks69) ex_prisms /\ marks_apart cgns_elem2faces (ex_prism_mesh ex_marks69) ex_prisms /\
  all_sides cgns_elem2faces ex_prisms = 20 /\ ends_at ex_prisms (me_ncell (ex_prism_mesh ex_marks69) - 1).
Proof.
  split; [apply ex_prism_cells | split; [split | split]].
  - repeat constructor; cbn; intuition discriminate.
  - intros k b [E | [E | []]]; inversion E; subst; node_mark.
  - intros k b [E | [E | []]]; inversion E; subst.
    + exists "tri3"%string, ([2; 1; 0], 0). split; [split; [vm_compute; tauto | vm_compute; reflexivity] | apply spanned_b; reflexivity].
    + exists "tri3"%string, ([9; 10; 8], 2). split; [split; [vm_compute; tauto | vm_compute; reflexivity] | apply spanned_b; reflexivity].
  - intros ft s k b k' b' O I I' S S'. apply ex_sides in O. apply spanned_b in S. apply spanned_b in S'.
    destruct I as [E | [E | []]], I' as [E' | [E' | []]]; inversion E; inversion E'; subst; try reflexivity; exfalso; vm_compute in O;
      repeat (destruct O as [<- | O]; [vm_compute in S, S'; discriminate |]); destruct O.
  - reflexivity.
  - split; [vm_compute; tauto |]. intros i I. vm_compute in I. change (me_ncell (ex_prism_mesh ex_marks69) - 1) with 3. lia.
Qed.
Definition ex_zones (f : res (list Z)) : res (list (string * option indexlist)) :=
  f <- f ;; fm <- read_mesh true f ;; Ok (List.map (fun kb => (fst kb, mk_index (snd kb))) (me_bocos (fm_mesh fm))).
Example c69_zones : forall v,
  ex_zones (fst (write_mesh cgns_elem2faces (fun l => l) ex_i2d ex_f2i Little v "big" (FM (ex_prism_mesh ex_marks69) (FDict []) (FDict []) [] None))) =
  Ok [("bottom", Some (ILrange 0 1)); ("top", Some (ILrange 2 3)); ("unmarked", Some (ILrange 4 11)); ("internal-domain", Some (ILrange 12 15))]%string.
Proof. intros []; vm_compute; reflexivity. Qed.

(** The mark "edge" holds no face; "half" holds a face of "bottom". *)
Example c69_refused : forall v,
  fst (write_mesh cgns_elem2faces (fun l => l) ex_i2d ex_f2i Little v "big" (FM (ex_prism_mesh [("edge"%string, ex_edge)]) (FDict []) (FDict []) [] None)) = Err IndexError /\
  fst (write_mesh cgns_elem2faces (fun l => l) ex_i2d ex_f2i Little v "big" (FM (ex_prism_mesh [("bottom"%string, ex_bottom); ("half"%string, ex_half)]) (FDict []) (FDict []) [] None)) = Err ValueError.
Proof. intros []; vm_compute; split; reflexivity. Qed.
Example c69_refused_case :
  cell_mesh cgns_elem2faces cgns_types (ex_prism_mesh [("edge"%string, ex_edge)]) ex_prisms /\ (forall ft s, outer cgns_elem2faces ex_prisms ft s -> ~ spanned (fst s) ex_edge) /\
  cell_mesh cgns_elem2faces cgns_types (ex_prism_mesh [("bottom"%string, ex_bottom); ("half"%string, ex_half)]) ex_prisms /\
  outer cgns_elem2faces ex_prisms "tri3" ([2; 1; 0], 0) /\ spanned [2; 1; 0] ex_bottom /\ spanned [2; 1; 0] ex_half.
Proof.
  split; [apply ex_prism_cells; [repeat constructor; cbn; intuition discriminate | intros k b [E | []]; inversion E; subst; node_mark] |].
  split; [intros ft s O S; apply ex_sides in O; apply spanned_b in S; vm_compute in O; repeat (destruct O as [<- | O]; [vm_compute in S; discriminate |]); destruct O |].
  split; [apply ex_prism_cells; [repeat constructor; cbn; intuition discriminate | intros k b [E | [E | []]]; inversion E; subst; node_mark] |].
  split; [split; [vm_compute; tauto | vm_compute; reflexivity] |]. split; apply spanned_b; reflexivity.
Qed.
