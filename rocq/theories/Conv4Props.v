(** * Property C88: meshes converted to the HDF5 files of IC3 (version 4). *)
From Coq Require Import ZArith List Bool String Ascii Lia Permutation.
From Verif Require Import Py PyFacts Data Elements IndexList Conn ConnSpec ConnProofs FaceSpec FaceProofs FaceTable FaceProps Mesh MeshSpec Simple SimpleSpec
  Ic3Bytes Ic3 Ic3HeaderSpec Ic3FileSpec Ic3RoundSpec Ic3FileThm Ic3FileProps Ic3OkSpec Ic3OkProofs Ic3CubeSpec Ic3CubeProps CubeThm ConvSpec ConvProofs ConvProps
  Cgns CgnsSpec CgnsProps LayerProps CgnsIc3Spec CgnsIc3Props Gmsh GmshSpec GroupFacts GmshProofs GmshFileProofs GmshProps GmshIc3Spec GmshIc3Props
  SimpleProofs Ic3V4 Ic3V4Spec Ic3V4Props Ic3FixProps ConvSpec Conv4Spec Conv4Proofs.

Section Props.
  Context (i2d : Z -> Z) (f2i : Z -> res Z) (narrow : Z -> Z).

  (** A mesh of cells whose marks are apart is written to an HDF5 file, with its cells type by type; the file is read
      back with the faces of the cells, the coordinates and one zone per mark. *)
  Theorem C88_converted tbl types enum host endian m c :
    in_force tbl types -> set_enum enum -> In endian byte_orders -> cell_mesh tbl types m c -> marks_apart tbl m c -> marks_fit4 (me_bocos m) ->
    me_nnode m < 2 ^ 31 -> all_sides tbl c < 2 ^ 31 -> ends_at c (me_ncell m - 1) ->
    exists mf fm' fm2 lb li rb ri, write4 i2d narrow tbl enum host endian false (FM m (FDict []) (FDict []) [] None) = (Ok (mf, None), fm') /\
      cell_tables c mf /\ read4 mf None = Ok fm2 /\ faces_from_cells tbl c lb li rb ri /\ converted4 m lb li rb ri fm2.
  Proof.
    intros IF SE IE CM MA MF BN BS TOP. destruct (conv4 tbl types enum IF SE m c CM MA MF i2d narrow host endian _ IE BN BS TOP) as (mf & fm' & lb & li & rb & ri & W & FC & CE & RD & _).
    destruct (RD eq_refl) as (fm2 & R & CV). exists mf, fm', fm2, lb, li, rb, ri. split; [exact W |]. split; [exact (tables_kept c mf CE) |]. auto.
  Qed.
  (** When the largest cell number is not the number of cells minus one, the file is written all the same
      and cannot be read. *)
  Theorem C88_misnumbered tbl types enum host endian m c k :
    in_force tbl types -> set_enum enum -> In endian byte_orders -> cell_mesh tbl types m c -> marks_apart tbl m c -> marks_fit4 (me_bocos m) ->
    me_nnode m < 2 ^ 31 -> all_sides tbl c < 2 ^ 31 -> ends_at c k -> k <> me_ncell m - 1 ->
    exists mf fm', write4 i2d narrow tbl enum host endian false (FM m (FDict []) (FDict []) [] None) = (Ok (mf, None), fm') /\
      cell_tables c mf /\ forall sol, read4 mf sol = Err AssertionError.
  Proof.
    intros IF SE IE CM MA MF BN BS TOP NK. destruct (conv4 tbl types enum IF SE m c CM MA MF i2d narrow host endian _ IE BN BS TOP) as (mf & fm' & lb & li & rb & ri & W & FC & CE & _ & RD).
    exists mf, fm'. split; [exact W |]. split; [exact (tables_kept c mf CE) |]. exact (RD NK).
  Qed.
  (** Marks that have no face, or a face in common: nothing is written. *)
  Theorem C88_refused tbl types enum host endian solution fm c :
    in_force tbl types -> set_enum enum -> cell_mesh tbl types (fm_mesh fm) c ->
    (exists k b, In (k, b) (me_bocos (fm_mesh fm)) /\ forall ft s, outer tbl c ft s -> ~ spanned (fst s) b) \/
    (exists ft s k b k' b', outer tbl c ft s /\ In (k, b) (me_bocos (fm_mesh fm)) /\ In (k', b') (me_bocos (fm_mesh fm)) /\ k <> k' /\ spanned (fst s) b /\ spanned (fst s) b') ->
    exists e fm', write4 i2d narrow tbl enum host endian solution fm = (Err e, fm').
  Proof.
    intros IF SE CM BAD. destruct (conv_unprepared tbl types enum IF SE (fm_mesh fm) c CM BAD) as (e & m' & PR). unfold write4. destruct (order_of host endian) as [o | e0]; [| eauto]. rewrite PR. cbn. eauto.
  Qed.

  (** Boxes of hexahedra: what is read is described as for the other versions (C26). *)
  Theorem C88_box fdiv tbl types enum host endian nx ny nz :
    (forall i n, pattern (fdiv i n)) -> in_force tbl types -> set_enum enum -> In endian byte_orders ->
    1 <= nx -> 1 <= ny -> 1 <= nz -> 2 <= nx * ny * nz ->
    (nx + 1) * (ny + 1) * (nz + 1) < 2 ^ 31 -> cube_nface nx ny nz < 2 ^ 31 ->
    exists m mf fm' fm2, cube_export nx ny nz fdiv = Ok m /\
      write4 i2d narrow tbl enum host endian false (FM m (FDict []) (FDict []) [] None) = (Ok (mf, None), fm') /\
      read4 mf None = Ok fm2 /\ cube_read nx ny nz fdiv fm2.
  Proof.
    intros PT IF SE IE Hx Hy Hz H2 BN BF. destruct (cube_ok nx ny nz Hx Hy Hz fdiv) as (m & E & _).
    destruct (box4 nx ny nz Hx Hy Hz fdiv i2d narrow tbl types enum host endian m PT IF SE IE H2 E BN BF) as (mf & fm' & fm2 & W & _ & RD & C). exists m, mf, fm', fm2. auto.
  Qed.

  (** CGNS zones of hexahedra. *)
  Theorem C88_cgns tbl types enum enum' host endian z nnode ncell x y w secs bcs :
    in_force tbl types -> set_enum enum -> set_enum enum' -> In endian byte_orders ->
    zone_holds z nnode ncell x y w secs bcs -> zo_geodim z = 3 -> Forall sec_ok secs -> hexa_zone tbl nnode ncell x y w secs bcs ->
    nnode < 2 ^ 31 -> 6 * zlen (file_cells secs) < 2 ^ 31 ->
    exists m mf fm', Cgns.export_mesh enum z = Ok m /\
      (forall k, (exists b, In b bcs /\ cb_name b = k) <-> In k (dkeys (me_bocos m))) /\
      (forall k mk, In (k, mk) (me_bocos m) -> exists b, In b bcs /\ cb_name b = k /\ forall nodes, spanned nodes mk <-> bc_covers (file_faces secs) b nodes) /\
      write4 i2d narrow tbl enum' host endian false (FM m (FDict []) (FDict []) [] None) = (Ok (mf, None), fm') /\
      (cells_first secs -> exists fm2 lb li rb ri, read4 mf None = Ok fm2 /\
         faces_from_cells tbl (hexas (file_cells secs)) lb li rb ri /\ converted4 m lb li rb ri fm2 /\
         me_ncell (fm_mesh fm2) = zlen (file_cells secs) /\ me_nnode (fm_mesh fm2) = nnode /\ nodescoord (fm_mesh fm2) = Ok (x, y, w)) /\
      (~ cells_first secs -> forall sol, read4 mf sol = Err AssertionError).
  Proof.
    intros IF SE SE' IE ZH D3 OK HZ BN BS.
    destruct (zone_converts tbl types enum z nnode ncell x y w secs bcs IF SE ZH D3 OK HZ BS) as (m & c & k & EX & CM & MA & AS & MX & CF & NN & NC & XY & FI & KEYS & SPS & PE).
    assert (MF : marks_fit4 (me_bocos m)) by (intros k0 b l I Q; rewrite (PE k0 b I) in Q; discriminate Q). assert (BN' : me_nnode m < 2 ^ 31) by lia.
    destruct (conv4 tbl types enum' IF SE' m c CM MA MF i2d narrow host endian k IE BN' AS MX) as (mf & fm' & lb & li & rb & ri & W & FC & CE & RD & NR).
    exists m, mf, fm'. split; [exact EX |]. split; [exact KEYS |]. split; [exact SPS |]. split; [exact W |]. split.
    - intros F. apply CF in F. destruct (RD F) as (fm2 & R & CV). exists fm2, lb, li, rb, ri. split; [exact R |]. split; [apply FI; exact FC |]. split; [exact CV |].
      destruct CV as [V1 V2 V3 V4 _ _ _ _ _]. split; [congruence |]. split; [congruence |]. rewrite V4. exact XY.
    - intros F. apply NR. intros E. apply F. apply CF. exact E.
  Qed.

  (** Gmsh files, when no patch has the name of one of the datasets of zones. *)
  Theorem C88_gmsh int_of (float_of : string -> res Z) ver_of enum host endian msh names nnode elts d fuel :
    set_enum enum -> In endian byte_orders ->
    gmsh_file int_of float_of ver_of msh names nnode elts -> Forall felt_ok elts -> top_dim d elts -> 2 <= d <= 3 -> (List.length msh <= fuel)%nat ->
    gmsh_conforms gmsh_elem2faces names nnode d elts -> patches_apart gmsh_elem2faces names d elts ->
    (forall k, is_patch names (GmshSpec.of_dim (d - 1) elts) k -> ~ In k ["labels"; "offsets"; "kinds"]%string) ->
    nnode < 2 ^ 31 -> all_sides gmsh_elem2faces (elt_cells (GmshSpec.of_dim d elts)) < 2 ^ 31 -> zlen (GmshSpec.of_dim d elts) < 2 ^ 31 ->
    exists m, load 0 int_of float_of ver_of fuel msh = Ok m /\
      (forall k, In k (dkeys (me_bocos m)) <-> is_patch names (GmshSpec.of_dim (d - 1) elts) k) /\
      (forall k b, In (k, b) (me_bocos (defined m)) -> forall nodes, spanned nodes b <-> patch_covers names (GmshSpec.of_dim (d - 1) elts) k nodes) /\
      forall x y z, nodescoord m = Ok (List.map Some x, List.map Some y, List.map Some z) -> Forall pattern x -> Forall pattern y -> Forall pattern z ->
        exists mf fm' fm2 lb li rb ri, write4 i2d narrow gmsh_elem2faces enum host endian false (FM (defined m) (FDict []) (FDict []) [] None) = (Ok (mf, None), fm') /\
          cell_tables (elt_cells (GmshSpec.of_dim d elts)) mf /\ read4 mf None = Ok fm2 /\
          faces_from_cells gmsh_elem2faces (elt_cells (GmshSpec.of_dim d elts)) lb li rb ri /\ converted4 (defined m) lb li rb ri fm2 /\
          me_ncell (fm_mesh fm2) = zlen (GmshSpec.of_dim d elts) /\ me_nnode (fm_mesh fm2) = nnode /\ nodescoord (fm_mesh fm2) = Ok (x, y, z).
  Proof.
    intros SE IE Hfile Hok Ht Hd Hf GC PAP NR BN BS BC.
    destruct (loaded_ok int_of float_of ver_of msh names nnode elts d fuel Hfile Hok Ht Hd Hf GC BC) as (m & L & KE & SP & CMx & NC & NN & PE).
    exists m. split; [exact L |]. split; [exact KE |]. split; [intros k b I; apply (SP k b I) |].
    intros x y z XY PX PY PZ. destruct (CMx x y z XY PX PY PZ) as (CM & NO'). set (l := GmshSpec.of_dim d elts) in *. set (bl := GmshSpec.of_dim (d - 1) elts) in *.
    assert (MA : marks_apart gmsh_elem2faces (defined m) (elt_cells l)).
    { split.
      - intros k b I. destruct (SP k b I) as (PA & S). destruct (pa_cover _ _ _ _ PAP k PA) as (ft & s & O & CV). exists ft, s. split; [exact O | apply S; exact CV].
      - intros ft s k b k' b' O I I' S S'. destruct (SP k b I) as (PA & X). destruct (SP k' b' I') as (PA' & X'). apply (pa_apart _ _ _ _ PAP ft s k k' O PA PA'); [apply X; exact S | apply X'; exact S']. }
    assert (MF : marks_fit4 (me_bocos (defined m))).
    { intros k b t I Q. rewrite (PE k b I) in Q. injection Q as <-. split; [vm_compute; discriminate |]. apply NR. apply (SP k b I). }
    assert (L1 := cm_some _ _ _ _ CM). cbn [elt_cells ec_nelem] in L1.
    assert (BN' : me_nnode (defined m) < 2 ^ 31) by (cbn [defined me_nnode]; lia).
    assert (TE : ends_at (elt_cells l) (me_ncell (defined m) - 1)).
    { cbn [defined me_ncell]. rewrite NC. unfold ends_at. rewrite elt_numbers by (apply of_dim_ok; exact Hok). split; [apply in_zrange; lia | intros i I; apply in_zrange in I; lia]. }
    destruct (C88_converted gmsh_elem2faces gmsh_types enum host endian (defined m) (elt_cells l) (or_intror (conj eq_refl eq_refl)) SE IE CM MA MF BN' BS TE) as (mf & fm' & fm2 & lb & li & rb & ri & W & CT & RD & FC & CV).
    exists mf, fm', fm2, lb, li, rb, ri. split; [exact W |]. split; [exact CT |]. split; [exact RD |]. split; [exact FC |]. split; [exact CV |]. destruct CV as [V1 V2 V3 V4 _ _ _ _ _].
    cbn [defined me_ncell me_nnode] in V1, V2. split; [congruence |]. split; [congruence |]. rewrite V4. unfold nodescoord. rewrite NO'. reflexivity.
  Qed.

  (** Files of version 2 or 3.  What was read from them is written to a mesh file of version 4, which has the mesh and the zones,
      but no data, no step, no time and no cells. *)
  Hypothesis patterns : forall n, pattern (i2d n).
  Theorem C88_ic3 tbl enum host v endian tbl' enum' host' endian' fm m ls rows :
    In endian byte_orders -> In endian' byte_orders -> prepare_mesh tbl enum (fm_mesh fm) = (Ok tt, m) ->
    let fm' := FM m (fm_cells fm) (fm_nodes fm) (fm_params fm) (fm_part fm) in
    writable f2i v fm' ls rows -> located fm' ls ->
    (forall k, In k (List.map fst (zone_marks m)) -> ~ In k ["labels"; "offsets"; "kinds"]%string) ->
    exists f fm1 mf fm2, write_mesh tbl enum i2d f2i host v endian fm = (Ok f, fm') /\ (forall integrity, read_mesh integrity f = Ok fm1) /\
      write4 i2d narrow tbl' enum' host' endian' false fm1 = (Ok (mf, None), fm1) /\ m4_cells mf = None /\
      read4 mf None = Ok fm2 /\ mesh_as fm' fm2 ls rows /\ fd_items (fm_cells fm2) = [] /\
      dget String.eqb "step" (fm_params fm2) = Some (SNum (NInt 0)) /\ dget String.eqb "time" (fm_params fm2) = Some (SNum (NInt 0)) /\
      (in_a_row m -> me_bocos (fm_mesh fm2) = List.map zone4_back (zone_marks m) ++ [("internal-domain"%string, internal_on (marks_end m + 1) (zlen ls - 1))]).
  Proof using patterns.
    intros IE IE' PR fm' WR LOC NR.
    destruct (ic3_to_v4 i2d f2i patterns narrow tbl enum host v endian tbl' enum' host' endian' false fm m ls rows IE IE' PR WR LOC NR) as (f & fm1 & mf & so & W & RD & _ & W4 & SO & CE & _ & _ & (fm2 & R2 & D1 & D2 & D3) & MB); [discriminate |].
    destruct SO as (_ & SO). specialize (SO eq_refl). subst so. destruct (MB _ _ R2) as (MS & ZB). exists f, fm1, mf, fm2. auto 12.
  Qed.
  (** With a solution file: the conserved variables and the statistics come back as they were before the first file,
      the step and the time too, and the weights when there are statistics. *)
  Theorem C88_ic3_solution tbl enum host v endian tbl' enum' host' endian' fm m ls rows :
    In endian byte_orders -> In endian' byte_orders -> prepare_mesh tbl enum (fm_mesh fm) = (Ok tt, m) ->
    let fm' := FM m (fm_cells fm) (fm_nodes fm) (fm_params fm) (fm_part fm) in
    writable f2i v fm' ls rows -> located fm' ls ->
    (forall k, In k (List.map fst (zone_marks m)) -> ~ In k ["labels"; "offsets"; "kinds"]%string) ->
    (forall s t, In s (List.map fst (fd_items (fm_cells fm))) -> In t (List.map fst (fd_items (fm_cells fm))) ->
       stat_name s -> stat_name t -> lower s = lower t -> s = t) ->
    (forall name, In name ["RHO"; "RHOU"; "RHOE"]%string -> In name (List.map fst (fd_items (fm_cells fm)))) ->
    exists f fm1 mf s fm2, write_mesh tbl enum i2d f2i host v endian fm = (Ok f, fm') /\ (forall integrity, read_mesh integrity f = Ok fm1) /\
      write4 i2d narrow tbl' enum' host' endian' true fm1 = (Ok (mf, Some s), fm1) /\ m4_cells mf = None /\ read4 mf (Some s) = Ok fm2 /\
      mesh_as fm' fm2 ls rows /\ solution_kept i2d f2i fm' fm2 /\
      (in_a_row m -> me_bocos (fm_mesh fm2) = List.map zone4_back (zone_marks m) ++ [("internal-domain"%string, internal_on (marks_end m + 1) (zlen ls - 1))]).
  Proof using patterns. exact (ic3_solution i2d f2i patterns narrow tbl enum host v endian tbl' enum' host' endian' fm m ls rows). Qed.
  (** When RHO, RHOU or RHOE is missing, the solution file is written and cannot be read. *)
  Theorem C88_ic3_incomplete tbl enum host v endian tbl' enum' host' endian' fm m ls rows name :
    In endian byte_orders -> In endian' byte_orders -> prepare_mesh tbl enum (fm_mesh fm) = (Ok tt, m) ->
    let fm' := FM m (fm_cells fm) (fm_nodes fm) (fm_params fm) (fm_part fm) in
    writable f2i v fm' ls rows -> located fm' ls ->
    (forall k, In k (List.map fst (zone_marks m)) -> ~ In k ["labels"; "offsets"; "kinds"]%string) ->
    (forall s t, In s (List.map fst (fd_items (fm_cells fm))) -> In t (List.map fst (fd_items (fm_cells fm))) ->
       stat_name s -> stat_name t -> lower s = lower t -> s = t) ->
    In name ["RHO"; "RHOU"; "RHOE"]%string -> ~ In name (List.map fst (fd_items (fm_cells fm))) ->
    exists f fm1 mf s, write_mesh tbl enum i2d f2i host v endian fm = (Ok f, fm') /\ (forall integrity, read_mesh integrity f = Ok fm1) /\
      write4 i2d narrow tbl' enum' host' endian' true fm1 = (Ok (mf, Some s), fm1) /\ read4 mf (Some s) = Err KeyError.
  Proof using patterns.
    intros IE IE' PR fm' WR LOC NR NC IN NI.
    destruct (ic3_to_v4 i2d f2i patterns narrow tbl enum host v endian tbl' enum' host' endian' true fm m ls rows IE IE' PR WR LOC NR (fun _ => NC)) as (f & fm1 & mf & so & W & RD & RA & W4 & SO & CE & MO & _).
    destruct so as [s |]; [| destruct SO as (SO & _); specialize (SO eq_refl); discriminate SO].
    exists f, fm1, mf, s. split; [exact W |]. split; [exact RD |]. split; [exact W4 |]. apply (C44_missing i2d narrow tbl' enum' host' endian' fm1 mf s fm1 ls rows name W4 MO IN).
    intros J. apply (ra_cell_names _ _ _ _ _ _ _ RA) in J. exact (NI J).
  Qed.
End Props.
Print Assumptions C88_converted.
Print Assumptions C88_misnumbered.
Print Assumptions C88_refused.
Print Assumptions C88_box.
Print Assumptions C88_cgns.
Print Assumptions C88_gmsh.
Print Assumptions C88_ic3.
Print Assumptions C88_ic3_solution.
Print Assumptions C88_ic3_incomplete.

(** ** Concrete cases *)
(** The four prisms of C69; the periodic mark has three reals. *)
Definition ex_top4 : mark Z := Mark Z "top" (Some Gbdnode) (Some "perio_cart"%string) (Some (ILlist [8; 9; 10; 11])) (Some (Some [5; 6; 7; 8])).
Definition ex_marks88 : dict string (mark Z) := [("bottom", ex_bottom); ("top", ex_top4)]%string.
Example c88_case : cell_mesh cgns_elem2faces cgns_types (ex_prism_mesh ex_marks88) ex_prisms /\ marks_apart cgns_elem2faces (ex_prism_mesh ex_marks88) ex_prisms /\
  marks_fit4 ex_marks88 /\ all_sides cgns_elem2faces ex_prisms = 20 /\ ends_at ex_prisms (me_ncell (ex_prism_mesh ex_marks88) - 1).
Proof.
  split; [apply ex_prism_cells | split; [split | split; [| split]]].
  - repeat constructor; cbn; intuition discriminate.
  - intros k b [E | [E | []]]; inversion E; subst; node_mark.
  - intros k b [E | [E | []]]; inversion E; subst.
    + exists "tri3"%string, ([2; 1; 0], 0). split; [split; [vm_compute; tauto | vm_compute; reflexivity] | apply spanned_b; reflexivity].
    + exists "tri3"%string, ([9; 10; 8], 2). split; [split; [vm_compute; tauto | vm_compute; reflexivity] | apply spanned_b; reflexivity].
  - intros ft s k b k' b' O I I' S S'. apply ex_sides in O. apply spanned_b in S. apply spanned_b in S'.
    destruct I as [E | [E | []]], I' as [E' | [E' | []]]; inversion E; inversion E'; subst; try reflexivity; exfalso; vm_compute in O;
      repeat (destruct O as [<- | O]; [vm_compute in S, S'; discriminate |]); destruct O.
  - intros k b l [E | [E | []]] Q; inversion E; subst; [discriminate Q |]. inversion Q; subst. split; [vm_compute; discriminate | cbn; intuition discriminate].
  - reflexivity.
  - split; [vm_compute; tauto |]. intros i I. vm_compute in I. change (me_ncell (ex_prism_mesh ex_marks88) - 1) with 3. lia.
Qed.
Definition ex_zones4 (r : res (mesh4 * option sol4) * fmesh) : res (list (string * option indexlist * option (option (list Z)))) :=
  f <- fst r ;; fm <- read4 (fst f) (snd f) ;; Ok (List.map (fun kb => (fst kb, mk_index (snd kb), mk_perio (snd kb))) (me_bocos (fm_mesh fm))).
Example c88_zones :
  ex_zones4 (write4 ex_i2d (fun n => n) cgns_elem2faces (fun l => l) Little "big" false (FM (ex_prism_mesh ex_marks88) (FDict []) (FDict []) [] None)) =
  Ok [("bottom", Some (ILrange 0 1), None); ("top", Some (ILrange 2 3), Some (Some [5; 6; 7])); ("unmarked", Some (ILrange 4 11), None); ("internal-domain", Some (ILrange 12 15), None)]%string.
Proof. vm_compute. reflexivity. Qed.
(** C88_misnumbered and C88_cgns: the stack of two hexahedra, cells first or last. *)
Definition ex_pipeline4 (a b : Z) : res (list (string * option indexlist * option (option (list Z)))) :=
  z <- zone_init (ex_stack_node a b) 3 ;; m <- Cgns.export_mesh np_unique z ;;
  ex_zones4 (write4 ex_i2d (fun n => n) cgns_elem2faces (fun l => l) Little "native" false (FM m (FDict []) (FDict []) [] None)).
Example c88_cgns_case : ex_pipeline4 1 3 = Ok [("in", Some (ILrange 0 0), None); ("top", Some (ILrange 1 1), None); ("unmarked", Some (ILrange 2 9), None); ("internal-domain", Some (ILrange 10 10), None)]%string /\
  ex_pipeline4 2 1 = Err AssertionError.
Proof. split; vm_compute; reflexivity. Qed.
(** C88_gmsh: the channel of C74, whose marks get three zeros. *)
Definition ex_gmsh_pipeline4 (msh : list (list string)) : res (list (string * option indexlist * option (option (list Z)))) :=
  m <- load 0 int10 int10 int10 40 msh ;;
  ex_zones4 (write4 ex_i2d (fun n => n) gmsh_elem2faces (fun l => l) Little "native" false (FM (defined m) (FDict []) (FDict []) [] None)).
Example c88_gmsh_case : (forall k, is_patch (Some ex_chan_names) (GmshSpec.of_dim (2 - 1) ex_chan_elts) k -> ~ In k ["labels"; "offsets"; "kinds"]%string) /\
  ex_gmsh_pipeline4 ex_half_chan = Ok [("wall", Some (ILrange 0 1), Some (Some [0; 0; 0])); ("inlet", Some (ILrange 2 2), Some (Some [0; 0; 0])); ("unmarked", Some (ILrange 3 5), None); ("internal-domain", Some (ILrange 6 6), None)]%string.
Proof.
  split; [| vm_compute; reflexivity]. intros k (_ & e & I & P). cbn in I. repeat (destruct I as [<- | I]; [vm_compute in P; injection P as <-; cbn; intuition discriminate |]). destruct I.
Qed.
(** C88_ic3: the two triangles of Ic3FileProps with a solution. *)
Definition ex_cells88 (rho : string) : fdata :=
  FSet (DS "instant" "cellaverage" 1 [] [(rho, Arr [2] false [10; 11]); ("RHOU"%string, Arr [2; 3] false [1; 2; 3; 4; 5; 6]); ("RHOE"%string, Arr [2] true [1; 2]); ("p_AVG"%string, Arr [2] false [20; 21])]).
Definition ex_fm88 (rho : string) : fmesh :=
  FM (ex_mesh ex_marks) (ex_cells88 rho) (fm_nodes (ex_fm ex_marks "A" "B"))
    [("step"%string, SNum (NInt 7)); ("dt"%string, SNum (NFlt 5)); ("wgt"%string, SWgt [("p"%string, NFlt 9)])] None.
Example c88_writable : forall v rho, rho = "RHO"%string \/ rho = "R"%string -> writable ex_f2i v (ex_fm88 rho) ex_ls ex_rows /\ located (ex_fm88 rho) ex_ls.
Proof.
  intros v rho IR. split; [| right; split; discriminate]. apply make_writable.
  - apply make_file_mesh; try (cbn; lia).
    + apply ex_faces.
    + repeat (apply Forall_cons; [cbn; lia |]); apply Forall_nil.
    + repeat (apply Forall_cons; [reflexivity |]); apply Forall_nil.
    + repeat (apply Forall_cons; [cbn; lia |]); apply Forall_nil.
    + exact ex_bounds.
    + destruct IR as [-> | ->]; names.
    + split; [nodups |]. split; [nodups |]. destruct IR as [-> | ->]; nodups.
    + cbn. intuition discriminate.
  - unfold fmesh_typed, ex_fm88, ex_fm, ex_mesh, ex_cells88. cbn [fm_mesh fm_params fm_nodes fm_cells fd_items me_nface me_ncell me_nodes me_bocos].
    split; [lia |]. split; [lia |]. split; [repeat (apply Forall_cons; [pats |]); apply Forall_nil |]. split; [apply ex_marks_typed |].
    split; [repeat (apply Forall_cons; [cbn; unfold pattern; auto; try lia |]); try apply Forall_nil |].
    split; [| split; [| cbn; lia]]; (repeat (apply Forall_cons; [split; [reflexivity | intros; pats] |]); apply Forall_nil).
  - exists [1; 2; 3; 4], [5; 6; 7; 8], [0; 0; 0; 2 ^ 63]. repeat split.
  - split; [reflexivity |]. split; [reflexivity |]. split; [reflexivity |]. destruct v; reflexivity.
  - repeat (apply Forall_cons; [split; vm_compute; congruence |]); apply Forall_nil.
  - repeat (apply Forall_cons; [split; vm_compute; congruence |]); apply Forall_nil.
  - intros k b [E | [E | []]]; inversion E; subst; (split; [reflexivity |]); (split; [left; reflexivity |]);
      (split; [exists "boundary"%string; split; [reflexivity | left; reflexivity] |]); (split; [do 2 eexists; split; [reflexivity | split; vm_compute; congruence] | exact I]).
  - exact I.
  - exists 7. split; [reflexivity | split; vm_compute; congruence].
  - exists (NFlt 5). reflexivity.
  - exists (NInt 0). reflexivity.
  - eexists. reflexivity.
  - repeat (apply Forall_cons; [split; [cbn; tauto | discriminate] |]); apply Forall_nil.
  - assert (E : cell_total v (ex_fm88 rho) = 2) by (destruct v; reflexivity). rewrite E.
    repeat (apply Forall_cons; [split; [cbn; tauto | intros; try discriminate; repeat (apply Forall_cons; [split; vm_compute; congruence |]); apply Forall_nil] |]); apply Forall_nil.
  - intros _. left. eexists. reflexivity.
Qed.
Example c88_ic3_case : prepare_mesh cgns_elem2faces (fun l => l) (fm_mesh (ex_fm88 "RHO")) = (Ok tt, ex_mesh ex_marks) /\ in_a_row (ex_mesh ex_marks) /\
  (forall k, In k (List.map fst (zone_marks (ex_mesh ex_marks))) -> ~ In k ["labels"; "offsets"; "kinds"]%string) /\
  (forall s t, In s (List.map fst (fd_items (fm_cells (ex_fm88 "RHO")))) -> In t (List.map fst (fd_items (fm_cells (ex_fm88 "RHO")))) -> stat_name s -> stat_name t -> lower s = lower t -> s = t) /\
  (forall name, In name ["RHO"; "RHOU"; "RHOE"]%string -> In name (List.map fst (fd_items (fm_cells (ex_fm88 "RHO"))))).
Proof.
  split; [exact ex_prepared |]. split; [split; [discriminate |] |].
  - cbn. exists 1. split; [reflexivity |]. split; [lia |]. exists 3. split; [reflexivity |]. split; [lia | exact I].
  - split; [intros k [<- | [<- | []]]; cbn; intuition discriminate |]. split.
    + intros s t IS IT _ _. cbn in IS, IT. intuition subst; try reflexivity; discriminate.
    + intros n [<- | [<- | [<- | []]]]; cbn; tauto.
Qed.
Definition ex_from_v (v : version) (sol : bool) (fm : fmesh) : res fmesh :=
  f <- fst (write_mesh cgns_elem2faces (fun l => l) ex_i2d ex_f2i Little v "big" fm) ;; fm1 <- read_mesh true f ;;
  r <- fst (write4 ex_i2d (fun n => n) gmsh_elem2faces (fun l => l) Little "native" sol fm1) ;; read4 (fst r) (snd r).
Example c88_ic3_run : forall v,
  (fm <- ex_from_v v true (ex_fm88 "RHO") ;; Ok (fd_items (fm_cells fm), dget String.eqb "step" (fm_params fm), dget String.eqb "p_wgt" (fm_params fm), List.map (fun kb => (fst kb, mk_index (snd kb), mk_perio (snd kb))) (me_bocos (fm_mesh fm)))) =
  Ok ([("RHO"%string, Arr [2] false [10; 11]); ("RHOU"%string, Arr [2; 3] false [1; 2; 3; 4; 5; 6]); ("RHOE"%string, Arr [2] false [1; 2]); ("P_AVG"%string, Arr [2] false [20; 21])],
      Some (SNum (NInt 7)), Some (SNum (NFlt 9)),
      [("wall", Some (ILrange 0 1), Some (Some [0; 0; 0])); ("out", Some (ILrange 2 3), Some (Some [0; 0; 0])); ("internal-domain", Some (ILrange 4 4), None)]%string) /\
  (fm <- ex_from_v v false (ex_fm88 "RHO") ;; Ok (fd_items (fm_cells fm), dget String.eqb "step" (fm_params fm))) = Ok ([], Some (SNum (NInt 0))) /\
  ex_from_v v true (ex_fm88 "R") = Err KeyError.
Proof. intros []; vm_compute; repeat split; reflexivity. Qed.
