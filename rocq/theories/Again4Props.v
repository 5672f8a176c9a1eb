(** * HDF5 files of IC3 written again from what was read: C89. *)
From Coq Require Import ZArith List Bool String Lia Permutation.
From Verif Require Import Py PyFacts Data Elements IndexList Conn ConnSpec ConnProofs Mesh MeshSpec Ic3Bytes Ic3 Ic3HeaderSpec Ic3FileSpec Ic3RoundSpec Ic3MeshProofs Ic3FileThm Ic3FileProps Ic3OkProofs Ic3WriteProofs Ic3CubeProps
  Ic3V4 Ic3V4Spec Ic3V4Proofs Ic3V4SolProofs Ic3V4Props Again4Spec Again4Proofs.

Section Props.
  Context (i2d : Z -> Z) (narrow : Z -> Z).

  Lemma write_read fm w mf : writer_state fm = Ok w -> write_mesh4 narrow (fm_mesh fm) w = Ok mf -> (forall tbl enum, prepare_mesh tbl enum (fm_mesh fm) = (Ok tt, fm_mesh fm)) ->
    forall tbl enum host endian solution, In endian ["native"; "little"; "big"]%string -> write4 i2d narrow tbl enum host endian solution fm =
      (if solution then s <- write_sol4 i2d (fm_params fm) w ;; Ok (mf, Some s) else Ok (mf, None), fm).
  Proof.
    intros W WM PR tbl enum host endian solution IE. unfold write4. destruct (order_known host endian IE) as (o & ->). rewrite PR.
    destruct fm as [m c n p q]. cbn [fm_mesh fm_cells fm_nodes fm_params fm_part] in *. cbn [bind]. rewrite W. cbn [bind]. rewrite WM. reflexivity.
  Qed.

  (** The mesh: the second file has the contents of the first one. *)
  Theorem C89_mesh tbl enum host endian solution fm mf so fm' ls rows sol fm2 :
    write4 i2d narrow tbl enum host endian solution fm = (Ok (mf, so), fm') -> mesh4_ok fm' ls rows -> mark_ranges (zone_marks (fm_mesh fm')) ->
    read4 mf sol = Ok fm2 ->
    exists mf2, same_mesh_file mf mf2 /\ (forall s, read4 mf2 s = read4 mf s) /\
      forall tbl' enum' host' endian', In endian' ["native"; "little"; "big"]%string -> write4 i2d narrow tbl' enum' host' endian' false fm2 = (Ok (mf2, None), fm2).
  Proof.
    intros H M RG R. destruct (write4_parts _ _ _ _ _ _ _ _ _ _ _ H) as (w & W & WM & _).
    destruct (mesh_again i2d narrow _ _ _ _ _ _ _ M RG W WM R) as (w2 & mf2 & W2 & WM2 & S & RR & _ & PR).
    exists mf2. split; [exact S |]. split; [exact RR |]. intros tbl' enum' host' endian' IE. rewrite (write_read fm2 w2 mf2 W2 WM2 PR) by exact IE. reflexivity.
  Qed.

  (** With the solution: the same data in both files, and the same mesh is read from them. *)
  Theorem C89_fixed_point tbl enum host endian fm mf s fm' ls rows fm2 :
    write4 i2d narrow tbl enum host endian true fm = (Ok (mf, Some s), fm') -> mesh4_ok fm' ls rows -> mark_ranges (zone_marks (fm_mesh fm')) -> keyed fm ->
    read4 mf (Some s) = Ok fm2 ->
    exists mf2 s2, same_mesh_file mf mf2 /\ same_sol_file s s2 /\ read4 mf2 (Some s2) = Ok fm2 /\
      forall tbl' enum' host' endian', In endian' ["native"; "little"; "big"]%string -> write4 i2d narrow tbl' enum' host' endian' true fm2 = (Ok (mf2, Some s2), fm2).
  Proof.
    intros H M RG (KP & _) R. destruct (write4_parts _ _ _ _ _ _ _ _ _ _ _ H) as (w & W & WM & (s' & E & WS) & _ & _ & EP & _). injection E as <-.
    destruct (mesh_again i2d narrow _ _ _ _ _ _ _ M RG W WM R) as (w2 & mf2 & W2 & WM2 & S & RR & _ & PR).
    destruct (read_mesh4 i2d narrow _ _ _ _ _ M W WM) as (x & y & z & con & _ & _ & _ & _ & _ & _ & _ & RD).
    assert (R' := R). rewrite RD in R'. apply bind_ok in R'; destruct R' as (d & RV & R'). apply ok_inj in R'.
    rewrite <- EP in KP.
    destruct (writer_state_ok fm2 w2 W2) as (_ & _ & _ & _ & _ & _ & _ & _ & _ & _ & _ & _ & _ & _ & _ & _ & _ & _ & _ & _ & _ & _ & E9).
    destruct (sol_again i2d _ _ _ _ d (state4 fm' ls rows (w_coords w) (Some s) d) w2 WS KP RV) as (s2 & WS2 & SS & RV2 & RI); [rewrite E9, <- R'; reflexivity |].
    exists mf2, s2. split; [exact S |]. split; [exact SS |]. split.
    - rewrite RR, RD, RV2. cbn [bind]. rewrite <- R'. unfold state4. rewrite RI. reflexivity.
    - intros tbl' enum' host' endian' IE. rewrite (write_read fm2 w2 mf2 W2 WM2 PR) by exact IE.
      assert (EQ : fm_params fm2 = dupdate (params4 (state4 fm' ls rows (w_coords w) (Some s) d)) (read_info4 s)) by (rewrite <- R'; reflexivity).
      rewrite EQ, WS2. reflexivity.
  Qed.

  (** However many times: all the files after the first are the same, and the same mesh is read. *)
  Theorem C89_any_number tbl enum host endian solution fm mf so fm' ls rows fm2 :
    write4 i2d narrow tbl enum host endian solution fm = (Ok (mf, so), fm') -> mesh4_ok fm' ls rows -> mark_ranges (zone_marks (fm_mesh fm')) ->
    (solution = true -> keyed fm) -> read4 mf so = Ok fm2 ->
    exists mf2 so2, same_mesh_file mf mf2 /\ same_sol so so2 /\
      forall n g, rewritten i2d narrow solution n (mf, so) g -> (n <> 0%nat -> g = (mf2, so2)) /\ read4 (fst g) (snd g) = Ok fm2 /\
        forall tbl' enum' host' endian', In endian' ["native"; "little"; "big"]%string ->
          write4 i2d narrow tbl' enum' host' endian' solution fm2 = (Ok (mf2, so2), fm2).
  Proof.
    intros H M RG KY R.
    assert (Q : exists mf2 so2, same_mesh_file mf mf2 /\ same_sol so so2 /\ read4 mf2 so2 = Ok fm2 /\
      forall tbl' enum' host' endian', In endian' ["native"; "little"; "big"]%string -> write4 i2d narrow tbl' enum' host' endian' solution fm2 = (Ok (mf2, so2), fm2)).
    { destruct solution.
      - destruct (write4_parts _ _ _ _ _ _ _ _ _ _ _ H) as (_ & _ & _ & (s & -> & _) & _).
        destruct (C89_fixed_point _ _ _ _ _ _ _ _ _ _ _ H M RG (KY eq_refl) R) as (mf2 & s2 & A & B & C & D). exists mf2, (Some s2). auto.
      - destruct (write4_parts _ _ _ _ _ _ _ _ _ _ _ H) as (_ & _ & _ & -> & _).
        destruct (C89_mesh _ _ _ _ _ _ _ _ _ _ _ _ _ H M RG R) as (mf2 & A & B & C). exists mf2, None. split; [exact A |]. split; [exact I |]. split; [rewrite B; exact R | exact C]. }
    destruct Q as (mf2 & so2 & A & B & C & D). exists mf2, so2. split; [exact A |]. split; [exact B |]. intros n g RW. rewrite <- and_assoc. split; [| exact D].
    clear H. remember (mf, so) as f eqn:EF. induction RW as [f | n f g h fm3 fm4 tbl3 enum3 host3 endian3 RW IH RD IE WR]; [subst f; split; [congruence | exact R] |].
    destruct (IH EF) as (_ & RG2). rewrite RG2 in RD. apply ok_inj in RD. subst fm3. rewrite D in WR by exact IE. injection WR as <- _. split; [reflexivity | exact C].
  Qed.

  (** From the mesh file alone, a solution file is written that holds no variable: it cannot be read. *)
  Theorem C89_mesh_only tbl enum host endian solution fm mf so fm' ls rows fm2 :
    write4 i2d narrow tbl enum host endian solution fm = (Ok (mf, so), fm') -> mesh4_ok fm' ls rows -> mark_ranges (zone_marks (fm_mesh fm')) ->
    read4 mf None = Ok fm2 ->
    exists mf2, same_mesh_file mf mf2 /\ forall tbl' enum' host' endian', In endian' ["native"; "little"; "big"]%string ->
      exists s2, write4 i2d narrow tbl' enum' host' endian' true fm2 = (Ok (mf2, Some s2), fm2) /\
        s4_attrs s2 = [("step"%string, NInt 0); ("time"%string, NInt 0)] /\ s4_vars s2 = [] /\ s4_stats s2 = None /\ read4 mf2 (Some s2) = Err KeyError.
  Proof.
    intros H M RG R. destruct (write4_parts _ _ _ _ _ _ _ _ _ _ _ H) as (w & W & WM & _).
    destruct (mesh_again i2d narrow _ _ _ _ _ _ _ M RG W WM R) as (w2 & mf2 & W2 & WM2 & S & RR & _ & PR).
    destruct (read_mesh4 i2d narrow _ _ _ _ _ M W WM) as (x & y & z & con & _ & _ & _ & _ & _ & _ & _ & RD).
    rewrite RD in R. cbn [bind] in R. apply ok_inj in R.
    destruct (writer_state_ok fm2 w2 W2) as (_ & _ & _ & _ & _ & _ & _ & _ & _ & _ & _ & _ & _ & _ & _ & _ & _ & _ & _ & _ & _ & _ & E9).
    exists mf2. split; [exact S |]. intros tbl' enum' host' endian' IE. exists (S4 [("step"%string, NInt 0); ("time"%string, NInt 0)] [] None).
    split; [| split; [reflexivity | split; [reflexivity | split; [reflexivity | rewrite RR, RD; reflexivity]]]].
    rewrite (write_read fm2 w2 mf2 W2 WM2 PR) by exact IE. unfold write_sol4. rewrite E9, <- R. reflexivity.
  Qed.
End Props.
Print Assumptions C89_mesh.
Print Assumptions C89_fixed_point.
Print Assumptions C89_any_number.
Print Assumptions C89_mesh_only.

(** ** Concrete cases *)
Definition ex89_fm : fmesh := ex4_fm ex4_tiles "RHO".
Example c89_case : mesh4_ok ex89_fm ex_ls ex_rows /\ mark_ranges (zone_marks (fm_mesh ex89_fm)) /\ keyed ex89_fm /\
  ex4_write true ex89_fm = (Ok (ex4_mesh_file ex89_fm, Some (ex4_sol_file ex89_fm)), ex89_fm).
Proof.
  split; [apply ex4_each; left; reflexivity |]. split; [exact (proj1 c43_tiles_case) |].
  split; [exact (proj1 (proj2 (proj2 c44_case))) | apply (ex4_written ex4_tiles); left; reflexivity].
Qed.
(** The second files: zones in another order in the mesh, in the same order in the file. *)
Definition ex89_read (f : res (mesh4 * option sol4)) : option fmesh :=
  match f with Ok (mf, so) => match read4 mf so with Ok fm => Some fm | Err _ => None end | Err _ => None end.
Example c89_again : match ex89_read (fst (ex4_write true ex89_fm)) with
  | Some fm2 => let f2 := fst (ex4_write true fm2) in ex89_read f2 = Some fm2 /\ fm2 <> ex89_fm /\
      match f2 with Ok (mf2, Some s2) => s2 = ex4_sol_file ex89_fm /\ m4_bounds mf2 = m4_bounds (ex4_mesh_file ex89_fm) | _ => False end
  | None => False
  end.
Proof. vm_compute. repeat split; try reflexivity. discriminate. Qed.
(** Statistics in another order than their names: the groups of the two files are in another order. *)
Definition ex89_stats : fmesh :=
  FM (ex_mesh ex4_gap)
     (FSet (DS "instant" "cellaverage" 1 [] [("RHO"%string, Arr [2] false [10; 11]); ("u_RMS"%string, Arr [2] false [20; 21]); ("RHOU"%string, Arr [2; 3] false [1; 2; 3; 4; 5; 6]);
                                             ("RHOE"%string, Arr [2] true [1; 2]); ("P_AVG"%string, Arr [2] false [22; 23])]))
     (FDict []) [("p_wgt"%string, SNum (NFlt 5)); ("time"%string, SNum (NFlt 9))] None.
Example c89_stats : match fst (ex4_write true ex89_stats) with
  | Ok (_, Some s) => match ex89_read (fst (ex4_write true ex89_stats)) with
      | Some fm2 => match fst (ex4_write true fm2) with
          | Ok (_, Some s2) => option_map snd (s4_stats s) = Some [("u_rms"%string, [20; 21]); ("p_avg"%string, [22; 23])] /\
                               option_map snd (s4_stats s2) = Some [("p_avg"%string, [22; 23]); ("u_rms"%string, [20; 21])] /\
                               option_map fst (s4_stats s2) = option_map fst (s4_stats s)
          | _ => False end
      | None => False end
  | _ => False end.
Proof. vm_compute. repeat split. Qed.
Example c89_mesh_only_case : match read4 (ex4_mesh_file ex89_fm) None with
  | Ok fm2 => match fst (ex4_write true fm2) with Ok (mf2, Some s2) => s4_vars s2 = [] /\ read4 mf2 (Some s2) = Err KeyError | _ => False end
  | Err _ => False end.
Proof. vm_compute. split; reflexivity. Qed.
