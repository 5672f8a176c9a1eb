(** * Properties C26 (cubes in IC3 files) and C34 (meshes that the writers accept). *)
From Coq Require Import ZArith List Bool String Lia Permutation.
From Verif Require Import Py PyFacts Data Elements Conn ConnSpec FaceSpec Mesh MeshSpec Simple SimpleSpec SimpleProofs
  Ic3Bytes Ic3 Ic3HeaderSpec Ic3FileSpec Ic3RoundSpec Ic3FileProps Ic3OkSpec Ic3OkProofs Ic3CubeSpec Ic3CubeProofs.

Definition byte_orders : list string := ["native"; "little"; "big"]%string.
Lemma order_known host endian : In endian byte_orders -> exists o, order_of host endian = Ok o.
Proof. intros I. repeat (destruct I as [<- | I]; [eexists; reflexivity |]). destruct I. Qed.

Section Props.
  Context (i2d : Z -> Z) (f2i : Z -> res Z).
  Hypothesis patterns : forall n, pattern (i2d n).

  (** C34: complete meshes whose numbers fit in a file are written, and read back.  [m] is the mesh
      with the faces as the writer needs them. *)
  Theorem C34_written tbl enum host v endian fm m ls rows :
    In endian byte_orders -> prepare_mesh tbl enum (fm_mesh fm) = (Ok tt, m) ->
    let fm' := FM m (fm_cells fm) (fm_nodes fm) (fm_params fm) (fm_part fm) in
    writable f2i v fm' ls rows -> located fm' ls ->
    exists f fm2, write_mesh tbl enum i2d f2i host v endian fm = (Ok f, fm') /\
      (forall integrity, read_mesh integrity f = Ok fm2) /\ read_as i2d f2i v fm' fm2 ls rows.
  Proof using patterns.
    intros IE P fm' WR L. destruct (order_known host endian IE) as (o & OO).
    destruct (mesh_written i2d f2i tbl enum host v endian o fm m ls rows OO P WR) as (f & W).
    destruct (C34_round_trip i2d f2i patterns tbl enum host v endian fm f fm' ls rows W (wr_typed _ _ _ _ _ WR) (wr_file _ _ _ _ _ WR) L) as (fm2 & RD & RA).
    exists f, fm2. auto.
  Qed.

  (** C26: a cube is exported, written in any version and byte order, and read back: counts,
      coordinates, faces and cells next to them, six sides followed by the inside.  [fdiv i n] is the
      double of i/n, whatever it is. *)
  Theorem C26_cube_file fdiv tbl types enum host v endian nx ny nz :
    (forall i n, pattern (fdiv i n)) -> in_force tbl types -> set_enum enum -> In endian byte_orders ->
    1 <= nx -> 1 <= ny -> 1 <= nz -> 2 <= nx * ny * nz ->
    (nx + 1) * (ny + 1) * (nz + 1) < 2 ^ 31 -> cube_nface nx ny nz < 2 ^ 31 ->
    exists m f fm' fm2, cube_export nx ny nz fdiv = Ok m /\
      write_mesh tbl enum i2d f2i host v endian (FM m (FDict []) (FDict []) [] None) = (Ok f, fm') /\
      (forall integrity, read_mesh integrity f = Ok fm2) /\ cube_read nx ny nz fdiv fm2.
  Proof using patterns.
    intros PT IF SE IE Hx Hy Hz H2 BN BF. destruct (order_known host endian IE) as (o & OO).
    destruct (cube_ok nx ny nz Hx Hy Hz fdiv) as (m & E & _).
    destruct (cube_file nx ny nz Hx Hy Hz fdiv i2d f2i tbl types enum host v endian o m patterns PT IF SE H2 OO E BN BF) as (f & fm' & fm2 & W & RD & C).
    exists m, f, fm', fm2. auto.
  Qed.
End Props.
Print Assumptions C34_written.
Print Assumptions C26_cube_file.

(** ** Concrete cases *)
(** C34: the two triangles of Ic3FileProps, in both versions. *)
Lemma ex_prepared : prepare_mesh cgns_elem2faces (fun l => l) (ex_mesh ex_marks) = (Ok tt, ex_mesh ex_marks).
Proof. vm_compute. reflexivity. Qed.
Example c34_writable : forall v, writable ex_f2i v (ex_fm ex_marks "A" "B") ex_ls ex_rows /\ located (ex_fm ex_marks "A" "B") ex_ls.
Proof.
  intros v. destruct (c34_case v) as (_ & T & FM & L & _). split; [| exact L]. apply make_writable; try assumption.
  - exists [1; 2; 3; 4], [5; 6; 7; 8], [0; 0; 0; 2 ^ 63]. repeat split.
  - split; [reflexivity |]. split; [reflexivity |]. split; [reflexivity |]. destruct v; reflexivity.
  - repeat (apply Forall_cons; [split; vm_compute; congruence |]); apply Forall_nil.
  - repeat (apply Forall_cons; [split; vm_compute; congruence |]); apply Forall_nil.
  - intros k b [E | [E | []]]; inversion E; subst; (split; [reflexivity |]); (split; [left; reflexivity |]);
      (split; [exists "boundary"%string; split; [reflexivity | left; reflexivity] |]); (split; [do 2 eexists; split; [reflexivity | split; vm_compute; congruence] | exact I]).
  - exact I.
  - exists 7. split; [reflexivity | split; vm_compute; congruence].
  - exists (NFlt 5). reflexivity.
  - exists (NInt 0). reflexivity.
  - exists []. reflexivity.
  - repeat (apply Forall_cons; [split; [cbn; tauto | discriminate] |]); apply Forall_nil.
  - assert (E : cell_total v (ex_fm ex_marks "A" "B") = 2) by (destruct v; reflexivity). rewrite E.
    repeat (apply Forall_cons; [split; [cbn; tauto | intros; try discriminate; repeat (apply Forall_cons; [split; vm_compute; congruence |]); apply Forall_nil] |]); apply Forall_nil.
  - intros _. left. eexists. reflexivity.
Qed.

(** C26: the 2x1x1 cube, with a division of patterns; the marks read are the six sides and the inside. *)
Definition ex_fdiv (i n : Z) : Z := (i * 1000 + n) mod 2 ^ 64.
Example c26_case : (forall i n, pattern (ex_fdiv i n)) /\ in_force cgns_elem2faces cgns_types /\ 2 <= 2 * 1 * 1 /\
  (2 + 1) * (1 + 1) * (1 + 1) < 2 ^ 31 /\ cube_nface 2 1 1 = 11.
Proof.
  split; [intros; apply Z.mod_pos_bound; reflexivity |]. split; [left; auto |]. split; [lia |]. split; reflexivity.
Qed.
Example c26_read :
  match cube_export 2 1 1 ex_fdiv with
  | Ok m => match read_mesh true (bytes_of (write_mesh cgns_elem2faces (fun l => l) ex_i2d ex_f2i Little V2 "big" (FM m (FDict []) (FDict []) [] None))) with
            | Ok fm2 => List.map (fun kb => (fst kb, mk_index (snd kb))) (me_bocos (fm_mesh fm2)) =
                [("imin", Some (ILrange 0 0)); ("imax", Some (ILrange 1 1)); ("jmin", Some (ILrange 2 3)); ("jmax", Some (ILrange 4 5));
                 ("kmin", Some (ILrange 6 7)); ("kmax", Some (ILrange 8 9)); ("internal-domain", Some (ILrange 10 10))]%string /\
                dget String.eqb "x"%string (me_nodes (fm_mesh fm2)) = Some [2; 2; 2; 2; 1002; 1002; 1002; 1002; 2002; 2002; 2002; 2002]
            | Err _ => False
            end
  | Err _ => False
  end.
Proof. vm_compute. split; reflexivity. Qed.
