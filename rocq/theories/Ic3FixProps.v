(** * Property C40 (rewriting what was read). *)
From Coq Require Import ZArith List Bool String Lia.
From Verif Require Import Py PyFacts Data Elements Conn Mesh Ic3Bytes Ic3 Ic3HeaderSpec Ic3FileSpec Ic3RoundSpec Ic3FileProps Ic3OkSpec Ic3CubeProps Ic3RoundProofs Ic3FixProofs.

Section Props.
  Context (i2d : Z -> Z) (f2i : Z -> res Z).
  Hypothesis patterns : forall n, pattern (i2d n).

  (** C40: a complete mesh is written ([f]) and read; what was read is written ([g]) and read again,
      and from then on every rewriting gives the same bytes [g], whose reading gives the same mesh.
      The files [f] and [g] may differ: node vectors and weights are not read.  Writing leaves the
      meshes that come from a file unchanged. *)
  Theorem C40_rewrites tbl enum host v endian fm m ls rows :
    In endian byte_orders -> prepare_mesh tbl enum (fm_mesh fm) = (Ok tt, m) ->
    let fm' := FM m (fm_cells fm) (fm_nodes fm) (fm_params fm) (fm_part fm) in
    writable f2i v fm' ls rows -> located fm' ls ->
    exists f fm1 g fm2, write_mesh tbl enum i2d f2i host v endian fm = (Ok f, fm') /\
      (forall integrity, read_mesh integrity f = Ok fm1) /\
      write_mesh tbl enum i2d f2i host v endian fm1 = (Ok g, fm1) /\
      (forall integrity, read_mesh integrity g = Ok fm2) /\
      write_mesh tbl enum i2d f2i host v endian fm2 = (Ok g, fm2).
  Proof using patterns.
    intros IE P fm' WR L. destruct (order_known host endian IE) as (o & OO). exact (fixed_point i2d f2i tbl enum host v endian o fm m ls rows patterns OO P WR L).
  Qed.
End Props.
Print Assumptions C40_rewrites.

(** ** A concrete case: the two triangles of Ic3FileProps meet the hypotheses, in both versions. *)
Example c40_case : forall v, In "big"%string byte_orders /\
  prepare_mesh cgns_elem2faces (fun l => l) (fm_mesh (ex_fm ex_marks "A" "B")) = (Ok tt, fm_mesh (ex_fm ex_marks "A" "B")) /\
  writable ex_f2i v (ex_fm ex_marks "A" "B") ex_ls ex_rows /\ located (ex_fm ex_marks "A" "B") ex_ls.
Proof. intros v. split; [cbn; auto |]. split; [exact ex_prepared | apply c34_writable]. Qed.

(** With a node vector the first file is longer than its rewriting, which is then stable. *)
Definition ex_vec : fmesh := data_only (ex_fm ex_marks "" "") (FDict [("V"%string, Arr [4; 3] false [1; 2; 3; 4; 5; 6; 7; 8; 9; 10; 11; 12])]) (FSet Ic3RoundProofs.cells0).
Definition ex_again (v : version) (f : list Z) : list Z :=
  match read_mesh true f with Ok fm => bytes_of (ex_write v fm) | Err _ => [] end.
Example c40_run : forall v, let f := bytes_of (ex_write v ex_vec) in let g := ex_again v f in let h := ex_again v g in
  (Z.of_nat (List.length f) - Z.of_nat (List.length g) = 352) /\ g = h.
Proof. intros [|]; vm_compute; split; reflexivity. Qed.
