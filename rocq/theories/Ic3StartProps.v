(** * The first bytes of a written file (C33), and the case of the names of weights (C39). *)
From Coq Require Import ZArith List Bool String Ascii Lia.
From Verif Require Import Py PyFacts Mesh Ic3Bytes Ic3 Ic3HeaderProps Ic3BodyProofs Ic3FileProps Ic3LayoutSpec.

(** A file written by writer 2 or 3 starts with the magic number 0x075db389 and the number of the version, four bytes each in
    the byte order asked for; so the reader finds that order and that version. *)
Theorem C33_written tbl enum i2d f2i host v endian fm f fm' : write_mesh tbl enum i2d f2i host v endian fm = (Ok f, fm') ->
  exists o t, order_of host endian = Ok o /\
    f = match o, v with
        | Little, V2 => [137; 179; 93; 7; 2; 0; 0; 0] | Little, V3 => [137; 179; 93; 7; 3; 0; 0; 0]
        | Big, V2 => [7; 93; 179; 137; 0; 0; 0; 2] | Big, V3 => [7; 93; 179; 137; 0; 0; 0; 3]
        end ++ t /\
    read_restart_header f = Ok (o, match v with V2 => 2 | V3 => 3 end).
Proof.
  intros H. destruct (write_mesh_data _ _ _ _ _ _ _ _ _ _ H) as (o & w & OE & _ & WD). unfold write_data in WD.
  apply bind_ok in WD. destruct WD as (h & Hh & WD). apply bind_ok in WD. destruct WD as (bs & _ & WD). injection WD as <-.
  exists o, (List.concat bs). split; [exact OE |]. split.
  - f_equal. destruct o, v; vm_compute in Hh; congruence.
  - assert (R := C33_order_and_version o (version_number v) h (List.concat bs)). destruct v; apply R; try exact Hh; vm_compute; intuition congruence.
Qed.

Lemma recased_map from to g : (forall c, In (c, g c) (combine from to) \/ existsb (Ascii.eqb c) from = false /\ g c = c) -> forall s, recased from to s (smap g s).
Proof.
  intros H s. unfold recased. induction s as [| c s IH]; [constructor |]. cbn [smap list_ascii_of_string]. constructor; [| exact IH].
  destruct (H c) as [A | (A & B)]; [left; exact A | right; split; [| exact B]]. intros I. assert (E : existsb (Ascii.eqb c) from = true) by (apply existsb_exists; exists c; split; [exact I | apply Ascii.eqb_refl]). congruence.
Qed.
(** The names of weights are written in capitals and read in small letters, letter by letter; other characters are kept. *)
Theorem C39_case s : recased smalls capitals s (upper s) /\ recased capitals smalls s (lower s).
Proof.
  split; apply recased_map; intros [[] [] [] [] [] [] [] []]; (right; split; reflexivity) || (left; vm_compute; tauto).
Qed.
Example c39_case_ex : lower (upper "Rho_[2]" ++ "_WGT") = "rho_[2]_wgt"%string /\ upper "Rho_{z}@`" = "RHO_{Z}@`"%string.
Proof. split; reflexivity. Qed.
Print Assumptions C33_written.
Print Assumptions C39_case.
(** The two triangles of Ic3FileProps in big-endian order, with writers 2 and 3. *)
Example c33_written_ex : (exists f fm, ex_write V2 (ex_fm ex_marks "A" "B") = (Ok f, fm) /\ firstn 8 f = [7; 93; 179; 137; 0; 0; 0; 2]) /\
  exists f fm, ex_write V3 (ex_fm ex_marks "A" "B") = (Ok f, fm) /\ firstn 8 f = [7; 93; 179; 137; 0; 0; 0; 3].
Proof. split; (eexists; eexists; split; [vm_compute; reflexivity | reflexivity]). Qed.
