(** * What the list of the sections of an IC3 file is expected to be. *)
From Verif Require Import Py Ic3 Ic3HeaderSpec Ic3FileSpec.

(** The codes that have a name: any other section is passed over. *)
Definition named_codes : list Z := [123581321; -1; 52; 10; 11; 12] ++ zrange 20 27 ++ zrange 30 35 ++ zrange 40 46 ++ [50; 51].
Definition is_named (id : Z) : bool := existsb (Z.eqb id) named_codes.

(** What a list shows of a header: its name, cut, and its numbers. *)
Definition shown (h : header) : header := Hdr (cut_name (h_name h)) (h_id h) (h_skip h) (h_idata h) (h_rdata h).

(** Sections between the first eight bytes and the end of a file, each with its header, its 256 bytes
    and its payload. *)
Definition wsec : Type := (header * list Z * list Z)%type.
Definition wsec_hdr (s : wsec) : header := fst (fst s).
Definition wsecs_bytes (l : list wsec) : list Z := flat_map (fun '(_, b, load) => b ++ load) l.
Definition ordinary (o : order) (s : wsec) : Prop :=
  let '(h, b, load) := s in written o h b load /\ ~ deof (h_name h) /\ h_id h <> EOF.

(** Names and codes of the sections of the file of a mesh. *)
Definition as_many_as_rows (a : array) : bool := match a_shape a with [] => false | n :: _ => zlen (a_val a) =? n end.
Definition with_dims (k : nat) (a : array) : bool := Nat.eqb (List.length (a_shape a)) k.
Definition var_code (v : version) (code icode : Z) (a : array) : Z := match v with V2 => code | V3 => if a_int a then icode else code end.
Definition var_names (p : array -> bool) (code : array -> Z) (d : dict string array) : list (string * Z) :=
  List.map (fun '(k, a) => (k, code a)) (filter (fun '(_, a) => p a) d).
Definition file_sections (v : version) (fm : fmesh) : list (string * Z) :=
  [("NO_FA_CV_NOOFA_COUNTS", 10)]
  ++ match v with V2 => [("NO_CHECK", 30); ("FA_CHECK", 20); ("CV_CHECK", 40)] | V3 => [] end
  ++ [("NOOFA_I_AND_V", 21); ("CVOFA", 22)]
  ++ List.map (fun '(k, _) => (k, 23)) (zone_marks (fm_mesh fm))
  ++ [("internal-domain", 23); ("CV_PART", 41); ("X_NO", 31); ("DATA", 50); ("STEP", 11); ("DT", 12); ("TIME", 12)]
  ++ List.map (fun k => (k, 12)) (wgt_names (param (fm_params fm) "wgt" (SWgt [])))
  ++ var_names as_many_as_rows (var_code v 32 34) (fd_items (fm_nodes fm))
  ++ var_names (with_dims 2) (fun _ => 33) (fd_items (fm_nodes fm))
  ++ var_names as_many_as_rows (var_code v 42 45) (fd_items (fm_cells fm))
  ++ var_names (with_dims 2) (fun _ => 43) (fd_items (fm_cells fm))
  ++ var_names (with_dims 3) (fun _ => 44) (fd_items (fm_cells fm))
  ++ [("EOF", 51)].
(** Up to the first name that begins with DEOF. *)
Fixpoint before_deof (l : list (string * Z)) : list (string * Z) :=
  match l with
  | [] => []
  | (k, id) :: l => if String.prefix "DEOF" k then [] else (k, id) :: before_deof l
  end.
