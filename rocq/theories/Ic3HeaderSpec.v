(** * What is expected of section headers, independently of how they are packed. *)
From Coq Require Import Ascii.
From Verif Require Import Py Ic3.

(** Characters that fit in one UTF-8 byte. *)
Definition ascii_char (c : ascii) : Prop := (nat_of_ascii c < 128)%nat.
Fixpoint ascii_upto (n : nat) (s : string) : Prop :=
  match n, s with
  | S n', String c s' => ascii_char c /\ ascii_upto n' s'
  | _, _ => True
  end.

(** The first [n] characters, up to a NUL. *)
Fixpoint cut_at (n : nat) (s : string) : string :=
  match n, s with
  | S n', String c s' => if Ascii.eqb c Ascii.zero then EmptyString else String c (cut_at n' s')
  | _, _ => EmptyString
  end.
Definition cut_name (s : string) : string := cut_at 52 s.

(** Names that a header keeps as they are: at most 52 ASCII characters other than NUL. *)
Definition good_name (s : string) : Prop :=
  (String.length s <= 52)%nat /\ forall c, In c (list_ascii_of_string s) -> (0 < nat_of_ascii c < 128)%nat.

Definition int32 (v : Z) : Prop := - 2 ^ 31 <= v < 2 ^ 31.
Definition int64 (v : Z) : Prop := - 2 ^ 63 <= v < 2 ^ 63.
(** The pattern of a float64. *)
Definition pattern (v : Z) : Prop := 0 <= v < 2 ^ 64.

(** The arrays of a header object. *)
Definition header_arrays (h : header) : Prop :=
  List.length (h_idata h) = 8%nat /\ List.length (h_rdata h) = 16%nat /\ Forall pattern (h_rdata h).
(** Headers that can be written. *)
Definition packable (h : header) : Prop :=
  ascii_upto 52 (h_name h) /\ int32 (h_id h) /\ int64 (h_skip h) /\ Forall int64 (h_idata h).

Definition deof (s : string) : Prop := String.prefix "DEOF" s = true.

(** A header of a section with payload [load], written as [b]. *)
Definition written (o : order) (h : header) (b load : list Z) : Prop :=
  header_arrays h /\ write_header o h = Ok b /\ h_skip h = 256 + zlen load.

(** A section as it lies in a file: its 256 header bytes, what they say, and its payload, which the
    field [skip] covers together with the header. *)
Record fsec : Type := FS { s_bytes : list Z; s_hdr : header; s_load : list Z }.
Definition is_header (o : order) (b : list Z) (h : header) : Prop :=
  zlen b = 256 /\ hdr_name b = Ok (h_name h) /\ hdr_of o (h_name h) b = h.
Definition fsec_ok (o : order) (s : fsec) : Prop :=
  is_header o (s_bytes s) (s_hdr s) /\ h_skip (s_hdr s) = 256 + zlen (s_load s).
Definition fsec_all (s : fsec) : list Z := s_bytes s ++ s_load s.
Definition secs_bytes (l : list fsec) : list Z := List.concat (List.map fsec_all l).
(** A section that ends every search: the EOF section or one whose name begins with DEOF. *)
Definition stops (s : fsec) : Prop := deof (h_name (s_hdr s)) \/ h_id (s_hdr s) = EOF.
(** A section that a search for [ids] passes. *)
Definition passed (ids : list Z) (s : fsec) : Prop := ~ stops s /\ ~ In (h_id (s_hdr s)) ids.
