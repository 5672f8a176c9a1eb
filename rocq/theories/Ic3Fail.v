(** * What the IC3 writers V2 and V3 leave in the file when they raise.

    [write_data] (cfdtools/ic3/writerV2.py:159-192) opens the file with "wb", which empties it, and writes
    it call by call; each call of [BinaryWrite] (ic3/_ic3.py:179-200) packs all its values, then writes
    them at once.  When a call raises, the [with] block closes the file and what was written stays.  The
    constructor (writerV2.py:28-44) does all its work before the file is opened.
    Not modelled: errors of the file system (a folder that does not exist, a full disk). *)
From Verif Require Export Py Conn Mesh Ic3Bytes Data Ic3.
#[local] Notation F := Z (only parsing).

(** Calls that write bytes, up to the first one that raises. *)
Fixpoint run_calls (l : list (res (list Z))) : list Z * res unit :=
  match l with
  | [] => ([], Ok tt)
  | Ok b :: l' => let '(bs, r) := run_calls l' in (b ++ bs, r)
  | Err e :: _ => ([], Err e)
  end.

Section Writer.
  Context (i2d : Z -> Z) (f2i : Z -> res Z).

  (** A section: what sets the header, [header.write], then each [BinaryWrite] with its values. *)
  Definition section_calls (o : order) (h : res header) (loads : list (res (code * Z * list Z))) : list (res (list Z)) :=
    (x <- h ;; write_header o x) :: List.map (fun l => '(c, n, vals) <- l ;; binary_write o c n vals) loads.
  Definition calls_of (o : order) (rs : res section) : list (res (list Z)) :=
    match rs with Ok (h, loads) => section_calls o (Ok h) (List.map Ok loads) | Err e => [Err e] end.

  (** The two sections whose values are computed after the header is written: [self.f2e.ravel()]
      (writerV2.py:311-319) and [*icvpart] (writerV2.py:366-377). *)
  Definition cvofa_calls (o : order) (w : wstate) : list (res (list Z)) :=
    section_calls o (mk_hdr "CVOFA" CVOFA (256 + 4 * w_fa w * 2) [w_fa w; 2] [])
      [m <- or_err AttributeError (w_f2e w) ;; Ok (Ci, Z.max 0 (w_fa w) * 2, List.concat (m_rows m))].
  Definition part_calls (o : order) (w : wstate) : list (res (list Z)) :=
    section_calls o ('(npart, _) <- or_err AttributeError (w_part w) ;; mk_hdr "CV_PART" CV_PART (256 + 4 * w_cv w) [w_cv w; npart] [])
      ['(_, icv) <- or_err AttributeError (w_part w) ;; icv <- or_err TypeError icv ;; Ok (Ci, w_cv w, icv)].

  (** [__WriteRestartConnectivity], writerV2.py:264-390, in the order of the calls. *)
  Definition conn_calls (v : version) (o : order) (w : wstate) : list (res (list Z)) :=
    let no := w_no w in let fa := w_fa w in let cv := w_cv w in let noofa := zlen (w_noofa w) in
    calls_of o (plain "NO_FA_CV_NOOFA_COUNTS" COUNTS [no; fa; cv; noofa] [])
    ++ flat_map (calls_of o) (check_sections v w)
    ++ section_calls o (mk_hdr "NOOFA_I_AND_V" NOOFA (256 + 4 * fa + 4 * noofa) [fa; noofa] []) [Ok (Ci, fa, w_nno w); Ok (Ci, noofa, w_noofa w)]
    ++ cvofa_calls o w
    ++ flat_map (calls_of o) (List.map zone_section (w_bocos w))
    ++ calls_of o (plain "internal-domain" FA_ZONE [6; last_boco (w_bocos w) + 1; fa - 1] [])
    ++ part_calls o w
    ++ section_calls o (mk_hdr "X_NO" X_NO (256 + 8 * no * 3) [no; 3] []) [Ok (Cd, Z.max 0 no * 3, List.concat (w_coords w))].

  (** [write_data], writerV2.py:159-192: what is in the file at the end, and the outcome. *)
  Definition file_calls (v : version) (o : order) (w : wstate) : list (res (list Z)) :=
    binary_write o Ci 2 [MAGIC; version_number v]
    :: conn_calls v o w
    ++ flat_map (calls_of o) (info_sections i2d f2i w)
    ++ flat_map (calls_of o) (var_sections i2d v w)
    ++ calls_of o (plain "EOF" EOF [] []).
End Writer.

(** [writer(mesh, endian).write_data(filename)]: what is left in the file ([None] if it was not opened),
    the outcome and the mesh. *)
Definition write_file (tbl : sidetable) (enum : list Z -> list Z) (i2d : Z -> Z) (f2i : Z -> res Z)
    (host : order) (v : version) (endian : string) (fm : fmesh) : option (list Z) * res unit * fmesh :=
  match order_of host endian with
  | Err e => (None, Err e, fm)
  | Ok o =>
      let '(r, m) := prepare_mesh tbl enum (fm_mesh fm) in
      let fm' := FM m (fm_cells fm) (fm_nodes fm) (fm_params fm) (fm_part fm) in
      match (_ <- r ;; writer_state fm') with
      | Err e => (None, Err e, fm')
      | Ok w => let '(g, r) := run_calls (file_calls i2d f2i v o w) in (Some g, r, fm')
      end
  end.
