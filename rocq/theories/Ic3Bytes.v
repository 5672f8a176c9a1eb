(** * Bytes of IC3 restart files: the [struct] module of Python as cfdtools uses it
    (cfdtools/ic3/_ic3.py:139-200).

    A file is the list of its bytes, integers in 0..255.  A float64 is its 64-bit pattern, an integer
    in 0..2^64-1: the code moves doubles without computing on them, and conversions between integers
    and doubles are parameters ([i2d], [f2i] in [Ic3]). *)
From Verif Require Export Py.

(** The [n] low bytes of [v], least significant first. *)
Fixpoint le (n : nat) (v : Z) : list Z :=
  match n with O => [] | S n' => v mod 256 :: le n' (v / 256) end.
Fixpoint of_le (l : list Z) : Z := match l with [] => 0 | b :: l' => b + 256 * of_le l' end.

Inductive order : Type := Little | Big.

Definition enc (o : order) (n : nat) (v : Z) : list Z :=
  match o with Little => le n v | Big => rev (le n v) end.
Definition dec (o : order) (l : list Z) : Z :=
  of_le (match o with Little => l | Big => rev l end).

(** Two's complement on [n] bytes. *)
Definition signed (n : nat) (u : Z) : Z :=
  if 2 * u <? 256 ^ Z.of_nat n then u else u - 256 ^ Z.of_nat n.
Definition fits (n : nat) (v : Z) : bool :=
  (- 256 ^ Z.of_nat n <=? 2 * v) && (2 * v <? 256 ^ Z.of_nat n).

(** [pack] of one integer on [n] bytes ('i': 4, 'q': 8): struct.error out of range. *)
Definition pack_int (o : order) (n : nat) (v : Z) : res (list Z) :=
  if fits n v then Ok (enc o n v) else Err StructError.
Definition unpack_int (o : order) (l : list Z) : Z := signed (List.length l) (dec o l).
(** [pack] of one double ('d'), given by its pattern. *)
Definition pack_double (o : order) (p : Z) : list Z := enc o 8 p.
Definition unpack_double (o : order) (l : list Z) : Z := dec o l.

(** Consecutive pieces of [n] entries. *)
Fixpoint chunks_fuel (fuel : nat) (n : nat) (l : list Z) : list (list Z) :=
  match fuel, l with
  | S k, _ :: _ => firstn n l :: chunks_fuel k n (skipn n l)
  | _, _ => []
  end.
Definition chunks (n : nat) (l : list Z) : list (list Z) := chunks_fuel (List.length l) n l.

(** The three item codes of the formats. *)
Inductive code : Type := Ci | Cq | Cd.
Definition code_size (c : code) : nat := match c with Ci => 4 | Cq => 8 | Cd => 8 end.
Definition pack_item (o : order) (c : code) (v : Z) : res (list Z) :=
  match c with Ci => pack_int o 4 v | Cq => pack_int o 8 v | Cd => Ok (pack_double o v) end.
Definition unpack_item (o : order) (c : code) (l : list Z) : Z :=
  match c with Ci | Cq => unpack_int o l | Cd => unpack_double o l end.

(** [BinaryWrite(bfile, endian, code * n, vals)], _ic3.py:179-200: a negative [n] gives the empty
    format; another number of values than items raises struct.error.  With '@' the formats used have
    no padding: 'i' * n, 'd' * n, 'q' * n and the header, whose fields are aligned. *)
Definition binary_write (o : order) (c : code) (n : Z) (vals : list Z) : res (list Z) :=
  if zlen vals =? Z.max 0 n then bs <- mapM (pack_item o c) vals ;; Ok (List.concat bs) else Err StructError.

(** [file.read(n)] at position [p]: the bytes if there are enough, and the position afterwards. *)
Definition rd (f : list Z) (p n : Z) : option (list Z) * Z :=
  let got := firstn (Z.to_nat n) (skipn (Z.to_nat p) f) in
  (if zlen got =? n then Some got else None, p + zlen got).

(** [BinaryRead(bfile, "%d<code>" % n, byte_swap, size * n)], _ic3.py:142-175, where [byte_swap] is
    the order.  [None] is what the function returns on a short read.  A negative count is not a
    format and sizes above [PY_SSIZE_T_MAX] are refused: struct.error.  Simplification: memory is
    unbounded (no MemoryError). *)
Definition binary_read (f : list Z) (o : order) (c : code) (n : Z) (p : Z) : res (option (list Z) * Z) :=
  if (n <? 0) || (2 ^ 63 <=? Z.of_nat (code_size c) * n) then Err StructError
  else
    let '(r, p') := rd f p (Z.of_nat (code_size c) * n) in
    Ok (option_map (fun bs => List.map (unpack_item o c) (chunks (code_size c) bs)) r, p').
