(** * Model of the file names: [pathlib.PurePosixPath] as far as it is used, and [api._files]
    (cfdtools/api.py:67-112).

    [Path] is the Python standard library's; the functions of the first part follow its documentation
    (the same in Python 3.8 to 3.13).  A path is its root ("", "/" or "//") and its components. *)
From Coq Require Import Ascii DecimalString Decimal.
From Verif Require Export Py.

Record path : Type := Path_ { p_root : string; p_parts : list string }.

(** [s.split('/')]. *)
Fixpoint split_slash (s : string) : list string :=
  match s with
  | EmptyString => [""%string]
  | String c r =>
      match split_slash r with
      | [] => []
      | w :: l => if Ascii.eqb c "/" then ""%string :: w :: l else String c w :: l
      end
  end.

(** [Path(s)]: empty components and "." are dropped; two leading slashes are kept as a root of its own,
    three or more are one. *)
Definition root_of (s : string) : string :=
  match s with
  | String "/" (String "/" (String "/" _)) => "/"
  | String "/" (String "/" _) => "//"
  | String "/" _ => "/"
  | _ => ""
  end%string.
Definition kept_part (w : string) : bool := negb (String.eqb w "" || String.eqb w ".").
Definition path_of (s : string) : path := Path_ (root_of s) (filter kept_part (split_slash s)).

(** [str(p)]. *)
Definition path_str (p : path) : string :=
  match p_root p, p_parts p with
  | EmptyString, [] => "."
  | r, l => (r ++ String.concat "/" l)%string
  end%string.

(** [p.name], [p.parent]. *)
Definition path_name (p : path) : string := List.last (p_parts p) ""%string.
Definition path_parent (p : path) : path := Path_ (p_root p) (List.removelast (p_parts p)).

(** The text before the last dot, and the text from it on ([name.rfind('.')]). *)
Fixpoint last_dot (s : string) : option (string * string) :=
  match s with
  | EmptyString => None
  | String c r =>
      match last_dot r with
      | Some (a, b) => Some (String c a, b)
      | None => if Ascii.eqb c "." then Some (""%string, s) else None
      end
  end.
(** [p.stem], [p.suffix]: the last dot counts if it is neither first nor last. *)
Definition name_split (n : string) : string * string :=
  match last_dot n with
  | Some (a, b) => if String.eqb a "" || String.eqb b "." then (n, ""%string) else (a, b)
  | None => (n, ""%string)
  end.
Definition path_stem (p : path) : string := fst (name_split (path_name p)).
Definition path_suffix (p : path) : string := snd (name_split (path_name p)).

(** [p / q]. *)
Definition path_join (p q : path) : path :=
  if String.eqb (p_root q) "" then Path_ (p_root p) (p_parts p ++ p_parts q) else q.

(** [p.with_suffix(ext)]. *)
Fixpoint has_slash (s : string) : bool :=
  match s with EmptyString => false | String c r => Ascii.eqb c "/" || has_slash r end.
Definition dotted (s : string) : bool := match s with String "." _ => true | _ => false end.
Definition with_suffix (ext : string) (p : path) : res path :=
  if has_slash ext || (negb (String.eqb ext "") && negb (dotted ext)) || String.eqb ext "." then Err ValueError
  else if String.eqb (path_name p) "" then Err ValueError
  else Ok (Path_ (p_root p) (List.removelast (p_parts p) ++ [(path_stem p ++ ext)%string])).

(** ** [_files] *)
(** [change_dir], api.py:86-87. *)
Definition change_dir (newdir : string) (p : path) : path := path_join (path_of newdir) (path_of (path_name p)).
(** [remove_dir], api.py:89-90. *)
Definition remove_dir (p : path) : path := path_of (path_name p).
(** [change_suffix], api.py:92-93. *)
Definition change_suffix (ext : string) (p : path) : res path := with_suffix ext p.

(** [f'({i})']. *)
Definition dec (n : nat) : string := NilZero.string_of_uint (Nat.to_uint n).
(** api.py:107: the i-th name. *)
Definition numbered (p : path) (i : nat) : path :=
  path_join (path_parent p) (path_of (path_stem p ++ "(" ++ dec i ++ ")" ++ path_suffix p)%string).

(** [find_safe_newfile], api.py:95-109.  [ex] tells which file names exist while it runs; the loop
    has fuel. *)
Fixpoint safe_loop (fuel : nat) (ex : string -> bool) (p cur : path) (i : nat) : res (path * bool) :=
  if ex (path_str cur) then
    match fuel with
    | O => Err OutOfFuel
    | S fuel' => safe_loop fuel' ex p (numbered p (S i)) (S i)
    end
  else Ok (cur, (0 <? i)%nat).
Definition find_safe_newfile (fuel : nat) (ex : string -> bool) (p : path) : res (path * bool) := safe_loop fuel ex p p 0.
