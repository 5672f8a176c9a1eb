(** * The bytes of an IC3 file, as the solver that reads it expects them: numbers of codes, order of the fields, sizes. *)
From Coq Require Import ZArith List Bool String Ascii.
From Verif Require Import Py Conn Mesh Ic3 Ic3HeaderSpec Ic3FileSpec Ic3RoundSpec Ic3BriefSpec.

(** Byte [i] of a number, from the lowest. *)
Definition digit (v : Z) (i : nat) : Z := (v / 256 ^ Z.of_nat i) mod 256.
Definition in_bytes (o : order) (n : nat) (v : Z) : list Z :=
  List.map (digit v) (match o with Little => List.seq 0 n | Big => rev (List.seq 0 n) end).
(** Integers of 4 bytes; integers of 8 bytes and floats. *)
Definition words4 (o : order) (l : list Z) : list Z := flat_map (in_bytes o 4) l.
Definition words8 (o : order) (l : list Z) : list Z := flat_map (in_bytes o 8) l.
(** Completed by zeros, and cut at [n]. *)
Definition padded (n : nat) (l : list Z) : list Z := firstn n (l ++ repeat 0 n).
Definition letters (s : string) : list Z := List.map (fun c => Z.of_nat (nat_of_ascii c)) (list_ascii_of_string s).

(** A section: name on 52 bytes, code on 4, size of all on 8, eight integers and sixteen floats on 8 bytes each, then the data. *)
Definition sect (o : order) (name : string) (code : Z) (ints reals load : list Z) : list Z :=
  padded 52 (letters name) ++ in_bytes o 4 code ++ in_bytes o 8 (256 + zlen load)
  ++ words8 o (padded 8 ints) ++ words8 o (padded 16 reals) ++ load.

(** Letters in capitals and in small letters. *)
Definition capitals : list ascii := list_ascii_of_string "ABCDEFGHIJKLMNOPQRSTUVWXYZ".
Definition smalls : list ascii := list_ascii_of_string "abcdefghijklmnopqrstuvwxyz".
(** [b] is [a] with each letter of [from] replaced by the one at the same place in [to], and nothing else. *)
Definition recased (from to : list ascii) (a b : string) : Prop :=
  Forall2 (fun c d => In (c, d) (combine from to) \/ ~ In c from /\ d = c) (list_ascii_of_string a) (list_ascii_of_string b).

(** Numbers of the kinds of zones. *)
Inductive kind_number : string -> Z -> Prop :=
| kind_wall : kind_number "boundary" 1
| kind_cart : kind_number "perio_cart" 2
| kind_cylx : kind_number "perio_cylx" 3
| kind_cyly : kind_number "perio_cyly" 4
| kind_cylz : kind_number "perio_cylz" 5.
(** The section of a mark: its kind, its first and last faces, and the numbers of a periodicity. *)
Definition zone_bytes (o : order) (kb : string * mark Z) (z : list Z) : Prop :=
  exists t n lo hi, mk_type (snd kb) = Some t /\ kind_number t n /\ mk_index (snd kb) = Some (ILrange lo hi) /\
    z = sect o (fst kb) 23 [n; lo; hi] (match mk_perio (snd kb) with Some (Some l) => l | _ => [] end) [].

(** A parameter, 0 if it is not given; the weights, none if they are not given. *)
Definition setting (fm : fmesh) (k : string) : sval :=
  match dget String.eqb k (fm_params fm) with Some x => x | None => SNum (NInt 0) end.
Definition weights (fm : fmesh) (l : dict string num) : Prop :=
  match dget String.eqb "wgt" (fm_params fm) with Some x => x = SWgt l | None => l = [] end.
Definition weight_bytes (i2d : Z -> Z) (o : order) (kx : string * num) (z : list Z) : Prop :=
  exists name p, recased smalls capitals (fst kx) name /\ as_double i2d (SNum (snd kx)) p /\ z = sect o (name ++ "_WGT")%string 12 [] [p] [].
(** The parts: those of the mesh, or a single one. *)
Definition parts (fm : fmesh) (n : Z) (l : list Z) : Prop :=
  match fm_part fm with
  | None => n = 1 /\ l = repeat 0 (Z.to_nat (me_ncell (fm_mesh fm)))
  | Some q => q = Some (n, Some l)
  end.
Definition points_of (m : mesh Z) (l : list (list Z)) : Prop :=
  zlen l = me_nnode m /\ Forall (fun r => List.length r = 3%nat) l /\
  forall k name, In (k, name) [(0%nat, "x"%string); (1%nat, "y"%string); (2%nat, "z"%string)] ->
    dget String.eqb name (me_nodes m) = Some (List.map (fun r => nth k r 0) l).

(** The variables of a set: the integers of writer 3 have their own code. *)
Definition scalar_bytes (i2d : Z -> Z) (o : order) (v : version) (code icode : Z) (ints : list Z) (d : dict string array) : list Z :=
  flat_map (fun '(k, a) => if kept_int v a then sect o k icode ints [] (words8 o (a_val a)) else sect o k code ints [] (words8 o (array_doubles i2d a)))
    (filter (fun '(_, a) => as_many_as_rows a) d).
Definition block_bytes (i2d : Z -> Z) (o : order) (dims : nat) (code : Z) (ints : list Z) (d : dict string array) : list Z :=
  flat_map (fun '(k, a) => sect o k code ints [] (words8 o (array_doubles i2d a))) (filter (fun '(_, a) => with_dims dims a) d).

(** The file of a mesh whose faces have the nodes [ls] and the cells [rows]. *)
Definition laid_out (i2d : Z -> Z) (f2i : Z -> res Z) (v : version) (o : order) (fm : fmesh) (ls rows : list (list Z)) (f : list Z) : Prop :=
    exists zones npart icv pts step dt time wgts ws,
    let no := me_nnode (fm_mesh fm) in let fa := me_nface (fm_mesh fm) in let cv := me_ncell (fm_mesh fm) in
    let nodes := fd_items (fm_nodes fm) in let cells := fd_items (fm_cells fm) in let ndof := data_ndof (fm_cells fm) in
      Forall2 (zone_bytes o) (zone_marks (fm_mesh fm)) zones /\ parts fm npart icv /\ points_of (fm_mesh fm) pts /\
      as_int f2i (setting fm "step") step /\ as_double i2d (setting fm "dt") dt /\ as_double i2d (setting fm "time") time /\
      weights fm wgts /\ Forall2 (weight_bytes i2d o) wgts ws /\
      f = words4 o [123581321; match v with V2 => 2 | V3 => 3 end]
        ++ sect o "NO_FA_CV_NOOFA_COUNTS" 10 [no; fa; cv; zlen (List.concat ls)] [] []
        ++ match v with
           | V2 => sect o "NO_CHECK" 30 [no] [] (words4 o (zrange 0 no)) ++ sect o "FA_CHECK" 20 [fa] [] (words4 o (zrange 0 fa))
                   ++ sect o "CV_CHECK" 40 [cv] [] (words4 o (zrange 0 cv))
           | V3 => []
           end
        ++ sect o "NOOFA_I_AND_V" 21 [fa; zlen (List.concat ls)] [] (words4 o (List.map zlen ls) ++ words4 o (List.concat ls))
        ++ sect o "CVOFA" 22 [fa; 2] [] (words4 o (List.concat rows))
        ++ List.concat zones
        ++ sect o "internal-domain" 23 [6; marks_end (fm_mesh fm) + 1; fa - 1] [] []
        ++ sect o "CV_PART" 41 [cv; npart] [] (words4 o icv)
        ++ sect o "X_NO" 31 [no; 3] [] (words8 o (List.concat pts))
        ++ sect o "DATA" 50 [] [] [] ++ sect o "STEP" 11 [step] [] [] ++ sect o "DT" 12 [] [dt] [] ++ sect o "TIME" 12 [] [time] []
        ++ List.concat ws
        ++ scalar_bytes i2d o v 32 34 [no] nodes ++ block_bytes i2d o 2 33 [no; 3] nodes
        ++ scalar_bytes i2d o v 42 45 (match v with V2 => [cv] | V3 => [cv; ndof] end) cells
        ++ block_bytes i2d o 2 43 [cv; match v with V2 => 3 | V3 => ndof end] cells
        ++ block_bytes i2d o 3 44 [cv; match v with V2 => 3 | V3 => ndof end; 3] cells
        ++ sect o "EOF" 51 [] [] [].
