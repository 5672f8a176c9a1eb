(** * What a Gmsh file says, independently of the reader. *)
From Verif Require Import Py Gmsh.

(** An element of a Gmsh file: number, type code, physical group, elementary entity, further tags
    (partitions), node numbers (from 1). *)
Record felt : Type := FElt {
  fe_num : Z; fe_type : Z; fe_phys : Z; fe_ent : Z; fe_more : list Z; fe_nodes : list Z }.

(** Its line in a version 2 file: number, type, number of tags, tags, nodes. *)
Definition felt_line (e : felt) : list Z :=
  fe_num e :: fe_type e :: (2 + Z.of_nat (List.length (fe_more e))) :: fe_phys e :: fe_ent e :: (fe_more e ++ fe_nodes e).

(** The first order types of the Gmsh manual: name used by cfdtools, dimension, number of nodes. *)
Definition shape_of (t : Z) : option (string * Z * nat) :=
  match t with
  | 1 => Some ("bar2"%string, 1, 2%nat)
  | 2 => Some ("tri3"%string, 2, 3%nat)
  | 3 => Some ("quad4"%string, 2, 4%nat)
  | 4 => Some ("tetra4"%string, 3, 4%nat)
  | 5 => Some ("hexa8"%string, 3, 8%nat)
  | 6 => Some ("prism6"%string, 3, 6%nat)
  | 7 => Some ("pyra5"%string, 3, 5%nat)
  | 15 => Some ("node1"%string, 0, 1%nat)
  | _ => None
  end.

Definition felt_ok (e : felt) : Prop :=
  exists name d n, shape_of (fe_type e) = Some (name, d, n) /\ List.length (fe_nodes e) = n.
Definition felt_name (e : felt) : string :=
  match shape_of (fe_type e) with Some (name, _, _) => name | None => ""%string end.
Definition felt_dim (e : felt) : Z :=
  match shape_of (fe_type e) with Some (_, d, _) => d | None => -1 end.

(** The elements of dimension [d], in file order. *)
Definition of_dim (d : Z) (l : list felt) : list felt := filter (fun e => felt_dim e =? d) l.

(** [d] is the largest dimension of the elements. *)
Definition top_dim (d : Z) (l : list felt) : Prop :=
  (exists e, In e l /\ felt_dim e = d) /\ forall e, In e l -> felt_dim e <= d.

(** Node numbers counted from 0. *)
Definition nodes0 (e : felt) : list Z := List.map (fun v => v - 1) (fe_nodes e).

(** Elements of one entity are in one physical group. *)
Definition one_group (l : list felt) : Prop :=
  forall e e', In e l -> In e' l -> fe_ent e = fe_ent e' -> fe_phys e = fe_phys e'.

(** The physical group of the last element of [l] in entity [t]. *)
Definition last_group (t : Z) (l : list felt) : Z :=
  List.last (List.map fe_phys (filter (fun e => fe_ent e =? t) l)) 0.

(** ** Files

    A file is the list of its lines cut at blanks; [int_of], [float_of] and [ver_of] are Python's
    conversions of a token. *)
Definition decimal (z : Z) : string := DecimalString.NilZero.string_of_int (Z.to_int z).
Section Files.
  Context {F : Type} (int_of : string -> res Z) (float_of : string -> res F) (ver_of : string -> res Z).

  (** The lines between the first [$name] and the first [$Endname]. *)
  Definition section_is (msh : list (list string)) (name : string) (body : list (list string)) : Prop :=
    exists pre post,
      msh = pre ++ [[("$" ++ name)%string]] ++ body ++ [[("$End" ++ name)%string]] ++ post /\
      ~ In [("$" ++ name)%string] pre /\ ~ In [("$End" ++ name)%string] (pre ++ body).

  Definition format_is (msh : list (list string)) (v : Z) : Prop :=
    exists tv tb ts more rest, section_is msh "MeshFormat" ((tv :: tb :: ts :: more) :: rest) /\
      ver_of tv = Ok v /\ int_of tb = Ok 0 /\ int_of ts = Ok 8.

  (** A physical name: dimension, tag, name; its line holds the name between quotes. *)
  Definition quote : string := String (Ascii.ascii_of_nat 34) EmptyString.
  Definition name_line (n : Z * Z * string) (l : list string) : Prop :=
    let '(dim, tag, name) := n in
    exists td more, l = td :: decimal tag :: (quote ++ name ++ quote)%string :: more /\ int_of td = Ok dim.
  Definition names_are (msh : list (list string)) (names : option (list (Z * Z * string))) : Prop :=
    match names with
    | None => ~ In ["$PhysicalNames"%string] msh
    | Some ns => exists th more lines rest,
        section_is msh "PhysicalNames" ((th :: more) :: lines ++ rest) /\
        int_of th = Ok (zlen ns) /\ Forall2 name_line ns lines
    end.

  (** The name of physical group [p]: the last one given to this tag, whatever the dimension. *)
  Definition phys_name (ns : list (Z * Z * string)) (p : Z) : option string :=
    match rev (filter (fun n => snd (fst n) =? p) ns) with
    | [] => None
    | n :: _ => Some (snd n)
    end.

  (** Version 2: nodes are lines [number x y z], elements lines of integers. *)
  Definition node_line2 (n : F * F * F) (l : list string) : Prop :=
    let '(x, y, z) := n in
    exists tn tx ty tz more, l = tn :: tx :: ty :: tz :: more /\
      float_of tx = Ok x /\ float_of ty = Ok y /\ float_of tz = Ok z.
  Definition nodes2_are (msh : list (list string)) (nodes : list (F * F * F)) : Prop :=
    exists th more lines rest, section_is msh "Nodes" ((th :: more) :: lines ++ rest) /\
      int_of th = Ok (zlen nodes) /\ Forall2 node_line2 nodes lines.
  Definition elts2_are (msh : list (list string)) (elts : list felt) : Prop :=
    exists th more lines rest, section_is msh "Elements" ((th :: more) :: lines ++ rest) /\
      int_of th = Ok (zlen elts) /\
      Forall2 (fun e l => Forall2 (fun t z => int_of t = Ok z) l (felt_line e)) elts lines.

  (** Version 4: blocks of nodes, each with its header, its node numbers and its coordinates. *)
  Notation fnode := (Z * (F * F * F))%type.
  Definition block4_lines (b : list fnode) (ls : list (list string)) : Prop :=
    exists h th tags coords, ls = h :: tags ++ coords /\
      nth_error h 3 = Some th /\ int_of th = Ok (zlen b) /\
      Forall2 (fun n l => exists t more, l = t :: more /\ int_of t = Ok (fst n)) b tags /\
      Forall2 (fun n l => let '(x, y, z) := snd n in
                 exists tx ty tz more, l = tx :: ty :: tz :: more /\
                   float_of tx = Ok x /\ float_of ty = Ok y /\ float_of tz = Ok z) b coords.
  (** The section: its fourth integer is the largest node number. *)
  Definition nodes4_sec (sec : list (list string)) (maxtag : Z) (blocks : list (list fnode))
    (rest : list (list string)) : Prop :=
    exists h th bls, sec = h :: List.concat bls ++ rest /\
      nth_error h 3 = Some th /\ int_of th = Ok maxtag /\ Forall2 block4_lines blocks bls.
  Definition nodes4_are (msh : list (list string)) (maxtag : Z) (blocks : list (list fnode))
    (rest : list (list string)) : Prop :=
    exists sec, section_is msh "Nodes" sec /\ nodes4_sec sec maxtag blocks rest.

  (** Version 4.1: curves and surfaces of the table of entities: tag, box, physical groups, boundary. *)
  Record entity : Type := Entity { en_tag : Z; en_phys : list Z; en_bound : list Z }.
  Definition entity_line (e : entity) (l : list string) : Prop :=
    exists tt box tn tps tb tbs, l = tt :: box ++ tn :: tps ++ tb :: tbs /\
      List.length box = 6%nat /\ int_of tt = Ok (en_tag e) /\
      int_of tn = Ok (zlen (en_phys e)) /\ Forall2 (fun t z => int_of t = Ok z) tps (en_phys e) /\
      int_of tb = Ok (zlen (en_bound e)) /\ Forall2 (fun t z => int_of t = Ok z) tbs (en_bound e).
  (** The table: points (any lines), curves, surfaces, then anything. *)
  Definition entities_are (msh : list (list string)) (points : list (list string))
    (curves surfaces : list entity) : Prop :=
    exists t0 t1 t2 more cls sls rest,
      section_is msh "Entities" ((t0 :: t1 :: t2 :: more) :: points ++ cls ++ sls ++ rest) /\
      int_of t0 = Ok (zlen points) /\ int_of t1 = Ok (zlen curves) /\ int_of t2 = Ok (zlen surfaces) /\
      Forall2 entity_line curves cls /\ Forall2 entity_line surfaces sls.

  (** Version 4: blocks of elements of one type and one entity. *)
  Record eblock : Type := EBlock { eb_dim : Z; eb_ent : Z; eb_type : Z; eb_elts : list (Z * list Z) }.
  Definition eblock_lines (b : eblock) (ls : list (list string)) : Prop :=
    exists t0 t1 t2 t3 more lines, ls = (t0 :: t1 :: t2 :: t3 :: more) :: lines /\
      int_of t0 = Ok (eb_dim b) /\ int_of t1 = Ok (eb_ent b) /\ int_of t2 = Ok (eb_type b) /\
      int_of t3 = Ok (zlen (eb_elts b)) /\
      Forall2 (fun e l => Forall2 (fun t z => int_of t = Ok z) l (fst e :: snd e)) (eb_elts b) lines.
  Definition elts4_are (msh : list (list string)) (blocks : list eblock) : Prop :=
    exists th more bls rest, section_is msh "Elements" ((th :: more) :: List.concat bls ++ rest) /\
      int_of th = Ok (zlen blocks) /\ Forall2 eblock_lines blocks bls.
End Files.

(** The group the reader gives to the elements of entity [tag]: it looks among [candidates] for the
    first entity with this tag and takes the integer after its number of physical groups. *)
Definition first_group (e : entity) : Z :=
  match en_phys e with p :: _ => p | [] => Z.of_nat (List.length (en_bound e)) end.
Definition found_group (candidates : list entity) (tag : Z) : Z :=
  match find (fun e => en_tag e =? tag) candidates with Some e => first_group e | None => 0 end.

(** The elements of a version 4 file when entity [t] is taken to be in group [group t]. *)
Definition block_elts (group : Z -> Z) (b : eblock) : list felt :=
  List.map (fun e => FElt (fst e) (eb_type b) (group (eb_ent b)) (eb_ent b) [] (snd e)) (eb_elts b).

(** Coordinates of a node in the three lists of a mesh ([None]: undefined). *)
Definition node_at {F} (xyz : list (option F) * list (option F) * list (option F)) (tag : Z) (p : option (F * F * F)) : Prop :=
  let '(x, y, z) := xyz in
  nth_error x (Z.to_nat (tag - 1)) = Some (option_map (fun '(a, _, _) => a) p) /\
  nth_error y (Z.to_nat (tag - 1)) = Some (option_map (fun '(_, b, _) => b) p) /\
  nth_error z (Z.to_nat (tag - 1)) = Some (option_map (fun '(_, _, c) => c) p).

(** The node numbers of a version 4 file: from 1 to [maxtag], each at most once. *)
Definition tags_ok {F} (maxtag : Z) (blocks : list (list (Z * (F * F * F)))) : Prop :=
  NoDup (List.map fst (List.concat blocks)) /\
  forall n, In n (List.concat blocks) -> 1 <= fst n <= maxtag.

(** A whole file: its names, its number of nodes, its elements.  In version 4 the group of an
    element is the one the reader looks up, among the last curve and the surfaces. *)
Inductive gmsh_file {F : Type} (int_of : string -> res Z) (float_of : string -> res F) (ver_of : string -> res Z)
  (msh : list (list string)) : option (list (Z * Z * string)) -> Z -> list felt -> Prop :=
| File2 v names nodes elts :
    format_is int_of ver_of msh v -> v <= 2 -> names_are int_of msh names ->
    nodes2_are int_of float_of msh nodes -> elts2_are int_of msh elts ->
    gmsh_file int_of float_of ver_of msh names (zlen nodes) elts
| File4 v names maxtag blocks rest points curves lastc surfaces eblocks :
    format_is int_of ver_of msh v -> 4 <= v -> names_are int_of msh names ->
    nodes4_are int_of float_of msh maxtag blocks rest -> tags_ok maxtag blocks ->
    0 <= maxtag <= 1 + zlen (List.concat blocks) ->
    entities_are int_of msh points (curves ++ [lastc]) surfaces ->
    elts4_are int_of msh eblocks ->
    gmsh_file int_of float_of ver_of msh names maxtag
      (flat_map (block_elts (found_group (lastc :: surfaces))) eblocks).

(** The name of the patch of a boundary element [e] among the boundary elements [l]: the name of the
    last group given to its entity; everything is "fluid" in a file without names. *)
Definition patch_name (names : option (list (Z * Z * string))) (l : list felt) (e : felt) : option string :=
  match names with
  | None => Some "fluid"%string
  | Some ns => phys_name ns (last_group (fe_ent e) l)
  end.
(** Names that never become a mark. *)
Definition no_mark (names : option (list (Z * Z * string))) (name : string) : Prop :=
  name = "int_fluid"%string \/ (names <> None /\ name = "fluid"%string).
