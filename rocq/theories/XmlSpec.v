(** * A fragment of XML: what a text says as a tree, and the tree expected of an XMF file.

    Nothing here comes from the code: the grammar is that of XML 1.0 without comments, entities and
    processing instructions, with attribute values between double quotes. *)
From Coq Require Import Ascii Sorted.
From Verif Require Import Py Vtk Files FilesSpec Hdf5.
Local Open Scope string_scope.

Inductive xml : Type :=
| Node (name : string) (attrs : list (string * string)) (kids : list xml)
| Text (s : string).

Definition dquote : string := String """" "".
Definition newline : string := String (ascii_of_nat 10) "".
Definition each (P : ascii -> Prop) (s : string) : Prop := Forall P (list_ascii_of_string s).
(** Spaces and ends of lines. *)
Definition blank : string -> Prop := each (fun c => c = " "%char \/ c = ascii_of_nat 10).
(** Characters that stand for themselves in text, and between double quotes. *)
Definition as_is : string -> Prop := each (fun c => c <> "<"%char /\ c <> "&"%char /\ c <> """"%char).
(** Names of elements and attributes: letters only. *)
Definition letter (c : ascii) : Prop :=
  let n := nat_of_ascii c in (65 <= n <= 90 \/ 97 <= n <= 122)%nat.
Definition xml_name (s : string) : Prop := s <> "" /\ each letter s.
Definition xml_attrs (a : list (string * string)) : Prop :=
  Forall (fun kv => xml_name (fst kv) /\ as_is (snd kv)) a /\ NoDup (List.map fst a).
Definition attrs_text (a : list (string * string)) : string :=
  fold_right (fun kv s => " " ++ fst kv ++ "=" ++ dquote ++ snd kv ++ dquote ++ s) "" a.

(** [xml_elem s t]: the text [s] is an element and [t] its tree. *)
Inductive xml_elem : string -> xml -> Prop :=
| xe_empty n a : xml_name n -> xml_attrs a -> xml_elem ("<" ++ n ++ attrs_text a ++ "/>") (Node n a [])
| xe_node n a s l : xml_name n -> xml_attrs a -> xml_content s l ->
    xml_elem ("<" ++ n ++ attrs_text a ++ ">" ++ s ++ "</" ++ n ++ ">") (Node n a l)
with xml_content : string -> list xml -> Prop :=
| xc_blank s : blank s -> xml_content s []
| xc_text s : as_is s -> ~ blank s -> xml_content s [Text s]
| xc_elem w s t s' l : blank w -> xml_elem s t -> xml_content s' l -> xml_content (w ++ s ++ s') (t :: l).

(** ** The tree of an XMF file *)

Definition item (dims path : string) : xml :=
  Node "DataItem" [("Dimensions", dims); ("Format", "HDF")] [Text (newline ++ path ++ newline)].

(** The cells of type [t], called [x] by XDMF and [e] by cfdtools: how many, and how many node numbers
    in all. *)
Definition topology (f : string) (cs : list (Z * list Z)) (t : Z) (x e : string) : xml :=
  let cells := filter (fun c => Z.eqb (fst c) t) cs in
  Node "Topology" [("NumberOfElements", dec (List.length cells)); ("TopologyType", x)]
    [item (dec (List.length (flat_map snd cells))) (f ++ ":/mesh/cells/" ++ e)].

Definition attribute {V} (f : string) (k : nat) (n : string) (v : var V) : xml :=
  Node "Attribute" [("AttributeType", match va_shape v with [_] => "Scalar" | _ => "Vector" end); ("Center", "Cell"); ("Name", n)]
    [item (String.concat " " (List.map (fun d => dec (Z.to_nat d)) (va_shape v))) (f ++ ":/datalist/" ++ step_name k ++ "/" ++ n)].

Definition step_tree {V} (f : string) (npts : nat) (topos : list xml) (k : nat) (d : list (string * var V)) : xml :=
  Node "Grid" [("Name", "Unstructured Mesh")]
    (Node "Time" [("Value", dec k)] []
     :: Node "Geometry" [("GeometryType", "XYZ")] [item (dec (3 * npts)) (f ++ ":/mesh/nodes")]
     :: topos ++ List.map (fun kv => attribute f k (fst kv) (snd kv)) (filter (fun kv => negb (String.eqb (fst kv) "time")) d))%list.

(** Steps numbered from [k]. *)
Fixpoint steps_tree {V} (f : string) (npts : nat) (topos : list xml) (k : nat) (dl : list (list (string * var V))) : list xml :=
  match dl with
  | [] => []
  | d :: dl' => step_tree f npts topos k d :: steps_tree f npts topos (S k) dl'
  end.

Definition xmf_tree {V} (f : string) (npts : nat) (topos : list xml) (dl : list (list (string * var V))) : xml :=
  Node "Xdmf" [("Version", "3.0")]
    [Node "Domain" []
       [Node "Grid" [("Name", "IC3"); ("GridType", "Collection"); ("CollectionType", "Temporal")] (steps_tree f npts topos 0 dl)]].

(** One topology per type of cell that occurs, by increasing VTK code. *)
Definition topologies (f : string) (cs : list (Z * list Z)) (topos : list xml) : Prop :=
  exists ts, StronglySorted Z.lt ts /\ (forall t, In t ts <-> In t (List.map fst cs)) /\
    Forall2 (fun t n => exists x e, In (t, x) [ (5, "Triangle"); (9, "Quadrilateral"); (10, "Tetrahedron"); (12, "Hexahedron"); (13, "Prism"); (14, "Pyramid") ]%Z /\
       In (t, e) [ (5, "tri3"); (9, "quad4"); (10, "tetra4"); (12, "hexa8"); (13, "prism6"); (14, "pyra5") ]%Z /\ n = topology f cs t x e) ts topos.
