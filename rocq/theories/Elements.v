(** * Model of the element tables (cfdtools/meshbase/_elements.py). *)
From Verif Require Export Py.

(** Rows of [elem_properties], _elements.py:7-18: name, number of nodes, dimension, extruded type.
    (The unused first field is dropped.) *)
Definition elem_properties : list (string * Z * Z * string) :=
  [ ("node1", 1, 0, "bar2");
    ("bar2", 2, 1, "quad4");
    ("tri3", 3, 2, "penta6");
    ("quad4", 4, 2, "hexa8");
    ("tetra4", 4, 3, "none");
    ("pyra5", 5, 3, "none");
    ("prism6", 6, 3, "none");
    ("hexa8", 8, 3, "none") ].

(** [dim_elem], [nnode_elem], [face_from_nnode], [extruded_face]: _elements.py:20-23. *)
Definition dim_elem : dict string Z :=
  List.map (fun '(e, n, d, x) => (e, d)) elem_properties.
Definition nnode_elem : dict string Z :=
  List.map (fun '(e, n, d, x) => (e, n)) elem_properties.
Definition face_from_nnode : dict Z string :=
  List.map (fun '(e, n, d, x) => (n, e))
    (filter (fun '(e, n, d, x) => d <=? 2) elem_properties).
Definition extruded_face : dict string string :=
  List.map (fun '(e, n, d, x) => (e, x))
    (filter (fun '(e, n, d, x) => d <=? 2) elem_properties).

(** [set_starting_index_to_zero], _elements.py:35-38.  The strings 'N1', 'N2', ... are written
    as the integers 1, 2, .... *)
Definition set_starting_index_to_zero (faces : list (list Z)) : list (list Z) :=
  List.map (List.map (fun x => x - 1)) faces.

(** [set_inward_normal], _elements.py:41-48 (tables only hold faces of 3 or 4 corners). *)
Definition set_inward_normal (faces : list (list Z)) : list (list Z) :=
  List.map (fun elt => match elt with
                       | [a; b; c] => [a; c; b]
                       | [a; b; c; d] => [a; d; c; b]
                       | _ => elt
                       end) faces.

(** Side tables: element type -> face type -> local node lists. *)
Definition sidetable : Type := dict string (dict string (list (list Z))).

(** [group_faces_by_type], _elements.py:51-57. *)
Definition group_faces_by_type (faces : list (list Z)) : dict string (list (list Z)) :=
  [ ("tri3", filter (fun e => Nat.eqb (List.length e) 3) faces);
    ("quad4", filter (fun e => Nat.eqb (List.length e) 4) faces) ].

(** _elements.py:72-83. *)
Definition connectivity_hexa8 : list (list Z) :=
  set_inward_normal (set_starting_index_to_zero
    [ [1;4;3;2]; [1;2;6;5]; [2;3;7;6]; [3;4;8;7]; [1;5;8;4]; [5;6;7;8] ]).
(** _elements.py:90-101. *)
Definition connectivity_midedge_hexa27 : list (list Z) :=
  set_starting_index_to_zero
    [ [12;11;10;9]; [9;14;17;13]; [10;15;18;14]; [11;16;19;15]; [13;20;16;12]; [17;18;19;20] ].
(** _elements.py:103-113. *)
Definition connectivity_midface_hexa27 : list (list Z) :=
  set_starting_index_to_zero [ [21]; [22]; [23]; [24]; [25]; [26] ].
(** _elements.py:115-118. *)
Definition connectivity_hexa27 : list (list Z) :=
  List.map (fun '(a, (b, c)) => a ++ b ++ c)
    (combine connectivity_hexa8 (combine connectivity_midedge_hexa27 connectivity_midface_hexa27)).
(** _elements.py:126-136. *)
Definition connectivity_prism6 : list (list Z) :=
  set_inward_normal (set_starting_index_to_zero
    [ [1;2;5;4]; [2;3;6;5]; [3;1;4;6]; [1;3;2]; [4;5;6] ]).
(** _elements.py:145-154. *)
Definition connectivity_tetra4 : list (list Z) :=
  set_inward_normal (set_starting_index_to_zero
    [ [1;3;2]; [1;2;4]; [2;3;4]; [3;1;4] ]).
(** _elements.py:163-173. *)
Definition connectivity_pyra5 : list (list Z) :=
  set_inward_normal (set_starting_index_to_zero
    [ [1;4;3;2]; [1;2;5]; [2;3;5]; [3;4;5]; [4;1;5] ]).

(** [cgns_elem2faces], _elements.py:64-66, 86, 120, 139, 157, 176. *)
Definition cgns_elem2faces : sidetable :=
  [ ("quad4", [("bar2", [[0;1];[1;2];[2;3];[3;0]])]);
    ("hexa8", group_faces_by_type connectivity_hexa8);
    ("hexa27", [("quad9", connectivity_hexa27)]);
    ("prism6", group_faces_by_type connectivity_prism6);
    ("tetra4", group_faces_by_type connectivity_tetra4);
    ("pyra5", group_faces_by_type connectivity_pyra5) ].

(** _elements.py:182-187. *)
Definition hexa8_cgns2gmsh : list Z := [1;2;3;4;5;6;7;8].
Definition hexa27_cgns2gmsh : list Z :=
  [1;2;3;4;5;6;7;8;9;12;14;10;11;13;15;16;17;19;20;18;21;22;24;25;23;26;27].
Definition prism6_cgns2gmsh : list Z := [1;2;3;4;5;6].
Definition tetra4_cgns2gmsh : list Z := [1;2;3;4].
Definition pyra5_cgns2gmsh : list Z := [1;2;3;4;5].

(** [gmsh2cgns], _elements.py:190-199. *)
Definition gmsh2cgns : dict string (list Z) :=
  [ ("tri3", [1;2;3]); ("quad4", [1;2;3;4]); ("quad9", [1;2;3;4;5;6;7;8;9]);
    ("tetra4", [1;2;3;4]); ("prism6", [1;2;3;4;5;6]); ("pyra5", [1;2;3;4;5]);
    ("hexa8", [1;2;3;4;5;6;7;8]);
    ("hexa27", [1;2;3;4;5;6;7;8;9;12;13;10;14;11;15;16;17;20;18;19;21;22;25;23;24;26;27]) ].

(** [cgns2gmsh], _elements.py:202-205. *)
Definition cgns2gmsh (perm : list Z) (faces : list (list Z)) : res (list (list Z)) :=
  mapM (fun face => np_take (List.map (fun i => i - 1) perm) face) faces.

(** Value of a computation that the module performs at import time (it does not raise). *)
Definition ok_or_nil {A} (r : res (list A)) : list A := match r with Ok l => l | Err _ => [] end.

(** _elements.py:211-215. *)
Definition gmsh_connectivity_hexa8 := ok_or_nil (cgns2gmsh hexa8_cgns2gmsh connectivity_hexa8).
Definition gmsh_connectivity_hexa27 := ok_or_nil (cgns2gmsh hexa27_cgns2gmsh connectivity_hexa27).
Definition gmsh_connectivity_prism6 := ok_or_nil (cgns2gmsh prism6_cgns2gmsh connectivity_prism6).
Definition gmsh_connectivity_tetra4 := ok_or_nil (cgns2gmsh tetra4_cgns2gmsh connectivity_tetra4).
Definition gmsh_connectivity_pyra5 := ok_or_nil (cgns2gmsh pyra5_cgns2gmsh connectivity_pyra5).

(** [gmsh_elem2faces], _elements.py:217-225. *)
Definition gmsh_elem2faces : sidetable :=
  [ ("tri3", [("bar2", [[0;1];[1;2];[2;0]])]);
    ("quad4", [("bar2", [[0;1];[1;2];[2;3];[3;0]])]);
    ("hexa8", group_faces_by_type gmsh_connectivity_hexa8);
    ("hexa27", [("quad9", gmsh_connectivity_hexa27)]);
    ("prism6", group_faces_by_type gmsh_connectivity_prism6);
    ("pyra5", group_faces_by_type gmsh_connectivity_pyra5);
    ("tetra4", group_faces_by_type gmsh_connectivity_tetra4) ].

(** The module variable [elem2faces] (_elements.py:228) over the calls made in a process: reading a
    GMSH file that exists assigns it, before anything of the file is read (gmsh/reader.py:36-42);
    no other function of the package assigns it. *)
Inductive session_event : Type := GmshRead (file_exists : bool) | OtherCall.
Definition elem2faces_step (tbl : sidetable) (ev : session_event) : sidetable :=
  match ev with
  | GmshRead true => gmsh_elem2faces
  | GmshRead false => tbl
  | OtherCall => tbl
  end.
Definition elem2faces_after (evs : list session_event) : sidetable :=
  fold_left elem2faces_step evs cgns_elem2faces.
