(** * Model of what is printed about a mesh: [Mesh.printinfo] (cfdtools/meshbase/_mesh.py:371-393) and the command
    [cfdinfo] (cfdtools/_cli.py:131-146).

    A line is given by what it shows; its layout (padding, three decimals) is dropped.  The lines printed before an
    exception are kept. *)
From Verif Require Export Py Mesh Cli.

(** ** An index, [indexlist.__str__], meshbase/_connectivity.py:104-109: without a type the result is [None], which
    formatting refuses; the minimum of an empty array raises. *)
Inductive idesc : Type := Drange (lo hi : Z) | Dlist (mn mx size : Z).
Definition il_str (il : indexlist) : res idesc :=
  match il with
  | ILnone => Err TypeError
  | ILrange lo hi => Ok (Drange lo hi)
  | ILlist l | ILboxed l => mn <- py_min l ;; mx <- py_max l ;; Ok (Dlist mn mx (zlen l))
  end.

Section Info.
  (** The order of coordinates (no NaN) and their average. *)
  Context {F : Type} (leb : F -> F -> bool) (avg : list F -> F).
  Definition fmin (a b : F) : F := if leb b a then b else a.
  Definition fmax (a b : F) : F := if leb a b then b else a.

  Inductive line : Type :=
  | Lnnode (n : Z)
  | Lcoord (axis : string) (mn av mx : F)
  | Lncell (n : Z)
  | Lelems (etype : string) (nrow : Z) (ncol : option nat) (index : idesc)
  | Lnocell
  | Lnface (n : Z)
  | Lkind (kind : string) (etypes : list string)
  | Lnoface
  | Lbocos (names : list string)
  | Lmark (name : string) (dim : option geodim) (index : idesc)
  | Lparams.

  Definition out : Type := (list line * res unit)%type.
  Definition say (r : res line) : out := match r with Ok l => ([l], Ok tt) | Err e => ([], Err e) end.
  (** One statement after the other. *)
  Definition andthen (a b : out) : out :=
    match a with (l, Ok _) => let '(l', r) := b in (l ++ l', r) | (l, Err e) => (l, Err e) end.
  Definition all (l : list out) : out := fold_right andthen ([], Ok tt) l.

  (** [minavgmax], utils/maths.py:4-5, of a coordinate: numpy raises on an empty array. *)
  Definition minavgmax (l : list F) : res (F * F * F) :=
    match l with
    | [] => Err ValueError
    | x :: l' => Ok (fold_left fmin l' x, avg l, fold_left fmax l' x)
    end.
  (** _mesh.py:373-376. *)
  Definition coord_line (m : mesh F) (c : string) : res line :=
    l <- dget_err String.eqb c (me_nodes m) ;; '(mn, av, mx) <- minavgmax l ;; Ok (Lcoord c mn av mx).

  (** [elem_connectivity.print], _connectivity.py:226-230. *)
  Definition elem_line (x : string * edict) : res line :=
    d <- il_str (ed_index (snd x)) ;; Ok (Lelems (fst x) (m_nrow (ed_e2n (snd x))) (m_cols (ed_e2n (snd x))) d).
  Definition elems_lines (c : econn) : out := all (List.map (fun x => say (elem_line x)) (ec_dict c)).

  (** [submeshmark.__str__], _mesh.py:85-86. *)
  Definition mark_line (b : mark F) : res line :=
    match mk_index b with
    | None => Err AttributeError
    | Some il => d <- il_str il ;; Ok (Lmark (mk_name b) (mk_geodim b) d)
    end.

  (** _mesh.py:385-387. *)
  Definition kind_lines (x : string * faceset) : out :=
    andthen (say (Ok (Lkind (fst x) (dkeys (ec_dict (f_f2n (snd x))))))) (elems_lines (f_f2n (snd x))).
  (** [Mesh.printinfo], _mesh.py:371-393, without details. *)
  Definition printinfo (m : mesh F) : out :=
    all [say (Ok (Lnnode (me_nnode m)));
         say (coord_line m "x"); say (coord_line m "y"); say (coord_line m "z");
         say (Ok (Lncell (me_ncell m)));
         match me_cell2node m with Some c => elems_lines c | None => say (Ok Lnocell) end;
         say (Ok (Lnface (me_nface m)));
         match me_faces m with
         | [] => say (Ok Lnoface)
         | fs => all (List.map kind_lines fs)
         end;
         say (Ok (Lbocos (dkeys (me_bocos m))));
         all (List.map (fun x => say (mark_line (snd x))) (me_bocos m));
         say (Ok Lparams)].

  (** ** [cfdinfo], _cli.py:131-146.  A reader class may accept the argument [cIntegrity] of its constructor
      (gmsh/reader.py:23, ic3/reader_legacy.py:59) or not (cgns/cgns.py:149: TypeError); [rc_read] is
      [read_data] followed by [export_mesh]. *)
  Record rclass : Type := RClass { rc_integrity : bool; rc_read : bool -> string -> res (mesh F) }.
  Definition cfdinfo {W} (reg : registry rclass W) (fmt : option string) (check : bool) (filename : string) : out :=
    match parse_filenameformat reg fmt filename with
    | Err e => ([], Err e)
    | Ok (_, None, _) => ([], Err TypeError)
    | Ok (_, Some rc, _) =>
        if rc_integrity rc then
          match rc_read rc check (path_str (path_of filename)) with
          | Ok m => printinfo m
          | Err e => ([], Err e)
          end
        else ([], Err TypeError)
    end.
  (** The registry of the command line (see [cli_registrations]), given how the readers of IC3, GMSH and CGNS files
      behave. *)
  Definition info_registrations {W} (w : W) (ic3 gmsh cgns : bool -> string -> res (mesh F)) : list (registration rclass W) :=
    [RegReader "IC3" (RClass true ic3) ".ic3"; RegWriter "IC3" w ".ic3"; RegWriter "IC3" w ".ic3";
     RegReader "GMSH" (RClass true gmsh) ".msh"; RegReader "CGNS" (RClass false cgns) ".cgns"; RegWriter "VTK" w ".vtu"].
End Info.
Arguments line : clear implicits.
Arguments out : clear implicits.
Arguments rclass : clear implicits.
