(** * Vocabulary for CGNS files *)
From Verif Require Import Py Cgns Conn Mesh ConnSpec.

Section Spec.
  Context {F : Type}.

  (** [n] has a child [name] holding the dataset [p]. *)
  Definition holds (n : cgnode F) (name : string) (p : payload F) : Prop :=
    exists label kids, dget String.eqb name (cg_kids n) = Some (CG label (Some p) kids).
  Definition lacks (n : cgnode F) (name : string) : Prop := dget String.eqb name (cg_kids n) = None.

  (** The types of the CGNS standard the reader knows: name, dimension, number of nodes. *)
  Definition cg_shape (code : Z) : option (string * Z * nat) :=
    match code with
    | 2 => Some ("node1"%string, 0, 1%nat)
    | 3 => Some ("bar2"%string, 1, 2%nat)
    | 5 => Some ("tri3"%string, 2, 3%nat)
    | 7 => Some ("quad4"%string, 2, 4%nat)
    | 17 => Some ("hexa8"%string, 3, 8%nat)
    | _ => None
    end.

  (** A section: type, numbers of its first and last elements (from 1), nodes of each (from 1). *)
  Record csec : Type := CSec { cs_code : Z; cs_first : Z; cs_last : Z; cs_rows : list (list Z) }.
  Definition cs_name (s : csec) : string := match cg_shape (cs_code s) with Some (n, _, _) => n | None => ""%string end.
  Definition cs_dim (s : csec) : Z := match cg_shape (cs_code s) with Some (_, d, _) => d | None => -1 end.
  Definition sec_is (e : cgnode F) (s : csec) : Prop :=
    (exists label kids more, e = CG label (Some (PInts (cs_code s :: more))) kids) /\
    (exists more, holds e "ElementRange" (PInts (cs_first s :: cs_last s :: more))) /\
    holds e "ElementConnectivity" (PInts (List.concat (cs_rows s))).
  Definition sec_ok (s : csec) : Prop :=
    exists name d n, cg_shape (cs_code s) = Some (name, d, n) /\
      (forall r, In r (cs_rows s) -> List.length r = n) /\ cs_last s - cs_first s + 1 = zlen (cs_rows s).
  (** Elements of a section, counted from 0: the k-th has number [first - 1 + k]. *)
  Definition sec_elts (s : csec) : list (Z * list Z) :=
    combine (zrange (cs_first s - 1) (cs_last s)) (List.map (List.map (fun v => v - 1)) (cs_rows s)).
  Definition secs_of_dim (d : Z) (l : list csec) : list csec := filter (fun s => cs_dim s =? d) l.

  (** A boundary condition: its name and the points or elements it is given by (from 1). *)
  Inductive where_ : Type := Points (location : string) (l : list Z) | Elts (l : list Z).
  Record cbc : Type := CBC { cb_name : string; cb_where : where_ }.
  Definition flat_of (p : payload F) (l : list Z) : Prop := p = PInts l \/ exists rows, p = PTable rows /\ l = List.concat rows.
  Definition bc_is (kn : string * cgnode F) (b : cbc) : Prop :=
    let '(key, n) := kn in
    (exists label t kids, n = CG label (Some (PText t)) kids) /\
    (lacks n "FamilyName" /\ cb_name b = key \/ holds n "FamilyName" (PText (cb_name b))) /\
    match cb_where b with
    | Points loc l =>
        (exists p, holds n "PointList" p /\ flat_of p l) /\
        (lacks n "GridLocation" /\ loc = "Vertex"%string \/ holds n "GridLocation" (PText loc))
    | Elts l => lacks n "PointList" /\ exists p, holds n "ElementList" p /\ flat_of p l
    end.

  (** It covers the whole zone: all points, or as many elements as cells. *)
  Definition whole (nnode ncell : Z) (b : cbc) : Prop :=
    match cb_where b with
    | Points loc l => loc = "Vertex"%string /\ zlen l = nnode
    | Elts l => zlen l = ncell
    end.
  (** Faces [l] (from 1) are in the sections. *)
  Definition faces_in (faces : list (Z * list Z)) (l : list Z) : Prop :=
    forall k, In k l -> In (k - 1) (List.map fst faces).
  Definition readable (faces : list (Z * list Z)) (ncell : Z) (b : cbc) : Prop :=
    match cb_where b with
    | Points loc l => loc = "Vertex"%string \/ loc = "CellCenter"%string \/ (loc = "FaceCenter"%string /\ faces_in faces l)
    | Elts l => zlen l = ncell \/ faces_in faces l
    end.

  (** The mark of a boundary condition. *)
  Definition face_nodes (faces : list (Z * list Z)) (l s : list Z) : Prop :=
    NoDup s /\ forall v, In v s <-> exists k nodes, In k l /\ In (k - 1, nodes) faces /\ In v nodes.
  Definition mark_of (faces : list (Z * list Z)) (b : cbc) (m : mark F) : Prop :=
    mk_name m = cb_name b /\ mk_type m = Some "boundary"%string /\
    exists s, mk_index m = Some (ILlist s) /\
    match cb_where b with
    | Points loc l =>
        if String.eqb loc "FaceCenter" then mk_geodim m = Some Gnode /\ face_nodes faces l s
        else s = List.map (fun v => v - 1) l /\
             mk_geodim m = Some (if String.eqb loc "Vertex" then Gnode else Gcell)
    | Elts l => mk_geodim m = Some Gnode /\ face_nodes faces l s
    end.
End Spec.
