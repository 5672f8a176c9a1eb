(** * Specification vocabulary for meshes. *)
From Coq Require Import Sorted Permutation.
From Verif Require Import Conn ConnSpec Mesh.

Section Spec.
  Context {F : Type}.

  (** A mark made of nodes; of faces. *)
  Definition on_nodes (b : mark F) : bool := match mk_geodim b with Some Gnode | Some Gbdnode | Some Gintnode => true | _ => false end.
  Definition on_faces (b : mark F) : bool := match mk_geodim b with Some Gface | Some Gbdface => true | _ => false end.

  (** The integers a mark lists. *)
  Definition mk_entries (b : mark F) : list Z :=
    match mk_index b with Some il => entries il | None => [] end.
  (** A usable mark: its index is set, typed, and made of plain integers. *)
  Definition mark_ok (b : mark F) : Prop :=
    exists il, mk_index b = Some il /\ il <> ILnone /\ il_boxed il = false.

  Definition marked (m : mesh F) (i : Z) : Prop :=
    exists k b, In (k, b) (me_bocos m) /\ In i (mk_entries b).

  (** The two meshes differ at most by their marks. *)
  Record same_but_bocos (m m' : mesh F) : Prop := {
    sb_ncell : me_ncell m' = me_ncell m; sb_nnode : me_nnode m' = me_nnode m;
    sb_nface : me_nface m' = me_nface m; sb_cells : me_cell2node m' = me_cell2node m;
    sb_faces : me_faces m' = me_faces m; sb_nodes : me_nodes m' = me_nodes m }.
  (** ... at most by their coordinates. *)
  Record same_but_nodes (m m' : mesh F) : Prop := {
    sn_ncell : me_ncell m' = me_ncell m; sn_nnode : me_nnode m' = me_nnode m;
    sn_nface : me_nface m' = me_nface m; sn_cells : me_cell2node m' = me_cell2node m;
    sn_faces : me_faces m' = me_faces m; sn_bocos : me_bocos m' = me_bocos m }.

  (** [a] is obtained from [b] by dropping elements. *)
  Inductive subsequence {A : Type} : list A -> list A -> Prop :=
  | sub_nil : subsequence [] []
  | sub_keep x a b : subsequence a b -> subsequence (x :: a) (x :: b)
  | sub_drop x a b : subsequence a b -> subsequence a (x :: b).

  (** Face number lists [l] spanned by the nodes [nodes]: in the order of the connectivity, exactly
      the faces all of whose nodes are in [nodes]. *)
  Definition spans (bnd : econn) (nodes l : list Z) : Prop :=
    subsequence l (ec_numbers bnd) /\
    (NoDup (ec_numbers bnd) -> forall i,
       In i l <-> exists ns, In (i, ns) (ec_pairs bnd) /\ forall n, In n ns -> In n nodes).

  (** How [bocomarks_set_node_to_face] must change a mark. *)
  Definition face_mark_of (bnd : econn) (kb kb' : string * mark F) : Prop :=
    fst kb' = fst kb /\
    (on_nodes (snd kb) = false -> snd kb' = snd kb) /\
    (on_nodes (snd kb) = true ->
       mk_name (snd kb') = mk_name (snd kb) /\ mk_type (snd kb') = mk_type (snd kb) /\
       mk_perio (snd kb') = mk_perio (snd kb) /\ mk_geodim (snd kb') = Some Gbdface /\
       mark_ok (snd kb') /\ spans bnd (mk_entries (snd kb)) (mk_entries (snd kb'))).

  (** A boundary with usable marks on its faces. *)
  Record face_marked (m : mesh F) (f : faceset) : Prop := {
    fm_bnd : dget String.eqb "boundary" (me_faces m) = Some f;
    fm_wf : ec_wf (f_f2n f);
    fm_plain : ec_plain (f_f2n f);
    fm_keys : NoDup (dkeys (me_bocos m));
    fm_marks : forall k b, In (k, b) (me_bocos m) -> on_faces b = true /\ mark_ok b }.

  (** Marks whose numbers follow each other, as ranges, from [start]. *)
  Fixpoint contiguous (start : Z) (bs : list (mark F)) : Prop :=
    match bs with
    | [] => True
    | b :: bs' => exists hi, mk_index b = Some (ILrange start hi) /\ start <= hi /\ contiguous (hi + 1) bs'
    end.

  (** The concatenated numbers of all marks, in the order of the marks. *)
  Definition all_marked (m : mesh F) : list Z := flat_map (fun kb => mk_entries (snd kb)) (me_bocos m).

  (** [m'] is [m] with the boundary faces renumbered by [num]. *)
  Record renumbered (num : Z -> Z) (nb : Z) (m m' : mesh F) (f f' : faceset) : Prop := {
    rn_bij : Permutation (List.map num (zrange 0 nb)) (zrange 0 nb);
    rn_bnd : dget String.eqb "boundary" (me_faces m') = Some f';
    rn_other : forall k, k <> "boundary" -> dget String.eqb k (me_faces m') = dget String.eqb k (me_faces m);
    rn_pairs : forall t, pairs_of_type (f_f2n f') t =
                         List.map (fun p => (num (fst p), snd p)) (pairs_of_type (f_f2n f) t);
    rn_types : ec_types (f_f2n f') = ec_types (f_f2n f);
    rn_nelem : ec_nelem (f_f2n f') = ec_nelem (f_f2n f);
    rn_wf : ec_wf (f_f2n f') /\ ec_plain (f_f2n f');
    rn_numbers : ec_numbers (f_f2n f') = List.map num (ec_numbers (f_f2n f));
    rn_arrays : List.map (fun kv => (fst kv, ed_e2n (snd kv))) (ec_dict (f_f2n f')) =
                List.map (fun kv => (fst kv, ed_e2n (snd kv))) (ec_dict (f_f2n f));
    rn_f2c : exists mt mt', f_f2c f = Some (Some mt) /\ f_f2c f' = Some (Some mt') /\
               m_cols mt' = m_cols mt /\ zlen (m_rows mt') = nb /\
               forall i, 0 <= i < nb ->
                 nth_error (m_rows mt') (Z.to_nat (num i)) = nth_error (m_rows mt) (Z.to_nat i);
    rn_marks : Forall2 (fun kb kb' => fst kb' = fst kb /\ mk_name (snd kb') = mk_name (snd kb) /\
                 mk_geodim (snd kb') = mk_geodim (snd kb) /\ mk_type (snd kb') = mk_type (snd kb) /\
                 mk_perio (snd kb') = mk_perio (snd kb) /\
                 mk_entries (snd kb') = List.map num (mk_entries (snd kb))) (me_bocos m) (me_bocos m');
    rn_contiguous : contiguous 0 (List.map snd (me_bocos m'));
    rn_rest : me_ncell m' = me_ncell m /\ me_nnode m' = me_nnode m /\ me_nface m' = me_nface m /\
              me_cell2node m' = me_cell2node m /\ me_nodes m' = me_nodes m }.

  (** Faces held by a mesh, over all its face sets. *)
  Definition faces_held (m : mesh F) : Z :=
    zlen (flat_map (fun kf => ec_pairs (f_f2n (snd kf))) (me_faces m)).
End Spec.

(** The mark [make_unmarked_BC] adds. *)
Definition unmarked_mark {F} (name : string) (l : list Z) : mark F :=
  Mark F name (Some Gbdface) (Some "boundary") (Some (ILlist l)) (Some None).

(** A mesh whose sizes pass [check()]. *)
Definition counts_ok {F} (m : mesh F) : Prop := 0 < me_ncell m /\ 0 < me_nnode m /\
  forall c, me_cell2node m = Some c -> me_ncell m = ec_nelem c.

(** Calls of [check()] one after the other. *)
Fixpoint check_times {F} (enum : list Z -> list Z) (n : nat) (m : mesh F) : mesh F :=
  match n with O => m | S n' => check_times enum n' (snd (mesh_check enum m)) end.

(** Two faces that only the mark 'unmarked_faces' can hold, one of them in it. *)
Definition seesaw {F} (m : mesh F) (f : faceset) : Prop :=
  exists b0 i j, In ("unmarked_faces", b0) (me_bocos m) /\ In i (ec_numbers (f_f2n f)) /\ In j (ec_numbers (f_f2n f)) /\
    In i (mk_entries b0) /\ ~ In j (mk_entries b0) /\
    forall k b, In (k, b) (me_bocos m) -> k <> "unmarked_faces" -> ~ In i (mk_entries b) /\ ~ In j (mk_entries b).

(** Histories of face operations. *)
Inductive face_op : Type := AddF (t : string) (c : econn) (ii : option indirection) | PopF (t : string).
Definition do_face_op {F} (m : mesh F) (op : face_op) : mesh F :=
  match op with AddF t c ii => snd (add_faces m t c ii) | PopF t => pop_faces m t end.
Definition is_add (op : face_op) : bool :=
  match op with AddF t _ _ => existsb (String.eqb t) facetypes | _ => false end.

Definition sets_wf {F} (m : mesh F) : Prop := forall k f, In (k, f) (me_faces m) -> ec_wf (f_f2n f).

Definition coords_ok {F} (m : mesh F) x y z : Prop :=
  nodescoord m = Ok (x, y, z) /\ zlen x = me_nnode m /\ zlen y = me_nnode m /\ zlen z = me_nnode m.
