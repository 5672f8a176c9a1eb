(** * Properties C22 (faces made again) and C71 (marks by name). *)
From Coq Require Import ZArith List Bool String Lia.
From Verif Require Import Py PyFacts Elements Conn ConnSpec ConnProofs FaceSpec Mesh MeshSpec MeshProofs MeshProps.

(** ** C22 *)
(** The faces held under each name. *)
Definition faces_of {F} (m : mesh F) (t : string) : option faceset := dget String.eqb t (me_faces m).

Lemma dpop_keys_sub {V} k k' (d : dict string V) : In k' (dkeys (dpop String.eqb k d)) -> In k' (dkeys d).
Proof.
  induction d as [| (q, v) d IH]; cbn; [tauto |]. destruct (String.eqb k q); cbn; [tauto |]. intros [H | H]; [left; exact H | right; apply IH; exact H].
Qed.
Lemma dpop_NoDup {V} k (d : dict string V) : NoDup (dkeys d) -> NoDup (dkeys (dpop String.eqb k d)).
Proof.
  induction d as [| (q, w) d IH]; intros ND; [constructor |]. cbn in ND. inversion ND as [| ? ? N1 N2]; subst. cbn. destruct (String.eqb k q); [exact N2 |].
  constructor; [| exact (IH N2)]. intros H. apply N1. exact (dpop_keys_sub _ _ _ H).
Qed.
Lemma dset_dset {V} k (v : V) d : dget String.eqb k d = Some v -> dset String.eqb k v d = d.
Proof.
  induction d as [| (q, w) d IH]; cbn; [discriminate |]. destruct (String.eqb k q) eqn:E; intros H; [injection H as ->; reflexivity | rewrite IH by exact H; reflexivity].
Qed.
Lemma dpop_absent {V} k (d : dict string V) : ~ In k (dkeys d) -> dpop String.eqb k d = d.
Proof.
  induction d as [| (q, w) d IH]; intros N; [reflexivity |]. cbn. destruct (String.eqb k q) eqn:E.
  - apply String.eqb_eq in E. subst q. destruct N. left. reflexivity.
  - rewrite IH; [reflexivity |]. intros H. apply N. right. exact H.
Qed.
Lemma dset_key_iff {V} k k' (v : V) d : In k' (dkeys (dset String.eqb k v d)) <-> k' = k \/ In k' (dkeys d).
Proof.
  destruct (in_dec string_dec k (dkeys d)) as [I | N].
  - rewrite (dset_keys_in String.eqb seqb_eq) by exact I. split; [tauto |]. intros [-> | H]; assumption.
  - rewrite (dset_notin String.eqb seqb_eq) by exact N. unfold dkeys. rewrite map_app, in_app_iff. cbn. intuition.
Qed.

(** Whatever faces a mesh of cells held, they are replaced by the internal and boundary faces of its
    cells: none is left under "mixed", the counter is right, nothing else changes, and doing it again
    changes nothing more. *)
Theorem C22_remade : forall F tbl (m : mesh F) c fs, me_cell2node m = Some c -> ec_create_faces tbl c = Ok fs ->
  NoDup (dkeys (me_faces m)) -> (forall t, In t (dkeys (me_faces m)) -> In t ["mixed"; "internal"; "boundary"]%string) ->
  exists m', make_face_connectivity tbl m = (Ok tt, m') /\
    faces_of m' "mixed" = None /\
    faces_of m' "internal" = Some (FaceSet (fs_int fs) (Some (fs_int_f2c fs))) /\
    faces_of m' "boundary" = Some (FaceSet (fs_bnd fs) (Some (fs_bnd_f2c fs))) /\
    (forall t, faces_of m' t <> None -> t = "internal"%string \/ t = "boundary"%string) /\
    me_nface m' = ec_nelem (fs_int fs) + ec_nelem (fs_bnd fs) /\
    me_cell2node m' = Some c /\ me_nodes m' = me_nodes m /\ me_bocos m' = me_bocos m /\ me_ncell m' = me_ncell m /\ me_nnode m' = me_nnode m /\
    make_face_connectivity tbl m' = (Ok tt, m').
Proof.
  intros F tbl m c fs CE FE ND KS. unfold make_face_connectivity at 1. rewrite CE, FE. unfold pop_faces, add_faces. cbn [existsb facetypes String.eqb Ascii.eqb Bool.eqb orb snd].
  set (fi := FaceSet (fs_int fs) _). set (fb := FaceSet (fs_bnd fs) _).
  set (d0 := dpop String.eqb "mixed" (me_faces m)).
  assert (N0 : ~ In "mixed"%string (dkeys d0)) by exact (dpop_notin String.eqb seqb_eq _ _ ND).
  assert (K0 : forall t, In t (dkeys d0) -> t = "internal"%string \/ t = "boundary"%string).
  { intros t I. assert (J := KS t (dpop_keys_sub _ _ _ I)). destruct J as [<- | [<- | [<- | []]]]; [contradiction | auto | auto]. }
  assert (ND0 : NoDup (dkeys d0)) by exact (dpop_NoDup _ _ ND).
  cbn [me_faces with_faces with_nface]. fold d0.
  set (d2 := dset String.eqb "boundary" fb (dset String.eqb "internal" fi d0)).
  assert (G1 : dget String.eqb "boundary" d2 = Some fb) by apply (dget_dset_eq String.eqb seqb_eq).
  assert (G2 : dget String.eqb "internal" d2 = Some fi) by (unfold d2; rewrite (dget_dset_neq String.eqb seqb_eq) by discriminate; apply (dget_dset_eq String.eqb seqb_eq)).
  assert (K2 : forall t, In t (dkeys d2) -> t = "internal"%string \/ t = "boundary"%string).
  { intros t I. unfold d2 in I. rewrite !dset_key_iff in I. destruct I as [-> | [-> | I]]; auto. }
  assert (ND2 : NoDup (dkeys d2)) by (unfold d2; apply (dset_NoDup String.eqb seqb_eq), (dset_NoDup String.eqb seqb_eq), ND0).
  assert (T2 : total_faces d2 = ec_nelem (fs_int fs) + ec_nelem (fs_bnd fs)).
  { clear -G1 G2 K2 ND2. unfold total_faces. destruct d2 as [| (k1, v1) [| (k2, v2) [| (k3, v3) d]]]; [discriminate G1 | | |].
    - exfalso. cbn in G1, G2. destruct (K2 k1 (or_introl eq_refl)) as [-> | ->]; cbn in G1, G2; discriminate.
    - cbn in ND2. inversion ND2 as [| ? ? N1 N2]; subst. destruct (K2 k1 (or_introl eq_refl)) as [-> | ->], (K2 k2 (or_intror (or_introl eq_refl))) as [-> | ->];
        try (destruct N1; left; reflexivity); cbn in G1, G2; injection G1 as ->; injection G2 as ->; cbn; lia.
    - exfalso. cbn in ND2. inversion ND2 as [| ? ? N1 N2]; subst. inversion N2 as [| ? ? N3 N4]; subst.
      destruct (K2 k1 (or_introl eq_refl)) as [-> | ->], (K2 k2 (or_intror (or_introl eq_refl))) as [-> | ->], (K2 k3 (or_intror (or_intror (or_introl eq_refl)))) as [-> | ->]; cbn in N1, N3; tauto. }
  eexists. split; [reflexivity |]. unfold faces_of. cbn [me_faces me_nface me_cell2node me_nodes me_bocos me_ncell me_nnode with_faces with_nface].
  assert (NM : ~ In "mixed"%string (dkeys d2)) by (intros I; destruct (K2 _ I); discriminate).
  split; [apply (dget_None String.eqb seqb_eq); exact NM |]. split; [exact G2 |]. split; [exact G1 |].
  split; [intros t H; apply K2; apply (dget_Some_iff String.eqb seqb_eq); destruct (dget String.eqb t d2) as [v |]; [exists v; reflexivity | congruence] |].
  split; [exact T2 |]. split; [exact CE |]. repeat (split; [reflexivity |]).
  unfold make_face_connectivity. cbn [me_cell2node with_faces with_nface]. rewrite CE, FE. unfold pop_faces, add_faces. cbn [existsb facetypes String.eqb Ascii.eqb Bool.eqb orb snd].
  cbn [me_faces with_faces with_nface]. fold fi fb. rewrite (dpop_absent "mixed" d2 NM), (dset_dset "internal" fi d2 G2), (dset_dset "boundary" fb d2 G1). reflexivity.
Qed.
Print Assumptions C22_remade.

(** ** C71 *)
(** Calls of [add_boco] and [remove_boco], and what each returns. *)
Inductive mark_op {F} := AddM (b : mark F) | RemoveM (name : string).
Arguments mark_op : clear implicits.
Definition do_mark_op {F} (m : mesh F) (o : mark_op F) : res unit * mesh F :=
  match o with AddM b => (Ok tt, add_boco m b) | RemoveM k => remove_boco m k end.
Definition run_marks {F} (m : mesh F) (ops : list (mark_op F)) : mesh F := fold_left (fun m o => snd (do_mark_op m o)) ops m.

(** What the calls about the name [k] leave under that name. *)
Fixpoint left_under {F} (k : string) (start : option (mark F)) (ops : list (mark_op F)) : option (mark F) :=
  match ops with
  | [] => start
  | AddM b :: ops' => left_under k (if string_dec (mk_name b) k then Some b else start) ops'
  | RemoveM k' :: ops' => left_under k (if string_dec k' k then None else start) ops'
  end.

Lemma dget_dpop_eq {V} k (d : dict string V) : NoDup (dkeys d) -> dget String.eqb k (dpop String.eqb k d) = None.
Proof. intros ND. apply (dget_None String.eqb seqb_eq). exact (dpop_notin String.eqb seqb_eq k d ND). Qed.

(** After any history of additions and removals, each name has the last mark added under it and not
    removed since; names stay unique; nothing else of the mesh changes. *)
Theorem C71_marks_by_name : forall F ops (m : mesh F), NoDup (dkeys (me_bocos m)) ->
  let m' := run_marks m ops in
  NoDup (dkeys (me_bocos m')) /\
  (forall k, dget String.eqb k (me_bocos m') = left_under k (dget String.eqb k (me_bocos m)) ops) /\
  me_cell2node m' = me_cell2node m /\ me_faces m' = me_faces m /\ me_nodes m' = me_nodes m /\
  me_ncell m' = me_ncell m /\ me_nnode m' = me_nnode m /\ me_nface m' = me_nface m.
Proof.
  intros F ops. induction ops as [| o ops IH]; intros m ND; [cbn; auto 10 |]. cbn [run_marks fold_left]. fold (run_marks (snd (do_mark_op m o)) ops).
  assert (ST : NoDup (dkeys (me_bocos (snd (do_mark_op m o)))) /\ (forall k, dget String.eqb k (me_bocos (snd (do_mark_op m o))) = left_under k (dget String.eqb k (me_bocos m)) [o]) /\
     me_cell2node (snd (do_mark_op m o)) = me_cell2node m /\ me_faces (snd (do_mark_op m o)) = me_faces m /\ me_nodes (snd (do_mark_op m o)) = me_nodes m /\
     me_ncell (snd (do_mark_op m o)) = me_ncell m /\ me_nnode (snd (do_mark_op m o)) = me_nnode m /\ me_nface (snd (do_mark_op m o)) = me_nface m).
  { destruct o as [b | k0]; cbn [do_mark_op snd left_under].
    - unfold add_boco. cbn [me_bocos with_bocos]. split; [apply (dset_NoDup String.eqb seqb_eq); exact ND |]. split; [| auto 10].
      intros k. destruct (string_dec (mk_name b) k) as [-> | NE]; [apply (dget_dset_eq String.eqb seqb_eq) |]. apply (dget_dset_neq String.eqb seqb_eq). congruence.
    - unfold remove_boco, dmem. destruct (dget String.eqb k0 (me_bocos m)) as [b |] eqn:E; cbn [snd me_bocos with_bocos].
      + split; [apply dpop_NoDup; exact ND |]. split; [| auto 10]. intros k. destruct (string_dec k0 k) as [<- | NE]; [apply dget_dpop_eq; exact ND |]. apply (dget_dpop_neq String.eqb seqb_eq). congruence.
      + split; [exact ND |]. split; [| auto 10]. intros k. destruct (string_dec k0 k) as [<- | NE]; [exact E | reflexivity]. }
  destruct ST as (S1 & S2 & S3 & S4 & S5 & S6 & S7 & S8). destruct (IH _ S1) as (I1 & I2 & I3 & I4 & I5 & I6 & I7 & I8).
  split; [exact I1 |]. split; [| repeat split; congruence]. intros k. rewrite I2, S2. destruct o; reflexivity.
Qed.
Print Assumptions C71_marks_by_name.

(** Removing a name that is not there raises KeyError and changes nothing; otherwise it succeeds. *)
Theorem C71_remove : forall F (m : mesh F) k,
  (In k (dkeys (me_bocos m)) -> fst (remove_boco m k) = Ok tt) /\
  (~ In k (dkeys (me_bocos m)) -> remove_boco m k = (Err KeyError, m)).
Proof.
  intros F m k. unfold remove_boco, dmem. split; intros H.
  - apply (dget_Some_iff String.eqb seqb_eq) in H. destruct H as (v & ->). reflexivity.
  - apply (dget_None String.eqb seqb_eq) in H. rewrite H. reflexivity.
Qed.
Print Assumptions C71_remove.

(** Marks keep the order of their names: a new name comes last, a known one keeps its place. *)
Theorem C71_order : forall F (m : mesh F) b,
  dkeys (me_bocos (add_boco m b)) = if in_dec string_dec (mk_name b) (dkeys (me_bocos m)) then dkeys (me_bocos m) else dkeys (me_bocos m) ++ [mk_name b].
Proof.
  intros F m b. unfold add_boco. cbn [me_bocos with_bocos]. destruct (in_dec string_dec (mk_name b) (dkeys (me_bocos m))) as [I | N].
  - apply (dset_keys_in String.eqb seqb_eq). exact I.
  - rewrite (dset_notin String.eqb seqb_eq) by exact N. unfold dkeys. rewrite map_app. reflexivity.
Qed.
Print Assumptions C71_order.

(** ** Concrete cases *)
Example c22_remade_case : exists fs, ec_create_faces cgns_elem2faces ex_cells = Ok fs /\
  let m := snd (add_faces (set_cell2node (new_mesh 2 12) ex_cells : mesh Z) "mixed" ex_cells None) in
  me_cell2node m = Some ex_cells /\ dkeys (me_faces m) = ["mixed"%string] /\ dkeys (me_faces (snd (make_face_connectivity cgns_elem2faces m))) = ["internal"; "boundary"]%string.
Proof. eexists. split; [vm_compute; reflexivity |]. vm_compute. auto. Qed.
Definition ex_mark (k : string) (l : list Z) : mark Z := Mark Z k (Some Gbdface) (Some "boundary"%string) (Some (ILlist l)) None.
Example c71_case : let m := run_marks (new_mesh 2 6) [AddM (ex_mark "a" [1]); AddM (ex_mark "b" [2]); AddM (ex_mark "a" [3]); RemoveM "b"; RemoveM "b"; AddM (ex_mark "c" [4])] in
  List.map (fun kb => (fst kb, mk_entries (snd kb))) (me_bocos m) = [("a", [3]); ("c", [4])]%string /\ fst (remove_boco m "b") = Err KeyError.
Proof. vm_compute. auto. Qed.
