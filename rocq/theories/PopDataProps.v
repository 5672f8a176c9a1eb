(** * C99: taking data of the nodes out of a mesh. *)
From Coq Require Import Lia.
From Verif Require Import Py PyFacts IndexList Conn Mesh Data Ic3Bytes Ic3 Ic3V4 Cli Elements Ic3FileProps PopData.
Local Open Scope string_scope.

(** The array found under a name: the first of the entries of that name. *)
Definition found (name : string) (d : dict string array) : option array :=
  option_map snd (find (fun kv => if string_dec (fst kv) name then true else false) d).
(** The entries of the other names, in their order. *)
Definition without (names : list string) (d : dict string array) : dict string array :=
  filter (fun kv => if in_dec string_dec (fst kv) names then false else true) d.
(** The same mesh, with other data of the nodes. *)
Definition with_nodes (fm : fmesh) (d : dict string array) : fmesh := FM (fm_mesh fm) (fm_cells fm) (FDict d) (fm_params fm) (fm_part fm).

Lemma found_get name d : dget String.eqb name d = found name d.
Proof.
  unfold found. induction d as [| (k, v) d IH]; [reflexivity |]. cbn [dget find fst]. destruct (String.eqb_spec name k) as [E | N]; destruct (string_dec k name) as [E2 | N2]; [reflexivity | congruence | congruence | exact IH].
Qed.
Lemma found_none name d : ~ In name (List.map fst d) -> found name d = None.
Proof. intros N. rewrite <- found_get. induction d as [| (k, v) d IH]; [reflexivity |]. cbn in N |- *. destruct (String.eqb_spec name k) as [-> | _]; [tauto |]. apply IH. tauto. Qed.
Lemma without_all names d : (forall k, In k (List.map fst d) -> ~ In k names) -> without names d = d.
Proof.
  intros H. unfold without. induction d as [| (k, v) d IH]; [reflexivity |]. cbn [filter fst]. destruct (in_dec _ _ _) as [I | _]; [destruct (H k); [left; reflexivity | exact I] |].
  f_equal. apply IH. intros k' I. apply H. right. exact I.
Qed.
Lemma del_without name (d : dict string array) : NoDup (List.map fst d) -> ddel name d = without [name] d.
Proof.
  intros N. induction d as [| (k, v) d IH]; [reflexivity |]. cbn [ddel]. unfold without. cbn [filter fst]. fold (without [name] d). inversion N as [| x l NI ND]; subst.
  destruct (String.eqb_spec name k) as [-> | NE].
  - destruct (in_dec _ _ _) as [_ | C]; [| destruct C; left; reflexivity]. symmetry. apply without_all. intros k' I [E | []]. subst k'. exact (NI I).
  - destruct (in_dec _ _ _) as [[E | []] | _]; [congruence |]. f_equal. apply IH. exact ND.
Qed.
Lemma del_absent name (d : dict string array) : ~ In name (List.map fst d) -> ddel name d = d.
Proof. induction d as [| (k, v) d IH]; intros N; [reflexivity |]. cbn in N |- *. destruct (String.eqb_spec name k) as [-> | _]; [tauto |]. f_equal. apply IH. tauto. Qed.
Lemma without_app a l d : without (a :: l) d = without l (without [a] d).
Proof.
  unfold without. induction d as [| (k, v) d IH]; [reflexivity |]. cbn [filter fst]. destruct (in_dec string_dec k [a]) as [I | N].
  - destruct I as [<- | []]. destruct (in_dec _ _ _) as [_ | C]; [exact IH | destruct C; left; reflexivity].
  - cbn [filter fst]. destruct (in_dec string_dec k (a :: l)) as [[E | I] | NI].
    + destruct N. left. exact E.
    + destruct (in_dec string_dec k l); [exact IH | contradiction].
    + destruct (in_dec string_dec k l) as [I | _]; [destruct NI; right; exact I | f_equal; exact IH].
Qed.
Lemma without_distinct l d : NoDup (List.map fst d) -> NoDup (List.map fst (without l d)).
Proof.
  intros N. induction d as [| (k, v) d IH]; [constructor |]. inversion N as [| x y NI ND]; subst. unfold without. cbn [filter fst]. fold (without l d).
  destruct (in_dec _ _ _); [exact (IH ND) |]. cbn [List.map fst]. constructor; [| exact (IH ND)]. intros I. apply NI.
  apply in_map_iff in I. destruct I as (kv & E & I). unfold without in I. apply filter_In in I. apply in_map_iff. exists kv. tauto.
Qed.
Lemma found_without name l d : NoDup (List.map fst d) -> found name (without l d) = if in_dec string_dec name l then None else found name d.
Proof.
  intros N. induction d as [| (k, v) d IH]; [destruct (in_dec _ _ _); reflexivity |]. inversion N as [| x y NI ND]; subst. specialize (IH ND).
  unfold without. cbn [filter fst]. fold (without l d). unfold found in *. destruct (in_dec string_dec k l) as [I | NL].
  - rewrite IH. destruct (in_dec string_dec name l) as [_ | M]; [reflexivity |]. cbn [find fst]. destruct (string_dec k name) as [-> | _]; [contradiction | reflexivity].
  - cbn [find fst]. destruct (string_dec k name) as [-> | _]; [destruct (in_dec string_dec name l); [contradiction | reflexivity] | exact IH].
Qed.

(** Data in a dictionary (a mesh made by hand): the array is given back, and that name alone goes away. *)
Theorem C99_pop name fm d : fm_nodes fm = FDict d -> NoDup (List.map fst d) ->
  pop_nodedata name fm = (Ok (found name d), with_nodes fm (without [name] d)).
Proof.
  intros E N. unfold pop_nodedata. rewrite E, found_get. destruct (found name d) as [a |] eqn:F.
  - unfold with_nodes. rewrite del_without by exact N. reflexivity.
  - f_equal. destruct fm as [m c n p q]. cbn in E |- *. subst n. unfold with_nodes. cbn. f_equal. f_equal. symmetry. rewrite <- del_without by exact N. apply del_absent.
    intros I. rewrite <- found_get in F. induction d as [| (k, v) d IH]; [destruct I |]. cbn in F, I. destruct (String.eqb_spec name k) as [-> | NE]; [discriminate |].
    destruct I as [-> | I]; [congruence |]. inversion N; subst. auto.
Qed.
(** Any number of names, with repetitions: each array is given back once, and the other names stay. *)
Fixpoint taken (seen names : list string) (d : dict string array) : list (option array) :=
  match names with
  | [] => []
  | n :: l => (if in_dec string_dec n seen then None else found n d) :: taken (n :: seen) l d
  end.
Theorem C99_sequence names fm d : fm_nodes fm = FDict d -> NoDup (List.map fst d) ->
  pop_all names fm = (Ok (taken [] names d), with_nodes fm (without names d)).
Proof.
  intros E N. assert (G : forall names seen fm, fm_nodes fm = FDict (without seen d) ->
    pop_all names fm = (Ok (taken seen names d), with_nodes fm (without (seen ++ names) d))).
  { clear names fm E. induction names as [| n l IH]; intros seen fm E.
    - cbn. rewrite app_nil_r. destruct fm as [m c x p q]. cbn in E. subst x. reflexivity.
    - cbn [pop_all]. rewrite (C99_pop n fm _ E (without_distinct seen d N)). cbn [taken].
      assert (SW : without [n] (without seen d) = without (n :: seen) d).
      { clear - n seen d. unfold without. induction d as [| (k, v) d IH]; [reflexivity |]. cbn [filter fst]. destruct (in_dec string_dec k seen) as [I | NI].
        - destruct (in_dec string_dec k (n :: seen)) as [_ | C]; [exact IH | destruct C; right; exact I].
        - cbn [filter fst]. destruct (in_dec string_dec k [n]) as [[<- | []] | M].
          + destruct (in_dec string_dec n (n :: seen)) as [_ | C]; [exact IH | destruct C; left; reflexivity].
          + destruct (in_dec string_dec k (n :: seen)) as [[E | C] | C]; [destruct M; left; exact E | contradiction | f_equal; exact IH]. }
      rewrite SW. rewrite (IH (n :: seen) (with_nodes fm (without (n :: seen) d)) eq_refl). cbn [bind]. rewrite found_without by exact N. f_equal. unfold with_nodes. cbn. f_equal. f_equal.
      clear - n seen l d. unfold without. apply filter_ext. intros (k, v). cbn [fst]. destruct (in_dec string_dec k (n :: seen ++ l)) as [I | I]; destruct (in_dec string_dec k (seen ++ n :: l)) as [J | J]; try reflexivity.
      + destruct J. destruct I as [<- | I]; [apply in_or_app; right; left; reflexivity |]. apply in_app_or in I. apply in_or_app. destruct I; [left | right; right]; assumption.
      + destruct I. apply in_app_or in J. destruct J as [J | [<- | J]]; [right; apply in_or_app; left; exact J | left; reflexivity | right; apply in_or_app; right; exact J]. }
  assert (W : without [] d = d) by (apply without_all; intros k _ []).
  rewrite (G names [] fm); [reflexivity |]. rewrite W. exact E.
Qed.
(** A mesh read from an IC3 file keeps all its data: a name that is there raises AttributeError. *)
Theorem C99_read i f fm name : read_mesh i f = Ok fm ->
  pop_nodedata name fm = (if in_dec string_dec name (List.map fst (fd_items (fm_nodes fm))) then Err AttributeError else Ok None, fm).
Proof.
  intros H. unfold read_mesh in H. apply bind_ok in H. destruct H as (r & _ & H). unfold Ic3.export_mesh in H. destruct (set_coords_nd _ _ _) as (e1, m1).
  apply bind_ok in H. destruct H as (u1 & _ & H). apply bind_ok in H. destruct H as (f2c & _ & H). apply bind_ok in H. destruct H as (f2n & _ & H).
  destruct (add_faces _ _ _ _) as (e2, m2). apply bind_ok in H. destruct H as (u2 & _ & H). apply (f_equal (fun x => match x with Ok a => fm_nodes a | Err _ => FDict [] end)) in H. cbn [fm_nodes] in H.
  unfold pop_nodedata. rewrite <- H. cbn [fd_items]. f_equal.
  destruct (in_dec string_dec name (List.map fst (ds_data (r_nodes r)))) as [I | NI].
  - assert (T : dmem String.eqb name (ds_data (r_nodes r)) = true). { apply (dmem_in _ String.eqb_eq). exact I. } rewrite T. reflexivity.
  - assert (T : dmem String.eqb name (ds_data (r_nodes r)) = false). { destruct (dmem _ _ _) eqn:E; [| reflexivity]. apply (dmem_in _ String.eqb_eq) in E. destruct (NI E). } rewrite T. reflexivity.
Qed.
(** A mesh read from version 4 files has no data on its nodes: None for every name. *)
Theorem C99_read4 f sol fm name : read4 f sol = Ok fm -> pop_nodedata name fm = (Ok None, fm).
Proof.
  intros H. unfold read4 in H. apply bind_ok in H. destruct H as (r & _ & H). unfold export_mesh4 in H. destruct (set_coords_nd _ _ _) as (e1, m1).
  apply bind_ok in H. destruct H as (u1 & _ & H). apply bind_ok in H. destruct H as (f2c & _ & H). apply bind_ok in H. destruct H as (f2n & _ & H).
  destruct (add_faces _ _ _ _) as (e2, m2). apply bind_ok in H. destruct H as (u2 & _ & H). apply bind_ok in H. destruct H as (nd & D & H).
  apply (f_equal (fun x => match x with Ok a => fm_nodes a | Err _ => FDict [] end)) in H. cbn [fm_nodes] in H. unfold pop_nodedata. rewrite <- H.
  assert (E : ds_data nd = []) by (revert D; vm_compute; intros D; injection D as <-; reflexivity). rewrite E. reflexivity.
Qed.
Print Assumptions C99_pop.
Print Assumptions C99_sequence.
Print Assumptions C99_read.
Print Assumptions C99_read4.

(** ** Concrete cases *)
Example c99_case : let fm := ex_fm ex_marks "A" "B" in
  fm_nodes fm = FDict [("T", Arr [4%Z] false [20; 21; 22; 23]%Z); ("A", Arr [4%Z] false [30; 31; 32; 33]%Z); ("S", Arr [4%Z] false [40; 41; 42; 43]%Z)] /\
  pop_all ["A"; "Q"; "A"; "T"] fm = (Ok [Some (Arr [4%Z] false [30; 31; 32; 33]%Z); None; None; Some (Arr [4%Z] false [20; 21; 22; 23]%Z)],
    with_nodes fm [("S", Arr [4%Z] false [40; 41; 42; 43]%Z)]).
Proof. split; reflexivity. Qed.
Example c99_read_case : match fst (ex_write V3 (ex_fm ex_marks "A" "B")) with
  | Ok f => match read_mesh true f with Ok fm => fst (pop_nodedata "T" fm) = Err AttributeError /\ fst (pop_nodedata "Q" fm) = Ok None | Err _ => False end
  | Err _ => False end.
Proof. vm_compute. auto. Qed.
