(** * Properties C03 - C10: element connectivities. *)
From Coq Require Import Lia Sorted Permutation.
From Verif Require Import PyFacts IndexListSpec Conn ConnSpec ConnProofs CheckProofs CsrProofs MergeProofs.

(** The example connectivity: two quads, a triangle, one more quad. *)
Definition q1 : mat := Mat (Some 4%nat) [[0;1;4;3];[1;2;5;4]].
Definition t1 : mat := Mat (Some 3%nat) [[3;4;6]].
Definition q2 : mat := Mat (Some 4%nat) [[4;5;7;6]].
Definition ex_ops : list (string * mat) := [("quad4", q1); ("tri3", t1); ("quad4", q2)].
Definition ex_conn : econn :=
  EC 4 [("quad4", ED (ILlist [0;1;3]) (Mat (Some 4%nat) [[0;1;4;3];[1;2;5;4];[4;5;7;6]]));
        ("tri3", ED (ILrange 2 2) t1)].

(** C03: after any sequence of additions without explicit numbers that returns, the element
    count is the number of rows, every type holds exactly its rows in order of addition, each with
    its rank in the whole sequence, and the numbers used are 0..nelem-1. *)
Theorem C03_default_numbering : forall ops c,
  Forall (fun '(_, m) => mat_wf m) ops -> add_all ops = Ok c ->
  ec_wf c /\ ec_plain c /\
  ec_nelem c = zlen (rows_of_ops ops) /\
  (forall t, pairs_of_type c t = ranked_of_type ops t) /\
  Permutation (ec_pairs c) (List.map (fun '(i, (_, r)) => (i, r)) (ranked (rows_of_ops ops))) /\
  (forall t, In t (ec_types c) <-> In t (List.map fst ops)).
Proof. exact add_all_inv. Qed.
Print Assumptions C03_default_numbering.

Theorem C03_numbers_bijection : forall ops c,
  Forall (fun '(_, m) => mat_wf m) ops -> add_all ops = Ok c ->
  Permutation (ec_numbers c) (zrange 0 (ec_nelem c)).
Proof. exact add_all_numbers. Qed.
Print Assumptions C03_numbers_bijection.

(** C03: it does return as soon as the arrays of a type agree on their number of columns. *)
Theorem C03_returns : forall nn ops,
  Forall (fun '(t, m) => mat_wf m /\ m_cols m = Some (nn t)) ops -> exists c, add_all ops = Ok c.
Proof. exact add_all_total. Qed.
Print Assumptions C03_returns.
Example C03_ex : Forall (fun '(_, m) => mat_wf m) ex_ops /\ add_all ex_ops = Ok ex_conn.
Proof. split; [repeat constructor|reflexivity]. Qed.

(** C04: if [check] returns, it returns True and the numbers, type after type, are 0,1,...,n-1. *)
Theorem C04_check_sound : forall c b,
  ec_check c = Ok b -> b = true /\ exists n, 0 < n /\ ec_numbers c = zrange 0 n.
Proof. exact check_sound. Qed.
Print Assumptions C04_check_sound.

(** C04: and it does return True in that case. *)
Theorem C04_check_complete_sorted : forall c n,
  ec_wf c -> ec_plain c -> 0 < n -> ec_numbers c = zrange 0 n -> ec_check c = Ok true.
Proof. exact check_complete. Qed.
Print Assumptions C04_check_complete_sorted.
Example C04_ex : exists c, add_all [("quad4", q1); ("tri3", t1)] = Ok c /\ ec_check c = Ok true.
Proof. eexists; split; reflexivity. Qed.

(** C04: a unique and complete numbering can be rejected. *)
Theorem C04_check_complete_refuted :
  exists ops c, add_all ops = Ok c /\ ec_wf c /\ Permutation (ec_numbers c) (zrange 0 (ec_nelem c)) /\
                ec_check c = Err AssertionError.
Proof.
  exact (ex_intro _ ex_ops (ex_intro _ ex_conn
    (let H : Forall (fun '(_, m) => mat_wf m) ex_ops := proj1 C03_ex in
     conj eq_refl (conj (proj1 (add_all_inv ex_ops ex_conn H eq_refl))
       (conj (add_all_numbers ex_ops ex_conn H eq_refl) eq_refl))))).
Qed.
Print Assumptions C04_check_complete_refuted.

(** C05: the export lists the node lists of the elements by increasing number. *)
Theorem C05_export_csr : forall c, ec_wf c -> ec_plain c ->
  exists z s, ec_export_csr c = Ok z /\ Permutation s (ec_pairs c) /\
              StronglySorted Z.le (List.map fst s) /\ csr_of z (List.map snd s).
Proof. exact export_spec. Qed.
Print Assumptions C05_export_csr.
Example C05_ex : ec_wf ex_conn /\ ec_plain ex_conn /\
  ec_export_csr ex_conn = Ok (Csr [0;4;8;11;15] [0;1;4;3; 1;2;5;4; 3;4;6; 4;5;7;6]).
Proof.
  assert (H := add_all_inv ex_ops ex_conn (proj1 C03_ex) eq_refl).
  split; [apply H|split; [apply H|reflexivity]].
Qed.
(** C05: [check] accepts exactly the tables whose offsets begin with 0 and have the number of values as
    largest one; it refuses the others. *)
Theorem C05_check : forall z,
  (csr_check z = Ok true <-> exists rest, z_index z = 0 :: rest /\ In (zlen (z_value z)) (z_index z) /\ forall i, In i (z_index z) -> i <= zlen (z_value z)) /\
  (csr_check z = Ok true \/ csr_check z = Err (if zlen (z_index z) =? 0 then IndexError else AssertionError)).
Proof.
  intros [[| i0 l] vals]; unfold csr_check; cbn [z_index z_value].
  - split; [split; [discriminate | intros (rest & H & _); discriminate] | right; reflexivity].
  - replace (py_get (i0 :: l) 0) with (Ok i0) by reflexivity. cbn [bind]. unfold assertb.
    assert (NE : zlen (i0 :: l) =? 0 = false) by (apply Z.eqb_neq; unfold zlen; cbn; lia). rewrite NE.
    destruct (Z.eqb_spec i0 0) as [-> | NZ]; cbn [bind].
    + destruct (py_max (0 :: l)) as [m |] eqn:M; [| discriminate]. cbn [bind]. assert (M' := proj1 (py_max_ok _ _) M). destruct M' as (I & B). destruct (Z.eqb_spec m (zlen vals)) as [-> | NM]; cbn [bind].
      * split; [split; [intros _; exists l; auto | reflexivity] | left; reflexivity].
      * split; [split; [discriminate |] | right; reflexivity]. intros (rest & _ & J & U). exfalso. apply NM. apply Z.le_antisymm; [apply U, I | apply B, J].
    + split; [split; [discriminate |] | right; reflexivity]. intros (rest & H & _). congruence.
Qed.
Print Assumptions C05_check.
(** So offsets that decrease are accepted. *)
Theorem C05_check_increasing_refuted : exists z, csr_check z = Ok true /\ ~ StronglySorted Z.le (z_index z).
Proof.
  exists (Csr [0; 3; 1; 4] [7; 8; 9; 10]). split; [reflexivity |]. intros H. cbn in H. inversion H as [| ? ? H1 _]; subst. inversion H1 as [| ? ? _ F]; subst. inversion F; subst. lia.
Qed.
Print Assumptions C05_check_increasing_refuted.

(** C06: import then export is the identity for elements of 1 to 4 nodes. *)
Theorem C06_import_export : forall z, csr_faces z ->
  exists c, ec_import_csr ec_empty z = Ok c /\ ec_export_csr c = Ok z.
Proof. exact import_export. Qed.
Print Assumptions C06_import_export.
Example C06_ex : csr_faces (Csr [0;4;7;11] [0;1;4;3; 3;4;6; 4;5;7;6]).
Proof.
  split; try reflexivity. intros k a b. do 3 (destruct k; [simpl; intros H1 H2; injection H1 as <-; injection H2 as <-; split; discriminate|]).
  simpl. destruct k; discriminate.
Qed.

(** C06: any other element size raises KeyError ([z] is an arbitrary CSR structure, given by the
    node lists it stores). *)
Theorem C06_import_bad_size : forall ls r,
  In r ls -> ~ (1 <= zlen r <= 4) -> ec_import_csr ec_empty (csr_make ls) = Err KeyError.
Proof. exact import_csr_bad. Qed.
Print Assumptions C06_import_bad_size.
Example C06_bad_ex : ec_import_csr ec_empty (Csr [0;4;9] [0;1;2;3;4;5;6;7;8]) = Err KeyError.
Proof. reflexivity. Qed.

(** C07: export then import keeps exactly the (number, nodes) pairs. *)
Theorem C07_export_import : forall c,
  ec_wf c -> ec_plain c -> Permutation (ec_numbers c) (zrange 0 (ec_nelem c)) ->
  (forall i nodes, In (i, nodes) (ec_pairs c) -> 1 <= zlen nodes <= 4) ->
  exists z c', ec_export_csr c = Ok z /\ ec_import_csr ec_empty z = Ok c' /\
               ec_nelem c' = ec_nelem c /\ Permutation (ec_pairs c') (ec_pairs c).
Proof. exact export_import. Qed.
Print Assumptions C07_export_import.
Example C07_ex : Permutation (ec_numbers ex_conn) (zrange 0 (ec_nelem ex_conn)) /\
  forall i nodes, In (i, nodes) (ec_pairs ex_conn) -> 1 <= zlen nodes <= 4.
Proof.
  split.
  - exact (add_all_numbers ex_ops ex_conn (proj1 C03_ex) eq_refl).
  - simpl. intros i nodes H. repeat destruct H as [H|H]; try (injection H as <- <-; split; discriminate). destruct H.
Qed.

(** C08: merging two connectivities keeps the first and shifts the second by its size. *)
Theorem C08_merge_two : forall nn a b,
  ec_wf a -> ec_plain a -> ec_cols nn a -> ec_wf b -> ec_plain b -> ec_cols nn b ->
  exists c, ec_merge ec_empty [a; b] = Ok c /\ ec_wf c /\ ec_plain c /\
    ec_nelem c = ec_nelem a + ec_nelem b /\
    (forall t, pairs_of_type c t = pairs_of_type a t ++ shift_pairs (ec_nelem a) (pairs_of_type b t)) /\
    Permutation (ec_pairs c) (ec_pairs a ++ shift_pairs (ec_nelem a) (ec_pairs b)).
Proof. exact merge_two. Qed.
Print Assumptions C08_merge_two.

Theorem C08_merge_two_numbers : forall a b c,
  ec_wf a -> ec_wf b -> ec_wf c ->
  Permutation (ec_numbers a) (zrange 0 (ec_nelem a)) ->
  Permutation (ec_numbers b) (zrange 0 (ec_nelem b)) ->
  Permutation (ec_pairs c) (ec_pairs a ++ shift_pairs (ec_nelem a) (ec_pairs b)) ->
  Permutation (ec_numbers c) (zrange 0 (ec_nelem a + ec_nelem b)).
Proof. exact merge_two_numbers. Qed.
Print Assumptions C08_merge_two_numbers.
Definition ex_nn (t : string) : nat := if String.eqb t "quad4" then 4 else 3.
Example C08_ex : ec_cols ex_nn ex_conn /\
  exists c, ec_merge ec_empty [ex_conn; ex_conn] = Ok c /\ ec_nelem c = 8 /\
            pairs_of_type c "tri3" = [(2, [3;4;6]); (6, [3;4;6])].
Proof.
  split.
  - intros t ed [H|[H|[]]]; injection H as <- <-; reflexivity.
  - eexists; repeat split.
Qed.

(** C09: with any three operands numbered from 0, the first and third not empty, numbers collide. *)
Theorem C09_merge_three_collides : forall nn a b d c,
  (forall x, In x [a; b; d] -> ec_wf x /\ ec_plain x /\ ec_cols nn x /\
                               Permutation (ec_numbers x) (zrange 0 (ec_nelem x))) ->
  0 < ec_nelem a -> 0 < ec_nelem d ->
  ec_merge ec_empty [a; b; d] = Ok c -> ~ NoDup (ec_numbers c).
Proof. exact merge_three_collide. Qed.
Print Assumptions C09_merge_three_collides.

(** What merging does for any number of operands: each one is shifted by the size of the one before it. *)
Fixpoint merged (before : Z) (cons : list econn) : list (Z * list Z) :=
  match cons with
  | [] => []
  | x :: r => shift_pairs before (ec_pairs x) ++ merged (ec_nelem x) r
  end.
Lemma merged_combine cons : forall k, cons <> [] ->
  flat_map (fun '(k, x) => shift_pairs k (ec_pairs x)) (combine (k :: removelast (List.map ec_nelem cons)) cons) = merged k cons.
Proof.
  induction cons as [|x cons IH]; intros k Hne; [congruence|]. destruct cons as [|y cons]; [reflexivity|].
  change (removelast (List.map ec_nelem (x :: y :: cons))) with (ec_nelem x :: removelast (List.map ec_nelem (y :: cons))).
  change (shift_pairs k (ec_pairs x) ++ flat_map (fun '(k, x) => shift_pairs k (ec_pairs x)) (combine (ec_nelem x :: removelast (List.map ec_nelem (y :: cons))) (y :: cons)) = shift_pairs k (ec_pairs x) ++ merged (ec_nelem x) (y :: cons)).
  f_equal. apply IH. discriminate.
Qed.
Theorem C09_any_list : forall nn cons, (forall c, In c cons -> ec_wf c /\ ec_plain c /\ ec_cols nn c) ->
  exists c, ec_merge ec_empty cons = Ok c /\ Permutation (ec_pairs c) (merged 0 cons).
Proof.
  intros nn cons H. destruct cons as [|x cons]; [exists ec_empty; split; [reflexivity|apply Permutation_refl]|].
  destruct (merge_general nn (x :: cons)) as (c & E & _ & _ & _ & _ & P); [discriminate|exact H|]. exists c. split; [exact E|].
  rewrite P. unfold shifts_of. rewrite merged_combine by discriminate. apply Permutation_refl.
Qed.
Print Assumptions C09_any_list.
(** So with three operands or more, numbered from 0 and not empty, numbers always collide. *)
Theorem C09_collides : forall nn a b d rest c,
  (forall x, In x (a :: b :: d :: rest) -> ec_wf x /\ ec_plain x /\ ec_cols nn x /\ Permutation (ec_numbers x) (zrange 0 (ec_nelem x))) ->
  0 < ec_nelem a -> 0 < ec_nelem d -> ec_merge ec_empty (a :: b :: d :: rest) = Ok c -> ~ NoDup (ec_numbers c).
Proof.
  intros nn a b d rest c H Ha Hd E ND. set (cons := a :: b :: d :: rest) in *.
  destruct (merge_general nn cons) as (c' & E' & W & _ & _ & _ & P); [discriminate|intros x Hx; specialize (H x Hx); tauto|].
  assert (c' = c) by congruence. subst c'. unfold shifts_of in P. rewrite merged_combine in P by discriminate.
  destruct (C09_any_list nn [a; b; d]) as (c3 & E3 & P3).
  { intros x Hx. assert (Hx' : In x cons) by (destruct Hx as [<-|[<-|[<-|[]]]]; cbn; tauto). specialize (H x Hx'). tauto. }
  assert (W3 : ec_wf c3).
  { destruct (merge_general nn [a; b; d]) as (c4 & E4 & W4 & _); [discriminate| |congruence].
    intros x Hx. assert (Hx' : In x cons) by (destruct Hx as [<-|[<-|[<-|[]]]]; cbn; tauto). specialize (H x Hx'). tauto. }
  apply (C09_merge_three_collides nn a b d c3); try assumption.
  { intros x Hx. apply H. destruct Hx as [<-|[<-|[<-|[]]]]; cbn; tauto. }
  rewrite <- ec_numbers_pairs by exact W3. rewrite <- ec_numbers_pairs in ND by exact W.
  apply (Permutation_map fst) in P, P3. apply (Permutation_NoDup P) in ND. apply (Permutation_NoDup (Permutation_sym P3)).
  unfold cons in ND. cbn [merged] in ND |- *. rewrite app_nil_r. rewrite !app_assoc, map_app in ND. rewrite <- app_assoc in ND.
  clear -ND. induction (map fst _) as [|v l IH] in ND |- *; [constructor|]. cbn in ND. inversion ND; subst. constructor; [rewrite in_app_iff in *; tauto|auto].
Qed.
Print Assumptions C09_collides.

Theorem C09_merge_unique_refuted :
  exists cons c, (forall x, In x cons -> ec_wf x /\ NoDup (ec_numbers x)) /\
                 ec_merge ec_empty cons = Ok c /\ ~ NoDup (ec_numbers c).
Proof.
  assert (H := add_all_inv ex_ops ex_conn (proj1 C03_ex) eq_refl).
  assert (Hn := add_all_numbers ex_ops ex_conn (proj1 C03_ex) eq_refl).
  exists [ex_conn; ex_conn; ex_conn]. eexists. split; [|split; [reflexivity|]].
  - intros x Hx. assert (x = ex_conn) as -> by (destruct Hx as [<-|[<-|[<-|[]]]]; reflexivity).
    split; [apply H|]. eapply Permutation_NoDup; [symmetry; exact Hn|]. apply NoDup_zrange.
  - eapply (merge_three_collide ex_nn ex_conn ex_conn ex_conn); [|reflexivity|reflexivity|reflexivity].
    intros x Hx. assert (x = ex_conn) as -> by (destruct Hx as [<-|[<-|[<-|[]]]]; reflexivity).
    split; [apply H|split; [apply H|split; [apply C08_ex|exact Hn]]].
Qed.
Print Assumptions C09_merge_unique_refuted.

(** C10: nodes of a selection of elements, whatever the iteration order of sets. *)
Theorem C10_nodes_of_indexlist : forall enum, set_enum enum -> forall c L,
  ec_wf c -> ec_plain c -> NoDup (ec_numbers c) -> (forall k, In k L -> In k (ec_numbers c)) ->
  exists r, ec_nodes_of_indexlist enum c L = Ok r /\ NoDup r /\
    forall n, In n r <-> exists k nodes, In k L /\ In (k, nodes) (ec_pairs c) /\ In n nodes.
Proof. exact nodes_of_indexlist_ok. Qed.
Print Assumptions C10_nodes_of_indexlist.

Theorem C10_unknown_number : forall enum c L k,
  ec_wf c -> ec_plain c -> NoDup (ec_numbers c) -> In k L -> ~ In k (ec_numbers c) ->
  ec_nodes_of_indexlist enum c L = Err TypeError.
Proof. exact nodes_of_indexlist_unknown. Qed.
Print Assumptions C10_unknown_number.

Theorem C10_nodelist : forall enum, set_enum enum -> forall c, ec_wf c ->
  NoDup (ec_nodelist enum c) /\
  forall n, In n (ec_nodelist enum c) <-> exists k nodes, In (k, nodes) (ec_pairs c) /\ In n nodes.
Proof. exact nodelist_ok. Qed.
Print Assumptions C10_nodelist.
Example C10_ex : set_enum np_unique /\ ec_nodes_of_indexlist np_unique ex_conn [3;2] = Ok [3;4;5;6;7] /\
  ec_nodes_of_indexlist np_unique ex_conn [3;4] = Err TypeError.
Proof.
  split; [|split; reflexivity]. intros l. split; [apply np_unique_NoDup|intros; apply np_unique_in].
Qed.
