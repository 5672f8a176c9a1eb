(** * What is printed about a mesh (C79). *)
From Coq Require Import ZArith List Bool String Lia.
From Verif Require Import Py PyFacts Mesh Cli Ic3 Info.
Local Open Scope Z_scope.

(** ** Specification *)
(** What can be shown: a range, even empty, or a list that is not. *)
Definition shown_index (il : indexlist) : Prop :=
  match il with ILnone => False | ILrange _ _ => True | ILlist l | ILboxed l => l <> [] end.
Definition shown_elems (c : econn) : Prop := forall t ed, In (t, ed) (ec_dict c) -> shown_index (ed_index ed).
Record showable {F} (m : mesh F) : Prop := {
  sh_coords : forall c, In c ["x"; "y"; "z"]%string -> exists v l, dget String.eqb c (me_nodes m) = Some (v :: l);
  sh_cells : forall c, me_cell2node m = Some c -> shown_elems c;
  sh_faces : forall t f, In (t, f) (me_faces m) -> shown_elems (f_f2n f);
  sh_marks : forall k b, In (k, b) (me_bocos m) -> exists il, mk_index b = Some il /\ shown_index il }.
(** A description of an index: the first and last numbers of a range, or the least, the greatest and the number
    of those of a list. *)
Definition describes (d : idesc) (il : indexlist) : Prop :=
  match d with
  | Drange lo hi => il = ILrange lo hi
  | Dlist mn mx n => exists l, (il = ILlist l \/ il = ILboxed l) /\ n = zlen l /\ In mn l /\ In mx l /\ forall i, In i l -> mn <= i <= mx
  end.
Definition elems_shown {F} (c : econn) (ls : list (line F)) : Prop :=
  Forall2 (fun '(t, ed) l => exists d, l = Lelems t (m_nrow (ed_e2n ed)) (m_cols (ed_e2n ed)) d /\ describes d (ed_index ed)) (ec_dict c) ls.

(** ** Proofs *)
Lemma Forall2_impl {A B} (P Q : A -> B -> Prop) : (forall a b, P a b -> Q a b) -> forall l l', Forall2 P l l' -> Forall2 Q l l'.
Proof. induction 2; constructor; auto. Qed.
Lemma fold_min_spec l : forall x, let m := fold_left Z.min l x in (m = x \/ In m l) /\ m <= x /\ forall i, In i l -> m <= i.
Proof.
  induction l as [| y l IH]; intros x; cbn; [split; [auto | split; [lia | intros ? []]] |].
  destruct (IH (Z.min x y)) as (A & B & C). split; [| split; [lia | intros i [<- | I]; [lia | auto]]].
  destruct A as [A | A]; [| auto]. destruct (Z.min_spec x y) as [(_ & E) | (_ & E)]; rewrite E in *; auto.
Qed.
Lemma fold_max_spec l : forall x, let m := fold_left Z.max l x in (m = x \/ In m l) /\ x <= m /\ forall i, In i l -> i <= m.
Proof.
  induction l as [| y l IH]; intros x; cbn; [split; [auto | split; [lia | intros ? []]] |].
  destruct (IH (Z.max x y)) as (A & B & C). split; [| split; [lia | intros i [<- | I]; [lia | auto]]].
  destruct A as [A | A]; [| auto]. destruct (Z.max_spec x y) as [(_ & E) | (_ & E)]; rewrite E in *; auto.
Qed.
Lemma il_str_describes il d : il_str il = Ok d -> describes d il /\ shown_index il.
Proof.
  assert (L : forall l d, (mn <- py_min l ;; mx <- py_max l ;; Ok (Dlist mn mx (zlen l))) = Ok d ->
    exists mn mx, d = Dlist mn mx (zlen l) /\ In mn l /\ In mx l /\ l <> [] /\ forall i, In i l -> mn <= i <= mx).
  { intros [| x l] d'; cbn [py_min py_max bind]; [discriminate |]. intros [= <-].
    destruct (fold_min_spec l x) as (A & B & C). destruct (fold_max_spec l x) as (A' & B' & C').
    do 2 eexists. split; [reflexivity |]. split; [destruct A as [-> |]; [left | right]; auto |].
    split; [destruct A' as [-> |]; [left | right]; auto |]. split; [discriminate |].
    intros i [<- | I]; [lia | specialize (C i I); specialize (C' i I); lia]. }
  destruct il as [| lo hi | l | l]; cbn [il_str]; [discriminate | intros [= <-]; cbn; auto | |];
    intros E; destruct (L _ _ E) as (mn & mx & -> & I1 & I2 & N & B); (split; [| exact N]); exists l; auto.
Qed.
Lemma il_str_ok il : shown_index il -> exists d, il_str il = Ok d.
Proof. destruct il as [| lo hi | [| x l] | [| x l]]; cbn; try contradiction; eauto. Qed.
Lemma il_str_err il e : il_str il = Err e -> (e = TypeError \/ e = ValueError) /\ ~ shown_index il.
Proof. destruct il as [| lo hi | [| x l] | [| x l]]; cbn; try discriminate; intros [= <-]; auto. Qed.

Section C79.
  Context {F : Type} (leb : F -> F -> bool) (avg : list F -> F).
  Notation printinfo := (printinfo leb avg).
  Notation coord_line := (coord_line leb avg).

  Lemma andthen_ok (a b : out F) ls : andthen a b = (ls, Ok tt) <-> exists l1 l2, a = (l1, Ok tt) /\ b = (l2, Ok tt) /\ ls = l1 ++ l2.
  Proof.
    destruct a as (l1, [[] | e]); cbn [andthen]; [destruct b as (l2, r2) |]; split.
    - intros [= <- ->]. eauto 6.
    - intros (x & y & [= <-] & [= <- ->] & ->). reflexivity.
    - discriminate.
    - intros (x & y & [=] & _).
  Qed.
  Lemma all_ok {A} (f : A -> out F) l : forall ls, all (List.map f l) = (ls, Ok tt) <->
    exists parts, Forall2 (fun a p => f a = (p, Ok tt)) l parts /\ ls = List.concat parts.
  Proof.
    induction l as [| a l IH]; intros ls; cbn [List.map all fold_right].
    - split; [intros [= <-]; exists []; split; [constructor | reflexivity] | intros (p & P & ->); inversion P; reflexivity].
    - fold (all (List.map f l)). rewrite andthen_ok. split.
      + intros (l1 & l2 & E1 & E2 & ->). apply IH in E2. destruct E2 as (ps & P & ->). exists (l1 :: ps). split; [constructor; auto | reflexivity].
      + intros (p & P & ->). inversion P as [| ? p1 ? ps P1 P2]; subst. exists p1, (List.concat ps).
        split; [exact P1 |]. split; [apply IH; eauto | reflexivity].
  Qed.
  Lemma say_ok (r : res (line F)) ls : say r = (ls, Ok tt) <-> exists l, r = Ok l /\ ls = [l].
  Proof. destruct r; cbn; split; [intros [= <-]; eauto | intros (? & [= <-] & ->); reflexivity | discriminate | intros (? & [=] & _)]. Qed.
  Lemma singles {A} (g : A -> res (line F)) l ls : all (List.map (fun a => say (g a)) l) = (ls, Ok tt) <-> Forall2 (fun a x => g a = Ok x) l ls.
  Proof.
    rewrite (all_ok (fun a => say (g a))). split.
    - intros (ps & P & ->). induction P as [| a p l ps P1 P2 IH]; [constructor |]. apply say_ok in P1. destruct P1 as (x & E & ->). cbn. constructor; auto.
    - intros P. exists (List.map (fun x => [x]) ls). split.
      + induction P; cbn; constructor; auto. now rewrite H.
      + clear P. induction ls as [| x ls IH]; cbn; [reflexivity | now rewrite <- IH].
  Qed.
  Lemma forall2_exists {A B} (P : A -> B -> Prop) l : (exists ls, Forall2 P l ls) <-> Forall (fun a => exists b, P a b) l.
  Proof.
    split.
    - intros (ls & Q). induction Q; constructor; eauto.
    - induction 1 as [| a l (b & E) _ (ls & IH)]; [exists []; constructor | exists (b :: ls); constructor; auto].
  Qed.

  Lemma elems_ok (c : econn) (ls : list (line F)) : elems_lines c = (ls, Ok tt) -> elems_shown c ls.
  Proof.
    unfold elems_lines. rewrite singles. apply Forall2_impl. intros (t, ed) l. unfold elem_line. cbn.
    destruct (il_str (ed_index ed)) as [d |] eqn:D; cbn; [| discriminate]. intros [= <-]. exists d. split; [reflexivity | apply il_str_describes; exact D].
  Qed.
  Lemma singles_can {A} (g : A -> res (line F)) l : (exists ls, all (List.map (fun a => say (g a)) l) = (ls, Ok tt)) <-> forall a, In a l -> exists x, g a = Ok x.
  Proof.
    rewrite <- (Forall_forall (fun a => exists x, g a = Ok x)), <- forall2_exists. split; intros (ls & E); exists ls; now apply singles.
  Qed.
  Lemma elems_can (c : econn) : (exists ls, elems_lines (F:=F) c = (ls, Ok tt)) <-> shown_elems c.
  Proof.
    unfold elems_lines. rewrite singles_can. unfold shown_elems, elem_line. split.
    - intros H t ed I. destruct (H _ I) as (x & E). cbn in E. destruct (il_str (ed_index ed)) as [d |] eqn:D; [| discriminate].
      eapply il_str_describes; exact D.
    - intros H (t, ed) I. destruct (il_str_ok _ (H _ _ I)) as (d & D). cbn. rewrite D. cbn. eauto.
  Qed.
  Lemma coord_can m c : (exists l, coord_line m c = Ok l) <-> exists v l, dget String.eqb c (me_nodes m) = Some (v :: l).
  Proof.
    unfold Info.coord_line, dget_err. destruct (dget String.eqb c (me_nodes m)) as [[| v l] |]; cbn; split; intros H;
      try (destruct H as (? & ? & [=])); try (destruct H as (? & [=])); eauto.
  Qed.
  Lemma mark_can (b : mark F) : (exists l, mark_line b = Ok l) <-> exists il, mk_index b = Some il /\ shown_index il.
  Proof.
    unfold mark_line. destruct (mk_index b) as [il |]; [| split; [intros (? & [=]) | intros (? & [=] & _)]]. split.
    - intros (l & E). destruct (il_str il) as [d |] eqn:D; [| discriminate]. exists il. split; [reflexivity | eapply il_str_describes; exact D].
    - intros (il' & [= <-] & S). destruct (il_str_ok _ S) as (d & ->). cbn. eauto.
  Qed.
  Definition cells_part (m : mesh F) : out F := match me_cell2node m with Some c => elems_lines c | None => say (Ok Lnocell) end.
  Definition faces_part (m : mesh F) : out F := match me_faces m with [] => say (Ok Lnoface) | fs => all (List.map kind_lines fs) end.
  Lemma all_cons (a : out F) l ls : all (a :: l) = (ls, Ok tt) <-> exists l1 l2, a = (l1, Ok tt) /\ all l = (l2, Ok tt) /\ ls = l1 ++ l2.
  Proof. apply andthen_ok. Qed.
  Lemma printinfo_ok m ls : printinfo m = (ls, Ok tt) <-> exists x y z cl fl ml,
    coord_line m "x" = Ok x /\ coord_line m "y" = Ok y /\ coord_line m "z" = Ok z /\ cells_part m = (cl, Ok tt) /\ faces_part m = (fl, Ok tt) /\
    all (List.map (fun x => say (mark_line (snd x))) (me_bocos m)) = (ml, Ok tt) /\
    ls = ([Lnnode (me_nnode m); x; y; z; Lncell (me_ncell m)] ++ cl ++ [Lnface (me_nface m)] ++ fl ++ [Lbocos (dkeys (me_bocos m))] ++ ml ++ [Lparams])%list.
  Proof.
    unfold Info.printinfo. fold (cells_part m) (faces_part m). split.
    - intros E.
      apply all_cons in E. destruct E as (l0 & r & E0 & E & ->). apply say_ok in E0. destruct E0 as (? & [= <-] & ->).
      apply all_cons in E. destruct E as (l0 & r0 & E0 & E & ->). apply say_ok in E0. destruct E0 as (x & Ex & ->).
      apply all_cons in E. destruct E as (l0 & r & E0 & E & ->). apply say_ok in E0. destruct E0 as (y & Ey & ->).
      apply all_cons in E. destruct E as (l0 & r0 & E0 & E & ->). apply say_ok in E0. destruct E0 as (z & Ez & ->).
      apply all_cons in E. destruct E as (l0 & r & E0 & E & ->). apply say_ok in E0. destruct E0 as (? & [= <-] & ->).
      apply all_cons in E. destruct E as (cl & r0 & Ec & E & ->).
      apply all_cons in E. destruct E as (l0 & r & E0 & E & ->). apply say_ok in E0. destruct E0 as (? & [= <-] & ->).
      apply all_cons in E. destruct E as (fl & r0 & Ef & E & ->).
      apply all_cons in E. destruct E as (l0 & r & E0 & E & ->). apply say_ok in E0. destruct E0 as (? & [= <-] & ->).
      apply all_cons in E. destruct E as (ml & r0 & Em & E & ->).
      injection E as <-. exists x, y, z, cl, fl, ml. repeat (split; [assumption |]). cbn. reflexivity.
    - intros (x & y & z & cl & fl & ml & -> & -> & -> & -> & -> & -> & ->). cbn. reflexivity.
  Qed.
  Lemma faces_can m : (exists ls, faces_part m = (ls, Ok tt)) <-> forall t f, In (t, f) (me_faces m) -> shown_elems (f_f2n f).
  Proof.
    assert (G : forall fs, (exists ls, all (List.map (kind_lines (F:=F)) fs) = (ls, Ok tt)) <-> forall t f, In (t, f) fs -> shown_elems (f_f2n f)).
    { induction fs as [| (t, f) fs IH]; [split; [intros _ ? ? [] | intros _; exists []; reflexivity] |]. cbn [List.map]. split.
      - intros (ls & E). apply all_cons in E. destruct E as (l1 & l2 & E1 & E2 & ->). intros t' f' [[= <- <-] | I].
        + unfold kind_lines in E1. apply andthen_ok in E1. destruct E1 as (a & b & _ & E1 & _). apply elems_can. eauto.
        + eapply IH; eauto.
      - intros H. destruct (proj2 IH) as (l2 & E2); [intros t' f' I; apply (H t' f'); right; exact I |].
        destruct (proj2 (elems_can (f_f2n f))) as (l1 & E1); [apply (H t f); left; reflexivity |].
        eexists. apply all_cons. exists (Lkind t (dkeys (ec_dict (f_f2n f))) :: l1), l2. split; [| split; [exact E2 | reflexivity]].
        unfold kind_lines. cbn [fst snd say andthen]. rewrite E1. reflexivity. }
    unfold faces_part. destruct (me_faces m) as [| p fs] eqn:E; [| apply G].
    split; [intros _ ? ? [] | intros _; eexists; reflexivity].
  Qed.

  (** Printing succeeds exactly when everything can be shown. *)
  Theorem C79_success m : (exists ls, printinfo m = (ls, Ok tt)) <-> showable m.
  Proof.
    split.
    - intros (ls & E). apply printinfo_ok in E. destruct E as (x & y & z & cl & fl & ml & Ex & Ey & Ez & Ec & Ef & Em & _). split.
      + intros c [<- | [<- | [<- | []]]]; apply coord_can; eauto.
      + intros c Hc. apply elems_can. unfold cells_part in Ec. rewrite Hc in Ec. eauto.
      + apply faces_can. eauto.
      + intros k b I. apply mark_can. destruct (singles_can (fun x : string * mark F => mark_line (snd x)) (me_bocos m)) as (S & _).
        apply (S (ex_intro _ _ Em) (k, b) I).
    - intros [Hx Hc Hf Hm].
      destruct (proj2 (coord_can m "x") (Hx "x"%string ltac:(cbn; tauto))) as (x & Ex). destruct (proj2 (coord_can m "y") (Hx "y"%string ltac:(cbn; tauto))) as (y & Ey).
      destruct (proj2 (coord_can m "z") (Hx "z"%string ltac:(cbn; tauto))) as (z & Ez).
      destruct (proj2 (faces_can m) Hf) as (fl & Ef).
      assert (Ec : exists cl, cells_part m = (cl, Ok tt)).
      { unfold cells_part. destruct (me_cell2node m) as [c |]; [apply elems_can; auto | eexists; reflexivity]. }
      destruct Ec as (cl & Ec).
      destruct (proj2 (singles_can (fun x : string * mark F => mark_line (snd x)) (me_bocos m))) as (ml & Em).
      { intros (k, b) I. apply mark_can. eapply Hm; exact I. }
      eexists. apply printinfo_ok. exists x, y, z, cl, fl, ml. repeat (split; [eassumption |]). reflexivity.
  Qed.

  Lemma all_err {A} (f : A -> out F) l : forall ls e, all (List.map f l) = (ls, Err e) -> exists a ls', In a l /\ f a = (ls', Err e).
  Proof.
    induction l as [| a l IH]; intros ls e; cbn [List.map all fold_right]; [discriminate |]. fold (all (List.map f l)).
    destruct (f a) as (l1, [[] | e1]) eqn:E; cbn [andthen].
    - destruct (all (List.map f l)) as (l2, r2). intros [= _ ->]. destruct (IH _ _ eq_refl) as (b & ls' & I & E'). exists b, ls'. split; [right; exact I | exact E'].
    - intros [= _ <-]. exists a, l1. split; [left; reflexivity | exact E].
  Qed.
  Lemma all_err' (l : list (out F)) ls e : all l = (ls, Err e) -> exists ls', In (ls', Err e) l.
  Proof. intros H. rewrite <- (List.map_id l) in H. apply (all_err (fun x => x)) in H. destruct H as (a & ls' & I & E). exists ls'. now rewrite <- E. Qed.
  Lemma say_err (r : res (line F)) ls e : say r = (ls, Err e) -> r = Err e.
  Proof. destruct r; cbn; [discriminate | now intros [= _ <-]]. Qed.
  Lemma il_str_fails il e : il_str il = Err e -> (e = TypeError /\ il = ILnone) \/ (e = ValueError /\ (il = ILlist [] \/ il = ILboxed [])).
  Proof. destruct il as [| lo hi | [| x l] | [| x l]]; cbn; try discriminate; intros [= <-]; auto. Qed.
  Lemma elems_err c (ls : list (line F)) e : elems_lines c = (ls, Err e) -> exists t ed, In (t, ed) (ec_dict c) /\
    ((e = TypeError /\ ed_index ed = ILnone) \/ (e = ValueError /\ (ed_index ed = ILlist [] \/ ed_index ed = ILboxed []))).
  Proof.
    intros H. apply (all_err (fun x => say (elem_line x))) in H. destruct H as ((t, ed) & ls' & I & E). apply say_err in E. exists t, ed. split; [exact I |].
    unfold elem_line in E. cbn [fst snd] in E. destruct (il_str (ed_index ed)) eqn:D; cbn in E; [discriminate |]. injection E as ->. apply il_str_fails. exact D.
  Qed.
  (** What a failure tells. *)
  Theorem C79_failed m ls e : printinfo m = (ls, Err e) ->
    let bad il := (e = TypeError /\ il = ILnone) \/ (e = ValueError /\ (il = ILlist [] \/ il = ILboxed [])) in
    (exists c, In c ["x"; "y"; "z"]%string /\ ((e = KeyError /\ dget String.eqb c (me_nodes m) = None) \/ (e = ValueError /\ dget String.eqb c (me_nodes m) = Some []))) \/
    (exists c t ed, me_cell2node m = Some c /\ In (t, ed) (ec_dict c) /\ bad (ed_index ed)) \/
    (exists k f t ed, In (k, f) (me_faces m) /\ In (t, ed) (ec_dict (f_f2n f)) /\ bad (ed_index ed)) \/
    (exists k b, In (k, b) (me_bocos m) /\ ((e = AttributeError /\ mk_index b = None) \/ exists il, mk_index b = Some il /\ bad il)).
  Proof.
    intros H bad. unfold printinfo in H. apply all_err' in H. destruct H as (ls' & H).
    assert (C : forall c, In c ["x"; "y"; "z"]%string -> say (coord_line m c) = (ls', Err e) ->
      (e = KeyError /\ dget String.eqb c (me_nodes m) = None) \/ (e = ValueError /\ dget String.eqb c (me_nodes m) = Some [])).
    { intros c _ E. apply say_err in E. unfold Info.coord_line, dget_err in E. destruct (dget String.eqb c (me_nodes m)) as [[| v l] |]; cbn in E; [| discriminate |]; injection E as <-; auto. }
    cbn [In] in H. destruct H as [H | [H | [H | [H | [H | [H | [H | [H | [H | [H | [H | []]]]]]]]]]]]; try (apply say_err in H; discriminate).
    - left. exists "x"%string. split; [cbn; tauto | apply C; [cbn; tauto | exact H]].
    - left. exists "y"%string. split; [cbn; tauto | apply C; [cbn; tauto | exact H]].
    - left. exists "z"%string. split; [cbn; tauto | apply C; [cbn; tauto | exact H]].
    - right. left. destruct (me_cell2node m) as [c |]; [| apply say_err in H; discriminate]. apply elems_err in H. destruct H as (t & ed & I & B). exists c, t, ed. auto.
    - right. right. left. destruct (me_faces m) as [| x l] eqn:EF; [apply say_err in H; discriminate |]. apply (all_err kind_lines) in H. destruct H as ((k, f) & ls2 & I & E).
      unfold kind_lines in E. cbn [fst snd] in E. destruct (elems_lines (f_f2n f)) as (l2, r2) eqn:EL. cbn in E. injection E as _ ->. apply elems_err in EL. destruct EL as (t & ed & I' & B). exists k, f, t, ed. auto.
    - right. right. right. apply (all_err (fun x => say (mark_line (snd x)))) in H. destruct H as ((k, b) & ls2 & I & E). apply say_err in E. cbn [snd] in E. exists k, b. split; [exact I |].
      unfold mark_line in E. destruct (mk_index b) as [il |]; [| injection E as <-; auto]. right. exists il. split; [reflexivity |]. destruct (il_str il) eqn:D; cbn in E; [discriminate |]. injection E as ->. apply il_str_fails. exact D.
  Qed.
  (** What is then shown: the counts, then for each kind of cell, each kind of face and each mark, in order, its name
      and what its numbers are. *)
  Context (total : forall a b, leb a b = true \/ leb b a = true) (trans : forall a b c, leb a b = true -> leb b c = true -> leb a c = true).
  Lemma lrefl a : leb a a = true. Proof using total. destruct (total a a); assumption. Qed.
  Lemma fmin_spec l : forall x, let m := fold_left (fmin leb) l x in (m = x \/ In m l) /\ leb m x = true /\ forall i, In i l -> leb m i = true.
  Proof using total trans.
    induction l as [| y l IH]; intros x; cbn; [split; [auto | split; [apply lrefl | intros ? []]] |].
    destruct (IH (fmin leb x y)) as (A & B & C). unfold fmin in *. destruct (leb y x) eqn:E.
    - split; [destruct A as [-> |]; auto | split; [eapply trans; eauto | intros i [<- | I]; auto]].
    - assert (E' : leb x y = true) by (destruct (total x y); congruence).
      split; [destruct A as [-> |]; auto | split; [exact B | intros i [<- | I]; [eapply trans; eauto | auto]]].
  Qed.
  Lemma fmax_spec l : forall x, let m := fold_left (fmax leb) l x in (m = x \/ In m l) /\ leb x m = true /\ forall i, In i l -> leb i m = true.
  Proof using total trans.
    induction l as [| y l IH]; intros x; cbn; [split; [auto | split; [apply lrefl | intros ? []]] |].
    destruct (IH (fmax leb x y)) as (A & B & C). unfold fmax in *. destruct (leb x y) eqn:E.
    - split; [destruct A as [-> |]; auto | split; [eapply trans; eauto | intros i [<- | I]; auto]].
    - assert (E' : leb y x = true) by (destruct (total x y); congruence).
      split; [destruct A as [-> |]; auto | split; [exact B | intros i [<- | I]; [eapply trans; eauto | auto]]].
  Qed.
  Theorem C79_content m ls : printinfo m = (ls, Ok tt) -> exists x y z cl fl ml,
    ls = ([Lnnode (me_nnode m); x; y; z; Lncell (me_ncell m)] ++ cl ++ [Lnface (me_nface m)] ++ fl ++ [Lbocos (dkeys (me_bocos m))] ++ ml ++ [Lparams])%list /\
    match me_cell2node m with Some c => elems_shown c cl | None => cl = [Lnocell] end /\
    match me_faces m with
    | [] => fl = [Lnoface]
    | fs => exists parts, fl = List.concat parts /\ Forall2 (fun '(t, f) p => exists q, p = Lkind t (dkeys (ec_dict (f_f2n f))) :: q /\ elems_shown (f_f2n f) q) fs parts
    end /\
    Forall2 (fun '(_, b) l => exists il d, mk_index b = Some il /\ describes d il /\ l = Lmark (mk_name b) (mk_geodim b) d) (me_bocos m) ml /\
    forall c l, In (c, l) [("x", x); ("y", y); ("z", z)]%string -> exists v vs mn mx, dget String.eqb c (me_nodes m) = Some (v :: vs) /\
      l = Lcoord c mn (avg (v :: vs)) mx /\ In mn (v :: vs) /\ In mx (v :: vs) /\ forall w, In w (v :: vs) -> leb mn w = true /\ leb w mx = true.
  Proof.
    intros E. apply printinfo_ok in E. destruct E as (x & y & z & cl & fl & ml & Ex & Ey & Ez & Ec & Ef & Em & ->).
    exists x, y, z, cl, fl, ml. split; [reflexivity |]. split; [| split; [| split]].
    - unfold cells_part in Ec. destruct (me_cell2node m) as [c |]; [apply elems_ok; exact Ec | injection Ec as <-; reflexivity].
    - unfold faces_part in Ef. destruct (me_faces m) as [| p fs]; [injection Ef as <-; reflexivity |].
      apply all_ok in Ef. destruct Ef as (parts & P & ->). exists parts. split; [reflexivity |].
      eapply Forall2_impl; [| exact P]. intros (t, f) q Q. unfold kind_lines in Q. apply andthen_ok in Q.
      destruct Q as (l1 & l2 & Q1 & Q2 & ->). apply say_ok in Q1. destruct Q1 as (? & [= <-] & ->). exists l2. split; [reflexivity | apply elems_ok; exact Q2].
    - apply (singles (fun x : string * mark F => mark_line (snd x))) in Em. eapply Forall2_impl; [| exact Em]. intros (k, b) l. cbn. unfold mark_line.
      destruct (mk_index b) as [il |]; [| discriminate]. destruct (il_str il) as [d |] eqn:D; cbn; [| discriminate].
      intros [= <-]. exists il, d. split; [reflexivity |]. split; [apply il_str_describes; exact D | reflexivity].
    - assert (C : forall c l, coord_line m c = Ok l -> exists v vs mn mx, dget String.eqb c (me_nodes m) = Some (v :: vs) /\
        l = Lcoord c mn (avg (v :: vs)) mx /\ In mn (v :: vs) /\ In mx (v :: vs) /\ forall w, In w (v :: vs) -> leb mn w = true /\ leb w mx = true).
      { intros c l. unfold Info.coord_line, dget_err. destruct (dget String.eqb c (me_nodes m)) as [[| v vs] |]; cbn; try discriminate.
        intros [= <-]. exists v, vs, (fold_left (fmin leb) vs v), (fold_left (fmax leb) vs v). split; [reflexivity |]. split; [reflexivity |].
        destruct (fmin_spec vs v) as (A & B & C). destruct (fmax_spec vs v) as (A' & B' & C').
        split; [destruct A as [-> |]; [left | right]; auto |]. split; [destruct A' as [-> |]; [left | right]; auto |].
        intros w [<- | I]; auto. }
      intros c l [[= <- <-] | [[= <- <-] | [[= <- <-] | []]]]; apply C; assumption.
  Qed.
End C79.

(** ** IC3 files: whatever the reader accepts can be shown, as long as there is a node. *)
Section C79ic3.
  Context (leb : Z -> Z -> bool) (avg : list Z -> Z).
  Lemma read_zones_ranges f o z : forall fuel p bs, read_zones fuel f o z p = Ok bs -> Forall (fun b => exists lo hi, mk_index b = Some (ILrange lo hi)) bs.
  Proof.
    induction fuel as [| k IH]; intros p bs E; cbn [read_zones] in E; [discriminate |].
    destruct (read_var (fuel_of f) f o [FA_ZONE] 0 p) as [(h, p') | e]; cbn [bind] in E; [| discriminate].
    destruct h as [h |]; [| injection E as <-; constructor].
    destruct (read_zone z h) as [b |] eqn:Z; cbn [bind] in E; [| discriminate].
    assert (B : exists lo hi, mk_index b = Some (ILrange lo hi)).
    { unfold read_zone in Z. destruct (dget_err Z.eqb (idata h 0) zonetypes); cbn in Z; [| discriminate].
      destruct (py_get (z_index z) (idata h 1)); cbn in Z; [| discriminate]. injection Z as <-. cbn. eauto. }
    destruct (idata h 0 =? 6); [injection E as <-; constructor; [exact B | constructor] |].
    destruct (read_zones k f o z p') as [bs' |] eqn:R; cbn in E; [| discriminate]. injection E as <-. constructor; eauto.
  Qed.
  Lemma nth_combine' {A B} (la : list A) (lb : list B) : forall n a b, nth_error la n = Some a -> nth_error lb n = Some b -> nth_error (combine la lb) n = Some (a, b).
  Proof. revert lb. induction la as [|a0 la IH]; intros [|b0 lb] [|n] a b Ha Hb; try discriminate; cbn in *; [congruence|auto]. Qed.
  Definition full_index (il : indexlist) : Prop := exists l, il = ILboxed l /\ l <> [].
  Lemma dset_in_inv {V} k (v : V) d k' v' : In (k', v') (dset String.eqb k v d) -> v' = v \/ In (k', v') d.
  Proof.
    induction d as [| (k0, v0) d IH]; cbn; [intros [[= _ <-] | []]; auto |].
    destruct (String.eqb k k0); cbn; intros [[= <- <-] | I]; auto. destruct (IH I); auto.
  Qed.
  Lemma import_csr_shown z c : ec_import_csr ec_empty z = Ok c -> shown_elems c.
  Proof.
    unfold ec_import_csr. intros E.
    assert (G : forall us c0 c1, (forall u, In u us -> In u (diffs (z_index z))) -> (forall t ed, In (t, ed) (ec_dict c0) -> full_index (ed_index ed)) ->
      foldM (fun c facesize => typef <- dget_err Z.eqb facesize face_from_nnode ;;
        let index := positions (diffs (z_index z)) facesize in
        zind <- np_take (z_index z) index ;;
        nodes <- mapM (fun s => np_take (z_value z) (zrange s (s + facesize))) zind ;;
        ec_add c typef (Mat (Some (Z.to_nat facesize)) nodes) (Some (ILboxed index))) c0 us = Ok c1 ->
      forall t ed, In (t, ed) (ec_dict c1) -> full_index (ed_index ed)).
    { induction us as [| u us IH]; intros c0 c1 U H0 E1; [cbn in E1; injection E1 as <-; exact H0 |].
      cbn [foldM] in E1.
      destruct (dget_err Z.eqb u face_from_nnode) as [t0 |]; cbn [bind] in E1; [| discriminate].
      destruct (np_take (z_index z) (positions (diffs (z_index z)) u)) as [zi |]; cbn [bind] in E1; [| discriminate].
      destruct (mapM (fun s => np_take (z_value z) (zrange s (s + u))) zi) as [nodes |]; cbn [bind] in E1; [| discriminate].
      destruct (ec_add c0 t0 (Mat (Some (Z.to_nat u)) nodes) (Some (ILboxed (positions (diffs (z_index z)) u)))) as [c2 |] eqn:A; cbn [bind] in E1; [| discriminate].
      eapply IH; [intros w I; apply U; right; exact I | | exact E1].
      assert (P : positions (diffs (z_index z)) u <> []).
      { specialize (U u (or_introl eq_refl)). unfold positions. generalize (zrange_length 0 (zlen (diffs (z_index z)))).
        apply In_nth_error in U. destruct U as (n & U). intros L Q. apply map_eq_nil in Q.
        assert (Hn : (n < List.length (diffs (z_index z)))%nat) by (apply nth_error_Some; congruence).
        destruct (nth_error (zrange 0 (zlen (diffs (z_index z)))) n) as [i |] eqn:Ei;
          [| apply nth_error_None in Ei; rewrite L in Ei; unfold zlen in Ei; lia].
        assert (I : In (i, u) (filter (fun '(_, x) => x =? u) (combine (zrange 0 (zlen (diffs (z_index z)))) (diffs (z_index z))))).
        { apply filter_In. split; [| apply Z.eqb_refl]. apply nth_error_In with n. apply nth_combine'; assumption. }
        rewrite Q in I. destruct I. }
      unfold ec_add in A. destruct (dget String.eqb t0 (ec_dict c0)) as [ed0 |] eqn:D.
      - destruct (il_append_il (ed_index ed0) _) as [il |] eqn:AI; cbn [bind] in A; [| discriminate].
        destruct (np_vcat _ _) as [m' |]; cbn [bind] in A; [| discriminate]. injection A as <-. cbn [ec_dict].
        intros t ed I. apply dset_in_inv in I. destruct I as [-> | I]; [| eapply H0; exact I]. cbn [ed_index].
        apply dget_in in D; [| apply String.eqb_eq]. destruct (H0 _ _ D) as (l0 & E0 & N0). rewrite E0 in AI.
        cbn in AI. injection AI as <-. eexists. split; [reflexivity |]. destruct l0; [contradiction | discriminate].
      - injection A as <-. cbn [ec_dict]. intros t ed I. apply dset_in_inv in I. destruct I as [-> | I]; [| eapply H0; exact I].
        eexists. split; [reflexivity | exact P]. }
    intros t ed I. assert (X : full_index (ed_index ed)).
    { eapply (G (np_unique (diffs (z_index z))) ec_empty c); [intros u; apply np_unique_in | intros ? ? [] | exact E | exact I]. }
    destruct X as (l & -> & N). exact N.
  Qed.
  Theorem C79_ic3 integrity f fm : read_mesh integrity f = Ok fm ->
    (me_nnode (fm_mesh fm) <> 0 -> exists ls, printinfo leb avg (fm_mesh fm) = (ls, Ok tt)) /\
    (me_nnode (fm_mesh fm) = 0 -> printinfo leb avg (fm_mesh fm) = ([Lnnode 0], Err ValueError)).
  Proof.
    unfold read_mesh. destruct (read_data integrity f) as [r |] eqn:R; cbn [bind]; [| discriminate].
    unfold export_mesh. destruct (set_coords_nd (new_mesh (r_cv r) (r_no r)) 3 (r_coords r)) as (e1, m1) eqn:S1.
    destruct e1 as [[] |]; cbn [bind]; [| discriminate].
    destruct (ii_set _) as [f2c |]; cbn [bind]; [| discriminate].
    destruct (ec_import_csr ec_empty (r_csr r)) as [f2n |] eqn:I1; cbn [bind]; [| discriminate].
    cbn [add_faces facetypes existsb]. cbn [orb String.eqb Ascii.eqb Bool.eqb bind]. intros [= <-]. cbn [fm_mesh].
    unfold set_coords_nd in S1. destruct (zlen (r_coords r) =? me_nnode (new_mesh (F:=Z) (r_cv r) (r_no r))) eqn:L; [| discriminate].
    apply Z.eqb_eq in L. cbn in L. cbn [fold_left] in S1.
    destruct (column (r_coords r) 3 0) as [x |] eqn:X; [| discriminate]. destruct (column (r_coords r) 3 1) as [y |] eqn:Y; [| discriminate].
    destruct (column (r_coords r) 3 2) as [z |] eqn:Zc; [| discriminate]. injection S1 as <-.
    assert (Len : forall i v, column (r_coords r) 3 i = Ok v -> zlen v = r_no r).
    { intros i v. unfold column. destruct (i <? 3); [| discriminate]. intros M. apply mapM_ok_len in M. unfold zlen in *. lia. }
    assert (Bz : Forall (fun b => exists lo hi, mk_index b = Some (ILrange lo hi)) (r_bocos r)).
    { unfold read_data in R. repeat (match type of R with context [bind ?x _] => let E := fresh in destruct x eqn:E; cbn [bind] in R; [| discriminate R] end || match type of R with context [let '(_, _) := ?x in _] => destruct x end).
      injection R as <-. cbn. eapply read_zones_ranges; eassumption. }
    assert (Fb : forall bs m, Forall (fun b => exists lo hi, mk_index b = Some (ILrange lo hi)) bs ->
      (forall k b, In (k, b) (me_bocos m) -> exists lo hi, mk_index b = Some (ILrange lo hi)) ->
      let m' := fold_left (add_boco (F:=Z)) bs m in
      (forall k b, In (k, b) (me_bocos m') -> exists lo hi, mk_index b = Some (ILrange lo hi)) /\ me_nnode m' = me_nnode m /\ me_nodes m' = me_nodes m /\
      me_cell2node m' = me_cell2node m /\ me_faces m' = me_faces m).
    { induction bs as [| b bs IH]; intros m HB H0; cbn; [auto |]. inversion HB as [| ? ? B1 B2]; subst.
      destruct (IH (add_boco m b) B2) as (A1 & A2 & A3 & A4 & A5); [| cbn in *; auto].
      intros k b' I. unfold add_boco in I. cbn in I. apply dset_in_inv in I. destruct I as [-> | I]; eauto. }
    match goal with |- context [fold_left add_boco (r_bocos r) ?m0] => destruct (Fb (r_bocos r) m0 Bz ltac:(intros ? ? [])) as (A1 & A2 & A3 & A4 & A5); set (m' := fold_left add_boco (r_bocos r) m0) in * end.
    cbn in A2, A3, A4, A5. split.
    - intros N. apply C79_success. split.
      + rewrite A3. assert (NE : forall i v, column (r_coords r) 3 i = Ok v -> exists a l, v = a :: l).
        { intros i v E. apply Len in E. destruct v as [| a l]; [| eauto]. exfalso. apply N. rewrite A2. cbn in E. lia. }
        intros c [<- | [<- | [<- | []]]]; cbn; [destruct (NE _ _ X) as (a & l & ->) | destruct (NE _ _ Y) as (a & l & ->) | destruct (NE _ _ Zc) as (a & l & ->)]; eauto.
      + rewrite A4. discriminate.
      + rewrite A5. intros t f' [[= <- <-] | []]. cbn. eapply import_csr_shown; exact I1.
      + intros k b I. destruct (A1 k b I) as (lo & hi & E). exists (ILrange lo hi). split; [exact E | exact Logic.I].
    - intros N. rewrite A2 in N. rewrite N in *. unfold printinfo. rewrite A2. unfold coord_line. rewrite A3. cbn [dget_err dget String.eqb Ascii.eqb Bool.eqb].
      apply Len in X. destruct x as [| a x]; [| cbn in X; unfold zlen in X; cbn in X; lia]. reflexivity.
  Qed.
End C79ic3.

(** ** The command. *)
Section C79cli.
  Context {F W : Type} (leb : F -> F -> bool) (avg : list F -> F) (w : W) (ic3 gmsh cgns : bool -> string -> res (mesh F)).
  Notation reg := (registry_of (info_registrations w ic3 gmsh cgns)).
  (** The suffix of a file name chooses the reader; files of another suffix, and VTK files, are refused. *)
  Theorem C79_formats check filename :
    let suffix := path_suffix (path_of filename) in
    let from rd := match rd check (path_str (path_of filename)) with Ok m => printinfo leb avg m | Err e => ([], Err e) end in
    cfdinfo leb avg reg None check filename =
      if String.eqb suffix ".ic3" then from ic3
      else if String.eqb suffix ".msh" then from gmsh
      else if String.eqb suffix ".cgns" || String.eqb suffix ".vtu" then ([], Err TypeError)
      else ([], Err RuntimeError).
  Proof.
    cbn zeta. unfold cfdinfo, parse_filenameformat. set (s := path_suffix (path_of filename)).
    change reg with [("IC3", Entry (Some (RClass true ic3)) (Some w) ".ic3"); ("GMSH", Entry (Some (RClass true gmsh)) None ".msh");
                     ("CGNS", Entry (Some (RClass false cgns)) None ".cgns"); ("VTK", Entry None (Some w) ".vtu")]%string.
    cbn [filter List.map en_ext fst]. rewrite !(String.eqb_sym _ s).
    destruct (String.eqb s ".ic3") eqn:E1; [apply String.eqb_eq in E1; rewrite E1; reflexivity |].
    destruct (String.eqb s ".msh") eqn:E2; [apply String.eqb_eq in E2; rewrite E2; reflexivity |].
    destruct (String.eqb s ".cgns") eqn:E3; [apply String.eqb_eq in E3; rewrite E3; reflexivity |].
    destruct (String.eqb s ".vtu") eqn:E4; reflexivity.
  Qed.
  (** So no CGNS file can be looked at, whatever it contains. *)
  Theorem C79_cgns check filename : path_suffix (path_of filename) = ".cgns"%string -> cfdinfo leb avg reg None check filename = ([], Err TypeError)
    /\ forall name, cfdinfo leb avg reg (Some "CGNS"%string) check name = ([], Err TypeError).
  Proof. intros E. split; [rewrite C79_formats; cbn zeta; rewrite E; reflexivity | reflexivity]. Qed.
End C79cli.

(** ** Cases *)
Definition ex_info : mesh Z := Mesh Z 1 3 3 (Some (EC 1 [("tri3"%string, ED (ILrange 0 0) (Mat (Some 3%nat) [[0; 1; 2]]))]))
  [("boundary"%string, FaceSet (EC 3 [("bi"%string, ED (ILlist [2; 0; 1]) (Mat (Some 2%nat) [[0; 1]; [1; 2]; [2; 0]]))]) None)]
  [("x"%string, [0; 4; 2]); ("y"%string, [0; 0; 3]); ("z"%string, [0; 0; 0])]
  [("wall"%string, Mark Z "wall" (Some Gbdnode) (Some "boundary"%string) (Some (ILlist [1; 0])) None)].
Example C79_case : printinfo Z.leb (fun l => fold_right Z.add 0 l / zlen l) ex_info =
  ([Lnnode 3; Lcoord "x" 0 2 4; Lcoord "y" 0 1 3; Lcoord "z" 0 0 0; Lncell 1; Lelems "tri3" 1 (Some 3%nat) (Drange 0 0); Lnface 3;
    Lkind "boundary" ["bi"%string]; Lelems "bi" 3 (Some 2%nat) (Dlist 0 2 3); Lbocos ["wall"%string]; Lmark "wall" (Some Gbdnode) (Dlist 0 1 2); Lparams], Ok tt).
Proof. vm_compute. reflexivity. Qed.
(** A mark without any number stops the printing. *)
Example C79_case_empty : snd (printinfo Z.leb (fun l => fold_right Z.add 0 l / zlen l)
  (with_bocos ex_info [("wall"%string, Mark Z "wall" (Some Gbdnode) None (Some (ILlist [])) None)])) = Err ValueError.
Proof. vm_compute. reflexivity. Qed.

Print Assumptions C79_success.
Print Assumptions C79_failed.
Print Assumptions C79_content.
Print Assumptions C79_ic3.
Print Assumptions C79_formats.
Print Assumptions C79_cgns.
