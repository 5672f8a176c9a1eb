(** * Properties computed once (C78). *)
From Coq Require Import ZArith List Bool String Lia.
From Verif Require Import Py PyFacts Lazy.

Lemma lseqb_eq a b : String.eqb a b = true <-> a = b. Proof. apply String.eqb_eq. Qed.

Section C78.
  Context {S V : Type} (fns : string -> option (S -> body V)).

  (** The properties a function may read. *)
  Inductive asks : body V -> string -> Prop :=
  | Asks_here m k : asks (Ask m k) m
  | Asks_next m k r n : asks (k r) n -> asks (Ask m k) n.
  (** No property needs itself. *)
  Definition acyclic (rank : string -> nat) : Prop := forall n f s m, fns n = Some f -> asks (f s) m -> (rank m < rank n)%nat.

  (** What a property is worth without any cache. *)
  Inductive worth (s : S) : string -> res V -> Prop :=
  | Worth_none n : fns n = None -> worth s n (Err AttributeError)
  | Worth_fn n f r : fns n = Some f -> ends s (f s) r -> worth s n r
  with ends (s : S) : body V -> res V -> Prop :=
  | Ends_ret r : ends s (Ret r) r
  | Ends_ask m k r r' : worth s m r -> ends s (k r) r' -> ends s (Ask m k) r'.

  Definition run (n : nat) (s : S) : body V -> caches V -> res V * caches V * list string :=
    fix run b c := match b with
                   | Ret r => (r, c, [])
                   | Ask m k => let '(r, c, l) := get fns n m s c in let '(r', c, l') := run (k r) c in (r', c, l ++ l')
                   end.
  Lemma get_eq n name s c : get fns (Datatypes.S n) name s c =
    match dget String.eqb name c with
    | Some v => (Ok v, c, [])
    | None => match fns name with
              | None => (Err AttributeError, c, [])
              | Some f => let '(r, c, l) := run n s (f s) c in
                          match r with Ok v => (Ok v, dset String.eqb name v c, l ++ [name]) | Err e => (Err e, c, l) end
              end
    end.
  Proof. reflexivity. Qed.

  (** What a call does to the caches: it adds those of the listed properties, which had none; the rank of
      what it adds is bounded. *)
  Record grows (rank : string -> nat) (top : nat) (c c' : caches V) (l : list string) : Prop := {
    gr_keep : forall k v, dget String.eqb k c = Some v -> dget String.eqb k c' = Some v;
    gr_new : forall k, In k l <-> dget String.eqb k c = None /\ dget String.eqb k c' <> None;
    gr_once : NoDup l;
    gr_rank : forall k, In k l -> (rank k <= top)%nat }.
  Lemma grows_refl rank top c : grows rank top c c [].
  Proof. split; auto; [intros k; split; [intros [] | intros (A & B); contradiction] | constructor | intros k []]. Qed.
  Lemma grows_trans rank top c1 c2 c3 l1 l2 : grows rank top c1 c2 l1 -> grows rank top c2 c3 l2 -> grows rank top c1 c3 (l1 ++ l2).
  Proof.
    intros [K1 N1 O1 R1] [K2 N2 O2 R2]. split.
    - auto.
    - intros k. rewrite in_app_iff, N1, N2. split.
      + intros [(A & B) | (A & B)].
        * split; [exact A |]. destruct (dget String.eqb k c2) as [v |] eqn:E; [| congruence]. rewrite (K2 _ _ E). discriminate.
        * split; [| exact B]. destruct (dget String.eqb k c1) as [v |] eqn:E; [| reflexivity]. rewrite (K1 _ _ E) in A. discriminate.
      + intros (A & B). destruct (dget String.eqb k c2) as [v |] eqn:E; [left; split; [exact A | discriminate] | right; auto].
    - apply NoDup_app. split; [exact O1 |]. split; [exact O2 |]. intros k I1 I2. apply N1 in I1. apply N2 in I2. tauto.
    - intros k I. apply in_app_iff in I. destruct I; auto.
  Qed.
  Lemma grows_weaken rank t t' c c' l : (t <= t')%nat -> grows rank t c c' l -> grows rank t' c c' l.
  Proof. intros L [K N O R]. split; auto. intros k I. specialize (R k I). lia. Qed.

  Lemma get_grows rank (A : acyclic rank) fuel : forall name s c r c' l, get fns fuel name s c = (r, c', l) ->
    grows rank (rank name) c c' l /\ (forall v, r = Ok v -> dget String.eqb name c' = Some v)
    /\ (forall e, r = Err e -> dget String.eqb name c' = None \/ fuel = O).
  Proof.
    induction fuel as [| n IH]; intros name s c r c' l E.
    { cbn in E. injection E as <- <- <-. split; [apply grows_refl |]. split; [discriminate | intros; right; reflexivity]. }
    rewrite get_eq in E. destruct (dget String.eqb name c) as [v |] eqn:D.
    { injection E as <- <- <-. split; [apply grows_refl |]. split; [intros w [= <-]; exact D | discriminate]. }
    destruct (fns name) as [f |] eqn:F; [| injection E as <- <- <-; split; [apply grows_refl |]; split; [discriminate | intros; left; exact D]].
    assert (Run : forall b c1 r1 c1' l1, (forall m, asks b m -> (rank m < rank name)%nat) -> run n s b c1 = (r1, c1', l1) ->
        dget String.eqb name c1 = None -> grows rank (rank name) c1 c1' l1 /\ dget String.eqb name c1' = None).
    { induction b as [r0 | m k IHb]; intros c1 r1 c1' l1 B E1 D1; cbn in E1.
      - injection E1 as <- <- <-. split; [apply grows_refl | exact D1].
      - destruct (get fns n m s c1) as ((r2, c2), l2) eqn:G. fold (run n s) in E1.
        destruct (run n s (k r2) c2) as ((r3, c3), l3) eqn:G'. injection E1 as <- <- <-.
        assert (Lm : (rank m < rank name)%nat) by (apply B; constructor).
        destruct (IH _ _ _ _ _ _ G) as (G1 & _ & _).
        assert (D2 : dget String.eqb name c2 = None).
        { destruct (dget String.eqb name c2) as [w |] eqn:D2; [| reflexivity]. exfalso.
          assert (I : In name l2) by (apply (gr_new _ _ _ _ _ G1); split; [exact D1 | congruence]).
          apply (gr_rank _ _ _ _ _ G1) in I. lia. }
        destruct (IHb r2 c2 r3 c3 l3) as (G3 & D3); [intros m' I; apply B; econstructor 2; exact I | exact G' | exact D2 |].
        split; [| exact D3]. eapply grows_trans; [| exact G3]. eapply grows_weaken; [| exact G1]. lia. }
    destruct (run n s (f s) c) as ((r1, c1), l1) eqn:G.
    destruct (Run (f s) c r1 c1 l1) as (G1 & D1); [intros m I; eapply A; eauto | exact G | exact D |].
    destruct r1 as [v | e]; injection E as <- <- <-.
    - split; [| split; [intros w [= <-]; apply dget_dset_eq; apply lseqb_eq | discriminate]].
      eapply grows_trans; [exact G1 |]. split.
      + intros k w K. rewrite dget_dset_neq; [exact K | apply lseqb_eq |]. intros ->. congruence.
      + intros k. split.
        * intros [<- | []]. split; [exact D1 |]. rewrite dget_dset_eq by apply lseqb_eq. discriminate.
        * intros (K1 & K2). destruct (string_dec k name) as [-> | N]; [left; reflexivity |].
          rewrite dget_dset_neq in K2 by (apply lseqb_eq || exact N). contradiction.
      + repeat constructor; intros [].
      + intros k [<- | []]. lia.
    - split; [exact G1 |]. split; [discriminate | intros; left; exact D1].
  Qed.

  Lemma do_acts_grows rank (A : acyclic rank) fuel l : forall s c s' c' k, do_acts fns fuel l s c = (s', c', k) ->
    exists top, grows rank top c c' k.
  Proof.
    induction l as [| a l IH]; intros s c s' c' k E; cbn in E.
    { injection E as <- <- <-. exists O. apply grows_refl. }
    destruct (do_act fns fuel a s c) as ((s1, c1), k1) eqn:E1. destruct (do_acts fns fuel l s1 c1) as ((s2, c2), k2) eqn:E2.
    injection E as <- <- <-. destruct (IH _ _ _ _ _ E2) as (t2 & G2).
    assert (G1 : exists t1, grows rank t1 c c1 k1).
    { destruct a as [n | f]; cbn in E1.
      - destruct (get fns fuel n s c) as ((r, c0), l0) eqn:G. injection E1 as <- <- <-. exists (rank n). eapply get_grows; eauto.
      - injection E1 as <- <- <-. exists O. apply grows_refl. }
    destruct G1 as (t1 & G1). exists (Nat.max t1 t2).
    eapply grows_trans; eapply grows_weaken; [| exact G1 | | exact G2]; lia.
  Qed.

  (** Whatever is done with an object, the function of a property returns at most once. *)
  Theorem C78_once rank (A : acyclic rank) fuel l s s' c' calls :
    do_acts fns fuel l s [] = (s', c', calls) -> NoDup calls.
  Proof. intros E. destruct (do_acts_grows rank A _ _ _ _ _ _ _ E) as (t & G). apply (gr_once _ _ _ _ _ G). Qed.

  (** The first value obtained is the value forever, whatever the attributes become. *)
  Theorem C78_same rank (A : acyclic rank) fuel fuel' n s c v c1 k1 l s2 c2 k2 :
    get fns fuel n s c = (Ok v, c1, k1) -> do_acts fns fuel' l s c1 = (s2, c2, k2) ->
    forall fuel'', fuel'' <> O -> get fns fuel'' n s2 c2 = (Ok v, c2, []) /\ ~ In n k2.
  Proof.
    intros E E2 [| fuel''] N; [contradiction |]. destruct (get_grows rank A _ _ _ _ _ _ _ E) as (_ & K & _). specialize (K v eq_refl).
    destruct (do_acts_grows rank A _ _ _ _ _ _ _ E2) as (t & G). split.
    - rewrite get_eq, (gr_keep _ _ _ _ _ G _ _ K). reflexivity.
    - intros I. apply (gr_new _ _ _ _ _ G) in I. destruct I as (I & _). congruence.
  Qed.

  (** A failure leaves nothing behind under this name: the next read computes again. *)
  Theorem C78_retry rank (A : acyclic rank) fuel n s c e c1 k1 :
    get fns fuel n s c = (Err e, c1, k1) -> fuel <> O -> dget String.eqb n c1 = None /\ ~ In n k1.
  Proof.
    intros E N. destruct (get_grows rank A _ _ _ _ _ _ _ E) as (G & _ & K).
    destruct (K e eq_refl) as [D | D]; [| contradiction]. split; [exact D |].
    intros I. apply (gr_new _ _ _ _ _ G) in I. tauto.
  Qed.

  (** As long as the attributes do not change, a property is worth what it is worth without a cache. *)
  Definition faithful (s : S) (c : caches V) : Prop := forall n v, dget String.eqb n c = Some v -> worth s n (Ok v).
  Lemma get_worth rank (A : acyclic rank) fuel : forall name s c r c' l, (rank name < fuel)%nat -> faithful s c ->
    get fns fuel name s c = (r, c', l) -> worth s name r /\ faithful s c'.
  Proof.
    induction fuel as [| n IH]; intros name s c r c' l L Fc E; [lia |].
    rewrite get_eq in E. destruct (dget String.eqb name c) as [v |] eqn:D.
    { injection E as <- <- <-. split; [apply Fc; exact D | exact Fc]. }
    destruct (fns name) as [f |] eqn:F; [| injection E as <- <- <-; split; [constructor; exact F | exact Fc]].
    assert (Run : forall b c1 r1 c1' l1, (forall m, asks b m -> (rank m < rank name)%nat) -> faithful s c1 ->
        run n s b c1 = (r1, c1', l1) -> ends s b r1 /\ faithful s c1').
    { induction b as [r0 | m k IHb]; intros c1 r1 c1' l1 B F1 E1; cbn in E1.
      - injection E1 as <- <- <-. split; [constructor | exact F1].
      - destruct (get fns n m s c1) as ((r2, c2), l2) eqn:G. fold (run n s) in E1.
        destruct (run n s (k r2) c2) as ((r3, c3), l3) eqn:G'. injection E1 as <- <- <-.
        assert (Lm : (rank m < rank name)%nat) by (apply B; constructor).
        destruct (IH m s c1 r2 c2 l2) as (W & F2); [lia | exact F1 | exact G |].
        destruct (IHb r2 c2 r3 c3 l3) as (E3 & F3); [intros m' I; apply B; econstructor 2; exact I | exact F2 | exact G' |].
        split; [econstructor; eauto | exact F3]. }
    destruct (run n s (f s) c) as ((r1, c1), l1) eqn:G.
    destruct (Run (f s) c r1 c1 l1) as (W & F1); [intros m I; eapply A; eauto | exact Fc | exact G |].
    destruct r1 as [v | e]; injection E as <- <- <-; (split; [econstructor 2; eauto |]); [| exact F1].
    intros k w K. destruct (string_dec k name) as [-> | N].
    - rewrite dget_dset_eq in K by apply lseqb_eq. injection K as <-. econstructor 2; eauto.
    - rewrite dget_dset_neq in K by (apply lseqb_eq || exact N). apply F1. exact K.
  Qed.
  Theorem C78_unchanged rank (A : acyclic rank) fuel names s n r c' k :
    (rank n < fuel)%nat -> Forall (fun m => (rank m < fuel)%nat) names ->
    (let '(s1, c1, _) := do_acts fns fuel (List.map Read names) s [] in get fns fuel n s1 c1) = (r, c', k) -> worth s n r.
  Proof.
    intros L B. assert (P : forall names c, faithful s c -> Forall (fun m => (rank m < fuel)%nat) names ->
      let '(s1, c1, _) := do_acts fns fuel (List.map Read names) s c in s1 = s /\ faithful s c1).
    { clear names B. induction names as [| m names IH]; intros c Fc B; cbn; [split; [reflexivity | exact Fc] |]. inversion B as [| ? ? Bm Bn]; subst.
      destruct (get fns fuel m s c) as ((r0, c0), l0) eqn:G. destruct (get_worth rank A _ _ _ _ _ _ _ Bm Fc G) as (_ & F0).
      specialize (IH c0 F0 Bn). destruct (do_acts fns fuel (List.map Read names) s c0) as ((s1, c1), k1). exact IH. }
    specialize (P names [] ltac:(intros ? ? Q; discriminate Q) B).
    destruct (do_acts fns fuel (List.map Read names) s []) as ((s1, c1), k1). destruct P as (-> & F1). intros E.
    eapply get_worth; eauto.
  Qed.
  (** The attributes are what the changes made of them, in their order; reading a property does not change them. *)
  Theorem C78_attributes fuel l s c :
    fst (fst (do_acts fns fuel l s c)) = fold_left (fun s a => match a with Change f => f s | Read _ => s end) l s.
  Proof.
    revert s c. induction l as [| a l IH]; intros s c; [reflexivity |]. cbn. destruct a as [n | f]; cbn.
    - destruct (get fns fuel n s c) as ((r, c1), k1). specialize (IH s c1). destruct (do_acts fns fuel l s c1) as ((s2, c2), k2). exact IH.
    - specialize (IH (f s) c). destruct (do_acts fns fuel l (f s) c) as ((s2, c2), k2). exact IH.
  Qed.
  (** A property read for the first time after changes, no property having been read before, is worth what the changed
      attributes make it. *)
  Theorem C78_late rank (A : acyclic rank) fuel changes s n r c' k : (rank n < fuel)%nat ->
    (let '(s1, c1, _) := do_acts fns fuel (List.map Change changes) s [] in get fns fuel n s1 c1) = (r, c', k) ->
    worth (fold_left (fun s f => f s) changes s) n r.
  Proof.
    intros L. assert (P : forall s, do_acts fns fuel (List.map Change changes) s [] = (fold_left (fun s f => f s) changes s, [], [])).
    { induction changes as [| f l IH]; intros s0; [reflexivity |]. cbn. rewrite IH. reflexivity. }
    rewrite P. intros E. eapply get_worth; eauto. intros m v D. discriminate D.
  Qed.
End C78.

(** ** [poly1d]. *)
Section C78poly.
  Context {R M W X : Type} (vdm_of : R -> M) (inv : M -> option M) (mul : M -> X -> W).
  Notation fns := (poly_fns vdm_of inv).
  Definition poly_rank (n : string) : nat := if String.eqb n "invvdm" then 1 else 0.
  Lemma poly_acyclic : acyclic fns poly_rank.
  Proof.
    intros n f s m F I. unfold poly_fns in F. destruct (String.eqb n "vdm") eqn:E1; [injection F as <-; inversion I |].
    destruct (String.eqb n "invvdm") eqn:E2; [| discriminate]. injection F as <-. unfold poly_rank. rewrite E2.
    inversion I as [? ? | ? ? r ? I']; subst; [cbn; lia |]. destruct r as [v |]; [destruct (inv v) |]; inversion I'.
  Qed.

  (** Once the Vandermonde matrix has been read with the roots [r0], directly or by asking for weights, all
      weights are those of the roots [r0], and all fail if that matrix has no inverse, whatever roots are set
      afterwards. *)
  Theorem C78_poly fuel0 fuel fuel' first r0 c0 l r2 c2 k2 x :
    (first = "vdm" \/ first = "invvdm")%string -> (2 <= fuel0)%nat -> (2 <= fuel)%nat -> (2 <= fuel')%nat ->
    (let '(_, c, _) := get fns fuel0 first r0 [] in c) = c0 ->
    do_acts fns fuel l r0 c0 = (r2, c2, k2) ->
    fst (weights vdm_of inv mul fuel' x r2 c2) = match inv (vdm_of r0) with Some m => Ok (mul m x) | None => Err ValueError end.
  Proof.
    intros F L0 L L' E0 E.
    assert (K0 : dget String.eqb "vdm" c0 = Some (vdm_of r0) /\
                 (forall m, dget String.eqb "invvdm" c0 = Some m -> inv (vdm_of r0) = Some m)).
    { destruct fuel0 as [| [| n]]; try lia. destruct F as [-> | ->]; cbn in E0.
      - subst c0. cbn. split; [reflexivity | discriminate].
      - destruct (inv (vdm_of r0)) as [m |]; subst c0; cbn; (split; [reflexivity | intros ? Q; now inversion Q]). }
    assert (K2 : dget String.eqb "vdm" c2 = Some (vdm_of r0) /\
                 (forall m, dget String.eqb "invvdm" c2 = Some m -> inv (vdm_of r0) = Some m)).
    { clear F E0 L0 L'. revert r0 c0 K0 E. 
      assert (G : forall v0 l r c r' c' k, dget String.eqb "vdm" c = Some v0 /\ (forall m, dget String.eqb "invvdm" c = Some m -> inv v0 = Some m) ->
         do_acts fns fuel l r c = (r', c', k) -> dget String.eqb "vdm" c' = Some v0 /\ (forall m, dget String.eqb "invvdm" c' = Some m -> inv v0 = Some m)).
      { intros v0. clear l k2. induction l as [| a l IH]; intros r c r' c' k K E; cbn in E; [injection E as _ <- _; exact K |].
        destruct (do_act fns fuel a r c) as ((s1, c1), k1) eqn:E1. destruct (do_acts fns fuel l s1 c1) as ((s2, c3), k3) eqn:E2.
        injection E as _ <- _. eapply IH; [| exact E2]. clear IH E2. destruct a as [n | f]; cbn in E1; [| injection E1 as _ <- _; exact K].
        destruct (get fns fuel n r c) as ((v, cc), ll) eqn:G. injection E1 as _ <- _.
        destruct fuel as [| [| fu]]; try lia. rewrite get_eq in G. destruct K as (K1 & K2).
        destruct (dget String.eqb n c) as [w |] eqn:D; [injection G as _ <- _; auto |].
        unfold poly_fns in G at 1. destruct (String.eqb n "vdm") eqn:En.
        { apply String.eqb_eq in En. subst n. congruence. }
        destruct (String.eqb n "invvdm") eqn:En2; [| injection G as _ <- _; auto].
        apply String.eqb_eq in En2. subst n. cbn [run] in G. rewrite get_eq, K1 in G.
        destruct (inv v0) as [m |] eqn:I; cbn in G; injection G as _ <- _; [| auto].
        rewrite dget_dset_neq by (apply lseqb_eq || discriminate). split; [exact K1 |].
        intros m'. rewrite dget_dset_eq by apply lseqb_eq. intros [= <-]. reflexivity. }
      intros r0 c0 K0 E. eapply G; eauto. }
    destruct K2 as (K1 & K2). destruct fuel' as [| [| n]]; try lia. unfold weights. rewrite get_eq.
    destruct (dget String.eqb "invvdm" c2) as [m |] eqn:D; [rewrite (K2 m eq_refl); reflexivity |].
    unfold poly_fns at 1. cbn [String.eqb Ascii.eqb Bool.eqb]. cbn [run]. rewrite get_eq, K1.
    destruct (inv (vdm_of r0)) as [m |]; reflexivity.
  Qed.
End C78poly.

(** ** Cases: roots are numbers, the matrix of [r] is [r] and has an inverse unless it is 0. *)
Definition toy_inv (m : Z) : option Z := if (m =? 0)%Z then None else Some (-m)%Z.
Notation toy := (poly_fns (fun r : Z => r) toy_inv).
Example C78_case_same :
  do_acts toy 5 [Read "invvdm"; Change (fun _ => 7%Z); Read "vdm"; Read "invvdm"] 3%Z [] =
  (7%Z, [("vdm"%string, 3%Z); ("invvdm"%string, (-3)%Z)], ["vdm"%string; "invvdm"%string]).
Proof. reflexivity. Qed.
(** After a failure, correcting the roots does not help. *)
Example C78_case_fail :
  (let '(r, c, _) := do_acts toy 5 [Read "invvdm"; Change (fun _ => 7%Z)] 0%Z [] in fst (weights (fun r : Z => r) toy_inv Z.mul 5 2%Z r c)) = Err ValueError
  /\ fst (weights (fun r : Z => r) toy_inv Z.mul 5 2%Z 7%Z []) = Ok (-14)%Z.
Proof. split; reflexivity. Qed.
(** A function that catches its own recursion is not covered: it would return twice. *)
Definition loop_fns (n : string) : option (Z -> body Z) :=
  Some (fun s => Ask n (fun r => match r with Ok v => Ret (Ok (v + 1)%Z) | Err _ => Ret (Ok s) end)).
Example C78_case_loop : get loop_fns 3 "a" 5%Z [] = (Ok 7%Z, [("a"%string, 7%Z)], ["a"%string; "a"%string; "a"%string]).
Proof. reflexivity. Qed.

Print Assumptions C78_once.
Print Assumptions C78_same.
Print Assumptions C78_retry.
Print Assumptions C78_unchanged.
Print Assumptions C78_poly.
Print Assumptions C78_attributes.
Print Assumptions C78_late.
