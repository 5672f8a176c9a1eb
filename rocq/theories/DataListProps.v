(** * Lists of data sets (C77). *)
From Coq Require Import ZArith List Bool String Lia.
From Verif Require Import Py PyFacts Data DataList.
Local Open Scope Z_scope.

Lemma dlseqb_eq a b : String.eqb a b = true <-> a = b. Proof. apply String.eqb_eq. Qed.

Section C77.
  Context {V : Type} (truth : V -> bool).
  (** The caller adds one of its dictionaries to the list, or changes one of them. *)
  Inductive dlop : Type := DLadd (i : Z) (time : option V) | DLput (i : Z) (k : string) (v : V).
  Definition dlstep (hd : heap V * dlist) (o : dlop) : heap V * dlist :=
    match o with DLadd i t => add_datalist truth i t hd | DLput i k v => (put i k v (fst hd), snd hd) end.
  Definition dlrun (l : list dlop) (hd : heap V * dlist) : heap V * dlist := fold_left dlstep l hd.

  (** What is seen of an entry: the last thing written under a name in its object. *)
  Definition added (o : dlop) : list Z := match o with DLadd i _ => [i] | _ => [] end.
  Definition written (o : dlop) : list (Z * string * V) :=
    match o with
    | DLadd i (Some t) => if truth t then [(i, "time"%string, t)] else []
    | DLadd i None => []
    | DLput i k v => [(i, k, v)]
    end.
  Inductive last_write (i : Z) (k : string) : list (Z * string * V) -> option V -> Prop :=
  | LW_last l1 l2 v : (forall w, ~ In (i, k, w) l2) -> last_write i k (l1 ++ (i, k, v) :: l2) (Some v)
  | LW_none l : (forall w, ~ In (i, k, w) l) -> last_write i k l None.

  (** A list is made with one of three kinds of time and three places of values, and one value per cell unless they
      are spectral; it is empty. *)
  Theorem C77_new n xrep ndof trep :
    let accepted := In trep ["instant"; "timeevol"; "pod"]%string /\ In xrep ["nodal"; "cellaverage"; "spectralcell"]%string /\ (ndof = 1 \/ xrep = "spectralcell"%string) in
    (accepted -> new_dlist n xrep ndof trep = Ok (DList n xrep trep ndof [])) /\ (~ accepted -> new_dlist n xrep ndof trep = Err AssertionError).
  Proof.
    intros accepted.
    assert (M : forall s l, smem s l = true <-> In s l) by (intros s l; unfold smem; rewrite existsb_exists; split; [intros (x & I & E); apply String.eqb_eq in E; now subst|intros I; exists s; split; [exact I|apply String.eqb_refl]]).
    unfold accepted, new_dlist. rewrite <- (M trep), <- (M xrep). change ["instant"; "timeevol"; "pod"]%string with dl_treps. change ["nodal"; "cellaverage"; "spectralcell"]%string with dl_xreps.
    destruct (smem trep dl_treps); cbn [negb]; [|split; [intros (H & _); discriminate|reflexivity]].
    destruct (smem xrep dl_xreps); cbn [negb]; [|split; [intros (_ & H & _); discriminate|reflexivity]].
    destruct (Z.eqb_spec ndof 1) as [->|N]; cbn [orb negb]; [split; [reflexivity|tauto]|].
    destruct (String.eqb_spec xrep "spectralcell") as [->|N']; cbn [negb]; split; try reflexivity; tauto.
  Qed.
  (** The list keeps one entry per call, in order, repeated if the same object is added again, and however many
      were announced. *)
  Theorem C77_entries n xrep ndof trep d l h : new_dlist n xrep ndof trep = Ok d ->
    dl_entries (snd (dlrun l (h, d))) = flat_map added l /\ dl_ndataset (snd (dlrun l (h, d))) = n.
  Proof.
    intros N. assert (E0 : dl_entries d = [] /\ dl_ndataset d = n).
    { unfold new_dlist in N. repeat (match type of N with context [if ?b then _ else _] => destruct b end; try discriminate N).
      injection N as <-. auto. }
    clear N. assert (G : forall l hd, dl_entries (snd (dlrun l hd)) = (dl_entries (snd hd) ++ flat_map added l)%list
                                      /\ dl_ndataset (snd (dlrun l hd)) = dl_ndataset (snd hd)).
    { clear. induction l as [| o l IH]; intros hd; cbn; [rewrite app_nil_r; auto |].
      destruct (IH (dlstep hd o)) as (A & B). unfold dlrun in *. rewrite A, B.
      destruct o as [i t |]; destruct hd as (h, d); cbn; [rewrite <- app_assoc |]; auto. }
    destruct (G l (h, d)) as (A & B). rewrite A, B. cbn. destruct E0 as (-> & ->). auto.
  Qed.

  Definition wput (h : heap V) (w : Z * string * V) : heap V := let '(i, k, v) := w in put i k v h.
  Lemma dlrun_heap l : forall hd, fst (dlrun l hd) = fold_left wput (flat_map written l) (fst hd).
  Proof.
    induction l as [| o l IH]; intros (h, d); cbn; [reflexivity |]. unfold dlrun in IH. rewrite IH, fold_left_app. f_equal.
    destruct o as [i [t |] | i k v]; cbn; try reflexivity. destruct (truth t); reflexivity.
  Qed.
  Lemma wput_get h i k w : dget String.eqb k (wput h w i) = let '(j, k', v) := w in if (i =? j) && String.eqb k k' then Some v else dget String.eqb k (h i).
  Proof.
    destruct w as ((j, k'), v). cbn. unfold put. destruct (Z.eqb_spec i j) as [-> |]; [| reflexivity].
    destruct (String.eqb k k') eqn:E; cbn.
    - apply String.eqb_eq in E. subst. apply dget_dset_eq. apply dlseqb_eq.
    - apply dget_dset_neq; [apply dlseqb_eq |]. intros ->. rewrite String.eqb_refl in E. discriminate.
  Qed.
  Lemma wputs_none l : forall h i k, (forall w, ~ In (i, k, w) l) -> dget String.eqb k (fold_left wput l h i) = dget String.eqb k (h i).
  Proof.
    induction l as [| w l IH]; intros h i k N; [reflexivity |]. cbn. rewrite IH by (intros v I; apply (N v); right; exact I).
    rewrite wput_get. destruct w as ((j, k'), v). destruct ((i =? j) && String.eqb k k') eqn:E; [| reflexivity].
    apply andb_prop in E. destruct E as (E1 & E2). apply Z.eqb_eq in E1. apply String.eqb_eq in E2. subst.
    exfalso. apply (N v). left. reflexivity.
  Qed.

  (** What an object holds in the end under a name, 'time' included, is what was last written there, by the caller
      or by any call that added this object with a time that is not zero. *)
  Theorem C77_content l h d i k r : last_write i k (flat_map written l) r ->
    dget String.eqb k (fst (dlrun l (h, d)) i) = match r with Some v => Some v | None => dget String.eqb k (h i) end.
  Proof.
    intros W. rewrite dlrun_heap. cbn [fst]. inversion W as [l1 l2 v N E | l0 N E]; subst.
    - rewrite fold_left_app. cbn [fold_left]. rewrite wputs_none by exact N. rewrite wput_get, Z.eqb_refl, String.eqb_refl. reflexivity.
    - apply wputs_none. exact N.
  Qed.
  (** There is always such a last write or none. *)
  Theorem C77_defined l i k : exists r, last_write i k l r.
  Proof.
    induction l as [| w l IH] using rev_ind; [exists None; constructor; intros ? [] |].
    destruct w as ((j, k'), v). destruct ((i =? j) && String.eqb k k') eqn:E.
    - apply andb_prop in E. destruct E as (E1 & E2). apply Z.eqb_eq in E1. apply String.eqb_eq in E2. subst.
      exists (Some v). constructor. intros ? [].
    - assert (NE : forall w, (j, k', v) <> (i, k, w)).
      { intros w [= -> -> _]. rewrite Z.eqb_refl, String.eqb_refl in E. discriminate. }
      destruct IH as (r & IH). exists r. inversion IH as [l1 l2 u N Q | l0 N Q]; subst.
      + rewrite <- app_assoc. cbn [List.app]. constructor. intros w I. apply in_app_iff in I.
        destruct I as [I | [I |[]]]; [apply (N w I) | apply (NE w I)].
      + constructor. intros w I. apply in_app_iff in I. destruct I as [I | [I |[]]]; [apply (N w I) | apply (NE w I)].
  Qed.

  (** With a dictionary of its own for each call, each entry has its own time; a time of zero is lost. *)
  Theorem C77_own (h : heap V) d (l : list (Z * option V)) i t :
    NoDup (List.map fst l) -> In (i, t) l ->
    let '(h', _) := dlrun (List.map (fun '(i, t) => DLadd i t) l) (h, d) in
    dget String.eqb "time" (h' i) = match t with
                                    | Some v => if truth v then Some v else dget String.eqb "time" (h i)
                                    | None => dget String.eqb "time" (h i)
                                    end
    /\ forall k, k <> "time"%string -> dget String.eqb k (h' i) = dget String.eqb k (h i).
  Proof.
    intros N I. destruct (dlrun _ (h, d)) as (h', d') eqn:E. assert (Eh : h' = fst (dlrun (List.map (fun '(i, t) => DLadd i t) l) (h, d))) by now rewrite E.
    clear E. assert (Wt : forall l k j v, In (j, k, v) (flat_map written (List.map (fun '(i, t) => DLadd i t) l)) -> k = "time"%string /\ In j (List.map fst l)).
    { clear. induction l as [| (i, t) l IH]; cbn; [intros ? ? ? [] |]. intros k j v I. apply in_app_iff in I. destruct I as [I | I].
      - destruct t as [t |]; [| destruct I]. destruct (truth t); [| destruct I]. destruct I as [I | []]. injection I as <- <- _. auto.
      - destruct (IH _ _ _ I). auto. }
    split.
    - apply in_split in I. destruct I as (l1 & l2 & ->). rewrite map_app in N. cbn in N. apply NoDup_remove_2 in N.
      rewrite in_app_iff in N. subst h'. rewrite map_app, <- (app_nil_r (List.map _ l1)), <- app_assoc. cbn [List.map List.app].
      set (r := match t with Some v => if truth v then Some v else None | None => None end).
      rewrite (C77_content _ h d i "time" r).
      + subst r. destruct t as [t |]; [destruct (truth t) |]; reflexivity.
      + rewrite flat_map_app. cbn [flat_map].
        assert (N2 : forall w, ~ In (i, "time"%string, w) (flat_map written (List.map (fun '(i, t) => DLadd i t) l2))) by (intros w J; apply Wt in J; tauto).
        assert (N1 : forall w, ~ In (i, "time"%string, w) (flat_map written (List.map (fun '(i, t) => DLadd i t) l1))) by (intros w J; apply Wt in J; tauto).
        subst r. destruct t as [t |]; cbn [written]; [destruct (truth t) |]; cbn [List.app].
        * constructor. exact N2.
        * constructor. intros w J. apply in_app_iff in J. destruct J as [J | J]; [apply (N1 w J) | apply (N2 w J)].
        * constructor. intros w J. apply in_app_iff in J. destruct J as [J | J]; [apply (N1 w J) | apply (N2 w J)].
    - intros k Nk. subst h'. rewrite (C77_content _ h d i k None); [reflexivity |]. constructor. intros w J. apply Wt in J. tauto.
  Qed.

  (** One object added several times: all its entries have the last time, whatever times were given before. *)
  Theorem C77_shared (h : heap V) d i (ts : list (option V)) t : truth t = true ->
    let '(h', d') := dlrun (List.map (DLadd i) (ts ++ [Some t])) (h, d) in
    dget String.eqb "time" (h' i) = Some t /\ dl_entries d' = (dl_entries d ++ List.map (fun _ => i) ts ++ [i])%list.
  Proof.
    intros T. destruct (dlrun _ (h, d)) as (h', d') eqn:E. split.
    - replace h' with (fst (dlrun (List.map (DLadd i) (ts ++ [Some t])) (h, d))) by now rewrite E.
      rewrite (C77_content _ h d i "time" (Some t)); [reflexivity |]. rewrite map_app, flat_map_app. cbn. rewrite T. cbn.
      constructor. intros ? [].
    - replace d' with (snd (dlrun (List.map (DLadd i) (ts ++ [Some t])) (h, d))) by now rewrite E. clear.
      rewrite map_app. unfold dlrun. rewrite fold_left_app. cbn. revert h d.
      induction ts as [| x ts IH]; intros h d; cbn; [reflexivity |]. rewrite IH. cbn. rewrite <- app_assoc. reflexivity.
  Qed.
End C77.
(** Nothing can be got out of a list: [dataSet] always fails, and takes 'time' out of the caller's list of names first. *)
Theorem C77_dataset filter : exists e filter', dl_dataset filter = (Err e, filter') /\
  match filter with
  | Some l => (In "time"%string l -> e = AttributeError /\ exists l1 l2, l = (l1 ++ "time"%string :: l2)%list /\ ~ In "time"%string l1 /\ filter' = Some (l1 ++ l2)%list)
              /\ (~ In "time"%string l -> filter' = filter /\ e = match l with [] => AttributeError | _ => ValueError end)
  | None => e = AttributeError /\ filter' = filter
  end.
Proof.
  assert (R : forall l, match sremove "time" l with
                        | Some l' => exists l1 l2, l = (l1 ++ "time"%string :: l2)%list /\ ~ In "time"%string l1 /\ l' = (l1 ++ l2)%list
                        | None => ~ In "time"%string l
                        end).
  { induction l as [| x l IH]; cbn [sremove]; [intros [] |]. destruct (String.eqb x "time") eqn:E.
    - apply String.eqb_eq in E. subst. exists [], l. repeat split. intros [].
    - assert (x <> "time"%string) by (intros ->; discriminate E). destruct (sremove "time" l) as [r |].
      + destruct IH as (l1 & l2 & -> & N & ->). exists (x :: l1), l2. repeat split. intros [? | ?]; auto.
      + intros [? | ?]; auto. }
  destruct filter as [[| x l] |]; cbn [dl_dataset]; [| | eauto].
  { exists AttributeError, (Some []). split; [reflexivity |]. split; [intros [] | auto]. }
  specialize (R (x :: l)). destruct (sremove "time" (x :: l)) as [r |].
  - destruct R as (l1 & l2 & E & N & ->). exists AttributeError, (Some (l1 ++ l2)%list). split; [reflexivity |]. split.
    + intros _. split; [reflexivity |]. exists l1, l2. auto.
    + intros X. exfalso. apply X. rewrite E. apply in_app_iff. right. left. reflexivity.
  - exists ValueError, (Some (x :: l)). split; [reflexivity |]. split; [intros X; contradiction | auto].
Qed.

(** ** Cases *)
Definition ex_heap : heap Z := fun i => if i =? 1 then [("p"%string, 5)] else [].
Example C77_case_shared :
  let '(h, d) := dlrun (fun t : Z => negb (t =? 0)) [DLadd 1 (Some 3); DLadd 2 (Some 0); DLadd 1 (Some 4); DLadd 1 None] (ex_heap, DList 1 "cellaverage" "instant" 1 []) in
  dl_entries d = [1; 2; 1; 1] /\ List.map h (dl_entries d) =
    [[("p"%string, 5); ("time"%string, 4)]; []; [("p"%string, 5); ("time"%string, 4)]; [("p"%string, 5); ("time"%string, 4)]].
Proof. vm_compute. auto. Qed.
Example C77_case_dataset : dl_dataset (Some ["p"; "time"]%string) = (Err AttributeError, Some ["p"%string]) /\
  dl_dataset (Some ["p"]%string) = (Err ValueError, Some ["p"%string]) /\ dl_dataset None = (Err AttributeError, None).
Proof. repeat split. Qed.
Example C77_case_new : exists d, new_dlist 10 "spectralcell" 3 "pod" = Ok d. Proof. vm_compute. eauto. Qed.

Print Assumptions C77_new.
Print Assumptions C77_entries.
Print Assumptions C77_content.
Print Assumptions C77_defined.
Print Assumptions C77_own.
Print Assumptions C77_shared.
Print Assumptions C77_dataset.
