(** * Property C51 (DataSet bookkeeping). *)
From Coq Require Import Lia List.
From Verif Require Import Py PyFacts Data.

(** The changes a user can make. *)
Inductive dop : Type :=
| DSetXrep (x : string) | DSetTrep (t : string) | DSetNdof (n : Z) | DAdd (name : string) (a : array) (time : option num).
(** One change; a failed one leaves the data set as it is (the caller may go on). *)
Definition dstep (d : dataset) (o : dop) : dataset :=
  match o with
  | DSetXrep x => snd (set_xrep x d) | DSetTrep t => snd (set_trep t d) | DSetNdof n => snd (set_ndof n d)
  | DAdd name a time => add_data name a time d
  end.
Definition dsteps (d : dataset) (l : list dop) : dataset := fold_left dstep l d.
Definition accepted (d : dataset) (o : dop) : Prop :=
  match o with DSetXrep x => is_ok (fst (set_xrep x d)) = true | DSetTrep t => is_ok (fst (set_trep t d)) = true | DSetNdof n => is_ok (fst (set_ndof n d)) = true | DAdd _ _ _ => True end.

(** ** The representations are always among the known ones, and are the last ones accepted *)
Theorem C51_reps x n t d l : new_dataset x n t = Ok d ->
  In (ds_xrep (dsteps d l)) ["nodal"; "cellaverage"; "spectralcell"]%string /\ In (ds_trep (dsteps d l)) ["instant"; "timeevol"; "spectrum"; "spectrogram"]%string.
Proof.
  assert (SM : forall s l, smem s l = true <-> In s l).
  { intros s q. unfold smem. rewrite existsb_exists. split; [intros (y & I & E); apply String.eqb_eq in E; subst; exact I | intros I; exists s; split; [exact I | apply String.eqb_refl]]. }
  intros N. assert (D0 : In (ds_xrep d) ds_xreps /\ In (ds_trep d) ds_treps).
  { unfold new_dataset, set_trep in N. destruct (smem t ds_treps) eqn:T; [| discriminate N]. cbn [bind ds_xrep ds_trep ds_ndof ds_props ds_data] in N. unfold set_xrep in N. destruct (smem x ds_xreps) eqn:X; [| discriminate N].
    cbn [bind ds_xrep ds_trep ds_ndof ds_props ds_data] in N. unfold set_ndof in N. cbn [ds_xrep ds_trep ds_ndof ds_props ds_data] in N. destruct (_ || _); [| discriminate N]. injection N as <-. cbn [ds_xrep ds_trep]. rewrite <- !SM. auto. }
  clear N. revert d D0. induction l as [| o l IH]; intros d D0; [exact D0 |]. cbn [dsteps fold_left]. apply IH.
  destruct o as [y | y | m | name a tm]; cbn [dstep].
  - unfold set_xrep. destruct (smem y ds_xreps) eqn:E; [| exact D0]. cbn [snd ds_xrep ds_trep]. rewrite SM in E. split; [exact E | apply D0].
  - unfold set_trep. destruct (smem y ds_treps) eqn:E; [| exact D0]. cbn [snd ds_xrep ds_trep]. rewrite SM in E. split; [apply D0 | exact E].
  - unfold set_ndof. destruct (_ || _); exact D0.
  - exact D0.
Qed.
Theorem C51_setters d x t n :
  (set_xrep x d = (Err AssertionError, d) /\ ~ In x ["nodal"; "cellaverage"; "spectralcell"]%string \/
   exists d', set_xrep x d = (Ok tt, d') /\ In x ["nodal"; "cellaverage"; "spectralcell"]%string /\ ds_xrep d' = x /\ ds_trep d' = ds_trep d /\ ds_ndof d' = ds_ndof d /\ ds_data d' = ds_data d /\ ds_props d' = ds_props d) /\
  (set_trep t d = (Err AssertionError, d) /\ ~ In t ["instant"; "timeevol"; "spectrum"; "spectrogram"]%string \/
   exists d', set_trep t d = (Ok tt, d') /\ In t ["instant"; "timeevol"; "spectrum"; "spectrogram"]%string /\ ds_trep d' = t /\ ds_xrep d' = ds_xrep d /\ ds_ndof d' = ds_ndof d /\ ds_data d' = ds_data d /\ ds_props d' = ds_props d) /\
  (set_ndof n d = (Err AssertionError, d) /\ n <> 1 /\ ds_xrep d <> "spectralcell"%string \/
   exists d', set_ndof n d = (Ok tt, d') /\ (n = 1 \/ ds_xrep d = "spectralcell"%string) /\ ds_ndof d' = n /\ ds_xrep d' = ds_xrep d /\ ds_trep d' = ds_trep d /\ ds_data d' = ds_data d /\ ds_props d' = ds_props d).
Proof.
  assert (SM : forall s l, smem s l = true <-> In s l).
  { intros s q. unfold smem. rewrite existsb_exists. split; [intros (y & I & E); apply String.eqb_eq in E; subst; exact I | intros I; exists s; split; [exact I | apply String.eqb_refl]]. }
  split; [| split].
  - unfold set_xrep. destruct (smem x ds_xreps) eqn:E; [right; eexists; split; [reflexivity | rewrite SM in E; auto 10] | left; split; [reflexivity | intros I; apply SM in I; unfold ds_xreps in E; congruence]].
  - unfold set_trep. destruct (smem t ds_treps) eqn:E; [right; eexists; split; [reflexivity | rewrite SM in E; auto 10] | left; split; [reflexivity | intros I; apply SM in I; unfold ds_treps in E; congruence]].
  - unfold set_ndof. destruct (n =? 1) eqn:E1; cbn [orb]; [right; eexists; split; [reflexivity | split; [left; lia | cbn; auto 10]] |]. destruct (String.eqb (ds_xrep d) "spectralcell") eqn:E2.
    + right. eexists. split; [reflexivity |]. apply String.eqb_eq in E2. cbn. auto 10.
    + left. split; [reflexivity |]. apply String.eqb_neq in E2. split; [lia | exact E2].
Qed.

(** ** A number of dofs other than 1 was set while the representation was spectral *)
Definition one_or_spectral (d : dataset) : Prop := ds_ndof d = 1 \/ ds_xrep d = "spectralcell"%string.
Lemma new_inv x n t d : new_dataset x n t = Ok d -> one_or_spectral d /\ ds_ndof d = n /\ ds_xrep d = x /\ ds_trep d = t /\ ds_data d = [] /\ ds_props d = [].
Proof.
  intros N. unfold new_dataset, set_trep in N. destruct (smem t ds_treps) eqn:T; [| discriminate N]. cbn [bind ds_xrep ds_trep ds_ndof ds_props ds_data] in N. unfold set_xrep in N. destruct (smem x ds_xreps) eqn:X; [| discriminate N].
  cbn [bind ds_xrep ds_trep ds_ndof ds_props ds_data] in N. unfold set_ndof in N. cbn [ds_xrep ds_trep ds_ndof ds_props ds_data] in N. destruct ((n =? 1) || (x =? "spectralcell")%string) eqn:E; [| discriminate N]. injection N as <-. cbn.
  split; [| auto 10]. unfold one_or_spectral. cbn. apply orb_true_iff in E. destruct E as [E | E]; [left; lia | right; apply String.eqb_eq; exact E].
Qed.
Theorem C51_ndof x n t d l : new_dataset x n t = Ok d -> ds_ndof (dsteps d l) <> 1 ->
  exists k, (k <= List.length l)%nat /\ ds_xrep (dsteps d (firstn k l)) = "spectralcell"%string /\ ds_ndof (dsteps d (firstn k l)) = ds_ndof (dsteps d l).
Proof.
  intros N. destruct (new_inv _ _ _ _ N) as (D0 & _). clear N. revert d D0. induction l as [| o l IH] using rev_ind; intros d D0 ND.
  - exists 0%nat. cbn in *. split; [lia |]. destruct D0 as [E | E]; [contradiction | auto].
  - unfold dsteps in ND. rewrite fold_left_app in ND. cbn [fold_left] in ND. fold (dsteps d l) in ND.
    assert (K : ds_ndof (dsteps d (l ++ [o])) = ds_ndof (dsteps d l) \/ ds_xrep (dsteps d (l ++ [o])) = "spectralcell"%string).
    { unfold dsteps. rewrite fold_left_app. cbn [fold_left]. fold (dsteps d l). destruct o as [y | y | m | name a tm]; cbn [dstep] in *.
      - left. unfold set_xrep. destruct (smem y ds_xreps); reflexivity.
      - left. unfold set_trep. destruct (smem y ds_treps); reflexivity.
      - unfold set_ndof in *. destruct (m =? 1) eqn:M; cbn in ND |- *; [exfalso; apply ND; lia |]. destruct (String.eqb _ _) eqn:E; [right; cbn; apply String.eqb_eq; exact E | left; reflexivity].
      - left. reflexivity. }
    destruct K as [K | K].
    + assert (ND' : ds_ndof (dsteps d l) <> 1). { rewrite <- K. unfold dsteps. rewrite fold_left_app. exact ND. }
      destruct (IH d D0 ND') as (k & LK & X & E). exists k. rewrite firstn_app. replace (k - List.length l)%nat with 0%nat by lia. cbn [firstn]. rewrite app_nil_r. rewrite app_length. split; [lia |]. split; [exact X | congruence].
    + exists (List.length (l ++ [o])). rewrite firstn_all. auto.
Qed.
(** Without changes of the spatial representation the invariant holds for ever ... *)
Theorem C51_invariant x n t d l : new_dataset x n t = Ok d -> (forall y, ~ In (DSetXrep y) l) ->
  ds_xrep (dsteps d l) = x /\ (ds_ndof (dsteps d l) = 1 \/ x = "spectralcell"%string).
Proof.
  intros N NX. destruct (new_inv _ _ _ _ N) as (D0 & _ & EX & _). clear N. unfold one_or_spectral in D0. rewrite EX in D0. revert d D0 EX. induction l as [| o l IH]; intros d D0 EX; [auto |]. cbn [dsteps fold_left].
  assert (NX' : forall y, ~ In (DSetXrep y) l) by (intros y I; apply (NX y); right; exact I). destruct o as [y | y | m | name a tm]; [exfalso; apply (NX y); left; reflexivity | | |]; apply (IH NX'); cbn [dstep].
  - unfold set_trep. destruct (smem y ds_treps); exact D0.
  - unfold set_trep. destruct (smem y ds_treps); exact EX.
  - unfold set_ndof. destruct ((m =? 1) || _) eqn:E; [| exact D0]. cbn. apply orb_true_iff in E. destruct E as [E | E]; [left; lia | right; apply String.eqb_eq in E; congruence].
  - unfold set_ndof. destruct ((m =? 1) || _); exact EX.
  - exact D0.
  - exact EX.
Qed.
(** ... and a change of the spatial representation breaks it. *)
Theorem C51_broken d n y : ds_xrep d = "spectralcell"%string -> n <> 1 -> In y ["nodal"; "cellaverage"]%string ->
  let d' := dsteps d [DSetNdof n; DSetXrep y] in ds_ndof d' = n /\ ds_xrep d' = y /\ accepted d (DSetNdof n) /\ accepted (dstep d (DSetNdof n)) (DSetXrep y) /\ ~ one_or_spectral d'.
Proof.
  intros X N I. assert (E : set_ndof n d = (Ok tt, DS (ds_trep d) (ds_xrep d) n (ds_props d) (ds_data d))). { unfold set_ndof. rewrite X. cbn [String.eqb]. destruct (n =? 1); reflexivity. }
  cbn [dsteps fold_left dstep accepted]. rewrite E. cbn [snd fst is_ok]. cbn in I. unfold one_or_spectral.
  destruct I as [<- | [<- | []]]; cbn; (split; [reflexivity |]); (split; [reflexivity |]); (split; [reflexivity |]); (split; [reflexivity |]); intros [H | H]; [contradiction | discriminate | contradiction | discriminate].
Qed.

(** ** Data and time stamp *)
Theorem C51_add name a time d :
  let d' := add_data name a time d in
  dget String.eqb name (ds_data d') = Some a /\
  (forall other, other <> name -> dget String.eqb other (ds_data d') = dget String.eqb other (ds_data d)) /\
  (dkeys (ds_data d') = if dmem String.eqb name (ds_data d) then dkeys (ds_data d) else dkeys (ds_data d) ++ [name]) /\
  (forall key, key <> "time"%string -> dget String.eqb key (ds_props d') = dget String.eqb key (ds_props d)) /\
  (dget String.eqb "time"%string (ds_props d') = match time with Some t => if num_true t then Some t else dget String.eqb "time"%string (ds_props d) | None => dget String.eqb "time"%string (ds_props d) end) /\
  ds_xrep d' = ds_xrep d /\ ds_trep d' = ds_trep d /\ ds_ndof d' = ds_ndof d.
Proof.
  cbn [add_data ds_data ds_props ds_xrep ds_trep ds_ndof]. split; [apply (dget_dset_eq _ String.eqb_eq) |]. split; [intros o H; apply (dget_dset_neq _ String.eqb_eq); congruence |].
  split; [| split; [| split; [| auto]]].
  - destruct (dmem String.eqb name (ds_data d)) eqn:M.
    + apply (dmem_in _ String.eqb_eq) in M. clear -M. induction (ds_data d) as [| (k, v) q IH]; [destruct M |]. cbn. destruct (String.eqb name k) eqn:E; [reflexivity |]. cbn. f_equal. apply IH. destruct M as [M | M]; [cbn in M; apply String.eqb_neq in E; congruence | exact M].
    + clear -M. induction (ds_data d) as [| (k, v) q IH]; [reflexivity |]. unfold dmem in M. cbn in M |- *. destruct (String.eqb name k) eqn:E; [discriminate |]. cbn. f_equal. apply IH. unfold dmem. exact M.
  - intros key H. destruct time as [t |]; [| reflexivity]. destruct (num_true t); [| reflexivity]. apply (dget_dset_neq _ String.eqb_eq). congruence.
  - destruct time as [t |]; [| reflexivity]. destruct (num_true t); [| reflexivity]. apply (dget_dset_eq _ String.eqb_eq).
Qed.
(** A time stamp equal to zero (0, 0.0 or -0.0) is dropped: the data keeps the previous stamp, or none. *)
Theorem C51_time_zero name a d t : In t [NInt 0; NFlt 0; NFlt (2 ^ 63)] -> ds_props (add_data name a (Some t) d) = ds_props d.
Proof. intros I. cbn in I. destruct I as [<- | [<- | [<- | []]]]; reflexivity. Qed.

Print Assumptions C51_reps.
Print Assumptions C51_setters.
Print Assumptions C51_ndof.
Print Assumptions C51_invariant.
Print Assumptions C51_broken.
Print Assumptions C51_add.
Print Assumptions C51_time_zero.

(** ** Concrete case *)
Definition ex_arr : array := Arr [2] true [5; 6].
Example c51_run : exists d, new_dataset "spectralcell" 3 "instant" = Ok d /\
  dsteps d [DAdd "a" ex_arr (Some (NFlt 4607182418800017408)); DAdd "b" ex_arr (Some (NInt 0)); DSetXrep "modal"; DSetXrep "nodal"; DSetNdof 4; DSetNdof 1; DAdd "a" (Arr [1] true [7]) None] =
  DS "instant" "nodal" 1 [("time", NFlt 4607182418800017408)]%string [("a", Arr [1] true [7]); ("b", ex_arr)]%string.
Proof. eexists. split; [reflexivity |]. reflexivity. Qed.
