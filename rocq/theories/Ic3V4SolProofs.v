(** * Solutions in the HDF5 files of IC3. *)
From Coq Require Import ZArith List Bool String Ascii Lia Permutation.
From Verif Require Import Py PyFacts Conn ConnProofs Mesh Data Ic3Bytes Ic3 Ic3HeaderSpec Ic3FileSpec Ic3RoundSpec Ic3MeshProofs Ic3FileThm Ic3WriteProofs Ic3V4 Ic3V4Spec Ic3V4Proofs.

(** ** Names *)
Lemma prefix_iff x : forall s, String.prefix x s = true <-> exists b, s = (x ++ b)%string.
Proof.
  induction x as [| c x IH]; intros s; [split; [exists s; reflexivity | destruct s; reflexivity] |].
  destruct s as [| d s]; cbn [String.prefix append].
  - split; [discriminate | intros (b & E); discriminate].
  - destruct (Ascii.ascii_dec c d) as [-> | N].
    + rewrite IH. split; intros (b & E); exists b; congruence.
    + split; [discriminate |]. intros (b & E). congruence.
Qed.
Lemma contains_iff x : forall s, contains x s = true <-> exists a b, s = (a ++ x ++ b)%string.
Proof.
  induction s as [| c s IH]; cbn [contains].
  - rewrite orb_false_r, prefix_iff. split; [intros (b & E); exists EmptyString, b; exact E |].
    intros (a & b & E). destruct a; [exists b; exact E | discriminate].
  - rewrite orb_true_iff, prefix_iff, IH. split.
    + intros [(b & E) | (a & b & E)]; [exists EmptyString, b; exact E | exists (String c a), b; cbn; congruence].
    + intros (a & b & E). destruct a as [| d a]; [left; exists b; exact E |]. right. exists a, b. cbn in E. congruence.
Qed.
Lemma is_stat_iff s : is_stat s = true <-> stat_name s.
Proof.
  unfold is_stat, stat_name. rewrite existsb_exists. split.
  - intros (t & I & C). apply contains_iff in C. destruct C as (a & b & E). exists a, b, t. auto.
  - intros (a & b & t & I & E). exists t. split; [exact I |]. apply contains_iff. eauto.
Qed.
Lemma substring_split : forall n s, (n <= String.length s)%nat -> s = (substring 0 n s ++ substring n (String.length s - n) s)%string.
Proof.
  induction n as [| n IH]; intros s L.
  - rewrite Nat.sub_0_r. replace (substring 0 0 s) with EmptyString by (destruct s; reflexivity). cbn [append]. symmetry. apply substring_all. lia.
  - destruct s as [| c s]; [cbn in L; lia |]. cbn [String.length] in L. cbn [substring append String.length Nat.sub]. f_equal. apply IH. lia.
Qed.
Lemma length_append a b : String.length (a ++ b)%string = (String.length a + String.length b)%nat.
Proof. induction a as [| c a IH]; [reflexivity |]. cbn. rewrite IH. reflexivity. Qed.
Lemma substring_tail a x : substring (String.length a) (String.length x) (a ++ x)%string = x.
Proof. induction a as [| c a IH]; [apply substring_all; cbn; lia | exact IH]. Qed.
Lemma ends_with_iff x s : ends_with x s = true <-> exists a, s = (a ++ x)%string.
Proof.
  unfold ends_with. rewrite andb_true_iff, Nat.leb_le, String.eqb_eq. split.
  - intros (L & E). exists (substring 0 (String.length s - String.length x) s).
    rewrite <- E at 2. rewrite (substring_split (String.length s - String.length x) s) at 1 by lia. do 2 f_equal. lia.
  - intros (a & ->). rewrite length_append. split; [lia |]. replace (String.length a + String.length x - String.length x)%nat with (String.length a) by lia.
    apply substring_tail.
Qed.
Lemma ends_wgt s : ends_with "_wgt" s = true <-> weight_name s.
Proof. apply ends_with_iff. Qed.

Lemma low_up_low c : lower_char (upper_char (lower_char c)) = lower_char c.
Proof. destruct c as [[] [] [] [] [] [] [] []]; reflexivity. Qed.
Lemma up_low c : upper_char (lower_char c) = upper_char c.
Proof. destruct c as [[] [] [] [] [] [] [] []]; reflexivity. Qed.
Lemma lower_upper_lower s : lower (upper (lower s)) = lower s.
Proof. unfold lower, upper. induction s as [| c s IH]; [reflexivity |]. cbn. rewrite low_up_low, IH. reflexivity. Qed.
Lemma upper_lower s : upper (lower s) = upper s.
Proof. unfold lower, upper. induction s as [| c s IH]; [reflexivity |]. cbn. rewrite up_low, IH. reflexivity. Qed.
Lemma upper_app a b : upper (a ++ b)%string = (upper a ++ upper b)%string.
Proof. apply smap_app. Qed.

(** Names of statistics are not names of conserved variables. *)
Lemma in_under a b : In "_"%char (list_ascii_of_string (a ++ String "_" b)%string).
Proof. induction a as [| c a IH]; [left; reflexivity | right; exact IH]. Qed.
Lemma stat_not_conserved s : stat_name s -> ~ In (upper s) conserved.
Proof.
  intros (a & b & t & I & ->) C. rewrite !upper_app in C.
  assert (E : exists t', upper t = String "_" t'). { cbn [In] in I. destruct I as [<- | [<- | [<- | []]]]; eexists; reflexivity. }
  destruct E as (t' & E). rewrite E in C. cbn [append] in C.
  assert (Q := in_under (upper a) (t' ++ upper b)%string). unfold conserved in C. cbn [In] in C.
  destruct C as [C | [C | [C | []]]]; rewrite <- C in Q; cbn in Q; repeat (destruct Q as [Q | Q]; [discriminate |]); destruct Q.
Qed.

(** ** Reading variables *)
Definition arr4 (cv : Z) (vals : list Z) : array := Arr (if zlen vals / cv =? 1 then [cv] else [cv; zlen vals / cv]) false vals.
Lemma arr4_eq cv k vals : 1 <= cv -> zlen vals = cv * k -> arr4 cv vals = Arr (if k =? 1 then [cv] else [cv; k]) false vals.
Proof. intros C E. unfold arr4. rewrite E, Z.mul_comm, Z.div_mul by lia. reflexivity. Qed.
Lemma read_var_ok cv vars d var vals k : 1 <= cv -> 1 <= k -> dget String.eqb var vars = Some vals -> zlen vals = cv * k ->
  read_var4 cv vars d var = Ok (add_data (upper var) (arr4 cv vals) None d).
Proof.
  intros C K G E. unfold read_var4, dget_err. rewrite G. cbn [bind]. rewrite (arr4_eq cv k vals C E). rewrite E, Z.mul_comm, Z.div_mul by lia.
  destruct (Z.ltb_spec 1 k) as [LT | GE].
  - rewrite (Z.mul_comm k cv), Z.mod_mul, Z.div_mul by lia. change (0 =? 0) with true. cbn [bind].
    replace (k =? 1) with false by (symmetry; apply Z.eqb_neq; lia). reflexivity.
  - assert (k = 1) by lia. subst k. change (1 =? 1) with true. destruct vals as [| v vals]; [rewrite zlen_nil in E; lia |]. cbn [stats bind].
    rewrite Z.mul_1_l. reflexivity.
Qed.
Definition val_of (vars : dict string (list Z)) (var : string) : list Z := match dget String.eqb var vars with Some v => v | None => [] end.
Lemma read_fold cv vars : 1 <= cv -> forall names d,
  (forall var, In var names -> exists vals k, dget String.eqb var vars = Some vals /\ 1 <= k /\ zlen vals = cv * k) ->
  exists d', foldM (read_var4 cv vars) d names = Ok d' /\
    ds_data d' = dset_all (ds_data d) (List.map (fun var => (upper var, arr4 cv (val_of vars var))) names).
Proof.
  intros C. induction names as [| var names IH]; intros d H; [exists d; split; reflexivity |].
  destruct (H var (or_introl eq_refl)) as (vals & k & G & K & E). cbn [foldM List.map]. rewrite (read_var_ok cv vars d var vals k C K G E). cbn [bind].
  destruct (IH (add_data (upper var) (arr4 cv vals) None d)) as (d' & F & D); [intros v I; apply H; right; exact I |].
  exists d'. split; [exact F |]. rewrite D. unfold val_of at 2. rewrite G. reflexivity.
Qed.
Lemma read_fold_missing cv vars names : forall d, (exists pre var post, names = pre ++ var :: post /\ dget String.eqb var vars = None /\
     forall v, In v pre -> False) -> foldM (read_var4 cv vars) d names = Err KeyError.
Proof.
  intros d (pre & var & post & -> & G & N). destruct pre as [| p pre]; [| destruct (N p (or_introl eq_refl))].
  cbn [app foldM]. unfold read_var4 at 1, dget_err. rewrite G. reflexivity.
Qed.

(** ** Writing variables *)
Lemma dmem_keys {V} k (d : dict string V) : dmem String.eqb k d = true <-> In k (List.map fst d).
Proof.
  unfold dmem. destruct (dget String.eqb k d) as [v |] eqn:G.
  - split; [intros _ | reflexivity]. apply (dget_in _ seqb_eq) in G. apply in_map_iff. exists (k, v). auto.
  - split; [discriminate |]. intros I. apply (dget_None _ seqb_eq) in G. contradiction.
Qed.
Section Put.
  Context (i2d : Z -> Z).
  Definition low (x : string * array) : string * list Z := (lower (fst x), array_doubles i2d (snd x)).
  Lemma put_ok vars : forall d r, put_vars i2d vars d = Ok r -> NoDup (List.map fst d) -> r = d ++ List.map low vars /\ NoDup (List.map fst r).
  Proof.
    induction vars as [| (name, a) vars IH]; intros d r H N.
    - cbn in H. apply ok_inj in H. subst r. rewrite app_nil_r. auto.
    - unfold put_vars in H. cbn [foldM] in H. destruct (dmem String.eqb (lower name) d) eqn:E; [discriminate |]. cbn [bind] in H.
      destruct (IH _ _ H) as (-> & N').
      + rewrite map_app. cbn [List.map fst]. apply NoDup_app. split; [exact N |]. split; [repeat constructor; intros [] |].
        intros k I [<- | []]. apply dmem_keys in I. congruence.
      + split; [rewrite <- app_assoc; reflexivity | exact N'].
  Qed.
  Lemma put_total vars : forall d, NoDup (List.map fst d ++ List.map (fun x => lower (fst x)) vars) -> put_vars i2d vars d = Ok (d ++ List.map low vars).
  Proof.
    induction vars as [| (name, a) vars IH]; intros d N; [cbn; rewrite app_nil_r; reflexivity |].
    unfold put_vars. cbn [foldM]. cbn [List.map fst] in N.
    assert (E : dmem String.eqb (lower name) d = false).
    { destruct (dmem String.eqb (lower name) d) eqn:E; [| reflexivity]. apply dmem_keys in E. apply NoDup_remove_2 in N. exfalso. apply N. apply in_or_app. left. exact E. }
    rewrite E. cbn [bind]. fold (put_vars i2d vars (d ++ [(lower name, doubles i2d a)])). rewrite IH.
    - rewrite <- app_assoc. reflexivity.
    - rewrite map_app. cbn [List.map fst]. rewrite <- app_assoc. exact N.
  Qed.
End Put.

Lemma attr_of_ok v x : attr_of v = Ok x -> v = SNum x.
Proof. destruct v as [[n | p] | d]; cbn; [| congruence | discriminate]. destruct (_ && _); congruence. Qed.
Lemma attr_of_total v : attr_ok v -> exists x, attr_of v = Ok x.
Proof.
  destruct v as [[n | p] | d]; cbn [attr_ok]; [| intros _; eexists; reflexivity | intros []]. intros H.
  assert (E : ((- 2 ^ 63 <=? n) && (n <? 2 ^ 64))%Z = true) by (apply andb_true_iff; rewrite Z.leb_le, Z.ltb_lt; exact H).
  unfold attr_of. cbn [attr_of]. rewrite E. eauto.
Qed.

Definition is_stat_var (x : string * array) : bool := is_stat (fst x).
Definition is_weight (x : string * sval) : bool := ends_with "_wgt" (fst x).
Lemma filter_stat (l : dict string array) : filter (fun '(name, _) => is_stat name) l = filter is_stat_var l.
Proof. apply filter_ext. intros (a, b). reflexivity. Qed.
Lemma filter_weight (l : dict string sval) : filter (fun '(name, _) => ends_with "_wgt" name) l = filter is_weight l.
Proof. apply filter_ext. intros (a, b). reflexivity. Qed.

Section Sol.
  Context (i2d : Z -> Z).

  Definition has_all (cells : dict string array) : bool := forallb (fun x => dmem String.eqb x cells) conserved.
  Record sol_parts (params : dict string sval) (cells : dict string array) (s : sol4) : Prop := {
    sq_attrs : exists st ti, param params "step" (SNum (NInt 0)) = SNum st /\ param params "time" (SNum (NInt 0)) = SNum ti /\
       s4_attrs s = [("step"%string, st); ("time"%string, ti)];
    sq_vars : if has_all cells then exists a1 a2 a3, dget String.eqb "RHO" cells = Some a1 /\ dget String.eqb "RHOU" cells = Some a2 /\ dget String.eqb "RHOE" cells = Some a3 /\
         s4_vars s = [("rho"%string, array_doubles i2d a1); ("rhou"%string, array_doubles i2d a2); ("rhoe"%string, array_doubles i2d a3)]
       else s4_vars s = [];
    sq_stats : match s4_stats s with
       | None => filter is_stat_var cells = []
       | Some (weights, vars) => filter is_stat_var cells <> [] /\ vars = List.map (low i2d) (filter is_stat_var cells) /\ NoDup (List.map fst vars) /\
           List.map (fun '(k, x) => (k, SNum x)) weights = filter is_weight params
       end }.

  Lemma sol_written params w s : write_sol4 i2d params w = Ok s -> sol_parts params (fd_items (w_cells w)) s.
  Proof.
    unfold write_sol4. intros H. apply bind_ok in H; destruct H as (st & S1 & H). apply bind_ok in H; destruct H as (ti & S2 & H).
    apply attr_of_ok in S1. apply attr_of_ok in S2. apply bind_ok in H; destruct H as (vars & V & H). apply bind_ok in H; destruct H as (so & SO & H).
    apply ok_inj in H. subst s. constructor; cbn [s4_attrs s4_vars s4_stats].
    - exists st, ti. auto.
    - fold (has_all (fd_items (w_cells w))) in V. destruct (has_all (fd_items (w_cells w))); [| congruence].
      cbn [mapM conserved] in V. unfold dget_err in V.
      destruct (dget String.eqb "RHO" (fd_items (w_cells w))) as [a1 |]; [| discriminate]. cbn [bind] in V.
      destruct (dget String.eqb "RHOU" (fd_items (w_cells w))) as [a2 |]; [| discriminate]. cbn [bind] in V.
      destruct (dget String.eqb "RHOE" (fd_items (w_cells w))) as [a3 |]; [| discriminate]. cbn [bind] in V.
      apply put_ok in V; [| constructor]. destruct V as (-> & _). exists a1, a2, a3. auto.
    - rewrite filter_stat in SO. destruct (filter is_stat_var (fd_items (w_cells w))) as [| p l] eqn:E; [apply ok_inj in SO; subst so; reflexivity |].
      rewrite <- E in *. apply bind_ok in SO; destruct SO as (weights & WE & SO). apply bind_ok in SO; destruct SO as (d & D & SO). apply ok_inj in SO. subst so.
      apply put_ok in D; [| constructor]. destruct D as (-> & N). split; [congruence |]. split; [reflexivity |]. split; [exact N |].
      rewrite filter_weight in WE. clear - WE. revert weights WE. induction (filter is_weight params) as [| (k, v) f IH]; intros weights WE.
      + cbn in WE. apply ok_inj in WE. subst. reflexivity.
      + cbn [mapM] in WE. apply bind_ok in WE; destruct WE as (kx & A & WE). apply bind_ok in A; destruct A as (x & A & B). apply ok_inj in B. subst kx.
        apply bind_ok in WE; destruct WE as (ws & WS & WE). apply ok_inj in WE. subst weights. cbn [List.map]. rewrite (IH _ WS). apply attr_of_ok in A. subst v. reflexivity.
  Qed.

  Lemma sol_total params w : attr_ok (param params "step" (SNum (NInt 0))) -> attr_ok (param params "time" (SNum (NInt 0))) ->
    (forall k v, In (k, v) params -> weight_name k -> attr_ok v) ->
    NoDup (List.map (fun x => lower (fst x)) (filter is_stat_var (fd_items (w_cells w)))) -> exists s, write_sol4 i2d params w = Ok s.
  Proof.
    intros A1 A2 AW N. unfold write_sol4. destruct (attr_of_total _ A1) as (st & ->). destruct (attr_of_total _ A2) as (ti & ->). cbn [bind].
    assert (V : exists vars, (if forallb (fun x => dmem String.eqb x (fd_items (w_cells w))) conserved
             then a <- mapM (fun x => a <- dget_err String.eqb x (fd_items (w_cells w)) ;; Ok (x, a)) conserved ;; put_vars i2d a [] else Ok []) = Ok vars).
    { destruct (forallb (fun x => dmem String.eqb x (fd_items (w_cells w))) conserved) eqn:E; [| eauto].
      cbn [forallb conserved] in E. rewrite !andb_true_iff in E. destruct E as (E1 & E2 & E3 & _). unfold dmem in *. cbn [mapM conserved]. unfold dget_err.
      destruct (dget String.eqb "RHO" (fd_items (w_cells w))); [| discriminate]. destruct (dget String.eqb "RHOU" (fd_items (w_cells w))); [| discriminate].
      destruct (dget String.eqb "RHOE" (fd_items (w_cells w))); [| discriminate]. cbn [bind]. eexists. apply put_total. cbn. repeat constructor; cbn; intuition discriminate. }
    destruct V as (vars & ->). cbn [bind]. rewrite filter_stat. destruct (filter is_stat_var (fd_items (w_cells w))) as [| p l] eqn:E; [cbn [bind]; eauto |].
    rewrite filter_weight.
    assert (WM : exists ws, mapM (fun '(name, v) => x <- attr_of v ;; Ok (name, x)) (filter is_weight params) = Ok ws).
    { assert (AW' : forall k v, In (k, v) (filter is_weight params) -> attr_ok v).
      { intros k v I. apply filter_In in I. destruct I as (I & W). apply (AW k v I). apply ends_wgt. exact W. }
      clear - AW'. induction (filter is_weight params) as [| (k, v) f IH]; [exists []; reflexivity |]. cbn [mapM].
      destruct (attr_of_total v (AW' k v (or_introl eq_refl))) as (x & ->). cbn [bind]. destruct IH as (ws & ->); [intros k' v' I; apply (AW' k' v'); right; exact I |].
      cbn [bind]. eauto. }
    destruct WM as (ws & ->). cbn [bind]. rewrite put_total; [cbn [bind]; eauto |]. exact N.
  Qed.

  (** Reading what was written. *)
  Lemma nodup_keys_filter {V} (f : string * V -> bool) l : NoDup (List.map fst l) -> NoDup (List.map fst (filter f l)).
  Proof.
    induction l as [| x l IH]; intros N; [constructor |]. cbn [List.map] in N. apply NoDup_cons_iff in N. destruct N as (N1 & N). cbn [filter].
    destruct (f x); [| apply IH; exact N]. cbn [List.map]. constructor; [| apply IH; exact N]. intros I. apply N1. apply in_map_iff in I.
    destruct I as (y & E & I). apply filter_In in I. apply in_map_iff. exists y. split; [exact E | apply I].
  Qed.
  Lemma sorted_in {V} (d : dict string V) k : In k (sorted_names d) <-> In k (List.map fst d).
  Proof. unfold sorted_names. split; apply Permutation_in; [| symmetry]; apply isort_perm. Qed.
  Lemma doubles_same a : zlen (array_doubles i2d a) = zlen (a_val a).
  Proof. unfold array_doubles. destruct (a_int a); [apply zlen_map | reflexivity]. Qed.

  Theorem read_written params cells s cv : sol_parts params cells s -> 1 <= cv -> has_all cells = true -> NoDup (List.map fst cells) ->
    (forall name a, In (name, a) cells -> In name conserved \/ stat_name name -> exists k, per_cell cv a k) ->
    exists d, read_vars4 cv s cells4 = Ok d /\
      (forall name a k, In name conserved -> dget String.eqb name cells = Some a -> per_cell cv a k -> dget String.eqb name (ds_data d) = Some (var_back i2d cv k a)) /\
      (forall name a k, In (name, a) cells -> stat_name name -> per_cell cv a k -> dget String.eqb (upper name) (ds_data d) = Some (var_back i2d cv k a)) /\
      (forall name, In name (List.map fst (ds_data d)) -> In name conserved \/ exists s, In s (List.map fst cells) /\ stat_name s /\ name = upper s).
  Proof.
    intros SP CV HA NK SZ. assert (V := sq_vars _ _ _ SP). rewrite HA in V. destruct V as (a1 & a2 & a3 & G1 & G2 & G3 & V).
    assert (S1 : exists k, per_cell cv a1 k). { apply (SZ "RHO"%string); [apply (dget_in _ seqb_eq); exact G1 | left; left; reflexivity]. }
    assert (S2 : exists k, per_cell cv a2 k). { apply (SZ "RHOU"%string); [apply (dget_in _ seqb_eq); exact G2 | left; right; left; reflexivity]. }
    assert (S3 : exists k, per_cell cv a3 k). { apply (SZ "RHOE"%string); [apply (dget_in _ seqb_eq); exact G3 | left; right; right; left; reflexivity]. }
    unfold read_vars4. rewrite V.
    match goal with |- context [foldM (read_var4 cv ?vs) cells4 ?ns] => destruct (read_fold cv vs CV ns cells4) as (d1 & F1 & D1) end.
    { intros var I. cbn [In] in I. destruct I as [<- | [<- | [<- | []]]].
      - destruct S1 as (k & K & E). exists (array_doubles i2d a1), k. split; [reflexivity |]. rewrite doubles_same. auto.
      - destruct S2 as (k & K & E). exists (array_doubles i2d a2), k. split; [reflexivity |]. rewrite doubles_same. auto.
      - destruct S3 as (k & K & E). exists (array_doubles i2d a3), k. split; [reflexivity |]. rewrite doubles_same. auto. }
    rewrite F1. cbn [bind].
    assert (C1 : ds_data d1 = [("RHO"%string, arr4 cv (array_doubles i2d a1)); ("RHOU"%string, arr4 cv (array_doubles i2d a2)); ("RHOE"%string, arr4 cv (array_doubles i2d a3))]).
    { rewrite D1. reflexivity. }
    assert (BK : forall a k, per_cell cv a k -> arr4 cv (array_doubles i2d a) = var_back i2d cv k a).
    { intros a k (K & E). rewrite (arr4_eq cv k); [reflexivity | exact CV | rewrite doubles_same; exact E]. }
    assert (CO : forall name a k, In name conserved -> dget String.eqb name cells = Some a -> per_cell cv a k -> dget String.eqb name (ds_data d1) = Some (var_back i2d cv k a)).
    { intros name a k I G P. rewrite C1. unfold conserved in I. cbn [In] in I. rewrite <- (BK a k P). destruct I as [<- | [<- | [<- | []]]].
      - rewrite G1 in G. injection G as <-. reflexivity.
      - rewrite G2 in G. injection G as <-. reflexivity.
      - rewrite G3 in G. injection G as <-. reflexivity. }
    assert (NM : forall name, In name (List.map fst (ds_data d1)) -> In name conserved). { intros name I. rewrite C1 in I. exact I. }
    assert (ST := sq_stats _ _ _ SP). destruct (s4_stats s) as [(weights, vars) |].
    - destruct ST as (NE & EV & NV & _).
      assert (IV : forall name a, In (name, a) (filter is_stat_var cells) -> dget String.eqb (lower name) vars = Some (array_doubles i2d a)).
      { intros name a I. apply (in_dget _ seqb_eq); [exact NV |]. rewrite EV. apply in_map_iff. exists (name, a). auto. }
      assert (VI : forall var, In var (List.map fst vars) -> exists name a, var = lower name /\ In (name, a) (filter is_stat_var cells)).
      { intros var I. rewrite EV, map_map in I. apply in_map_iff in I. destruct I as ((name, a) & E & I). exists name, a. auto. }
      destruct (read_fold cv vars CV (sorted_names vars) d1) as (d2 & F2 & D2).
      { intros var I. apply sorted_in in I. apply VI in I. destruct I as (name & a & -> & I). exists (array_doubles i2d a).
        assert (J := I). apply filter_In in J. destruct J as (J & SN). apply is_stat_iff in SN. destruct (SZ name a J (or_intror SN)) as (k & K & E).
        exists k. split; [apply IV; exact I |]. rewrite doubles_same. auto. }
      exists d2. split; [exact F2 |]. rewrite D2.
      assert (UP : forall var, In var (sorted_names vars) -> exists name a, var = lower name /\ In (name, a) cells /\ stat_name name).
      { intros var I. apply sorted_in in I. apply VI in I. destruct I as (name & a & -> & I). apply filter_In in I. destruct I as (I & SN). exists name, a. split; [reflexivity |]. split; [exact I |]. apply is_stat_iff. exact SN. }
      split; [| split].
      + intros name a k I G P. rewrite dset_all_other; [apply CO; assumption |]. rewrite map_map. intros J. apply in_map_iff in J. destruct J as (var & E & J).
        cbn [fst] in E. apply UP in J. destruct J as (n' & a' & -> & _ & SN). rewrite upper_lower in E. subst name. exact (stat_not_conserved n' SN I).
      + intros name a k I SN P. rewrite <- (BK a k P). apply dset_all_in.
        * apply in_map_iff. exists (lower name). assert (J : In (name, a) (filter is_stat_var cells)) by (apply filter_In; split; [exact I | apply is_stat_iff; exact SN]).
          split; [| apply sorted_in; rewrite EV, map_map; apply in_map_iff; exists (name, a); auto].
          rewrite upper_lower. unfold val_of. rewrite (IV name a J). reflexivity.
        * intros v' J. apply in_map_iff in J. destruct J as (var & E & J). apply sorted_in in J. apply VI in J. destruct J as (n' & a' & -> & J).
          injection E as E1 E2. subst v'. f_equal. rewrite upper_lower in E1.
          assert (LE : lower n' = lower name). { rewrite <- (lower_upper_lower n'), <- (lower_upper_lower name), !upper_lower, E1. reflexivity. }
          unfold val_of. rewrite LE. rewrite (IV name a); [reflexivity |]. apply filter_In. split; [exact I | apply is_stat_iff; exact SN].
      + intros name I. apply dset_all_keys in I. destruct I as [I | I]; [left; apply NM; exact I |]. right. rewrite map_map in I. apply in_map_iff in I.
        destruct I as (var & <- & I). cbn [fst]. apply UP in I. destruct I as (n' & a' & -> & I & SN). exists n'. split; [apply in_map_iff; exists (n', a'); auto |]. split; [exact SN | apply upper_lower].
    - exists d1. split; [reflexivity |]. split; [exact CO |]. split; [| intros name I; left; apply NM; exact I].
      intros name a k I SN _. exfalso. assert (J : In (name, a) (filter is_stat_var cells)) by (apply filter_In; split; [exact I | apply is_stat_iff; exact SN]).
      rewrite ST in J. exact J.
  Qed.

  Lemma read_missing params cells s cv d : sol_parts params cells s -> has_all cells = false -> read_vars4 cv s d = Err KeyError.
  Proof.
    intros SP HA. assert (V := sq_vars _ _ _ SP). rewrite HA in V. unfold read_vars4. rewrite V. reflexivity.
  Qed.

  (** ** Parameters *)
  Definition nums (l : dict string num) : dict string sval := List.map (fun '(k, x) => (k, SNum x)) l.
  Lemma put_nums l : forall d : dict string sval, fold_left (fun d '(k, x) => dset String.eqb k (SNum x) d) l d = dset_all d (nums l).
  Proof. induction l as [| (k, x) l IH]; intros d; [reflexivity |]. cbn [fold_left]. rewrite IH. reflexivity. Qed.
  Lemma not_weight k : In k ["step"; "time"; "no_count"; "fa_count"; "cv_count"; "noofa_count"; "nboco"; "nfa_b"; "nfa_bp"]%string -> ~ weight_name k.
  Proof.
    intros I W. apply ends_wgt in W. cbn [In] in I. repeat (destruct I as [<- | I]; [discriminate W |]). destruct I.
  Qed.
  Theorem params_back params cells s r : sol_parts params cells s -> NoDup (List.map fst params) ->
    let p := dupdate (params4 r) (read_info4 s) in
    dget String.eqb "step" p = Some (param params "step" (SNum (NInt 0))) /\ dget String.eqb "time" p = Some (param params "time" (SNum (NInt 0))) /\
    (forall name x, weight_name name -> In x (List.map fst cells) -> stat_name x -> dget String.eqb name p = dget String.eqb name params) /\
    (forall name, weight_name name -> (forall x, In x (List.map fst cells) -> ~ stat_name x) -> dget String.eqb name p = None).
  Proof.
    intros SP NP p. destruct (sq_attrs _ _ _ SP) as (st & ti & E1 & E2 & EA).
    set (l := match s4_stats s with None => [] | Some (weights, _) => nums weights end).
    assert (RI : read_info4 s = dset_all [("step"%string, SNum st); ("time"%string, SNum ti)] l).
    { unfold read_info4. rewrite EA. cbn [fold_left]. unfold l. destruct (s4_stats s) as [(weights, vars) |]; [| reflexivity]. rewrite put_nums. reflexivity. }
    assert (LW : forall k v, In (k, v) l -> weight_name k /\ In (k, v) params).
    { intros k v I. unfold l in I. assert (ST := sq_stats _ _ _ SP). destruct (s4_stats s) as [(weights, vars) |]; [| destruct I].
      destruct ST as (_ & _ & _ & WE). unfold nums in I. rewrite WE in I. apply filter_In in I. destruct I as (I & W). split; [apply ends_wgt; exact W | exact I]. }
    assert (LK : forall k, In k (List.map fst l) -> weight_name k).
    { intros k I. apply in_map_iff in I. destruct I as ((k', v) & <- & I). exact (proj1 (LW k' v I)). }
    assert (NR : NoDup (List.map fst (read_info4 s))).
    { rewrite RI. apply dset_all_nodup. cbn. repeat constructor; cbn; intuition discriminate. }
    assert (NOP : forall name, weight_name name -> dget String.eqb name (params4 r) = None).
    { intros name W. apply (dget_None _ seqb_eq). intros I. cbn [params4 List.map fst In] in I. revert W.
      repeat (destruct I as [<- | I]; [apply not_weight; cbn; tauto |]). destruct I. }
    assert (NOI : forall name, weight_name name -> ~ In name (List.map fst l) -> dget String.eqb name p = None).
    { intros name W NI. unfold p. change (dupdate (params4 r) (read_info4 s)) with (dset_all (params4 r) (read_info4 s)). rewrite dset_all_other; [apply NOP; exact W |].
      rewrite RI. intros I. apply dset_all_keys in I. destruct I as [I | I]; [| exact (NI I)]. cbn [List.map fst In] in I. revert W.
      destruct I as [<- | [<- | []]]; apply not_weight; cbn; tauto. }
    split; [| split; [| split]].
    - apply dupdate_get; [| exact NR]. rewrite RI, dset_all_other; [rewrite E1; reflexivity |]. intros I. apply LK in I. revert I. apply not_weight. cbn; tauto.
    - apply dupdate_get; [| exact NR]. rewrite RI, dset_all_other; [rewrite E2; reflexivity |]. intros I. apply LK in I. revert I. apply not_weight. cbn; tauto.
    - intros name x W I SN. assert (ST := sq_stats _ _ _ SP). assert (LE : l = filter is_weight params).
      { unfold l. destruct (s4_stats s) as [(weights, vars) |].
        - destruct ST as (_ & _ & _ & WE). exact WE.
        - exfalso. apply in_map_iff in I. destruct I as ((x', a) & <- & I).
          assert (J : In (x', a) (filter is_stat_var cells)) by (apply filter_In; split; [exact I | apply is_stat_iff; exact SN]). rewrite ST in J. exact J. }
      destruct (dget String.eqb name params) as [v |] eqn:G.
      + apply dupdate_get; [| exact NR]. rewrite RI. apply (dget_in _ seqb_eq) in G. apply dset_all_in.
        * rewrite LE. apply filter_In. split; [exact G | apply ends_wgt; exact W].
        * intros v' I'. apply LW in I'. destruct I' as (_ & I'). apply (in_dget _ seqb_eq _ _ _ NP) in I'. apply (in_dget _ seqb_eq _ _ _ NP) in G. congruence.
      + apply NOI; [exact W |]. intros J. apply in_map_iff in J. destruct J as ((k, v) & E & J). cbn in E. subst k. apply LW in J. destruct J as (_ & J).
        apply (in_dget _ seqb_eq) in J; [congruence | exact NP].
    - intros name W NS. apply NOI; [exact W |]. unfold l. assert (ST := sq_stats _ _ _ SP). destruct (s4_stats s) as [(weights, vars) |]; [| intros []].
      destruct ST as (NE & _). exfalso. destruct (filter is_stat_var cells) as [| (x, a) f] eqn:E; [congruence |].
      assert (J : In (x, a) (filter is_stat_var cells)) by (rewrite E; left; reflexivity). apply filter_In in J. destruct J as (J & SN). apply is_stat_iff in SN.
      apply (NS x); [| exact SN]. apply in_map_iff. exists (x, a). auto.
  Qed.
End Sol.
