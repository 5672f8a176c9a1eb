(** * Sharing of meshes: what one command changes. *)
From Verif Require Import PyFacts.
From Verif Require Export ReaderHeapProofs.
From Coq Require Import Lia.
#[local] Notation F := Z (only parsing).
Local Open Scope nat_scope.

(** ** Executions *)
Lemma run_from_app s p q : run_from s (p ++ q) = (s' <- run_from s p ;; run_from s' q).
Proof. revert s. induction p as [|k p IH]; intros s; cbn; [reflexivity|]. destruct (exec s k); cbn; auto. Qed.
Lemma run_snoc p k : run (p ++ [k]) = (s <- run p ;; exec s k).
Proof. unfold run. rewrite run_from_app. destruct (run_from mem0 p) as [s|]; cbn; [|reflexivity]. destruct (exec s k); reflexivity. Qed.
Lemma inv0 : inv [] mem0 [] (Map (fun _ => (0, 0, 0)) (fun _ => [])).
Proof.
  split; cbn; try (intros r x E; destruct r; discriminate E); auto.
  - constructor.
  - intros i E. exfalso. apply E. unfold source. now destruct i.
  - intros k i [].
Qed.
Lemma run_inv p : forall s, run p = Ok s -> exists ts M, inv p s ts M.
Proof.
  induction p as [|k p IH] using rev_ind; intros s E.
  - injection E as <-. do 2 eexists. exact inv0.
  - rewrite run_snoc in E. osplit. destruct (IH a eq_refl) as (ts & M & I). eapply exec_inv; eassumption.
Qed.
Lemma run_step p k s' : run (p ++ [k]) = Ok s' -> exists s ts M, run p = Ok s /\ exec s k = Ok s' /\ inv p s ts M.
Proof. rewrite run_snoc. intros E. osplit. destruct (run_inv p a E0) as (ts & M & I). eauto 6. Qed.

(** ** What a mesh shows *)
Definition mark_at (os : list obj) : string * loc -> res (string * mark F) := fun '(k, l) => b <- get_mark os l ;; Ok (k, b).
Lemma mapM_ext {A B} (f g : A -> res B) l : (forall x, In x l -> f x = g x) -> mapM f l = mapM g l.
Proof. induction l as [|x l IH]; intros H; cbn; [reflexivity|]. rewrite (H x) by now left. rewrite IH; [reflexivity|]. intros y I. apply H. now right. Qed.
Lemma shows p s ts M i m : inv p s ts M -> nth_error (vars s) i = Some (VMesh m) ->
  exists d c n bs, get_params (objs s) (hm_params m) = Ok d /\ get_set (objs s) (hm_cells m) = Ok c /\ get_set (objs s) (hm_nodes m) = Ok n /\
    mapM (mark_at (objs s)) (hm_marks m) = Ok bs /\
    seen s i = Ok (FM (with_bocos (hm_base m) bs) (FSet c) (FSet n) d (hm_part m)).
Proof.
  intros I E. assert (T := i_typed _ _ _ _ I). destruct (i_mesh _ _ _ _ I _ _ E) as (g & c & S & B & U & C & P & P' & D & D' & N & N' & K & Ma & _).
  assert (Hp : exists d, get_params (objs s) (hm_params m) = Ok d) by (destruct P as [P|P]; destruct (typed_par _ _ _ _ T P) as (d & _ & Q); eauto).
  assert (Hc : exists d, get_set (objs s) (hm_cells m) = Ok d) by (destruct D as [P0|P0]; destruct (typed_set _ _ _ _ T P0) as (d & _ & Q); eauto).
  destruct Hp as (d & Hp), Hc as (cs & Hc). destruct (typed_set _ _ _ _ T N) as (n & _ & Hn).
  assert (Hm : exists bs, mapM (mark_at (objs s)) (hm_marks m) = Ok bs).
  { clear K. revert Ma. generalize (hm_marks m). intros l. induction l as [|(k & x) l IH]; intros Ma; cbn; [eauto|].
    destruct IH as (bs & ->); [intros; apply Ma; now right|].
    assert (Q : exists b, get_mark (objs s) x = Ok b) by (destruct (Ma k x (or_introl eq_refl)) as [Q|Q]; destruct (typed_mark _ _ _ _ _ T Q) as (b & _ & Q' & _); eauto).
    destruct Q as (b & ->). cbn. eauto. }
  destruct Hm as (bs & Hm). exists d, cs, n, bs. repeat (split; [assumption|]). unfold seen, find_mesh. rewrite E. cbn [bind]. unfold mesh_now.
  rewrite Hp, Hc, Hn. cbn [bind]. unfold mark_at in Hm. rewrite Hm. reflexivity.
Qed.
Lemma now_ext os os' m : nth_error os' (hm_params m) = nth_error os (hm_params m) -> nth_error os' (hm_cells m) = nth_error os (hm_cells m) ->
  nth_error os' (hm_nodes m) = nth_error os (hm_nodes m) -> (forall k l, In (k, l) (hm_marks m) -> nth_error os' l = nth_error os l) -> mesh_now os' m = mesh_now os m.
Proof.
  intros A B C D. unfold mesh_now, get_params, get_set. rewrite A, B, C. destruct (nth_error os (hm_params m)) as [[]|]; cbn; try reflexivity.
  destruct (nth_error os (hm_cells m)) as [[]|]; cbn; try reflexivity. destruct (nth_error os (hm_nodes m)) as [[]|]; cbn; try reflexivity.
  rewrite (mapM_ext _ (fun '(k, l) => b <- get_mark os l ;; Ok (k, b))); [reflexivity|]. intros (k & l) I. unfold get_mark. now rewrite (D k l I).
Qed.

(** ** What a command writes *)
Lemma not_once what p : ~ once what p -> never what p.
Proof. intros H k I W. apply H. now exists k. Qed.
Definition writes (p : list cmd) (k : cmd) (t : tag) (kd : knd) : Prop :=
  match k with
  | KUpdate j _ => kd = KP /\ (t = Own j \/ exists g, t = From g /\ source p j = Some g /\ never (own_params j) p)
  | KData j _ _ => kd = KS /\ (t = Own j \/ exists g, t = From g /\ source p j = Some g /\ never (own_cells j) p)
  | KMark j name _ => kd = KM name /\ (t = Own j \/ exists c, t = Mk c /\ batch p j = Some c /\ never (own_mark j name) p)
  | KExport r => kd = KP /\ t = From (home_of p r)
  | KRead4 r _ _ => (kd = KP \/ kd = KS) /\ t = From (home_of p r)
  | _ => False
  end.
Lemma upd_other {A} (l : list A) n x m : nth_error (upd_nat l n x) m = nth_error l m \/ n = m.
Proof. rewrite nth_error_upd_nat. destruct (Nat.eqb_spec n m); auto. Qed.
Lemma app_same {A} (l l' : list A) n : n < List.length l -> nth_error (l ++ l') n = nth_error l n.
Proof. intros. now apply nth_error_app1. Qed.
Lemma marks_in {V} (d : dict string V) k x : dget_err String.eqb k d = Ok x -> In (k, x) d.
Proof. unfold dget_err. destruct (dget String.eqb k d) eqn:G; intros Q; [|discriminate Q]. injection Q as ->. now apply (dget_in _ String.eqb_eq). Qed.

Lemma exec_writes p s ts M k s' l t kd : inv p s ts M -> exec s k = Ok s' -> nth_error ts l = Some (t, kd) ->
  nth_error (objs s') l = nth_error (objs s) l \/ writes p k t kd.
Proof.
  intros I E Hl. assert (T := i_typed _ _ _ _ I). assert (Ll : l < List.length (objs s)) by (rewrite <- (typed_len _ _ T); apply nth_error_Some; congruence).
  assert (tagged : forall t' kd', nth_error ts l = Some (t', kd') -> t = t' /\ kd = kd') by (intros t' kd' Q; rewrite Hl in Q; injection Q as -> ->; auto).
  destruct k; cbn [exec] in E; unfold on_mesh in E; osplit; cbn [writes].
  - injection E as <-. now left.
  - injection E as <-. left. now apply app_same.
  - destruct a as [st|]; [|discriminate E]. osplit. injection E as <-. left. now apply app_same.
  - destruct a as [|named st sim h]; [discriminate E|]. osplit. match goal with x : (dataset * dict string sval)%type |- _ => destruct x as (c' & sim') end. injection E as <-. cbn [objs].
    apply find_reader_nth in E0. destruct (i_reader _ _ _ _ I _ _ E0) as (HA & HB & HP & HC & HN & HK).
    rewrite app_same by (rewrite !upd_nat_length; exact Ll).
    match goal with |- nth_error (upd_nat (upd_nat _ ?a ?x) ?b ?y) _ = _ \/ _ => destruct (upd_other (upd_nat (objs s) a x) b y l) as [->|<-]; [destruct (upd_other (objs s) a x l) as [->|<-]; [now left|]|] end; right.
    + destruct (tagged _ _ HP) as (-> & ->). auto.
    + destruct (tagged _ _ HC) as (-> & ->). auto.
  - apply find_reader_nth in E0. assert (HO := i_reader _ _ _ _ I _ _ E0).
    assert (Q : exists fm sim h, export_as s fm sim h = Ok s' /\ home_ok ts M (home_of p r) (call_of p r) h).
    { destruct a as [[(rs & h)|]|named [rs|] sim h]; try discriminate E; osplit; eauto. }
    clear E HO. destruct Q as (fm & sim & h & E & HA & HB & HP & HC & HN & HK). unfold export_as in E. osplit. injection E as <-. cbn [objs].
    match goal with |- nth_error (upd_nat _ ?a ?x) _ = _ \/ _ => destruct (upd_other (objs s) a x l) as [->|<-]; [now left|right] end.
    destruct (tagged _ _ HP) as (-> & ->). auto.
  - match goal with x : (hmesh * list obj)%type |- _ => destruct x end. injection E1 as <- <-. injection E as <-. cbn [objs].
    apply find_mesh_nth in E0. destruct (i_mesh _ _ _ _ I _ _ E0) as (g & c & S & B & U & C & P & P' & D & D' & N & N' & K & Ma & Ma' & Mb & O1 & O2 & O3).
    match goal with |- nth_error (upd_nat _ ?a ?x) _ = _ \/ _ => destruct (upd_other (objs s) a x l) as [->|<-]; [now left|right] end.
    destruct P as [P|P]; destruct (tagged _ _ P) as (-> & ->); split; auto. right. exists g. split; [reflexivity|]. split; [exact S|]. apply not_once. intros Y. apply O1 in Y. congruence.
  - injection E as <-. left. now apply app_same.
  - match goal with x : (hmesh * list obj)%type |- _ => destruct x end. injection E1 as <- <-. injection E as <-. cbn [objs].
    apply find_mesh_nth in E0. destruct (i_mesh _ _ _ _ I _ _ E0) as (g & c & S & B & U & C & P & P' & D & D' & N & N' & K & Ma & Ma' & Mb & O1 & O2 & O3).
    match goal with |- nth_error (upd_nat _ ?a ?x) _ = _ \/ _ => destruct (upd_other (objs s) a x l) as [->|<-]; [now left|right] end.
    destruct D as [D|D]; destruct (tagged _ _ D) as (-> & ->); split; auto. right. exists g. split; [reflexivity|]. split; [exact S|]. apply not_once. intros Y. apply O2 in Y. congruence.
  - injection E as <-. left. now apply app_same.
  - match goal with x : (hmesh * list obj)%type |- _ => destruct x end. injection E1 as <- <-. injection E as <-. cbn [objs].
    apply find_mesh_nth in E0. destruct (i_mesh _ _ _ _ I _ _ E0) as (g & c & S & B & U & C & P & P' & D & D' & N & N' & K & Ma & Ma' & Mb & O1 & O2 & O3).
    apply marks_in in E2.
    match goal with |- nth_error (upd_nat _ ?a ?x) _ = _ \/ _ => destruct (upd_other (objs s) a x l) as [->|<-]; [now left|right] end.
    destruct (Ma _ _ E2) as [Q|Q]; destruct (tagged _ _ Q) as (-> & ->); split; auto. right. exists c. split; [reflexivity|]. split; [exact B|]. apply not_once. intros Y. apply (O3 _ _ E2) in Y. congruence.
  - injection E as <-. left. now apply app_same.
  - match goal with x : (hmesh * list obj)%type |- _ => destruct x end. destruct (dmem String.eqb name (hm_marks a)); [|discriminate E1]. injection E1 as <- <-. injection E as <-. now left.
  - match goal with x : (hmesh * list obj)%type |- _ => destruct x end. destruct (morph fmorph (hm_base a)) as (rr & bb). osplit. injection E1 as <- <-. injection E as <-. now left.
Qed.

(** The variable of a mesh only changes when the command is called on it. *)
Definition on (k : cmd) (i : var) : Prop := match k with KParams j _ | KCells j _ | KAdd j _ | KRemove j _ | KCoords j _ => j = i | _ => False end.
Lemma upd_self {A} (l : list A) n x : nth_error l n = Some x -> upd_nat l n x = l.
Proof. revert n. induction l as [|y l IH]; intros [|n] E; cbn in *; try discriminate E; [now injection E as ->|]. now rewrite IH. Qed.
Lemma exec_var s k s' i m : exec s k = Ok s' -> nth_error (vars s) i = Some (VMesh m) -> ~ on k i -> nth_error (vars s') i = Some (VMesh m).
Proof.
  intros E Hi No. assert (Li : i < List.length (vars s)) by (apply nth_error_Some; congruence).
  destruct k; cbn [exec] in E; unfold on_mesh in E; osplit; cbn [on] in No;
    try (injection E as <-; cbn [vars]; rewrite app_same by (rewrite ?upd_nat_length; exact Li); rewrite ?nth_error_upd_nat;
         first [exact Hi | match goal with |- context [Nat.eqb ?x i] => destruct (Nat.eqb_spec x i); [now elim No|exact Hi] end]).
  - destruct a; [|discriminate E]. osplit. injection E as <-. cbn [vars]. rewrite app_same by (rewrite upd_nat_length; exact Li). rewrite nth_error_upd_nat.
    apply find_reader_nth in E0. destruct (Nat.eqb_spec r i) as [->|D]; [congruence|exact Hi].
  - destruct a as [|named st sim h]; [discriminate E|]. osplit. match goal with x : (dataset * dict string sval)%type |- _ => destruct x as (c' & sim') end. injection E as <-. cbn [vars].
    rewrite app_same by (rewrite upd_nat_length; exact Li). rewrite nth_error_upd_nat.
    apply find_reader_nth in E0. destruct (Nat.eqb_spec r i) as [->|D]; [congruence|exact Hi].
  - assert (Q : exists fm sim h, export_as s fm sim h = Ok s') by (destruct a as [[(rs & h)|]|named [rs|] sim h]; try discriminate E; osplit; eauto).
    clear E. destruct Q as (fm & sim & h & E). unfold export_as in E. osplit. injection E as <-. cbn [vars]. now rewrite app_same.
  - match goal with x : (hmesh * list obj)%type |- _ => destruct x end. injection E1 as <- <-. injection E as <-. cbn [vars]. apply find_mesh_nth in E0. rewrite (upd_self _ _ _ E0). now rewrite app_same.
  - match goal with x : (hmesh * list obj)%type |- _ => destruct x end. injection E1 as <- <-. injection E as <-. cbn [vars]. apply find_mesh_nth in E0. rewrite (upd_self _ _ _ E0). now rewrite app_same.
  - match goal with x : (hmesh * list obj)%type |- _ => destruct x end. injection E1 as <- <-. injection E as <-. cbn [vars]. apply find_mesh_nth in E0. rewrite (upd_self _ _ _ E0). now rewrite app_same.
  - match goal with x : (hmesh * list obj)%type |- _ => destruct x end. injection E as <-. cbn [vars]. rewrite app_same by (rewrite upd_nat_length; exact Li). rewrite nth_error_upd_nat. match goal with |- context [Nat.eqb ?x i] => destruct (Nat.eqb_spec x i); [now elim No|exact Hi] end.
  - match goal with x : (hmesh * list obj)%type |- _ => destruct x end. injection E as <-. cbn [vars]. rewrite app_same by (rewrite upd_nat_length; exact Li). rewrite nth_error_upd_nat. match goal with |- context [Nat.eqb ?x i] => destruct (Nat.eqb_spec x i); [now elim No|exact Hi] end.
Qed.

Lemma source_mesh p s ts M i : inv p s ts M -> source p i <> None -> exists m, nth_error (vars s) i = Some (VMesh m).
Proof. intros I S. exact (i_source _ _ _ _ I i S). Qed.
Lemma seen_mesh p s ts M i : inv p s ts M -> (exists fm, seen s i = Ok fm) <-> source p i <> None.
Proof.
  intros I. split.
  - intros (fm & E). unfold seen in E. osplit. apply find_mesh_nth in E0. destruct (i_mesh _ _ _ _ I _ _ E0) as (g & c & S & _). congruence.
  - intros S. destruct (source_mesh _ _ _ _ _ I S) as (m & E). destruct (shows _ _ _ _ _ _ I E) as (d & c & n & bs & _ & _ & _ & _ & Q). eauto.
Qed.

Lemma step_apart p s ts M k s' i : inv p s ts M -> exec s k = Ok s' -> source p i <> None -> ~ alters p k i -> seen s' i = seen s i.
Proof.
  intros I E S NA. destruct (source_mesh _ _ _ _ _ I S) as (m & Hm). assert (Hm' : nth_error (vars s') i = Some (VMesh m)).
  { eapply exec_var; eauto. intros O. apply NA. destruct k; cbn in O; try (now elim O); exact O. }
  unfold seen, find_mesh. rewrite Hm, Hm'. cbn [bind].
  destruct (i_mesh _ _ _ _ I _ _ Hm) as (g & c & Sg & B & U & C & P & P' & D & D' & N & N' & K & Ma & Ma' & Mb & O1 & O2 & O3).
  assert (W := fun l t kd => exec_writes p s ts M k s' l t kd I E). apply now_ext.
  - assert (NO : nth_error ts (hm_params m) = Some (From g, KP) -> never (own_params i) p) by (intros Q; apply not_once; intros Y; apply O1 in Y; congruence).
    destruct P as [P|P]; (destruct (W _ _ _ P) as [Q|Q]; [exact Q|exfalso]).
    + specialize (NO P). destruct k; cbn [writes] in Q; try (now elim Q); try (destruct Q as ([Q|Q] & Q'); discriminate Q); try (destruct Q as (Q & _); discriminate Q).
      * destruct Q as (_ & Q). injection Q as Q. apply NA. split; [congruence|auto].
      * destruct Q as (_ & Q). injection Q as Q. apply NA. split; [congruence|auto].
      * destruct Q as (_ & [Q|(g' & Q & Q' & Q'')]); [discriminate Q|]. injection Q as <-. apply NA. right. split; [congruence|]. split; [congruence|]. split; assumption.
    + destruct k; cbn [writes] in Q; try (now elim Q); try (destruct Q as (_ & Q); discriminate Q); try (destruct Q as (Q & _); discriminate Q).
      destruct Q as (_ & [Q|(g' & Q & _)]); [|discriminate Q]. injection Q as <-. apply NA. now left.
  - assert (NO : nth_error ts (hm_cells m) = Some (From g, KS) -> never (own_cells i) p) by (intros Q; apply not_once; intros Y; apply O2 in Y; congruence).
    destruct D as [P0|P0]; (destruct (W _ _ _ P0) as [Q|Q]; [exact Q|exfalso]).
    + specialize (NO P0). destruct k; cbn [writes] in Q; try (now elim Q); try (destruct Q as (Q & _); discriminate Q).
      * destruct Q as (_ & Q). injection Q as Q. apply NA. split; [congruence|auto].
      * destruct Q as (_ & [Q|(g' & Q & Q' & Q'')]); [discriminate Q|]. injection Q as <-. apply NA. right. split; [congruence|]. split; [congruence|]. split; assumption.
    + destruct k; cbn [writes] in Q; try (now elim Q); try (destruct Q as (_ & Q); discriminate Q); try (destruct Q as (Q & _); discriminate Q).
      destruct Q as (_ & [Q|(g' & Q & _)]); [|discriminate Q]. injection Q as <-. apply NA. now left.
  - destruct (W _ _ _ N) as [Q|Q]; [exact Q|exfalso]. destruct k; cbn [writes] in Q; try (now elim Q); try (destruct Q as (_ & Q); discriminate Q);
      try (destruct Q as (Q & _); discriminate Q); destruct Q as (_ & [Q|(g' & Q & _)]); discriminate Q.
  - intros name l Hl. assert (NO : nth_error ts l = Some (Mk c, KM name) -> never (own_mark i name) p) by (intros Q; apply not_once; intros Y; apply (O3 _ _ Hl) in Y; congruence).
    destruct (Ma _ _ Hl) as [P0|P0]; (destruct (W _ _ _ P0) as [Q|Q]; [exact Q|exfalso]).
    + specialize (NO P0). destruct k; cbn [writes] in Q; try (now elim Q); try (destruct Q as ([Q|Q] & _); discriminate Q); try (destruct Q as (Q & _); discriminate Q).
      destruct Q as (Q0 & [Q|(g' & Q & Q' & Q'')]); [discriminate Q|]. injection Q as <-. injection Q0 as <-. apply NA. right. split; [congruence|]. split; [congruence|]. split; assumption.
    + destruct k; cbn [writes] in Q; try (now elim Q); try (destruct Q as (_ & Q); discriminate Q); try (destruct Q as (Q & _); discriminate Q).
      destruct Q as (Q0 & [Q|(g' & Q & _)]); [|discriminate Q]. injection Q as <-. injection Q0 as <-. apply NA. now left.
Qed.

(** ** Changes in place *)
Lemma now_eq os m d c n bs : get_params os (hm_params m) = Ok d -> get_set os (hm_cells m) = Ok c -> get_set os (hm_nodes m) = Ok n ->
  mapM (mark_at os) (hm_marks m) = Ok bs -> mesh_now os m = Ok (FM (with_bocos (hm_base m) bs) (FSet c) (FSet n) d (hm_part m)).
Proof. intros A B C D. unfold mesh_now. rewrite A, B, C. cbn [bind]. unfold mark_at in D. now rewrite D. Qed.
Lemma upd_ne {A} (ts : list A) {B} (os : list B) l l' o t t' : nth_error ts l = Some t -> nth_error ts l' = Some t' -> t <> t' -> nth_error (upd_nat os l o) l' = nth_error os l'.
Proof. intros A1 A2 D. rewrite nth_error_upd_nat. destruct (Nat.eqb_spec l l') as [->|]; [congruence|reflexivity]. Qed.
Lemma upd_eq {B} (os : list B) l o : l < List.length os -> nth_error (upd_nat os l o) l = Some o.
Proof. intros L. rewrite nth_error_upd_nat, Nat.eqb_refl. destruct (Nat.ltb_spec l (List.length os)); [reflexivity|lia]. Qed.
Lemma marks_upd os l o ms : (forall k l', In (k, l') ms -> nth_error (upd_nat os l o) l' = nth_error os l') -> mapM (mark_at (upd_nat os l o)) ms = mapM (mark_at os) ms.
Proof. intros H. apply mapM_ext. intros (k & l') I. cbn. unfold get_mark. now rewrite (H k l' I). Qed.
Lemma typed_lt ts os l t : typed ts os -> nth_error ts l = Some t -> l < List.length os.
Proof. intros T E. rewrite <- (typed_len _ _ T). apply nth_error_Some. congruence. Qed.

(** The objects a mesh leads to. *)
Record leads (ts : list (tag * knd)) (i : var) (m : hmesh) : Prop := Leads {
  ld_params : exists t, nth_error ts (hm_params m) = Some (t, KP);
  ld_cells : exists t, nth_error ts (hm_cells m) = Some (t, KS) /\ forall g, t <> Nodes g;
  ld_nodes : exists g, nth_error ts (hm_nodes m) = Some (Nodes g, KS);
  ld_marks : forall k l, In (k, l) (hm_marks m) -> exists t, nth_error ts l = Some (t, KM k);
  ld_nodup : NoDup (dkeys (hm_marks m)) }.
Lemma mesh_leads ts M p i m : mesh_ok ts M p i m -> leads ts i m.
Proof.
  intros (g & c & S & B & U & C & P & P' & D & D' & N & N' & K & Ma & _). split; eauto.
  - destruct P; eauto.
  - destruct D; eexists; (split; [eassumption|]); intros g'; discriminate.
  - intros k l Hl. destruct (Ma k l Hl); eauto.
Qed.
Lemma put_params ts os i m d c n bs d' : typed ts os -> leads ts i m ->
  get_set os (hm_cells m) = Ok c -> get_set os (hm_nodes m) = Ok n -> mapM (mark_at os) (hm_marks m) = Ok bs -> d = d' ->
  mesh_now (upd_nat os (hm_params m) (OPar d)) m = Ok (FM (with_bocos (hm_base m) bs) (FSet c) (FSet n) d' (hm_part m)).
Proof.
  intros T [(t & P) (tc & C & _) (g & N) K _] Hc Hn Hb <-. apply now_eq.
  - unfold get_params. now rewrite upd_eq by (eapply typed_lt; eassumption).
  - unfold get_set. rewrite (upd_ne ts _ _ _ _ _ _ P C) by congruence. exact Hc.
  - unfold get_set. rewrite (upd_ne ts _ _ _ _ _ _ P N) by congruence. exact Hn.
  - rewrite marks_upd; [exact Hb|]. intros k l Hl. destruct (K k l Hl) as (t' & Q). apply (upd_ne ts _ _ _ _ _ _ P Q). congruence.
Qed.
Lemma put_cells ts os i m d c n bs d' : typed ts os -> leads ts i m ->
  get_params os (hm_params m) = Ok c -> get_set os (hm_nodes m) = Ok n -> mapM (mark_at os) (hm_marks m) = Ok bs -> d = d' ->
  mesh_now (upd_nat os (hm_cells m) (OSet d)) m = Ok (FM (with_bocos (hm_base m) bs) (FSet d') (FSet n) c (hm_part m)).
Proof.
  intros T [(t & P) (tc & C & NC) (g & N) K _] Hc Hn Hb <-. apply now_eq.
  - unfold get_params. rewrite (upd_ne ts _ _ _ _ _ _ C P) by congruence. exact Hc.
  - unfold get_set. now rewrite upd_eq by (eapply typed_lt; eassumption).
  - unfold get_set. rewrite (upd_ne ts _ _ _ _ _ _ C N); [exact Hn|]. intros Q. injection Q as Q. now elim (NC g).
  - rewrite marks_upd; [exact Hb|]. intros k l Hl. destruct (K k l Hl) as (t' & Q). apply (upd_ne ts _ _ _ _ _ _ C Q). congruence.
Qed.
Lemma put_mark ts os i m d c n bs name l b : typed ts os -> leads ts i m ->
  get_params os (hm_params m) = Ok d -> get_set os (hm_cells m) = Ok c -> get_set os (hm_nodes m) = Ok n -> mapM (mark_at os) (hm_marks m) = Ok bs ->
  In (name, l) (hm_marks m) ->
  mesh_now (upd_nat os l (OMk b)) m = Ok (FM (with_bocos (hm_base m) (dset String.eqb name b bs)) (FSet c) (FSet n) d (hm_part m)).
Proof.
  intros T [(t & P) (tc & C & NC) (g & N) K U] Hd Hc Hn Hb Hl. destruct (K _ _ Hl) as (tl & L). apply now_eq.
  - unfold get_params. rewrite (upd_ne ts _ _ _ _ _ _ L P) by congruence. exact Hd.
  - unfold get_set. rewrite (upd_ne ts _ _ _ _ _ _ L C) by congruence. exact Hc.
  - unfold get_set. rewrite (upd_ne ts _ _ _ _ _ _ L N) by congruence. exact Hn.
  - clear P C N. revert bs Hb K U Hl. generalize (hm_marks m). intros ms. induction ms as [|(k & l') ms IH]; intros bs Hb K U Hl; [destruct Hl|].
    cbn [mapM mark_at] in Hb |- *. osplit. injection Hb as <-. cbn [dkeys List.map fst] in U. inversion U as [|? ? U1 U2]; subst. injection E as <-. cbn [dset].
    destruct Hl as [Q|Hl].
    + injection Q as -> ->. rewrite String.eqb_refl. unfold get_mark at 1. rewrite upd_eq by (eapply typed_lt; eassumption). cbn [bind].
      rewrite marks_upd; [now rewrite E0|]. intros k l' Hl. destruct (K k l' (or_intror Hl)) as (t' & Q). apply (upd_ne ts _ _ _ _ _ _ L Q).
      intros Q'. injection Q' as _ <-. apply U1. apply in_map_iff. now exists (name, l').
    + assert (D : k <> name) by (intros ->; apply U1; apply in_map_iff; now exists (name, l)).
      rewrite (proj2 (String.eqb_neq name k)) by congruence. destruct (K k l' (or_introl eq_refl)) as (t' & Q).
      unfold get_mark at 1. rewrite (upd_ne ts _ _ _ _ _ _ L Q) by congruence. fold (get_mark os l'). rewrite E1. cbn [bind].
      rewrite (IH _ eq_refl); auto. intros; apply K; now right.
Qed.

(** ** Shared parts *)
Lemma same_params p s ts M j i mj mi : inv p s ts M -> nth_error (vars s) j = Some (VMesh mj) -> nth_error (vars s) i = Some (VMesh mi) ->
  shares_params p j i -> hm_params mj = hm_params mi.
Proof.
  intros I Hj Hi [->|(_ & S & Nj & Ni)]; [congruence|].
  destruct (i_mesh _ _ _ _ I _ _ Hj) as (g & c & Sg & B & U & C & P & P' & _). destruct (i_mesh _ _ _ _ I _ _ Hi) as (g2 & c2 & Sg2 & B2 & U2 & C2 & P2 & P2' & _).
  assert (g = g2) by congruence. subst g2. rewrite P', P2'; auto.
Qed.
Lemma same_cells p s ts M j i mj mi : inv p s ts M -> nth_error (vars s) j = Some (VMesh mj) -> nth_error (vars s) i = Some (VMesh mi) ->
  shares_cells p j i -> hm_cells mj = hm_cells mi.
Proof.
  intros I Hj Hi [->|(_ & S & Nj & Ni)]; [congruence|].
  destruct (i_mesh _ _ _ _ I _ _ Hj) as (g & c & Sg & B & U & C & _ & _ & P & P' & _). destruct (i_mesh _ _ _ _ I _ _ Hi) as (g2 & c2 & Sg2 & B2 & U2 & C2 & _ & _ & P2 & P2' & _).
  assert (g = g2) by congruence. subst g2. rewrite P', P2'; auto.
Qed.
Lemma same_mark p s ts M name j i mj mi : inv p s ts M -> nth_error (vars s) j = Some (VMesh mj) -> nth_error (vars s) i = Some (VMesh mi) ->
  shares_mark p name j i -> dget String.eqb name (hm_marks mj) = dget String.eqb name (hm_marks mi).
Proof.
  intros I Hj Hi [->|(_ & S & Nj & Ni)]; [congruence|].
  destruct (i_mesh _ _ _ _ I _ _ Hj) as (g & c & Sg & B & U & C & _ & _ & _ & _ & _ & _ & _ & _ & Ma & _).
  destruct (i_mesh _ _ _ _ I _ _ Hi) as (g2 & c2 & Sg2 & B2 & U2 & C2 & _ & _ & _ & _ & _ & _ & _ & _ & Ma2 & _).
  assert (c = c2) by congruence. subst c2. rewrite Ma, Ma2; auto.
Qed.
Lemma seen_inv s i fm : seen s i = Ok fm -> exists m, nth_error (vars s) i = Some (VMesh m) /\ mesh_now (objs s) m = Ok fm.
Proof. intros E. unfold seen in E. osplit. apply find_mesh_nth in E0. eauto. Qed.
Lemma seen_now s i m : nth_error (vars s) i = Some (VMesh m) -> seen s i = mesh_now (objs s) m.
Proof. intros E. unfold seen, find_mesh. now rewrite E. Qed.

Lemma step_update p s ts M j q s' i fm : inv p s ts M -> exec s (KUpdate j q) = Ok s' -> shares_params p j i -> seen s i = Ok fm ->
  seen s' i = Ok (with_params fm (dupdate (fm_params fm) q)).
Proof.
  intros I E Sh Se. destruct (seen_inv _ _ _ Se) as (m & Hm & _). destruct (shows _ _ _ _ _ _ I Hm) as (d & c & n & bs & Hd & Hc & Hn & Hb & Se').
  rewrite Se in Se'. injection Se' as ->. assert (Hm' := exec_var _ _ _ _ _ E Hm (fun x => x)). rewrite (seen_now _ _ _ Hm').
  cbn [exec] in E. unfold on_mesh in E. osplit. match goal with x : (hmesh * list obj)%type |- _ => destruct x end. osplit. injection E1 as <- <-. injection E as <-. cbn [objs].
  apply find_mesh_nth in E0. assert (Q := same_params _ _ _ _ _ _ _ _ I E0 Hm Sh). rewrite Q in E2 |- *. rewrite Hd in E2. injection E2 as <-.
  eapply put_params; eauto using i_typed. eapply mesh_leads. eapply i_mesh; eassumption.
Qed.
Lemma step_data p s ts M j name a s' i fm : inv p s ts M -> exec s (KData j name a) = Ok s' -> shares_cells p j i -> seen s i = Ok fm ->
  exists d, fm_cells fm = FSet d /\ seen s' i = Ok (with_cells fm (add_data name a None d)).
Proof.
  intros I E Sh Se. destruct (seen_inv _ _ _ Se) as (m & Hm & _). destruct (shows _ _ _ _ _ _ I Hm) as (d & c & n & bs & Hd & Hc & Hn & Hb & Se').
  rewrite Se in Se'. injection Se' as ->. assert (Hm' := exec_var _ _ _ _ _ E Hm (fun x => x)). rewrite (seen_now _ _ _ Hm').
  cbn [exec] in E. unfold on_mesh in E. osplit. match goal with x : (hmesh * list obj)%type |- _ => destruct x end. osplit. injection E1 as <- <-. injection E as <-. cbn [objs].
  apply find_mesh_nth in E0. assert (Q := same_cells _ _ _ _ _ _ _ _ I E0 Hm Sh). rewrite Q in E2 |- *. rewrite Hc in E2. injection E2 as <-.
  exists c. split; [reflexivity|]. eapply put_cells; eauto using i_typed. eapply mesh_leads. eapply i_mesh; eassumption.
Qed.
Lemma marks_keys os ms bs k : mapM (mark_at os) ms = Ok bs -> (exists l, dget String.eqb k ms = Some l) -> exists b, dget String.eqb k bs = Some b.
Proof.
  revert bs. induction ms as [|(k' & l') ms IH]; intros bs E (l & G); cbn in G; [discriminate G|]. cbn [mapM mark_at] in E. osplit. injection E as <-. injection E0 as <-. cbn [dget].
  destruct (String.eqb k k'); eauto.
Qed.
Lemma marks_get os ms bs k l : mapM (mark_at os) ms = Ok bs -> dget String.eqb k ms = Some l -> exists b, dget String.eqb k bs = Some b /\ get_mark os l = Ok b.
Proof.
  revert bs. induction ms as [|(k' & l') ms IH]; intros bs E G; cbn in G; [discriminate G|]. cbn [mapM mark_at] in E. osplit. injection E as <-. injection E0 as <-. cbn [dget].
  destruct (String.eqb k k'); [injection G as ->; eauto|]. now apply IH.
Qed.
Lemma step_mark p s ts M j name b s' i fm : inv p s ts M -> exec s (KMark j name b) = Ok s' -> shares_mark p name j i -> seen s i = Ok fm ->
  (exists b0, dget String.eqb name (me_bocos (fm_mesh fm)) = Some b0) /\
  seen s' i = Ok (with_marks fm (dset String.eqb name (renamed name b) (me_bocos (fm_mesh fm)))).
Proof.
  intros I E Sh Se. destruct (seen_inv _ _ _ Se) as (m & Hm & _). destruct (shows _ _ _ _ _ _ I Hm) as (d & c & n & bs & Hd & Hc & Hn & Hb & Se').
  rewrite Se in Se'. injection Se' as ->. assert (Hm' := exec_var _ _ _ _ _ E Hm (fun x => x)). rewrite (seen_now _ _ _ Hm').
  cbn [exec] in E. unfold on_mesh in E. osplit. match goal with x : (hmesh * list obj)%type |- _ => destruct x end. osplit. injection E1 as <- <-. injection E as <-. cbn [objs].
  apply find_mesh_nth in E0. assert (Q := same_mark _ _ _ _ _ _ _ _ _ I E0 Hm Sh).
  assert (G : dget String.eqb name (hm_marks a) = Some a1) by (unfold dget_err in E2; destruct (dget String.eqb name (hm_marks a)); [now injection E2 as ->|discriminate E2]).
  rewrite Q in G. cbn [fm_mesh me_bocos with_bocos]. destruct (marks_get _ _ _ _ _ Hb G) as (b0 & G0 & G1). rewrite E3 in G1. injection G1 as ->.
  split; [eauto|].
  assert (NM : mk_name b0 = name).
  { apply (dget_in _ String.eqb_eq) in G. destruct (ld_marks _ _ _ (mesh_leads _ _ _ _ _ (i_mesh _ _ _ _ I _ _ Hm)) _ _ G) as (t & Ht).
    destruct (typed_mark _ _ _ _ _ (i_typed _ _ _ _ I) Ht) as (b1 & _ & Q1 & Q2). congruence. }
  rewrite NM. fold (renamed name b). eapply put_mark; eauto using i_typed.
  - eapply mesh_leads. eapply i_mesh; eassumption.
  - now apply (dget_in _ String.eqb_eq).
Qed.

(** Parts of its own. *)
Lemma leads_app os os' m d c n bs : get_params os (hm_params m) = Ok d -> get_set os (hm_cells m) = Ok c -> get_set os (hm_nodes m) = Ok n -> mapM (mark_at os) (hm_marks m) = Ok bs ->
  get_params (os ++ os') (hm_params m) = Ok d /\ get_set (os ++ os') (hm_cells m) = Ok c /\ get_set (os ++ os') (hm_nodes m) = Ok n /\ mapM (mark_at (os ++ os')) (hm_marks m) = Ok bs.
Proof.
  assert (G : forall l o, nth_error os l = Some o -> nth_error (os ++ os') l = Some o) by (intros l o E; rewrite app_same; [exact E|]; apply nth_error_Some; congruence).
  intros Hd Hc Hn Hb. unfold get_params, get_set in *.
  split; [destruct (nth_error os (hm_params m)) eqn:E; [|discriminate Hd]; now rewrite (G _ _ E)|].
  split; [destruct (nth_error os (hm_cells m)) eqn:E; [|discriminate Hc]; now rewrite (G _ _ E)|].
  split; [destruct (nth_error os (hm_nodes m)) eqn:E; [|discriminate Hn]; now rewrite (G _ _ E)|].
  revert bs Hb. generalize (hm_marks m). intros ms. induction ms as [|(k & l) ms IH]; intros bs Hb; cbn [mapM mark_at] in *; [exact Hb|].
  osplit. injection Hb as <-. rewrite (IH _ eq_refl). injection E as <-. unfold get_mark in E1 |- *. destruct (nth_error os l) eqn:E; [|discriminate E1]. rewrite (G _ _ E), E1. reflexivity.
Qed.
Lemma marks_dset os ms bs k l b : mapM (mark_at os) ms = Ok bs -> get_mark os l = Ok b -> mapM (mark_at os) (dset String.eqb k l ms) = Ok (dset String.eqb k b bs).
Proof.
  intros Hb G. revert bs Hb. induction ms as [|(k' & l') ms IH]; intros bs Hb; cbn [mapM mark_at dset] in *; [injection Hb as <-; rewrite G; reflexivity|].
  osplit. injection Hb as <-. injection E as <-. cbn [dset]. destruct (String.eqb k k'); cbn [mapM mark_at].
  - rewrite G. cbn [bind]. now rewrite E0.
  - rewrite E1. cbn [bind]. now rewrite (IH _ eq_refl).
Qed.
Lemma marks_dpop os ms bs k : mapM (mark_at os) ms = Ok bs -> mapM (mark_at os) (dpop String.eqb k ms) = Ok (dpop String.eqb k bs).
Proof.
  revert bs. induction ms as [|(k' & l') ms IH]; intros bs Hb; cbn [mapM mark_at dpop] in *; [injection Hb as <-; reflexivity|].
  osplit. injection Hb as <-. injection E as <-. cbn [dpop]. destruct (String.eqb k k'); [exact E0|]. cbn [mapM mark_at]. rewrite E1. cbn [bind]. now rewrite (IH _ eq_refl).
Qed.
Lemma marks_mem os ms bs k : mapM (mark_at os) ms = Ok bs -> dmem String.eqb k ms = dmem String.eqb k bs.
Proof.
  unfold dmem. revert bs. induction ms as [|(k' & l') ms IH]; intros bs Hb; cbn [mapM mark_at] in *; [injection Hb as <-; reflexivity|].
  osplit. injection Hb as <-. injection E as <-. cbn [dget]. destruct (String.eqb k k'); [reflexivity|]. now apply IH.
Qed.

Ltac mesh_case I E Se :=
  let m := fresh "m" in let Hm := fresh "Hm" in
  destruct (seen_inv _ _ _ Se) as (m & Hm & _); destruct (shows _ _ _ _ _ _ I Hm) as (d & c & n & bs & Hd & Hc & Hn & Hb & Se');
  rewrite Se in Se'; injection Se' as ->; cbn [exec] in E; unfold on_mesh in E; rewrite (proj2 (find_mesh_nth _ _ _) Hm) in E; cbn [bind] in E.
Lemma upd_var (vs : list hval) i v w : i < List.length vs -> nth_error (upd_nat vs i v ++ [w]) i = Some v.
Proof. intros L. rewrite app_same by (rewrite upd_nat_length; exact L). now apply upd_eq. Qed.
Lemma var_lt (vs : list hval) i v : nth_error vs i = Some v -> i < List.length vs.
Proof. intros E. apply nth_error_Some. congruence. Qed.
Lemma seen_upd os vs i m w : i < List.length vs -> seen (Mem os (upd_nat vs i (VMesh m) ++ [w])) i = mesh_now os m.
Proof. intros L. apply (seen_now (Mem os (upd_nat vs i (VMesh m) ++ [w]))). now apply upd_var. Qed.
Lemma get_last (os : list obj) (o : obj) : nth_error (os ++ [o]) (List.length os) = Some o. Proof. apply nth_last. Qed.

Lemma step_params p s ts M q s' i fm : inv p s ts M -> exec s (KParams i q) = Ok s' -> seen s i = Ok fm -> seen s' i = Ok (with_params fm q).
Proof.
  intros I E Se. mesh_case I E Se. injection E as <-. rewrite (seen_upd _ _ _ _ _ (var_lt _ _ _ Hm)).
  destruct (leads_app (objs s) [OPar q] m _ _ _ _ Hd Hc Hn Hb) as (Hd' & Hc' & Hn' & Hb'). rewrite (now_eq _ _ q c n bs); cbn [hm_params hm_cells hm_nodes hm_marks]; eauto. unfold get_params. now rewrite get_last.
Qed.
Lemma step_cells p s ts M q s' i fm : inv p s ts M -> exec s (KCells i q) = Ok s' -> seen s i = Ok fm -> seen s' i = Ok (with_cells fm q).
Proof.
  intros I E Se. mesh_case I E Se. injection E as <-. rewrite (seen_upd _ _ _ _ _ (var_lt _ _ _ Hm)).
  destruct (leads_app (objs s) [OSet q] m _ _ _ _ Hd Hc Hn Hb) as (Hd' & Hc' & Hn' & Hb'). rewrite (now_eq _ _ d q n bs); cbn [hm_params hm_cells hm_nodes hm_marks]; eauto. unfold get_set. now rewrite get_last.
Qed.
Lemma step_add p s ts M b s' i fm : inv p s ts M -> exec s (KAdd i b) = Ok s' -> seen s i = Ok fm ->
  seen s' i = Ok (with_marks fm (dset String.eqb (mk_name b) b (me_bocos (fm_mesh fm)))).
Proof.
  intros I E Se. mesh_case I E Se. injection E as <-. rewrite (seen_upd _ _ _ _ _ (var_lt _ _ _ Hm)).
  destruct (leads_app (objs s) [OMk b] m _ _ _ _ Hd Hc Hn Hb) as (Hd' & Hc' & Hn' & Hb'). rewrite (now_eq _ _ d c n (dset String.eqb (mk_name b) b bs)); cbn [hm_params hm_cells hm_nodes hm_marks]; eauto.
  apply marks_dset; [exact Hb'|]. unfold get_mark. now rewrite get_last.
Qed.
Lemma step_remove p s ts M name s' i fm : inv p s ts M -> exec s (KRemove i name) = Ok s' -> seen s i = Ok fm ->
  dmem String.eqb name (me_bocos (fm_mesh fm)) = true /\ seen s' i = Ok (with_marks fm (dpop String.eqb name (me_bocos (fm_mesh fm)))).
Proof.
  intros I E Se. mesh_case I E Se. rewrite (marks_mem _ _ _ _ Hb) in E. cbn [fm_mesh me_bocos with_bocos]. destruct (dmem String.eqb name bs); [|discriminate E]. cbn [bind] in E.
  injection E as <-. split; [reflexivity|]. rewrite (seen_upd _ _ _ _ _ (var_lt _ _ _ Hm)).
  rewrite (now_eq _ _ d c n (dpop String.eqb name bs)); cbn [hm_params hm_cells hm_nodes hm_marks]; eauto using marks_dpop.
Qed.
Lemma morph_bocos g (m : mesh F) bs : morph g (with_bocos m bs) = (fst (morph g m), with_bocos (snd (morph g m)) bs).
Proof.
  unfold morph. change (nodescoord (with_bocos m bs)) with (nodescoord m). destruct (nodescoord m) as [((x & y) & z)|e]; [|reflexivity].
  destruct (g x y z) as ((x' & y') & z'). unfold set_coords_xyz. change (me_nnode (with_bocos m bs)) with (me_nnode m). repeat match goal with |- context [if ?c then _ else _] => destruct c end; reflexivity.
Qed.
Lemma step_coords p s ts M g s' i fm : inv p s ts M -> exec s (KCoords i g) = Ok s' -> seen s i = Ok fm ->
  exists m', morph g (fm_mesh fm) = (Ok tt, m') /\ seen s' i = Ok (with_mesh fm m').
Proof.
  intros I E Se. mesh_case I E Se. cbn [fm_mesh]. rewrite morph_bocos. destruct (morph g (hm_base m)) as (rr & bb) eqn:Mo. osplit. match goal with x : (hmesh * list obj)%type |- _ => destruct x end. injection E0 as <- <-. injection E as <-. destruct a0.
  cbn [fst snd]. eexists. split; [reflexivity|]. rewrite (seen_upd _ _ _ _ _ (var_lt _ _ _ Hm)).
  rewrite (now_eq _ _ d c n bs); cbn [hm_params hm_cells hm_nodes hm_marks]; eauto.
Qed.
