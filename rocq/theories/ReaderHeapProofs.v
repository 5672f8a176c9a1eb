(** * Sharing of meshes: the invariant of the memory. *)
From Verif Require Import PyFacts.
From Verif Require Export ReaderHeapSpec.
From Coq Require Import Lia.
#[local] Notation F := Z (only parsing).
Local Open Scope nat_scope.

Ltac osplit := repeat match goal with H : bind ?r _ = Ok _ |- _ => let E := fresh "E" in destruct r eqn:E; cbn [bind] in H; [|discriminate H] end.

(** ** Programs *)
Lemma nth_snoc {A} (l : list A) x i y : nth_error (l ++ [x]) i = Some y -> (i < List.length l /\ nth_error l i = Some y) \/ (i = List.length l /\ y = x).
Proof.
  intros E. destruct (Nat.lt_ge_cases i (List.length l)) as [L|L].
  - left. rewrite nth_error_app1 in E by lia. auto.
  - right. rewrite nth_error_app2 in E by lia. destruct (i - List.length l) as [|n] eqn:D; cbn in E; [injection E as <-; split; [lia|reflexivity]|].
    destruct n; discriminate E.
Qed.
Lemma nth_last {A} (l : list A) x : nth_error (l ++ [x]) (List.length l) = Some x.
Proof. rewrite nth_error_app2 by lia. now rewrite Nat.sub_diag. Qed.
Lemma source_snoc p k i : i < List.length p -> source (p ++ [k]) i = source p i.
Proof. intros L. unfold source. rewrite nth_error_app1 by lia. rewrite firstn_app. replace (i - List.length p) with 0 by lia. cbn. now rewrite app_nil_r. Qed.
Lemma batch_snoc p k i : i < List.length p -> batch (p ++ [k]) i = batch p i.
Proof. intros L. unfold batch. rewrite nth_error_app1 by lia. rewrite firstn_app. replace (i - List.length p) with 0 by lia. cbn. now rewrite app_nil_r. Qed.
Lemma source_last p k : source (p ++ [k]) (List.length p) = match k with KExport r => Some (home_of p r) | _ => None end.
Proof. unfold source. rewrite nth_last. destruct k; try reflexivity. rewrite firstn_app, Nat.sub_diag, firstn_all. cbn. now rewrite app_nil_r. Qed.
Lemma batch_last p k : batch (p ++ [k]) (List.length p) = match k with KExport r => Some (call_of p r) | _ => None end.
Proof. unfold batch. rewrite nth_last. destruct k; try reflexivity. rewrite firstn_app, Nat.sub_diag, firstn_all. cbn. now rewrite app_nil_r. Qed.
Lemma home_snoc p k r : home_of (p ++ [k]) r = (r, List.length (filter (renews r) p) + (if renews r k then 1 else 0)).
Proof. unfold home_of. rewrite filter_app, app_length. cbn. destruct (renews r k); reflexivity. Qed.
Lemma call_snoc p k r : call_of (p ++ [k]) r = (r, List.length (filter (reads r) p) + (if reads r k then 1 else 0)).
Proof. unfold call_of. rewrite filter_app, app_length. cbn. destruct (reads r k); reflexivity. Qed.
Lemma home_same p k r : renews r k = false -> home_of (p ++ [k]) r = home_of p r.
Proof. intros E. rewrite home_snoc, E, Nat.add_0_r. reflexivity. Qed.
Lemma call_same p k r : reads r k = false -> call_of (p ++ [k]) r = call_of p r.
Proof. intros E. rewrite call_snoc, E, Nat.add_0_r. reflexivity. Qed.
Lemma never_snoc what p k : never what (p ++ [k]) -> never what p.
Proof. intros N x I. apply N, in_or_app. now left. Qed.
Lemma never_last what p k : never what (p ++ [k]) -> ~ what k.
Proof. intros N. apply N, in_or_app. right. now left. Qed.

(** Homes in use. *)
Definition used (p : list cmd) (g : var * nat) : Prop := fst g < List.length p /\ snd g <= List.length (filter (renews (fst g)) p).
Definition called (p : list cmd) (g : var * nat) : Prop := fst g < List.length p /\ snd g <= List.length (filter (reads (fst g)) p).
Lemma used_snoc p k g : used p g -> used (p ++ [k]) g.
Proof. intros (L & U). split; rewrite ?filter_app, app_length; cbn; lia. Qed.
Lemma called_snoc p k g : called p g -> called (p ++ [k]) g.
Proof. intros (L & U). split; rewrite ?filter_app, app_length; cbn; lia. Qed.
Lemma used_home p r : r < List.length p -> used p (home_of p r).
Proof. intros L. split; cbn; lia. Qed.
Lemma called_call p r : r < List.length p -> called p (call_of p r).
Proof. intros L. split; cbn; lia. Qed.
Lemma new_home p r i f : ~ used p (home_of (p ++ [KRead r i f]) r).
Proof. intros (_ & U). rewrite home_snoc in U. cbn in U. rewrite Nat.eqb_refl in U. lia. Qed.
Lemma new_call p k r : reads r k = true -> ~ called p (call_of (p ++ [k]) r).
Proof. intros E (_ & U). rewrite call_snoc, E in U. cbn in U. lia. Qed.
Lemma geq_dec (g g' : var * nat) : {g = g'} + {g <> g'}.
Proof. decide equality; apply Nat.eq_dec. Qed.

(** ** Memory *)
Inductive tag : Type := From (g : var * nat) | Nodes (g : var * nat) | Mk (c : var * nat) | Own (i : var).
Inductive knd : Type := KP | KS | KM (name : string).
Definition kind_of (o : obj) : knd := match o with OPar _ => KP | OSet _ => KS | OMk b => KM (mk_name b) end.
Definition typed (ts : list (tag * knd)) (os : list obj) : Prop := Forall2 (fun o t => kind_of o = snd t) os ts.
Definition extends (ts ts' : list (tag * knd)) : Prop := forall l t, nth_error ts l = Some t -> nth_error ts' l = Some t.

Lemma typed_nth ts os l t : typed ts os -> nth_error ts l = Some t -> exists o, nth_error os l = Some o /\ kind_of o = snd t.
Proof.
  intros T. revert l. induction T as [|o t' os' ts' K T IH]; intros [|l] E; cbn in *; try discriminate E; [injection E as ->; eauto|].
  now apply IH.
Qed.
Lemma typed_par ts os l t : typed ts os -> nth_error ts l = Some (t, KP) -> exists d, nth_error os l = Some (OPar d) /\ get_params os l = Ok d.
Proof. intros T E. destruct (typed_nth _ _ _ _ T E) as (o & E' & K). destruct o as [d|d|b]; try discriminate K. exists d. split; [exact E'|]. unfold get_params. now rewrite E'. Qed.
Lemma typed_set ts os l t : typed ts os -> nth_error ts l = Some (t, KS) -> exists d, nth_error os l = Some (OSet d) /\ get_set os l = Ok d.
Proof. intros T E. destruct (typed_nth _ _ _ _ T E) as (o & E' & K). destruct o as [d|d|b]; try discriminate K. exists d. split; [exact E'|]. unfold get_set. now rewrite E'. Qed.
Lemma typed_mark ts os l t k : typed ts os -> nth_error ts l = Some (t, KM k) -> exists b, nth_error os l = Some (OMk b) /\ get_mark os l = Ok b /\ mk_name b = k.
Proof. intros T E. destruct (typed_nth _ _ _ _ T E) as (o & E' & K). destruct o as [d|d|b]; try discriminate K. exists b. injection K as <-. split; [exact E'|]. unfold get_mark. now rewrite E'. Qed.
Lemma typed_upd ts os l t o : typed ts os -> nth_error ts l = Some t -> kind_of o = snd t -> typed ts (upd_nat os l o).
Proof.
  intros T. revert l. induction T as [|o' t' os' ts' K T IH]; intros [|l] E K'; cbn in *; try discriminate E.
  - injection E as ->. now constructor.
  - constructor; [exact K|]. now apply IH.
Qed.
Lemma typed_app ts os ts2 os2 : typed ts os -> typed ts2 os2 -> typed (ts ++ ts2) (os ++ os2).
Proof. apply Forall2_app. Qed.
Lemma typed_len ts os : typed ts os -> List.length ts = List.length os.
Proof. intros T. induction T; cbn; auto. Qed.
Lemma typed_marks c bs : typed (List.map (fun b => (Mk c, KM (mk_name b))) bs) (List.map OMk bs).
Proof. induction bs; cbn; constructor; auto. Qed.
Lemma extends_refl ts : extends ts ts. Proof. now intros l t. Qed.
Lemma extends_app ts ts2 : extends ts (ts ++ ts2).
Proof. intros l t E. rewrite nth_error_app1; [exact E|]. apply nth_error_Some. congruence. Qed.

Lemma mark_locs_nth c ts n bs k l : n = List.length ts -> In (k, l) (mark_locs n bs) -> nth_error (ts ++ List.map (fun b => (Mk c, KM (mk_name b))) bs) l = Some (Mk c, KM k).
Proof.
  intros ->. unfold mark_locs. revert ts. induction bs as [|b bs IH]; intros ts I; [destruct I|]. cbn in I. destruct I as [E|I].
  - injection E as <- <-. rewrite nth_error_app2 by lia. now rewrite Nat.sub_diag.
  - cbn [List.map]. change (?a :: ?b) with ([a] ++ b). rewrite app_assoc. apply IH. rewrite app_length. cbn. now rewrite Nat.add_1_r.
Qed.

(** The dictionary of marks of a mesh. *)
Lemma in_dset {V} (d : dict string V) t x t' y : NoDup (dkeys d) -> In (t', y) (dset String.eqb t x d) -> (t' = t /\ y = x) \/ (t' <> t /\ In (t', y) d).
Proof.
  intros N I. apply (in_dget _ String.eqb_eq) in I; [|now apply (dset_NoDup _ String.eqb_eq)].
  destruct (String.eqb_spec t' t) as [->|D].
  - rewrite (dget_dset_eq _ String.eqb_eq) in I. left. split; congruence.
  - rewrite (dget_dset_neq _ String.eqb_eq) in I by exact D. right. split; [exact D|]. now apply (dget_in _ String.eqb_eq).
Qed.
Lemma as_bocos_inv ms : NoDup (dkeys (as_bocos ms)) /\ forall k l, In (k, l) (as_bocos ms) -> In (k, l) ms.
Proof.
  unfold as_bocos. enough (G : forall d : dict string loc, NoDup (dkeys d) -> NoDup (dkeys (fold_left (fun d '(k, l) => dset String.eqb k l d) ms d)) /\
    forall k l, In (k, l) (fold_left (fun d '(k, l) => dset String.eqb k l d) ms d) -> In (k, l) d \/ In (k, l) ms).
  { destruct (G [] (NoDup_nil _)) as (N & I). split; [exact N|]. intros k l X. destruct (I k l X) as [[]|Y]. exact Y. }
  induction ms as [|(k & l) ms IH]; intros d N; cbn [fold_left]; [split; [exact N|auto]|].
  destruct (IH (dset String.eqb k l d)) as (N' & I'); [now apply (dset_NoDup _ String.eqb_eq)|]. split; [exact N'|]. intros k' l' X.
  destruct (I' _ _ X) as [Y|Y]; [|right; now right]. destruct (in_dset _ _ _ _ _ N Y) as [(-> & ->)|(_ & Z0)]; [right; now left|now left].
Qed.

Lemma pop_in {V} k (d : dict string V) e : In e (dpop String.eqb k d) -> In e d.
Proof. induction d as [|(k' & v) d IH]; cbn; [auto|]. destruct (String.eqb k k'); cbn; tauto. Qed.
Lemma pop_NoDup {V} k (d : dict string V) : NoDup (dkeys d) -> NoDup (dkeys (dpop String.eqb k d)).
Proof.
  unfold dkeys. induction d as [|(k' & v) d IH]; cbn; intros N; [constructor|]. inversion N as [|? ? N1 N2]; subst. destruct (String.eqb k k'); [exact N2|].
  cbn. constructor; [|auto]. intros I. apply N1. apply in_map_iff in I. destruct I as (e & E & I). apply in_map_iff. exists e. split; [exact E|]. eapply pop_in. exact I.
Qed.

(** ** The invariant *)
Definition once (what : cmd -> Prop) (p : list cmd) : Prop := exists k, In k p /\ what k.
Definition owns (i : var) (k : cmd) : Prop := own_params i k \/ own_cells i k \/ exists name, own_mark i name k.
Lemma once_snoc what p k : once what (p ++ [k]) -> once what p \/ what k.
Proof. intros (x & I & W). apply in_app_or in I. destruct I as [I|[->|[]]]; [left; now exists x|now right]. Qed.
Record map : Type := Map { home_at : var * nat -> loc * loc * loc; marks_at : var * nat -> list (string * loc) }.
Definition home_ok (ts : list (tag * knd)) (M : map) (g c : var * nat) (h : home) : Prop :=
  home_at M g = (ho_params h, ho_cells h, ho_nodes h) /\ marks_at M c = ho_marks h /\
  nth_error ts (ho_params h) = Some (From g, KP) /\ nth_error ts (ho_cells h) = Some (From g, KS) /\ nth_error ts (ho_nodes h) = Some (Nodes g, KS) /\
  forall k l, In (k, l) (ho_marks h) -> nth_error ts l = Some (Mk c, KM k).
Definition reader_ok ts M (p : list cmd) (r : var) (x : reader) : Prop :=
  match x with
  | R23 None => True
  | R23 (Some (_, h)) | RV4 _ _ _ h => home_ok ts M (home_of p r) (call_of p r) h
  end.
Definition mesh_part (ts : list (tag * knd)) M (p : list cmd) (i : var) (m : hmesh) (o1 o2 : Prop) (o3 : string -> Prop) : Prop :=
  exists g c, source p i = Some g /\ batch p i = Some c /\ used p g /\ called p c /\
    (nth_error ts (hm_params m) = Some (From g, KP) \/ nth_error ts (hm_params m) = Some (Own i, KP)) /\
    (never (own_params i) p -> hm_params m = fst (fst (home_at M g))) /\
    (nth_error ts (hm_cells m) = Some (From g, KS) \/ nth_error ts (hm_cells m) = Some (Own i, KS)) /\
    (never (own_cells i) p -> hm_cells m = snd (fst (home_at M g))) /\
    nth_error ts (hm_nodes m) = Some (Nodes g, KS) /\ hm_nodes m = snd (home_at M g) /\
    NoDup (dkeys (hm_marks m)) /\
    (forall k l, In (k, l) (hm_marks m) -> nth_error ts l = Some (Mk c, KM k) \/ nth_error ts l = Some (Own i, KM k)) /\
    (forall name, never (own_mark i name) p -> dget String.eqb name (hm_marks m) = dget String.eqb name (as_bocos (marks_at M c))) /\
    ((forall name, never (own_mark i name) p) -> hm_marks m = as_bocos (marks_at M c)) /\
    (o1 -> nth_error ts (hm_params m) = Some (Own i, KP)) /\
    (o2 -> nth_error ts (hm_cells m) = Some (Own i, KS)) /\
    (forall k l, In (k, l) (hm_marks m) -> o3 k -> nth_error ts l = Some (Own i, KM k)).
Definition mesh_ok ts M (p : list cmd) (i : var) (m : hmesh) : Prop :=
  mesh_part ts M p i m (once (own_params i) p) (once (own_cells i) p) (fun k => once (own_mark i k) p).
Record inv (p : list cmd) (s : mem) (ts : list (tag * knd)) (M : map) : Prop := Inv {
  i_len : List.length (vars s) = List.length p;
  i_typed : typed ts (objs s);
  i_reader : forall r x, nth_error (vars s) r = Some (VReader x) -> reader_ok ts M p r x;
  i_mesh : forall i m, nth_error (vars s) i = Some (VMesh m) -> mesh_ok ts M p i m;
  i_source : forall i, source p i <> None -> exists m, nth_error (vars s) i = Some (VMesh m);
  i_owns : forall k i, In k p -> owns i k -> i < List.length p }.

(** What another command leaves. *)
Definition grows (p : list cmd) (M M' : map) : Prop :=
  (forall g, used p g -> home_at M' g = home_at M g) /\ (forall c, called p c -> marks_at M' c = marks_at M c).
Lemma grows_refl p M : grows p M M. Proof. split; auto. Qed.

Lemma mesh_left ts ts' M M' p k i m : mesh_ok ts M p i m -> i < List.length p -> extends ts ts' -> grows p M M' ->
  mesh_part ts' M' (p ++ [k]) i m (once (own_params i) p) (once (own_cells i) p) (fun k => once (own_mark i k) p).
Proof.
  intros (g & c & S & B & U & C & P & P' & D & D' & N & N' & K & Ma & Ma' & Mb & O1 & O2 & O3) L X (GH & GM). exists g, c.
  rewrite source_snoc, batch_snoc by exact L. rewrite (GH g U), (GM c C).
  split; [exact S|]. split; [exact B|]. split; [now apply used_snoc|]. split; [now apply called_snoc|].
  split; [destruct P as [P|P]; [left|right]; now apply X|]. split; [intros Y; apply P'; eapply never_snoc; exact Y|].
  split; [destruct D as [D|D]; [left|right]; now apply X|]. split; [intros Y; apply D'; eapply never_snoc; exact Y|].
  split; [now apply X|]. split; [exact N'|]. split; [exact K|].
  split; [intros k' l I; destruct (Ma k' l I) as [Q|Q]; [left|right]; now apply X|].
  split; [intros name Y; apply Ma'; eapply never_snoc; exact Y|]. split; [intros Y; apply Mb; intros name; eapply never_snoc; apply Y|].
  split; [intros Y; now apply X, O1|]. split; [intros Y; now apply X, O2|]. intros k' l I Y. now apply X, O3.
Qed.
Lemma part_ok ts M p i m k (o1 o2 : Prop) (o3 : string -> Prop) :
  mesh_part ts M (p ++ [k]) i m o1 o2 o3 -> (once (own_params i) (p ++ [k]) -> o1) -> (once (own_cells i) (p ++ [k]) -> o2) -> (forall n, once (own_mark i n) (p ++ [k]) -> o3 n) ->
  mesh_ok ts M (p ++ [k]) i m.
Proof.
  intros (g & c & S & B & U & C & P & P' & D & D' & N & N' & K & Ma & Ma' & Mb & O1 & O2 & O3) H1 H2 H3. exists g, c. repeat (split; [assumption|]).
  split; [auto|]. split; [auto|]. eauto.
Qed.
Lemma mesh_kept ts ts' M M' p k i m : mesh_ok ts M p i m -> i < List.length p -> extends ts ts' -> grows p M M' -> ~ owns i k -> mesh_ok ts' M' (p ++ [k]) i m.
Proof.
  intros Hm L X G W. eapply part_ok; [eapply mesh_left; eassumption| | |].
  - intros Y; apply once_snoc in Y; destruct Y as [Y|Y]; [exact Y|exfalso; apply W; now left].
  - intros Y; apply once_snoc in Y; destruct Y as [Y|Y]; [exact Y|exfalso; apply W; right; now left].
  - intros n Y. apply once_snoc in Y. destruct Y as [Y|Y]; [exact Y|exfalso; apply W; right; right; eauto].
Qed.
Lemma home_kept ts ts' M M' p k r h : home_ok ts M (home_of p r) (call_of p r) h -> reads r k = false -> r < List.length p -> extends ts ts' -> grows p M M' ->
  home_ok ts' M' (home_of (p ++ [k]) r) (call_of (p ++ [k]) r) h.
Proof.
  intros (A & B & C & D & E & G) R L X (GH & GM).
  assert (R' : renews r k = false) by (destruct k; cbn in *; congruence || exact R).
  rewrite home_same, call_same by assumption. unfold home_ok. rewrite (GH _ (used_home p r L)), (GM _ (called_call p r L)).
  split; [exact A|]. split; [exact B|]. split; [now apply X|]. split; [now apply X|]. split; [now apply X|]. intros k' l I. apply X, G, I.
Qed.
Lemma reader_kept ts ts' M M' p k r x : reader_ok ts M p r x -> reads r k = false -> r < List.length p -> extends ts ts' -> grows p M M' -> reader_ok ts' M' (p ++ [k]) r x.
Proof. destruct x as [[(rs & h)|]|named st sim h]; cbn [reader_ok]; auto; intros H R L X G; eapply home_kept; eauto. Qed.

(** A new variable that is neither a mesh nor a reader that knows its home; the objects keep their types. *)
Lemma source_lt p i : source p i <> None -> i < List.length p.
Proof. unfold source. intros H. apply nth_error_Some. destruct (nth_error p i); congruence. Qed.

Lemma inv_step p s ts M k os' vs' ts' M' :
  inv p s ts M -> typed ts' os' -> extends ts ts' -> grows p M M' -> List.length vs' = S (List.length p) ->
  (forall i v, nth_error vs' i = Some v -> i < List.length p ->
     (nth_error (vars s) i = Some v /\ (forall x, v = VReader x -> reads i k = false) /\ forall m, v = VMesh m -> ~ owns i k) \/
     (exists x, v = VReader x /\ reader_ok ts' M' (p ++ [k]) i x) \/ (exists m, v = VMesh m /\ mesh_ok ts' M' (p ++ [k]) i m)) ->
  (forall x, nth_error vs' (List.length p) = Some (VReader x) -> reader_ok ts' M' (p ++ [k]) (List.length p) x) ->
  (forall m, nth_error vs' (List.length p) = Some (VMesh m) -> mesh_ok ts' M' (p ++ [k]) (List.length p) m) ->
  (forall i m, nth_error (vars s) i = Some (VMesh m) -> exists m', nth_error vs' i = Some (VMesh m')) ->
  (forall r, k = KExport r -> exists m, nth_error vs' (List.length p) = Some (VMesh m)) ->
  (forall i, owns i k -> i < List.length p) ->
  inv (p ++ [k]) (Mem os' vs') ts' M'.
Proof.
  intros [IL IT IR IM IS IO] T X G L V NR NM KM' KE W. split; cbn [objs vars].
  - rewrite app_length. cbn. lia.
  - exact T.
  - intros r x E. destruct (Nat.lt_trichotomy r (List.length p)) as [Lt|[->|Gt]].
    + destruct (V r _ E Lt) as [(E' & R & R')|[(x' & Q & R)|(m & Q & R)]]; [|injection Q as <-; exact R|discriminate Q].
      eapply reader_kept; eauto.
    + now apply NR.
    + assert (r < List.length vs') by (apply nth_error_Some; congruence). lia.
  - intros i m E. destruct (Nat.lt_trichotomy i (List.length p)) as [Lt|[->|Gt]].
    + destruct (V i _ E Lt) as [(E' & R & R')|[(x' & Q & R)|(m' & Q & R)]]; [|discriminate Q|injection Q as <-; exact R].
      eapply mesh_kept; eauto.
    + now apply NM.
    + assert (i < List.length vs') by (apply nth_error_Some; congruence). lia.
  - intros i S. assert (Li := source_lt _ _ S). rewrite app_length in Li. cbn in Li.
    destruct (Nat.eq_dec i (List.length p)) as [->|D].
    + rewrite source_last in S. destruct k; try (now elim S). eapply KE. reflexivity.
    + rewrite source_snoc in S by lia. destruct (IS i S) as (m & E). eapply KM'. exact E.
  - intros k' i I O. rewrite app_length. apply in_app_or in I. destruct I as [I|[->|[]]]; [specialize (IO _ _ I O)|specialize (W _ O)]; lia.
Qed.

(** Changing one variable. *)
Lemma upd_snoc_nth {A} (l : list A) r (v w x : A) i : nth_error (upd_nat l r v ++ [w]) i = Some x -> i < List.length l -> (i = r /\ x = v) \/ (i <> r /\ nth_error l i = Some x).
Proof.
  intros E L. rewrite nth_error_app1 in E by (rewrite upd_nat_length; exact L). rewrite nth_error_upd_nat in E.
  destruct (Nat.eqb_spec r i) as [->|D]; [left|right; auto].
  split; [reflexivity|]. destruct (Nat.ltb_spec i (List.length l)); [congruence|lia].
Qed.
Lemma upd_snoc_last {A} (l : list A) r (v w : A) : nth_error (upd_nat l r v ++ [w]) (List.length l) = Some w.
Proof. rewrite <- (upd_nat_length l r v). apply nth_last. Qed.

Lemma find_mesh_nth s i m : find_mesh s i = Ok m <-> nth_error (vars s) i = Some (VMesh m).
Proof. unfold find_mesh. destruct (nth_error (vars s) i) as [[| |m']|]; split; intros H; try discriminate H; injection H as ->; reflexivity. Qed.
Lemma find_reader_nth s i x : find_reader s i = Ok x <-> nth_error (vars s) i = Some (VReader x).
Proof. unfold find_reader. destruct (nth_error (vars s) i) as [[|x'|]|]; split; intros H; try discriminate H; injection H as ->; reflexivity. Qed.

Lemma inv_on_mesh p s ts M k i m m' os' ts' :
  inv p s ts M -> find_mesh s i = Ok m -> typed ts' os' -> extends ts ts' -> (forall r, reads r k = false) -> (forall r, k <> KExport r) -> (forall j, j <> i -> ~ owns j k) ->
  mesh_ok ts' M (p ++ [k]) i m' -> inv (p ++ [k]) (Mem os' (upd_nat (vars s) i (VMesh m') ++ [VNone])) ts' M.
Proof.
  intros I Fm T X R E W Ok'. apply find_mesh_nth in Fm. assert (Lv := i_len _ _ _ _ I).
  apply (inv_step p s ts M); auto using grows_refl.
  - rewrite app_length, upd_nat_length. cbn. lia.
  - intros j v Hv L. rewrite <- Lv in L. destruct (upd_snoc_nth _ _ _ _ _ _ Hv L) as [(-> & ->)|(D & Hv')]; [right; right; eauto|left]. split; [exact Hv'|]. split; [intros; apply R|intros; now apply W].
  - intros x. rewrite <- Lv, upd_snoc_last. discriminate.
  - intros x. rewrite <- Lv, upd_snoc_last. discriminate.
  - intros j mj Hj. assert (Lj : j < List.length (vars s)) by (apply nth_error_Some; congruence).
    rewrite nth_error_app1 by (rewrite upd_nat_length; exact Lj). rewrite nth_error_upd_nat. destruct (Nat.eqb_spec i j) as [->|D]; [|eauto].
    destruct (Nat.ltb_spec j (List.length (vars s))); [eauto|lia].
  - intros r Q. now elim (E r).
  - intros j O. destruct (Nat.eq_dec j i) as [->|D]; [|now elim (W j D)]. rewrite <- Lv. apply nth_error_Some. congruence.
Qed.

Lemma mesh_lt p s ts M i m : inv p s ts M -> nth_error (vars s) i = Some (VMesh m) -> i < List.length p.
Proof. intros I E. rewrite <- (i_len _ _ _ _ I). apply nth_error_Some. congruence. Qed.

(** An object changed in place. *)
Lemma inv_in_place p s ts M k i m l o t :
  inv p s ts M -> find_mesh s i = Ok m -> nth_error ts l = Some t -> kind_of o = snd t -> (forall r, reads r k = false) -> (forall r, k <> KExport r) -> (forall j, ~ owns j k) ->
  inv (p ++ [k]) (Mem (upd_nat (objs s) l o) (upd_nat (vars s) i (VMesh m) ++ [VNone])) ts M.
Proof.
  intros I Fm E K R X W. assert (Fm' := Fm). apply find_mesh_nth in Fm'. eapply inv_on_mesh; eauto using extends_refl.
  - eapply typed_upd; eauto using i_typed.
  - eapply mesh_kept; eauto using extends_refl, grows_refl, mesh_lt. exact (i_mesh _ _ _ _ I _ _ Fm').
Qed.

Ltac no_owns := let Q := fresh in intros [(? & Q)|[(? & Q)|(? & [(? & Q & _)|Q])]]; first [discriminate Q | injection Q; congruence].
Ltac once_other := let Y := fresh in intros Y; apply once_snoc in Y; destruct Y as [Y|Y]; [exact Y|exfalso]; first [destruct Y as [(? & Y & _)|Y]; discriminate Y | destruct Y as (? & Y); discriminate Y].
Lemma exec_inv p s ts M k s' : inv p s ts M -> exec s k = Ok s' -> exists ts' M', inv (p ++ [k]) s' ts' M'.
Proof.
  intros I E. assert (Lv := i_len _ _ _ _ I). assert (T := i_typed _ _ _ _ I). destruct k; cbn [exec] in E.
  - (* KReader *) injection E as <-. exists ts, M. apply (inv_step p s ts M); auto using extends_refl, grows_refl.
    + rewrite app_length. cbn. lia.
    + intros i v Hv L. left. rewrite nth_error_app1 in Hv by lia. split; [exact Hv|]. split; [now intros x ->|intros; no_owns].
    + intros x. rewrite <- Lv, nth_last. intros Q. injection Q as <-. exact Logic.I.
    + intros m. rewrite <- Lv, nth_last. discriminate.
    + intros i m Hi. exists m. rewrite nth_error_app1; [exact Hi|]. apply nth_error_Some. congruence.
    + discriminate.
    + intros j O. exfalso. revert O. no_owns.
  - (* KReader4 *) osplit. injection E as <-.
    set (g := home_of (p ++ [KReader4 named]) (List.length p)). set (c := call_of (p ++ [KReader4 named]) (List.length p)).
    set (n := List.length (objs s)). set (h := Home n (S n) (S (S n)) []).
    exists (ts ++ [(From g, KP); (From g, KS); (Nodes g, KS)]),
      (Map (fun x => if geq_dec x g then (n, S n, S (S n)) else home_at M x) (fun x => if geq_dec x c then [] else marks_at M x)).
    assert (Ln : List.length ts = n) by (apply typed_len; exact T).
    apply (inv_step p s ts M); auto using extends_app.
    + apply typed_app; [exact T|]. repeat constructor.
    + split; intros y U; cbn; destruct (geq_dec y _) as [->|D]; try reflexivity; destruct U as (U & _); cbn in U; lia.
    + rewrite app_length. cbn. lia.
    + intros i v Hv L. left. rewrite nth_error_app1 in Hv by lia. split; [exact Hv|]. split; [now intros x ->|intros; no_owns].
    + intros x. rewrite <- Lv at 1. rewrite nth_last. intros Q. injection Q as <-. cbn [reader_ok]. fold g c. unfold home_ok, h. cbn [ho_params ho_cells ho_nodes ho_marks home_at marks_at].
      destruct (geq_dec g g) as [_|D]; [|now elim D]. destruct (geq_dec c c) as [_|D]; [|now elim D].
      split; [reflexivity|]. split; [reflexivity|]. rewrite !nth_error_app2 by lia. rewrite Ln.
      replace (n - n) with 0 by lia. replace (S n - n) with 1 by lia. replace (S (S n) - n) with 2 by lia.
      split; [reflexivity|]. split; [reflexivity|]. split; [reflexivity|]. intros k l [].
    + intros m. rewrite <- Lv at 1. rewrite nth_last. discriminate.
    + intros i m Hi. exists m. rewrite nth_error_app1; [exact Hi|]. apply nth_error_Some. congruence.
    + discriminate.
    + intros j O. exfalso. revert O. no_owns.
  - (* KRead *) osplit. destruct a as [st|]; [|discriminate E]. osplit. injection E as <-. rename a into rs, E0 into Fr. apply find_reader_nth in Fr.
    assert (Lr : r < List.length p) by (rewrite <- Lv; apply nth_error_Some; congruence).
    set (k := KRead r integrity f). set (g := home_of (p ++ [k]) r). set (c := call_of (p ++ [k]) r).
    set (n := List.length (objs s)). set (ml := mark_locs (S (S (S n))) (r_bocos rs)).
    exists ((ts ++ [(From g, KP); (From g, KS); (Nodes g, KS)]) ++ List.map (fun b => (Mk c, KM (mk_name b))) (r_bocos rs)),
      (Map (fun x => if geq_dec x g then (n, S n, S (S n)) else home_at M x) (fun x => if geq_dec x c then ml else marks_at M x)).
    assert (Ln : List.length ts = n) by (apply typed_len; exact T).
    apply (inv_step p s ts M); auto.
    + rewrite <- app_assoc. apply typed_app; [exact T|]. do 3 (constructor; [reflexivity|]). apply typed_marks.
    + intros l t Hl. now apply extends_app, extends_app.
    + split; intros y U; cbn [home_at marks_at]; destruct (geq_dec y _) as [->|D]; try reflexivity.
      * now apply new_home in U.
      * apply new_call in U; [destruct U|]. cbn. apply Nat.eqb_refl.
    + rewrite app_length, upd_nat_length. cbn. lia.
    + intros i v Hv L. rewrite <- Lv in L. destruct (upd_snoc_nth _ _ _ _ _ _ Hv L) as [(-> & ->)|(D & Hv')].
      * right. left. eexists. split; [reflexivity|]. cbn [reader_ok]. fold g c. unfold home_ok. cbn [ho_params ho_cells ho_nodes ho_marks home_at marks_at].
        destruct (geq_dec g g) as [_|D]; [|now elim D]. destruct (geq_dec c c) as [_|D]; [|now elim D].
        split; [reflexivity|]. split; [reflexivity|].
        assert (Lt : List.length (ts ++ [(From g, KP); (From g, KS); (Nodes g, KS)]) = S (S (S n))) by (rewrite app_length; cbn; lia).
        rewrite !(nth_error_app1 (ts ++ _)) by lia. rewrite !nth_error_app2 by lia. rewrite Ln.
        replace (n - n) with 0 by lia. replace (S n - n) with 1 by lia. replace (S (S n) - n) with 2 by lia.
        split; [reflexivity|]. split; [reflexivity|]. split; [reflexivity|]. intros k' l Hl. apply (mark_locs_nth _ _ (S (S (S n)))); [now rewrite Lt|exact Hl].
      * left. split; [exact Hv'|]. split; [|intros; no_owns]. intros x ->. cbn. apply Nat.eqb_neq. congruence.
    + intros x. rewrite <- Lv at 1. rewrite upd_snoc_last. discriminate.
    + intros x. rewrite <- Lv at 1. rewrite upd_snoc_last. discriminate.
    + intros i m Hi. exists m. assert (Li : i < List.length (vars s)) by (apply nth_error_Some; congruence).
      rewrite nth_error_app1 by (rewrite upd_nat_length; exact Li). rewrite nth_error_upd_nat. destruct (Nat.eqb_spec r i) as [->|D]; [congruence|exact Hi].
    + discriminate.
    + intros j O. exfalso. revert O. no_owns.
  - (* KRead4 *) osplit. destruct a as [|named st sim h]; [discriminate E|]. osplit. destruct a3 as (c' & sim'). injection E as <-. rename a into rs, a0 into d, a1 into d', a2 into cs.
    apply find_reader_nth in E0. assert (HO := i_reader _ _ _ _ I _ _ E0). cbn [reader_ok] in HO.
    assert (Lr : r < List.length p) by (rewrite <- Lv; apply nth_error_Some; congruence).
    set (k := KRead4 r f sol) in *. set (c := call_of (p ++ [k]) r). set (n := List.length (objs s)).
    set (ml := mark_locs n (r4_bocos rs)).
    exists (ts ++ List.map (fun b => (Mk c, KM (mk_name b))) (r4_bocos rs)), (Map (home_at M) (fun x => if geq_dec x c then ml else marks_at M x)).
    assert (Ln : List.length ts = n) by (apply typed_len; exact T).
    destruct HO as (HA & HB & HP & HC & HN & HK).
    apply (inv_step p s ts M); auto using extends_app.
    + apply typed_app; [|apply typed_marks]. eapply typed_upd; [eapply typed_upd; [exact T|exact HP|reflexivity]|exact HC|reflexivity].
    + split; intros y U; cbn [home_at marks_at]; [reflexivity|]. destruct (geq_dec y _) as [->|D]; try reflexivity.
      apply new_call in U; [destruct U|]. cbn. apply Nat.eqb_refl.
    + rewrite app_length, upd_nat_length. cbn. lia.
    + intros i v Hv L. rewrite <- Lv in L. destruct (upd_snoc_nth _ _ _ _ _ _ Hv L) as [(-> & ->)|(D & Hv')].
      * right. left. eexists. split; [reflexivity|]. cbn [reader_ok]. fold c. unfold home_ok. cbn [ho_params ho_cells ho_nodes ho_marks home_at marks_at].
        destruct (geq_dec c c) as [_|D]; [|now elim D]. rewrite home_same by reflexivity. split; [exact HA|]. split; [reflexivity|].
        split; [now apply extends_app|]. split; [now apply extends_app|]. split; [now apply extends_app|]. intros k' l Hl.
        apply (mark_locs_nth _ _ n); [now rewrite Ln|exact Hl].
      * left. split; [exact Hv'|]. split; [|intros; no_owns]. intros x ->. cbn. apply Nat.eqb_neq. congruence.
    + intros x. rewrite <- Lv at 1. rewrite upd_snoc_last. discriminate.
    + intros x. rewrite <- Lv at 1. rewrite upd_snoc_last. discriminate.
    + intros i m Hi. exists m. assert (Li : i < List.length (vars s)) by (apply nth_error_Some; congruence).
      rewrite nth_error_app1 by (rewrite upd_nat_length; exact Li). rewrite nth_error_upd_nat. destruct (Nat.eqb_spec r i) as [->|D]; [congruence|exact Hi].
    + discriminate.
    + intros j O. exfalso. revert O. no_owns.
  - (* KExport *) osplit. apply find_reader_nth in E0. assert (HO := i_reader _ _ _ _ I _ _ E0).
    assert (Lr : r < List.length p) by (rewrite <- Lv; apply nth_error_Some; congruence).
    assert (Q : exists fm sim h, export_as s fm sim h = Ok s' /\ home_ok ts M (home_of p r) (call_of p r) h).
    { destruct a as [[(rs & h)|]|named [rs|] sim h]; try discriminate E; osplit; eauto. }
    clear E HO. destruct Q as (fm & sim & h & E & HO). unfold export_as in E. osplit. injection E as <-.
    destruct HO as (HA & HB & HP & HC & HN & HK).
    exists ts, M. apply (inv_step p s ts M); auto using extends_refl, grows_refl.
    + eapply typed_upd; [exact T|exact HP|reflexivity].
    + rewrite app_length. cbn. lia.
    + intros i v Hv L. left. rewrite nth_error_app1 in Hv by lia. split; [exact Hv|]. split; [now intros x ->|intros; no_owns].
    + intros x. rewrite <- Lv at 1. rewrite nth_last. discriminate.
    + intros m. rewrite <- Lv at 1. rewrite nth_last. intros Q. injection Q as <-. exists (home_of p r), (call_of p r). cbn [hm_params hm_cells hm_nodes hm_marks].
      rewrite source_last, batch_last, HA, HB. cbn [fst snd].
      destruct (as_bocos_inv (ho_marks h)) as (N & In').
      assert (NO : forall what : cmd -> Prop, (forall k, what k -> owns (List.length p) k) -> ~ once what (p ++ [KExport r])).
      { intros what W Y. apply once_snoc in Y. destruct Y as [(k & Ik & Y)|Y]; [specialize (i_owns _ _ _ _ I _ _ Ik (W _ Y)); lia|]. apply W in Y. revert Y. no_owns. }
      split; [reflexivity|]. split; [reflexivity|]. split; [apply used_snoc, used_home; exact Lr|]. split; [apply called_snoc, called_call; exact Lr|].
      split; [auto|]. split; [reflexivity|]. split; [auto|]. split; [reflexivity|]. split; [auto|]. split; [reflexivity|]. split; [exact N|]. split; [auto|]. split; [reflexivity|]. split; [reflexivity|].
      split; [intros Y; exfalso; revert Y; apply NO; intros; now left|]. split; [intros Y; exfalso; revert Y; apply NO; intros; right; now left|].
      intros k l _ Y. exfalso. revert Y. apply NO. intros. right. right. eauto.
    + intros i m Hi. exists m. rewrite nth_error_app1; [exact Hi|]. apply nth_error_Some. congruence.
    + intros r' _. rewrite <- Lv, nth_last. eauto.
    + intros j O. exfalso. revert O. no_owns.
  - (* KUpdate *) unfold on_mesh in E. osplit. match goal with x : (hmesh * list obj)%type |- _ => destruct x as (m' & os') end. osplit. injection E1 as <- <-. injection E as <-.
    assert (Fm := E0). apply find_mesh_nth in Fm. destruct (i_mesh _ _ _ _ I _ _ Fm) as (g & c & _ & _ & _ & _ & P & _).
    exists ts, M. destruct P as [P|P]; eapply inv_in_place; eauto; try discriminate; intros; no_owns.
  - (* KParams *) unfold on_mesh in E. osplit. injection E as <-.
    assert (Fm := E0). apply find_mesh_nth in Fm.
    exists (ts ++ [(Own i, KP)]), M. assert (Ln := typed_len _ _ T).
    eapply inv_on_mesh; eauto using extends_app; try discriminate; try (intros; no_owns).
    + apply typed_app; [exact T|]. repeat constructor.
    + destruct (mesh_left ts (ts ++ [(Own i, KP)]) M M p (KParams i p0) i a (i_mesh _ _ _ _ I _ _ Fm) (mesh_lt _ _ _ _ _ _ I Fm) (extends_app _ _) (grows_refl _ _))
        as (g & c & S & B & U & C & P & P' & D & D' & N & N' & K & Ma & Ma' & Mb & O1 & O2 & O3).
      apply (part_ok _ _ _ _ _ _ True (once (own_cells i) p) (fun k => once (own_mark i k) p)); [|auto|once_other|intros n; once_other].
      exists g, c. cbn [hm_params hm_cells hm_nodes hm_marks]. do 4 (split; [assumption|]).
      assert (Q : nth_error (ts ++ [(Own i, KP)]) (List.length (objs s)) = Some (Own i, KP)) by (rewrite <- Ln; apply nth_last).
      split; [right; exact Q|]. split; [intros Y; exfalso; apply never_last in Y; apply Y; eexists; reflexivity|]. auto 15.
  - (* KData *) unfold on_mesh in E. osplit. match goal with x : (hmesh * list obj)%type |- _ => destruct x as (m' & os') end. osplit. injection E1 as <- <-. injection E as <-.
    assert (Fm := E0). apply find_mesh_nth in Fm. destruct (i_mesh _ _ _ _ I _ _ Fm) as (g & c & _ & _ & _ & _ & _ & _ & P & _).
    exists ts, M. destruct P as [P|P]; eapply inv_in_place; eauto; try discriminate; intros; no_owns.
  - (* KCells *) unfold on_mesh in E. osplit. injection E as <-.
    assert (Fm := E0). apply find_mesh_nth in Fm.
    exists (ts ++ [(Own i, KS)]), M. assert (Ln := typed_len _ _ T).
    eapply inv_on_mesh; eauto using extends_app; try discriminate; try (intros; no_owns).
    + apply typed_app; [exact T|]. repeat constructor.
    + destruct (mesh_left ts (ts ++ [(Own i, KS)]) M M p (KCells i d) i a (i_mesh _ _ _ _ I _ _ Fm) (mesh_lt _ _ _ _ _ _ I Fm) (extends_app _ _) (grows_refl _ _))
        as (g & c & S & B & U & C & P & P' & D & D' & N & N' & K & Ma & Ma' & Mb & O1 & O2 & O3).
      apply (part_ok _ _ _ _ _ _ (once (own_params i) p) True (fun k => once (own_mark i k) p)); [|once_other|auto|intros n; once_other].
      exists g, c. cbn [hm_params hm_cells hm_nodes hm_marks]. do 6 (split; [assumption|]).
      assert (Q : nth_error (ts ++ [(Own i, KS)]) (List.length (objs s)) = Some (Own i, KS)) by (rewrite <- Ln; apply nth_last).
      split; [right; exact Q|]. split; [intros Y; exfalso; apply never_last in Y; apply Y; eexists; reflexivity|]. auto 15.
  - (* KMark *) unfold on_mesh in E. osplit. match goal with x : (hmesh * list obj)%type |- _ => destruct x as (m' & os') end. osplit. injection E1 as <- <-. injection E as <-.
    assert (Fm := E0). apply find_mesh_nth in Fm. destruct (i_mesh _ _ _ _ I _ _ Fm) as (g & c & _ & _ & _ & _ & _ & _ & _ & _ & _ & _ & _ & Ma & _).
    rename a1 into l, a2 into old.
    assert (Hl : In (name, l) (hm_marks a)).
    { unfold dget_err in E2. destruct (dget String.eqb name (hm_marks a)) eqn:G; [|discriminate E2]. injection E2 as ->. now apply (dget_in _ String.eqb_eq). }
    exists ts, M. destruct (Ma _ _ Hl) as [Q|Q]; (destruct (typed_mark _ _ _ _ _ T Q) as (b' & _ & Gb & Nb); rewrite Gb in E3; injection E3 as ->;
      eapply inv_in_place; eauto; [cbn; now rewrite Nb|discriminate|intros; no_owns]).
  - (* KAdd *) unfold on_mesh in E. osplit. injection E as <-.
    assert (Fm := E0). apply find_mesh_nth in Fm.
    exists (ts ++ [(Own i, KM (mk_name b))]), M. assert (Ln := typed_len _ _ T).
    eapply inv_on_mesh; eauto using extends_app; try discriminate; try (intros; no_owns).
    + apply typed_app; [exact T|]. repeat constructor.
    + destruct (mesh_left ts (ts ++ [(Own i, KM (mk_name b))]) M M p (KAdd i b) i a (i_mesh _ _ _ _ I _ _ Fm) (mesh_lt _ _ _ _ _ _ I Fm) (extends_app _ _) (grows_refl _ _))
        as (g & c & S & B & U & C & P & P' & D & D' & N & N' & K & Ma & Ma' & Mb & O1 & O2 & O3).
      apply (part_ok _ _ _ _ _ _ (once (own_params i) p) (once (own_cells i) p) (fun k => once (own_mark i k) p \/ k = mk_name b)); [|once_other|once_other|].
      2: { intros n Y. apply once_snoc in Y. destruct Y as [Y|[(b' & Y & <-)|Y]]; [now left|right; injection Y as ->; reflexivity|discriminate Y]. }
      exists g, c. cbn [hm_params hm_cells hm_nodes hm_marks]. do 10 (split; [assumption|]).
      assert (Q : nth_error (ts ++ [(Own i, KM (mk_name b))]) (List.length (objs s)) = Some (Own i, KM (mk_name b))) by (rewrite <- Ln; apply nth_last).
      split; [now apply (dset_NoDup String.eqb String.eqb_eq)|]. split.
      { intros k l Hl. destruct (in_dset _ _ _ _ _ K Hl) as [(-> & ->)|(_ & Hl')]; [right; exact Q|now apply Ma]. }
      split.
      * intros name Y. rewrite (dget_dset_neq _ String.eqb_eq); [now apply Ma'|]. intros ->. apply never_last in Y. apply Y. left. eauto.
      * split; [intros Y; exfalso; specialize (Y (mk_name b)); apply never_last in Y; apply Y; left; eauto|]. split; [exact O1|]. split; [exact O2|].
        intros k l Hl Y. destruct (in_dset _ _ _ _ _ K Hl) as [(-> & ->)|(D0 & Hl')]; [exact Q|]. destruct Y as [Y|Y]; [now apply O3|now elim D0].
  - (* KRemove *) unfold on_mesh in E. osplit. match goal with x : (hmesh * list obj)%type |- _ => destruct x as (m' & os') end. destruct (dmem String.eqb name (hm_marks a)) eqn:Mm; [|discriminate E1]. injection E1 as <- <-. injection E as <-.
    assert (Fm := E0). apply find_mesh_nth in Fm.
    exists ts, M. eapply inv_on_mesh; eauto using extends_refl; try discriminate; try (intros; no_owns).
    destruct (mesh_left ts ts M M p (KRemove i name) i a (i_mesh _ _ _ _ I _ _ Fm) (mesh_lt _ _ _ _ _ _ I Fm) (extends_refl _) (grows_refl _ _))
      as (g & c & S & B & U & C & P & P' & D & D' & N & N' & K & Ma & Ma' & Mb & O1 & O2 & O3).
    apply (part_ok _ _ _ _ _ _ (once (own_params i) p) (once (own_cells i) p) (fun k => once (own_mark i k) p \/ k = name)); [|once_other|once_other|].
    2: { intros n Y. apply once_snoc in Y. destruct Y as [Y|[(b' & Y & _)|Y]]; [now left|discriminate Y|right; injection Y as ->; reflexivity]. }
    exists g, c. cbn [hm_params hm_cells hm_nodes hm_marks]. do 10 (split; [assumption|]).
    split; [now apply pop_NoDup|]. split; [intros k l Hl; apply Ma; eapply pop_in; exact Hl|].
    split; [intros n Y; rewrite (dget_dpop_neq String.eqb String.eqb_eq); [now apply Ma'|]; intros ->; apply never_last in Y; apply Y; now right|].
    split; [intros Y; exfalso; specialize (Y name); apply never_last in Y; apply Y; now right|]. split; [exact O1|]. split; [exact O2|].
    intros k l Hl Y. destruct Y as [Y|Y]; [apply O3; [eapply pop_in; exact Hl|exact Y]|]. subst k. exfalso.
    apply (dpop_notin String.eqb String.eqb_eq name (hm_marks a) K). apply in_map_iff. now exists (name, l).
  - (* KCoords *) unfold on_mesh in E. osplit. match goal with x : (hmesh * list obj)%type |- _ => destruct x as (m' & os') end. destruct (morph fmorph (hm_base a)) as (rr & bb) eqn:Mo. osplit. injection E1 as <- <-. injection E as <-.
    assert (Fm := E0). apply find_mesh_nth in Fm. exists ts, M. eapply inv_on_mesh; eauto using extends_refl; try discriminate; try (intros; no_owns).
    exact (mesh_kept ts ts M M p (KCoords i fmorph) i a (i_mesh _ _ _ _ I _ _ Fm) (mesh_lt _ _ _ _ _ _ I Fm) (extends_refl _) (grows_refl _ _) ltac:(no_owns)).
Qed.
